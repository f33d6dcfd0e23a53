(** When a heap with two pointers is the picture of two lists, and when a run on the heap does what a run on the lists does. *)

From Coq Require Import Reals ZArith List.
From RecordUpdate Require Import RecordSet.
From Verif Require Import Outcome Dbl Types HeapList State Update Life HeapUpdate Spec_Heap.
Import ListNotations.
Import RecordSetNotations.

(** The live nodes of [h] are those of two separate null-terminated chains and no others: one from [head] with the data [l], one from [prev] with
    the data [lo]. *)
Definition pictures (h : heap) (head prev : ptr) (l lo : list front) : Prop :=
  exists L P,
    heap_ok h /\ seg h head L None /\ seg h prev P None
    /\ NoDup (addrs L ++ addrs P) /\ vals L = l /\ vals P = lo
    /\ (forall a n, h_cell h a = Live n -> In a (addrs L ++ addrs P)).

(** The run [hm] stops for the reason [m] stops for, or returns a result that is related to the result of [m]. *)
Definition follows {X Y : Type} (R : X -> Y -> Prop) (m : outcome X) (hm : outcome Y) : Prop :=
  match m with
  | Ok x => exists y, hm = Ok y /\ R x y
  | Stop r => hm = Stop r
  end.

(** The object with its nodes in a heap shows the state [s]: the two lists are in the heap and every other member has the same value. *)
Definition shows (o : hstate) (s : state) : Prop :=
  pictures (hs_heap o) (hs_head o) (hs_prev o) (st_head s) (st_prev s)
  /\ s = hs_rest o <| st_head := st_head s |> <| st_prev := st_prev s |>.

(** Number of allocated wetting fronts. *)
Definition live_nodes (h : heap) : nat := length (filter (fun a => match h_cell h a with Live _ => true | _ => false end) (seq 0 (h_top h))).

(** Any number of Updates that return; between two of them the client may change every member except the lists of fronts. *)
Inductive session {fp : Fp} {cfg : Cfg} : state -> state -> Prop :=
| ses_start : forall s, session s s
| ses_update : forall s s1 w s2, session s s1 -> st_head w = st_head s1 -> st_prev w = st_prev s1 -> Update w = Ok s2 -> session s s2.

(** The same on the heap: the client leaves the heap and the two pointers alone. *)
Inductive h_session {fp : Fp} {cfg : Cfg} : hstate -> hstate -> Prop :=
| hses_start : forall o, h_session o o
| hses_update : forall o o1 w o2, h_session o o1 -> hs_heap w = hs_heap o1 -> hs_head w = hs_head o1 -> hs_prev w = hs_prev o1 -> h_Update w = Ok o2 ->
    h_session o o2.

(** The object after Initialize: nodes and pointers from the model of its memory, the other members from the model of its values. *)
Definition started (o : life) (s : state) : hstate := mkHS (lf_nodes o) (lf_head o) (lf_prev o) s.
