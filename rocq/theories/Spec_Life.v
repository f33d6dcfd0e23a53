(** Vocabulary for the dynamic memory of a BmiLGAR object. *)

From Coq Require Import String Reals ZArith List Arith.
From Verif Require Import Outcome Dbl Types HeapList Life Spec_Heap Spec_Config.
Import ListNotations.

(** No wetting front is allocated. *)
Definition no_front (h : heap) : Prop := forall a n, h_cell h a <> Live n.

(** Number of allocated blocks that are not wetting fronts. *)
Definition is_live (b : block) : bool := match b with BLive => true | _ => false end.
Definition live_blocks (o : life) : nat := length (filter (fun a => is_live (ar_cell (lf_ar o) a)) (seq 0 (ar_top (lf_ar o)))).

(** Exactly [n] lines set the key [k]. *)
Definition exactly (n : nat) (k : string) (ls : list string) : Prop :=
  exists idx, NoDup idx /\ length idx = n /\ forall i, In i idx <-> exists l, nth_error ls i = Some l /\ line_sets k l.

(** The list of wetting fronts holds [l], the copy of the previous profile holds [p], the two share no node, and there are no other nodes. *)
Definition holds (o : life) (l p : list front) : Prop :=
  exists L P, heap_ok (lf_nodes o) /\ chain (lf_nodes o) (lf_head o) L /\ chain (lf_nodes o) (lf_prev o) P /\ vals L = l /\ vals P = p /\
    (forall a, In a (addrs L) -> ~ In a (addrs P)) /\
    (forall a n, h_cell (lf_nodes o) a = Live n -> In a (addrs L) \/ In a (addrs P)).

(** What an action means for the two sequences, for callers that respect its conditions. *)
Definition effect (a : action) (l p l' p' : list front) : Prop :=
  match a with
  | AEdit i f => (i < length l)%nat /\ l' = firstn i l ++ f :: skipn (S i) l /\ p' = p
  | AInsert f => l' = mkF (f_depth f) (f_theta f) (f_psi f) (f_K f) (f_layer f) (f_num f) (f_bottom f) (Fin 0)
                      :: map (fun g => set_num g (f_num g + 1)) l /\ p' = p
  | ADelete num => (exists i f, nth_error l i = Some f /\ f_num f = num /\ (forall j g, (j < i)%nat -> nth_error l j = Some g -> f_num g <> num) /\
                      l' = firstn i l ++ map (fun g => set_num g (f_num g - 1)) (skipn (S i) l)) /\ p' = p
  | ACopy => l' = l /\ p' = l
  | ARealloc => l' = l /\ p' = p
  end.

(** The effects of a sequence of actions. *)
Inductive effects : list action -> list front -> list front -> list front -> list front -> Prop :=
| eff_nil : forall l p, effects [] l p l p
| eff_cons : forall a xs l p l1 p1 l2 p2, effect a l p l1 p1 -> effects xs l1 p1 l2 p2 -> effects (a :: xs) l p l2 p2.

(** The object after the constructor, Initialize with the lines [ls] (flag [sft], initial fronts [fs]) and the actions [xs].  The step budget is large
    enough for Initialize (it is not part of the code). *)
Definition reached (ls : list string) (sft : bool) (fs : list front) (xs : list action) (o : life) : Prop :=
  exists k o0, (S (List.length fs) < k)%nat /\ l_Initialize k ls sft fs l_construct = Ok o0 /\ l_actions k xs o0 = Ok o.

(** Every pointer of the object holds an address, and the blocks behind are released. *)
Definition all_released (o : life) : Prop := forall x, exists a, lf_slot o x = At a /\ ar_cell (lf_ar o) a = BFreed.
