(** Vocabulary for statements about the standalone program. *)

From Coq Require Import String Ascii Reals ZArith List Bool.
From RecordUpdate Require Import RecordSet.
From Verif Require Import Outcome Dbl Types State Update Bmi Config Driver Spec_Common Spec_Update Spec_Profile Spec_Bmi Spec_Config.
Import ListNotations.
Import RecordSetNotations.
Open Scope string_scope.
Open Scope list_scope.

(** ** Forcing files *)

(** A file of lines, each closed by a line feed. *)
Definition lf : string := String newline "".
Fixpoint file_of (ls : list string) : string := match ls with [] => "" | l :: r => (l ++ lf ++ file_of r)%string end.
(** A line of cells with commas between them. *)
Definition csv (cs : list string) : string := String.concat "," cs.
(** Cells as they can occur: no comma, no line feed; and the last one is not empty. *)
Definition good_cells (cs : list string) : Prop := Forall (fun c => free_of "," c /\ free_of newline c) cs /\ last cs "x" <> "".

(** A complete row: time, precipitation, evapotranspiration, and perhaps more cells. *)
Record frow : Type := mkFrow { fr_time : string; fr_precip : numeral; fr_pet : numeral; fr_more : list string }.
Definition row_cells (r : frow) : list string := fr_time r :: text (fr_precip r) :: text (fr_pet r) :: fr_more r.
Definition good_row (r : frow) : Prop := good_numeral (fr_precip r) /\ good_numeral (fr_pet r) /\ good_cells (row_cells r).
(** The same, with values that do not overflow. *)
Definition fine {fp : Fp} (r : frow) : Prop := good_row r /\ finite (rnd (value (fr_precip r))) /\ finite (rnd (value (fr_pet r))).
(** The lines of a file: complete rows and empty lines. *)
Definition row_line (r : option frow) : string := match r with Some r => csv (row_cells r) | None => "" end.
Fixpoint complete_rows (rs : list (option frow)) : list frow := match rs with [] => [] | Some r :: q => r :: complete_rows q | None :: q => complete_rows q end.

(** Row [i] is the forcing of step [i]. *)
Definition forced {fp : Fp} (rs : list frow) : forcing :=
  mkForcing (map fr_time rs) (map (fun r => rnd (value (fr_precip r))) rs) (map (fun r => rnd (value (fr_pet r))) rs).

(** ** Runs *)

(** The values that the interface publishes after an Update, in the order of the columns. *)
Definition columns_of (b : bout) : list dbl :=
  [o_precip b; o_pet b; o_aet b; o_runoff b; o_giuh b; o_end b; o_Q b; o_in b; o_rech b; o_Qgw b; o_mb b].

(** Updates with the forcing of the steps, one after the other.  Each step has a time, a precipitation and a potential evapotranspiration rate, which are the
    only things written to the model; and a line of output: its time, the published values and the fronts after the Update. *)
Inductive driven {fp : Fp} {cfg : Cfg} : state -> list (string * dbl * dbl) -> list outrow -> state -> Prop :=
| dr_nil : forall s, driven s [] [] s
| dr_cons : forall s t p e s1 b ps rs s2,
    Update (s <| st_precip := p |> <| st_pet := e |>) = Ok s1 -> st_out s1 = Some b -> driven s1 ps rs s2 ->
    driven s ((t, p, e) :: ps) (mkRowOut t (map D (columns_of b)) (st_head s1) :: rs) s2.

(** Time, precipitation and evapotranspiration of the first [n] steps. *)
Definition first_steps (n : nat) (f : forcing) : list (string * dbl * dbl) := firstn n (combine (combine (fo_time f) (fo_precip f)) (fo_pet f)).

(** No Update with the forcing of the steps runs into a tie between a front and a layer boundary. *)
Fixpoint tie_free {fp : Fp} {cfg : Cfg} (s : state) (ps : list (string * dbl * dbl)) : Prop :=
  match ps with
  | [] => True
  | (_, p, e) :: r => let s0 := s <| st_precip := p |> <| st_pet := e |> in ~ update_tie s0 /\ forall s1, Update s0 = Ok s1 -> tie_free s1 r
  end.

(** Column [k] of the output, and the sum of its numbers. *)
Definition column (k : nat) (rs : list outrow) : list (option item) := map (fun r => nth_error (w_vars r) k) rs.
Definition sums_to (k : nat) (rs : list outrow) (x : R) : Prop := exists xs, column k rs = map (fun v => Some (D (Fin v))) xs /\ Rsum xs = x.

(** The end time of a configuration in seconds. *)
Definition ends_at (ls : list string) (sec : R) : Prop :=
  exists n u k, good_numeral n /\ In (u, k) (unit_seconds ++ [("[d]", 86400); ("[day]", 86400)])%R /\ last_line "endtime" ("endtime=" ++ text n ++ u)%string ls /\
    sec = (value n * k)%R.

(** The columns that are added up over the run, and where the model keeps the total (in cm; the columns are in m). *)
Definition totals : list (nat * (massbal -> dbl)) :=
  [(0%nat, mb_precip); (1%nat, mb_pet); (2%nat, mb_aet); (3%nat, mb_runoff); (4%nat, mb_giuh); (6%nat, mb_Q); (7%nat, mb_in); (8%nat, mb_rech)].
(** The storage column of the last line. *)
Definition last_storage (rs : list outrow) (x : R) : Prop := exists r0 r, rs = r0 ++ [r] /\ nth_error (w_vars r) 5 = Some (D (Fin x)).

(** The first line that sets [k] is [l]. *)
Definition first_line (k l : string) (ls : list string) : Prop := line_sets k l /\ exists a b, ls = a ++ l :: b /\ forall x, In x a -> ~ line_sets k x.
