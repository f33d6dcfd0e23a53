(** C100: a drier start. *)

From Coq Require Import String Ascii Reals Lra ZArith List Bool Lia.
From Verif Require Import Outcome Dbl Exact Types State Config Lib Spec_Common Spec_Config Spec_RoundMono Spec_DryStart Pf_DryStart Ex_Config Ex_Driver Ex_DryStart.
Import ListNotations.
Open Scope R_scope.
Open Scope list_scope.

(** C100, any rounding: a second line with a larger initial head leaves the column as it is; no front of the first state is wetter, and the stored water is not more. *)
Theorem C100_drier_start :
  forall (fp : Fp) files junk ls l s l' s' np np', last_line "initial_psi" l ls -> assigns "initial_psi" (text np) l -> good_numeral np ->
  assigns "initial_psi" (text np') l' -> good_numeral np' -> 0 <= value np <= value np' ->
  Initialize files junk ls = Ok s -> Initialize files junk (ls ++ [l']) = Ok s' -> rounded_column (env_of s) ->
  env_of s' = env_of s /\ Forall2 drier (st_head s) (st_head s') /\ below (mb_start (st_mb s')) (mb_start (st_mb s)).
Proof. exact @dry_start. Qed.
Print Assumptions C100_drier_start.

(** A loam of 100 cm that starts saturated, and with a head of 100 cm. *)
Example C100_concrete : forall junk, last_line "initial_psi" "initial_psi=0.0[cm]" dr_lines /\ assigns "initial_psi" (text (num "0.0")) "initial_psi=0.0[cm]" /\ good_numeral (num "0.0") /\
  assigns "initial_psi" (text (num "100.0")) ds_line /\ good_numeral (num "100.0") /\ 0 <= value (num "0.0") <= value (num "100.0") /\
  @Initialize exact dr_files junk dr_lines = Ok dr_state0 /\ (exists s', @Initialize exact dr_files junk (dr_lines ++ [ds_line]) = Ok s') /\ @rounded_column exact (env_of dr_state0).
Proof. exact ds_case. Qed.
