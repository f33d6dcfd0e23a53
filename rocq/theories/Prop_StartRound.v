(** C44 and C100 in double precision. *)

From Coq Require Import String Reals Lra ZArith List Bool Lia.
From Verif Require Import Outcome Dbl Binary64 Types Soil State Config Lib Spec_Common Spec_Config Spec_RoundMono Spec_DryStart Spec_StartRound Pf_StartRound Ex_Config Ex_Binary64 Ex_StartRound.
Import ListNotations.
Open Scope R_scope.
Open Scope list_scope.

Local Existing Instance binary64.

(** C44, binary64: no front of a first state holds a NaN; saturations are between 0 and 1, conductivities between 0 and Ksat. *)
Theorem C44_first_fronts_binary64 :
  forall files junk ls s l np, last_line "initial_psi" l ls -> assigns "initial_psi" (text np) l -> good_numeral np -> 0 <= value np -> Initialize files junk ls = Ok s ->
  (forall k sl, (1 <= k <= p_nlayers (st_p s))%Z -> soil_of (env_of s) k = Ok sl -> double_soil sl) ->
  forall f, In f (st_head s) -> exists sl, soil_of (env_of s) (f_layer f) = Ok sl /\ sane_front sl f.
Proof. exact start_sane. Qed.
Print Assumptions C44_first_fronts_binary64.

(** C100, binary64: with a larger initial head no front starts with a larger conductivity or a smaller head. *)
Theorem C100_conductivity_binary64 :
  forall files junk ls l s l' s' np np', last_line "initial_psi" l ls -> assigns "initial_psi" (text np) l -> good_numeral np -> assigns "initial_psi" (text np') l' -> good_numeral np' ->
  0 <= value np <= value np' -> Initialize files junk ls = Ok s -> Initialize files junk (ls ++ [l']) = Ok s' -> rounded_column (env_of s) ->
  (forall k sl, (1 <= k <= p_nlayers (st_p s))%Z -> soil_of (env_of s) k = Ok sl -> double_soil sl) ->
  forall i f f', nth_error (st_head s) i = Some f -> nth_error (st_head s') i = Some f' -> below (f_K f') (f_K f) /\ below (f_psi f) (f_psi f').
Proof. exact drier_K. Qed.
Print Assumptions C100_conductivity_binary64.

(** A loam of 64 cm that starts saturated, and with a head of 64 cm. *)
Example C100_conductivity_concrete : forall junk, exists s s', last_line "initial_psi" "initial_psi=0[cm]" b7_lines /\ assigns "initial_psi" (text (num "0")) "initial_psi=0[cm]" /\ good_numeral (num "0") /\
  assigns "initial_psi" (text (num "64")) b8_line /\ good_numeral (num "64") /\ 0 <= value (num "0") <= value (num "64") /\
  Initialize b6_files junk b7_lines = Ok s /\ Initialize b6_files junk (b7_lines ++ [b8_line]) = Ok s' /\ rounded_column (env_of s) /\
  (forall k sl, (1 <= k <= p_nlayers (st_p s))%Z -> soil_of (env_of s) k = Ok sl -> double_soil sl).
Proof. exact b8_case. Qed.
