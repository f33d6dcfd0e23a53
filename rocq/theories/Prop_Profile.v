(** C30, C31, C47: the structure of the profile and the safety of its memory accesses. *)

From Coq Require Import Reals ZArith List Bool.
From Verif Require Import Outcome Dbl Exact Types ListOps Fronts Move State Update Spec_Common Spec_List Spec_Update Spec_Profile
  Pf_SafeUpdate Pf_SafeHistory Ex_Saturated Ex_Safety Ex_TwoLayers.
Import ListNotations.

(** C30, whatever the rounding and the number of layers: the fronts keep the structure of a profile through any history of Updates and user edits, unless
    in some sub-step a front passes another one that lies exactly on a layer boundary. *)
Theorem C30_profile_structure_preserved :
  forall (fp : Fp) (cfg : Cfg) (s0 s : state), sound_state s0 -> calm s0 s ->
    profile (p_nlayers (st_p s0)) (p_cum (st_p s0)) (st_head s).
Proof. exact @calm_profile. Qed.
Print Assumptions C30_profile_structure_preserved.

Example C30_concrete : forall cfg : Cfg,
  exists s, @sound_state exact tw_start /\ p_nlayers (st_p tw_start) = 2%Z /\ @Update exact cfg tw_start = Ok s /\ @calm exact cfg tw_start s.
Proof. exact @tw_calm. Qed.

(** C30: in a column of one layer nothing can break the structure. *)
Theorem C30_one_layer_structure_preserved :
  forall (fp : Fp) (cfg : Cfg) (Q : state -> Prop) (s0 : state) (xs : list step) (s : state),
    sound_state s0 -> p_nlayers (st_p s0) = 1%Z -> history Q s0 xs s -> profile 1 (p_cum (st_p s)) (st_head s).
Proof. exact @one_layer_profile. Qed.
Print Assumptions C30_one_layer_structure_preserved.

Example C30_one_layer_concrete : @sound_state exact uf_start /\ p_nlayers (st_p uf_start) = 1%Z.
Proof. split; [exact uf_sound|reflexivity]. Qed.

(** C30: the exception is real.  A front passes another one on the boundary of layer 1 and the layers of the fronts become 1, 2, 1, 2. *)
Theorem C30_structure_preserved_by_crossing_refuted :
  exists l l', profile 2 [Fin 0; Fin 25; Fin 100] l /\ @lgar_wetting_fronts_cross_layer_boundary exact ti_env l = Ok l' /\
    map f_layer l' = [1; 2; 1; 2]%Z /\ ~ profile 2 [Fin 0; Fin 25; Fin 100] l'.
Proof. exact ti_disorder. Qed.
Print Assumptions C30_structure_preserved_by_crossing_refuted.

(** C31, whatever the rounding: an Update of a sound state dereferences no NULL, reads and writes no array out of bounds and reads no unset variable; the only
    undefined behaviour it can meet is the use of a front that has just been deleted. *)
Theorem C31_update_memory_safe :
  forall (fp : Fp) (cfg : Cfg) (s : state), sound_state s -> ready s -> ~ update_tie s -> ends memory_safe (fun _ => True) (Update s).
Proof. exact @update_safe. Qed.
Print Assumptions C31_update_memory_safe.

Example C31_concrete : forall cfg : Cfg, @sound_state exact tw_start /\ @ready exact tw_start /\ ~ @update_tie exact cfg tw_start.
Proof. exact @tw_safe. Qed.

Theorem C31_one_layer_memory_safe :
  forall (fp : Fp) (cfg : Cfg) (s : state), sound_state s -> p_nlayers (st_p s) = 1%Z -> ready s -> ends memory_safe (fun _ => True) (Update s).
Proof. exact @one_layer_safe. Qed.
Print Assumptions C31_one_layer_memory_safe.

Example C31_one_layer_concrete : @sound_state exact uf_start /\ p_nlayers (st_p uf_start) = 1%Z /\ @ready exact uf_start.
Proof. split; [exact uf_sound|split; [reflexivity|apply sf_ready]]. Qed.

(** C31: the motion of the fronts never aborts in a list deletion.  It returns a structured profile, or stops at an assertion, at the use of a deleted front,
    or in a search that does not end. *)
Theorem C31_move_never_aborts :
  forall (fp : Fp) (cfg : Cfg) (e : env) (dt volin : dbl) (wfd : Z) (old aet : dbl) (head : list front),
    sound_env e -> profile (e_nlayers e) (e_cum e) head -> deepest_rests head -> finite dt ->
    ~ move_tie e dt volin wfd old aet head head ->
    ends move_stops (fun x => profile (e_nlayers e) (e_cum e) (fst (fst x)) /\ deepest_rests (fst (fst x)))
      (lgar_move_wetting_fronts e dt volin wfd old aet head head).
Proof. exact @move_profile. Qed.
Print Assumptions C31_move_never_aborts.

(** C31: the deleted front is really used. *)
Theorem C31_no_use_after_free_refuted :
  forall cfg : Cfg, exists s, @sound_state exact s /\ @ready exact s /\ p_nlayers (st_p s) = 1%Z /\ @Update exact cfg s = Stop (UB UseAfterFree).
Proof. exact @uf_refutes. Qed.
Print Assumptions C31_no_use_after_free_refuted.

(** C31: and a tie really leads to an access out of bounds. *)
Theorem C31_no_out_of_bounds_refuted :
  forall cfg : Cfg, exists s, @sound_state exact s /\ @ready exact s /\ @Update exact cfg s = Stop (UB OutOfBounds).
Proof. exact @ti_refutes. Qed.
Print Assumptions C31_no_out_of_bounds_refuted.

(** C47: in a structured profile the fronts down to the free-drainage front lie in the layers 1, 2, 3, ... *)
Theorem C47_free_drainage_of_a_profile :
  forall (nl : Z) (cum : list dbl) (l : list front), (1 <= nl)%Z -> profile nl cum l -> exists i,
    wetting_front_free_drainage l = Z.of_nat (S i) /\ (i < length l)%nat /\ (Z.of_nat (S i) <= nl)%Z /\
    forall j f, (j <= i)%nat -> nth_error l j = Some f -> f_layer f = Z.of_nat (S j).
Proof. exact profile_free_drainage. Qed.
Print Assumptions C47_free_drainage_of_a_profile.

Example C47_concrete : profile 2 [Fin 0; Fin 25; Fin 100] ti_head /\ wetting_front_free_drainage ti_head = 1%Z.
Proof. split; [exact (ss_profile _ ti_sound)|reflexivity]. Qed.
