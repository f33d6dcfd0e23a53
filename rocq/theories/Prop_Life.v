(** C49: dynamic memory from the constructor to the destructor. *)

From Coq Require Import String Reals ZArith List Bool Arith.
From Verif Require Import Outcome Dbl Exact Types HeapList State Config Life Spec_List Spec_Heap Spec_Config Spec_Life Pf_LifeRun Ex_Config Ex_Life.
Import ListNotations.
Open Scope string_scope.
Open Scope list_scope.
Open Scope nat_scope.

(** Whatever the rounding: the list of the heap is the list of the model after Initialize, and there is no other node. *)
Theorem C49_initialise_builds_the_list :
  forall (fp : Fp) (files : string -> option (list row)) (junk : dbl) (ls : list string) (s : state), Initialize files junk ls = Ok s ->
    forall k, S (length (st_head s)) < k -> exists o, l_Initialize k ls (p_sft (st_p s)) (st_head s) l_construct = Ok o /\ holds o (st_head s) [].
Proof. exact @starts. Qed.
Print Assumptions C49_initialise_builds_the_list.

(** After any history the heap holds two disjoint lists and nothing else, and they are what the actions mean. *)
Theorem C49_histories_refine :
  forall (fp : Fp) (files : string -> option (list row)) (junk : dbl) (ls : list string) (s : state), Initialize files junk ls = Ok s ->
    forall xs o, reached ls (p_sft (st_p s)) (st_head s) xs o -> exists l p, effects xs (st_head s) [] l p /\ holds o l p.
Proof. exact @refines. Qed.
Print Assumptions C49_histories_refine.

(** Every history that makes sense for the sequences of fronts can be executed. *)
Theorem C49_histories_run :
  forall (fp : Fp) (files : string -> option (list row)) (junk : dbl) (ls : list string) (s : state), Initialize files junk ls = Ok s ->
    forall xs l p, effects xs (st_head s) [] l p -> exists o, reached ls (p_sft (st_p s)) (st_head s) xs o /\ holds o l p.
Proof. exact all_reached. Qed.
Print Assumptions C49_histories_run.

(** An action stops only if it names a front that does not exist. *)
Theorem C49_actions_are_safe :
  forall (fp : Fp) (files : string -> option (list row)) (junk : dbl) (ls : list string) (s : state), Initialize files junk ls = Ok s ->
    forall xs o l p a k r, reached ls (p_sft (st_p s)) (st_head s) xs o -> holds o l p -> length l < k -> length p < k -> l_action k a o = Stop r ->
      (exists i f, a = AEdit i f /\ length l <= i /\ r = UB NullDeref) \/ (exists num, a = ADelete num /\ (forall f, In f l -> f_num f <> num) /\ r = Abort).
Proof. exact @only_asked. Qed.
Print Assumptions C49_actions_are_safe.

(** Finalize and the destructor release every front and every block that a pointer still holds, each once.  Blocks remain exactly for repeated lines, and for
    soil_z without coupling. *)
Theorem C49_finalize_releases :
  forall (fp : Fp) (files : string -> option (list row)) (junk : dbl) (ls : list string) (s : state), Initialize files junk ls = Ok s ->
    forall xs o l p k, reached ls (p_sft (st_p s)) (st_head s) xs o -> holds o l p -> length l < k -> length p < k ->
    exists o1 o2, l_Finalize k o = Ok o1 /\ l_destroy o1 = Ok o2 /\ no_front (lf_nodes o1) /\ no_front (lf_nodes o2) /\ all_released o2 /\
      forall t y z, exactly t "layer_thickness" ls -> exactly y "layer_soil_type" ls -> exactly z "soil_z" ls ->
        live_blocks o2 + 3 + (if p_sft (st_p s) then 1 else 0) = 2 * t + y + z.
Proof. exact @releases. Qed.
Print Assumptions C49_finalize_releases.

Theorem C49_nothing_left :
  forall (fp : Fp) (files : string -> option (list row)) (junk : dbl) (ls : list string) (s : state), Initialize files junk ls = Ok s ->
    forall xs o o1 o2 k, once ls -> (p_sft (st_p s) = true \/ forall l, In l ls -> ~ line_sets "soil_z" l) ->
      reached ls (p_sft (st_p s)) (st_head s) xs o -> l_Finalize k o = Ok o1 -> l_destroy o1 = Ok o2 -> no_front (lf_nodes o2) /\ live_blocks o2 = 0.
Proof. exact @nothing_left. Qed.
Print Assumptions C49_nothing_left.

(** C49 refuted: with soil_z but without coupling the array of the cells is lost, for every history. *)
Theorem C49_uncoupled_cells_leak_refuted :
  forall (fp : Fp) (files : string -> option (list row)) (junk : dbl) (ls : list string) (s : state), Initialize files junk ls = Ok s ->
    forall xs o o1 o2 k, p_sft (st_p s) = false -> (exists l, In l ls /\ line_sets "soil_z" l) ->
      reached ls (p_sft (st_p s)) (st_head s) xs o -> l_Finalize k o = Ok o1 -> l_destroy o1 = Ok o2 -> 1 <= live_blocks o2.
Proof. exact @cells_leak. Qed.
Print Assumptions C49_uncoupled_cells_leak_refuted.

(** C49 refuted: a second Finalize, or an Update after Finalize, reads released memory. *)
Theorem C49_second_finalize_refuted :
  forall (fp : Fp) (files : string -> option (list row)) (junk : dbl) (ls : list string) (s : state), Initialize files junk ls = Ok s ->
    forall xs o o1 k, reached ls (p_sft (st_p s)) (st_head s) xs o -> l_Finalize k o = Ok o1 ->
      (forall k', l_Finalize k' o1 = Stop (UB UseAfterFree)) /\ (forall k' a, l_action k' a o1 = Stop (UB UseAfterFree)).
Proof. exact @twice. Qed.
Print Assumptions C49_second_finalize_refuted.

(** C49 refuted: the destructor without Finalize keeps all fronts and at least seventeen blocks. *)
Theorem C49_destructor_alone_leaks_refuted :
  forall (fp : Fp) (files : string -> option (list row)) (junk : dbl) (ls : list string) (s : state), Initialize files junk ls = Ok s ->
    forall xs o, reached ls (p_sft (st_p s)) (st_head s) xs o -> exists o2, l_destroy o = Ok o2 /\ lf_nodes o2 = lf_nodes o /\ 17 <= live_blocks o2.
Proof. exact @no_finalize. Qed.
Print Assumptions C49_destructor_alone_leaks_refuted.

Local Existing Instance exact.

(** The shipped Phillipsburg configuration gives everything back after a time step with creation, edit and deletion of fronts, *)
Example C49_phillipsburg : forall junk, exists s o o1 o2 k, Initialize repository junk phillipsburg = Ok s /\ reached phillipsburg (p_sft (st_p s)) (st_head s) a_step o /\
  l_Finalize k o = Ok o1 /\ l_destroy o1 = Ok o2 /\ no_front (lf_nodes o2) /\ live_blocks o2 = 0.
Proof. exact phillipsburg_life. Qed.

(** the same configuration with a line soil_z does not. *)
Example C49_phillipsburg_with_cells : forall junk, exists s o o1 o2 k, Initialize repository junk with_cells = Ok s /\ reached with_cells (p_sft (st_p s)) (st_head s) a_step o /\
  l_Finalize k o = Ok o1 /\ l_destroy o1 = Ok o2 /\ 1 <= live_blocks o2.
Proof. exact cells_life. Qed.
