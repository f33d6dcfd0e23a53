(** Worked examples: profiles in a heap. *)

From Coq Require Import Reals ZArith List Bool Arith Lia.
From Verif Require Import Outcome Dbl Exact Types ListOps HeapList State Update HeapFronts HeapUpdate Spec_List Spec_Heap Spec_Update Spec_Profile Spec_Refine
  Pf_Refine6 Ex_Safety Ex_TwoLayers.
Import ListNotations.
Open Scope nat_scope.
Local Existing Instance exact.

Lemma uf_in_memory : forall cfg : Cfg, exists o s, shows o s /\ sound_state s /\ ready s /\ h_Update o = Stop (UB UseAfterFree).
Proof.
  intros cfg. destruct (uf_refutes) as (s & S & R & _ & U). destruct (every_shown s) as [o H]. exists o, s. split; [exact H|]. split; [exact S|]. split; [exact R|].
  destruct S as [_ P _ _ _]. pose proof (Update_shows o s H (prof_num _ _ _ P)) as Q. rewrite U in Q. exact Q.
Qed.

Lemma tw_in_memory : forall cfg : Cfg, exists o o' s', shows o tw_start /\ numbered (st_head tw_start) /\ h_Update o = Ok o' /\ shows o' s' /\
  live_nodes (hs_heap o) = 4 /\ live_nodes (hs_heap o') = 2 + length (st_prev s').
Proof.
  intros cfg. destruct (every_shown tw_start) as [o H]. destruct tw_update as (s' & U & EH & _).
  assert (N : numbered (st_head tw_start)) by (destruct tw_sound as [_ P _ _ _]; exact (prof_num _ _ _ P)).
  pose proof (Update_shows o _ H N) as Q. rewrite U in Q. destruct Q as (o' & E & H' & _). exists o, o', s'. split; [exact H|]. split; [exact N|]. split; [exact E|].
  split; [exact H'|]. split; [exact (picture_size _ _ _ _ _ (proj1 H))|]. rewrite (picture_size _ _ _ _ _ (proj1 H')), EH. reflexivity.
Qed.

Definition ex_f1 : front := mkF (Fin 2) (Fin (4 / 10)) (Fin 10) (Fin 1) 1 1 false (Fin 3).
Definition ex_f2 : front := mkF (Fin 50) (Fin (2 / 10)) (Fin 200) (Fin 0) 1 2 true (Fin 0).
Definition ex_heap : heap :=
  mkH 6 (fun a => match a with 1 => Freed | 3 => Live (mkN ex_f2 None) | 4 => Live (mkN ex_f1 None) | 5 => Live (mkN ex_f1 (Some 3)) | 0 | 2 => Freed | _ => Unalloc end).

Lemma ex_heap_ok : pictures ex_heap (Some 5) (Some 4) [ex_f1; ex_f2] [ex_f1] /\ numbered [ex_f1; ex_f2] /\ live_nodes ex_heap = 3 /\
  exists h, h_deleteFront 1 ex_heap (Some 5) = Ok (h, Some 3, Some 3) /\ pictures h (Some 3) (Some 4) [set_num ex_f2 1] [ex_f1] /\ live_nodes h = 2.
Proof.
  split; [|split; [|split; [reflexivity|]]].
  - exists [(5, ex_f1); (3, ex_f2)], [(4, ex_f1)]. split; [|split; [|split; [|split; [|split; [reflexivity|split; [reflexivity|]]]]]].
    + intros a Ha. do 6 (destruct a as [|a]; [cbn in Ha; lia|]). reflexivity.
    + split; [reflexivity|]. exists (Some 3). split; [reflexivity|]. split; [reflexivity|]. exists None. split; reflexivity.
    + split; [reflexivity|]. exists None. split; reflexivity.
    + cbn. repeat (constructor; [cbn; intuition discriminate|]). constructor.
    + intros a n E. do 6 (destruct a as [|a]; [cbn in E; try discriminate E; cbn; tauto|]). discriminate E.
  - intros [|[|i]] f E; cbn in E; try (injection E as <-; reflexivity). destruct i; discriminate E.
  - eexists. split; [reflexivity|]. split; [|reflexivity]. exists [(3, set_num ex_f2 1)], [(4, ex_f1)].
    split; [|split; [|split; [|split; [|split; [reflexivity|split; [reflexivity|]]]]]].
    + intros a Ha. do 6 (destruct a as [|a]; [cbn in Ha; lia|]). reflexivity.
    + split; [reflexivity|]. exists None. split; reflexivity.
    + split; [reflexivity|]. exists None. split; reflexivity.
    + cbn. repeat (constructor; [cbn; intuition discriminate|]). constructor.
    + intros a n E. do 6 (destruct a as [|a]; [cbn in E; try discriminate E; cbn; tauto|]). discriminate E.
Qed.
