(** The life of a BmiLGAR object: Initialize, Updates, Finalize, destructor. *)

From Coq Require Import String Reals ZArith List Bool Arith Lia Permutation.
From RecordUpdate Require Import RecordSet.
From Verif Require Import Outcome Dbl Types ListOps HeapList State Config Life Lib Spec_List Spec_Heap Spec_Config Spec_Life Pf_List Pf_Heap Pf_Text Pf_Config Pf_Init Pf_InitState Pf_Life.
Import ListNotations.
Import RecordSetNotations.
Open Scope string_scope.
Open Scope list_scope.
Open Scope nat_scope.

(** ** Counting lines *)
Definition cnt (k : string) (ls : list string) : nat := length (filter (fun l => String.eqb (line_key l) k) ls).

Lemma seq_count : forall (P : string -> bool) ls,
  length (filter (fun i => match nth_error ls i with Some l => P l | None => false end) (seq 0 (length ls))) = length (filter P ls).
Proof.
  intros P ls. induction ls as [|x ls IH] using rev_ind; [reflexivity|].
  rewrite app_length. cbn [length]. rewrite Nat.add_1_r, seq_S, !filter_app, !app_length. cbn [plus filter].
  rewrite nth_error_app2 by lia. rewrite Nat.sub_diag. cbn [nth_error]. f_equal; [|destruct (P x); reflexivity].
  rewrite <- IH. apply live_ext. intros i Hi. apply in_seq in Hi. rewrite nth_error_app1 by lia. reflexivity.
Qed.

Lemma exactly_cnt : forall n k ls, In k keys -> exactly n k ls -> n = cnt k ls.
Proof.
  intros n k ls Ik (idx & N & <- & H). unfold cnt. rewrite <- seq_count. apply Permutation_length. apply NoDup_Permutation; [assumption|apply NoDup_filter, seq_NoDup|].
  intro i. rewrite filter_In, in_seq, H. split.
  - intros (l & El & Sl). rewrite El. apply sets_key in Sl; [|assumption]. rewrite Sl, String.eqb_refl. split; [|reflexivity].
    split; [lia|]. apply nth_error_Some. congruence.
  - intros [_ Q]. destruct (nth_error ls i) as [l|]; [|discriminate]. exists l. split; [reflexivity|]. apply sets_key; [assumption|]. apply String.eqb_eq. assumption.
Qed.
Lemma cnt_exactly : forall k ls, In k keys -> exactly (cnt k ls) k ls.
Proof.
  intros k ls Ik. exists (filter (fun i => match nth_error ls i with Some l => String.eqb (line_key l) k | None => false end) (seq 0 (length ls))).
  split; [apply NoDup_filter, seq_NoDup|]. split; [apply (seq_count (fun l => String.eqb (line_key l) k))|]. intro i. rewrite filter_In, in_seq. split.
  - intros [_ Q]. destruct (nth_error ls i) as [l|]; [|discriminate]. exists l. split; [reflexivity|]. apply sets_key; [assumption|]. apply String.eqb_eq. assumption.
  - intros (l & El & Sl). rewrite El. apply sets_key in Sl; [|assumption]. rewrite Sl, String.eqb_refl. split; [|reflexivity].
    split; [lia|]. apply nth_error_Some. congruence.
Qed.
Lemma cnt_pos : forall k ls, In k keys -> (exists l, In l ls /\ line_sets k l) -> 1 <= cnt k ls.
Proof.
  intros k ls Ik (l & Il & Sl). unfold cnt. assert (I : In l (filter (fun l => String.eqb (line_key l) k) ls)).
  { apply filter_In. split; [assumption|]. apply String.eqb_eq, sets_key; assumption. }
  destruct (filter _ ls); [contradiction|cbn; lia].
Qed.
Lemma cnt_zero : forall k ls, In k keys -> (forall l, In l ls -> ~ line_sets k l) -> cnt k ls = 0.
Proof.
  intros k ls Ik H. unfold cnt. destruct (filter _ ls) as [|l r] eqn:E; [reflexivity|]. exfalso.
  assert (I : In l (filter (fun l => String.eqb (line_key l) k) ls)) by (rewrite E; left; reflexivity). apply filter_In in I. destruct I as [I1 I2].
  apply (H l I1). apply sets_key; [assumption|]. apply String.eqb_eq. assumption.
Qed.
Lemma cnt_once : forall k ls, In k keys -> once ls -> cnt k ls <= 1.
Proof.
  intros k ls Ik O. destruct (cnt_exactly k ls Ik) as (idx & N & L & H). rewrite <- L. destruct idx as [|i [|j r]]; cbn; try lia. exfalso.
  destruct (proj1 (H i)) as (a & Ea & Sa); [left; reflexivity|]. destruct (proj1 (H j)) as (b & Eb & Sb); [right; left; reflexivity|].
  assert (i = j) by (eapply O; eassumption). subst j. inversion N as [|? ? N1 _]. apply N1. left. reflexivity.
Qed.

(** ** The loop over the lines *)
Lemma lines_ok : forall ls o, tidy o ->
  let o' := l_lines ls o in
  tidy o' /\ live_blocks o' = 2 * cnt "layer_thickness" ls + cnt "layer_soil_type" ls + cnt "soil_z" ls + live_blocks o /\
  (forall x, held o x -> held o' x) /\ (1 <= cnt "layer_thickness" ls -> held o' Pthick /\ held o' Pcum) /\ (1 <= cnt "layer_soil_type" ls -> held o' Ptype) /\
  (1 <= cnt "soil_z" ls -> held o' PsoilTz) /\ lf_nodes o' = lf_nodes o /\ lf_head o' = lf_head o /\ lf_prev o' = lf_prev o.
Proof.
  induction ls as [|l ls IH]; intros o T; cbn [l_lines].
  - cbv zeta. split; [assumption|]. split; [reflexivity|]. split; [auto|]. unfold cnt. cbn. repeat split; auto; lia.
  - unfold l_line, cnt. cbn [filter]. destruct (String.eqb_spec (line_key l) "layer_thickness") as [E|E1].
    { rewrite E. cbn [String.eqb Ascii.eqb Bool.eqb]. cbv zeta. destruct (IH (b_new Pcum (b_new Pthick o))) as (A1 & A2 & A3 & A4 & A5 & A6 & A7 & A8 & A9); [apply new_tidy, new_tidy; assumption|].
      unfold cnt in *. split; [assumption|]. rewrite A2, !new_count. cbn [length]. split; [lia|]. split; [intros; apply A3, new_keeps, new_keeps; assumption|].
      split; [intros _; split; apply A3; [apply new_keeps|]; apply new_held|]. repeat split; auto. }
    destruct (String.eqb_spec (line_key l) "layer_soil_type") as [E|E2].
    { rewrite E. cbn [String.eqb Ascii.eqb Bool.eqb]. cbv zeta. destruct (IH (b_new Ptype o)) as (A1 & A2 & A3 & A4 & A5 & A6 & A7 & A8 & A9); [apply new_tidy; assumption|].
      unfold cnt in *. split; [assumption|]. rewrite A2, !new_count. cbn [length]. split; [lia|]. split; [intros; apply A3, new_keeps; assumption|].
      split; [assumption|]. split; [intros _; apply A3, new_held|]. repeat split; auto. }
    destruct (String.eqb_spec (line_key l) "soil_z") as [E|E3].
    { cbv zeta. destruct (IH (b_new PsoilTz o)) as (A1 & A2 & A3 & A4 & A5 & A6 & A7 & A8 & A9); [apply new_tidy; assumption|].
      unfold cnt in *. split; [assumption|]. rewrite A2, !new_count. cbn [length]. split; [lia|]. split; [intros; apply A3, new_keeps; assumption|].
      split; [assumption|]. split; [assumption|]. split; [intros _; apply A3, new_held|]. repeat split; auto. }
    apply IH. assumption.
Qed.

(** ** The wetting fronts *)
Lemma fronts_ok : forall k r l o, holds o l [] -> numbered (l ++ r) -> (forall f, In f r -> f_dzdt f = Fin 0) -> S (length (l ++ r)) < k ->
  exists o', l_fronts k r o = Ok o' /\ holds o' (l ++ r) [] /\ same_blocks o o'.
Proof.
  intro k. induction r as [|f r IH]; intros l o H N Z Hk.
  - exists o. rewrite app_nil_r. repeat split; assumption.
  - cbn [l_fronts]. destruct H as (L & P & K & [S ND] & [SP NP] & Vl & Vp & D & A). destruct P as [|? ?]; [|discriminate Vp]. simpl in SP.
    assert (Nm : f_num f = Z.of_nat (Datatypes.S (length L))).
    { rewrite (N (length l) f); [subst l; rewrite vals_length; reflexivity|]. rewrite nth_error_app2 by lia. rewrite Nat.sub_diag. reflexivity. }
    assert (NL : numbered (vals L)). { intros i g Hg. apply N. subst l. rewrite nth_error_app1; [assumption|]. apply nth_error_Some. congruence. }
    rewrite app_length in Hk. cbn [length] in Hk. assert (LL : length l = length L) by (subst l; apply vals_length).
    destruct (h_insertFront_append L k (f_psi f) (f_K f) (f_depth f) (f_theta f) (f_layer f) (f_bottom f) _ _ K S ND NL) as (h' & p' & L' & E & K' & S' & AE & ND' & VE & O); [lia|].
    rewrite <- Nm in E. rewrite E. cbn [bind].
    assert (F : mkF (f_depth f) (f_theta f) (f_psi f) (f_K f) (f_layer f) (f_num f) (f_bottom f) (Fin 0) = f).
    { rewrite <- (Z f) by (left; reflexivity). destruct f; reflexivity. }
    rewrite <- Nm, F in VE.
    destruct (IH (l ++ [f]) (o <| lf_nodes := h' |> <| lf_head := p' |>)) as (o' & E1 & H1 & B1).
    + exists L', []. cbn [lf_nodes lf_head lf_prev set]. split; [assumption|]. split; [split; assumption|]. split; [split; [simpl; assumption|constructor]|].
      split; [congruence|]. split; [reflexivity|]. split; [intros a _ []|]. intros a n Ha. left. rewrite AE. apply in_or_app.
      destruct (in_dec Nat.eq_dec a (addrs L)) as [Ia|Ia]; [auto|]. right. destruct (Nat.eq_dec a (h_top (lf_nodes o))) as [->|Na]; [left; reflexivity|].
      rewrite O in Ha by assumption. destruct (A _ _ Ha) as [Q|[]]. contradiction.
    + rewrite <- app_assoc. assumption.
    + intros g Hg. apply Z. right. assumption.
    + rewrite !app_length. cbn [length]. lia.
    + rewrite <- app_assoc in H1. exists o'. repeat split; try assumption; apply B1.
Qed.

(** ** Initialize *)
Lemma construct_tidy : forall o, o = l_construct -> tidy o.
Proof. intros o ->. split; cbn; try (intros x; destruct x; discriminate). reflexivity. Qed.

Lemma same_tidy : forall o o', same_blocks o o' -> tidy o -> tidy o'.
Proof. intros o o' [E1 E2] [T1 T2 T3]. split; rewrite ?E1, ?E2; assumption. Qed.
Lemma same_held : forall o o' x, same_blocks o o' -> held o x -> held o' x.
Proof. intros o o' x [E1 E2]. unfold held. rewrite E2. auto. Qed.
Lemma same_count : forall o o', same_blocks o o' -> live_blocks o' = live_blocks o.
Proof. intros o o' [E1 _]. unfold live_blocks. rewrite E1. reflexivity. Qed.
Lemma holds_lists : forall o o' l p, lf_nodes o' = lf_nodes o -> lf_head o' = lf_head o -> lf_prev o' = lf_prev o -> holds o l p -> holds o' l p.
Proof. intros o o' l p E1 E2 E3 H. unfold holds. rewrite E1, E2, E3. exact H. Qed.

(** What Initialize leaves behind. *)
Record whole (o : life) (c : nat) : Prop := mkWhole { wh_tidy : tidy o; wh_held : forall x, held o x; wh_count : live_blocks o = c }.

Definition blocks_of (ls : list string) (sft : bool) : nat :=
  15 + 2 * cnt "layer_thickness" ls + cnt "layer_soil_type" ls + cnt "soil_z" ls + (if sft then 0 else 1).

Lemma init_ok : forall k ls (sft : bool) fs, numbered fs -> (forall f, In f fs -> f_dzdt f = Fin 0) -> S (length fs) < k ->
  1 <= cnt "layer_thickness" ls -> 1 <= cnt "layer_soil_type" ls -> (sft = true -> 1 <= cnt "soil_z" ls) ->
  exists o, l_Initialize k ls sft fs l_construct = Ok o /\ holds o fs [] /\ whole o (blocks_of ls sft).
Proof.
  intros k ls sft fs N Z Hk C1 C2 C3. unfold l_Initialize. cbv zeta.
  set (o1 := b_new Pstate _). assert (T1 : tidy o1). { apply new_tidy. split; cbn; try (intros x; destruct x; discriminate). reflexivity. }
  assert (N1 : live_blocks o1 = 1) by reflexivity. assert (H1 : held o1 Pstate) by apply new_held.
  assert (L1 : lf_nodes o1 = mkH 0 (fun _ => Unalloc) /\ lf_head o1 = None /\ lf_prev o1 = None) by (repeat split). clearbody o1.
  destruct (lines_ok ls o1 T1) as (T2 & N2 & K2 & A1 & A2 & A3 & M1 & M2 & M3). set (o2 := l_lines ls o1) in *. clearbody o2.
  set (o4 := b_new PsoilT (b_new Pgiuh (b_new Psoils o2))).
  set (o5 := if sft then o4 else b_new PsoilTz o4). set (o6 := b_new Pfrozen o5).
  assert (T6 : tidy o6). { unfold o6, o5, o4. destruct sft; repeat apply new_tidy; assumption. }
  assert (N6 : live_blocks o6 = 5 + 2 * cnt "layer_thickness" ls + cnt "layer_soil_type" ls + cnt "soil_z" ls + (if sft then 0 else 1)).
  { unfold o6, o5, o4. destruct sft; rewrite !new_count, N2, N1; lia. }
  assert (H6 : forall x, In x [Pstate; Psoils; Pgiuh; PsoilT; Pfrozen; Pthick; Pcum; Ptype; PsoilTz] -> held o6 x).
  { assert (P4 : forall x, held o4 x -> held o6 x). { intros x Hx. unfold o6, o5. destruct sft; [apply new_keeps, Hx|apply new_keeps, new_keeps, Hx]. }
    assert (P2 : forall x, held o2 x -> held o6 x). { intros x Hx. apply P4. unfold o4. repeat apply new_keeps. assumption. }
    intros x Hx. cbn in Hx. destruct Hx as [<-|[<-|[<-|[<-|[<-|[<-|[<-|[<-|[<-|[]]]]]]]]]].
    - apply P2, K2, H1.
    - apply P4. unfold o4. do 2 apply new_keeps. apply new_held.
    - apply P4. unfold o4. apply new_keeps. apply new_held.
    - apply P4. unfold o4. apply new_held.
    - unfold o6. apply new_held.
    - apply P2, A1, C1.
    - apply P2, A1, C1.
    - apply P2, A2, C2.
    - destruct sft; [apply P2, A3, C3; reflexivity|]. unfold o6, o5. apply new_keeps, new_held. }
  assert (L6 : holds o6 [] []).
  { assert (Q : lf_nodes o6 = mkH 0 (fun _ => Unalloc) /\ lf_head o6 = None /\ lf_prev o6 = None).
    { destruct L1 as (L11 & L12 & L13). unfold o6, o5, o4. destruct sft; cbn; rewrite M1, M2, M3; auto. }
    destruct Q as (Q1 & Q2 & Q3). exists [], []. rewrite Q1, Q2, Q3. split; [intros x _; reflexivity|]. split; [split; [reflexivity|constructor]|]. split; [split; [reflexivity|constructor]|]. split; [reflexivity|]. split; [reflexivity|]. split; [intros x []|]. intros x n H. discriminate H. }
  clearbody o6. destruct (fronts_ok k fs [] o6 L6 N Z Hk) as (o7 & E7 & L7 & B7). rewrite E7. cbn [bind].
  eexists. split; [reflexivity|]. split; [eapply holds_lists; [| | |exact L7]; reflexivity|].
  pose proof (same_tidy _ _ B7 T6) as T7. pose proof (same_count _ _ B7) as N7.
  assert (H7 : forall x, In x [Pstate; Psoils; Pgiuh; PsoilT; Pfrozen; Pthick; Pcum; Ptype; PsoilTz] -> held o7 x) by (intros x Hx; eapply same_held; [exact B7|auto]).
  split.
  - repeat apply new_tidy. exact T7.
  - intro x. destruct x; try (repeat (first [apply new_held | apply new_keeps]); fail); repeat apply new_keeps; apply H7; cbn; tauto.
  - rewrite !new_count, N7, N6. unfold blocks_of. lia.
Qed.

(** ** Actions *)
Lemma new_loose : forall x o gone gone', loose o gone -> (forall y, In y gone' <-> In y gone /\ y <> x) -> loose (b_new x o) gone'.
Proof.
  intros x o gone gone' [L1 L2 L3 L4 L5] G. unfold b_new. split; cbn [lf_slot lf_ar set ar_cell ar_top]; unfold set_slot.
  - intros y a Hy H. destruct (slot_beq_spec y x) as [->|N].
    + injection H as <-. rewrite Nat.eqb_refl. reflexivity.
    + destruct (Nat.eqb_spec a (ar_top (lf_ar o))) as [->|Na]; [reflexivity|]. apply (L1 y); [|assumption]. intro Q. apply Hy, G. auto.
  - intros y a Hy H. apply G in Hy. destruct Hy as [Hy Ny]. destruct (slot_beq_spec y x) as [->|N]; [congruence|].
    pose proof (L3 _ _ H). destruct (Nat.eqb_spec a (ar_top (lf_ar o))); [lia|]. eapply L2; eassumption.
  - intros y a H. destruct (slot_beq_spec y x) as [->|N]; [injection H as <-; lia|]. apply L3 in H. lia.
  - intros y z a H1 H2. destruct (slot_beq_spec y x) as [->|N1], (slot_beq_spec z x) as [->|N2]; auto.
    + injection H1 as <-. apply L3 in H2. lia.
    + injection H2 as <-. apply L3 in H1. lia.
    + eapply L4; eassumption.
  - intros a H. destruct (Nat.eqb_spec a (ar_top (lf_ar o))); [lia|]. apply L5. lia.
Qed.
Lemma loose_tidy : forall o, loose o [] -> tidy o.
Proof. intros o [L1 L2 L3 L4 L5]. split; auto. intros x a H. split; [eapply L1; [intros []|exact H]|eauto]. Qed.

Lemma realloc_ok : forall o c k, whole o c -> exists o', l_action k ARealloc o = Ok o' /\ whole o' c /\
  lf_nodes o' = lf_nodes o /\ lf_head o' = lf_head o /\ lf_prev o' = lf_prev o.
Proof.
  intros o c k [T H C]. unfold l_action. destruct (H Pstate) as [a Ha]. unfold b_use. rewrite Ha, (proj1 (td_live _ T _ _ Ha)). cbn [bind].
  destruct (delete_many [Pdepth; Ptheta] o [] (tidy_loose _ T)) as (o1 & E & L & S1 & C1 & D1 & D2 & D3).
  - intros x _. split; [apply H|intros []].
  - repeat constructor; cbn; intuition discriminate.
  - rewrite E. cbn [bind]. eexists. split; [reflexivity|]. split; [|split; [exact D1|split; [exact D2|exact D3]]]. cbn [rev app length] in *. split.
    + apply loose_tidy. apply (new_loose _ _ [Ptheta]); [|intros y; cbn; intuition congruence].
      apply (new_loose _ _ [Ptheta; Pdepth]); [exact L|]. intro y. cbn. intuition congruence.
    + intro x. apply new_keeps, new_keeps. unfold held. rewrite S1. apply H.
    + rewrite !new_count. lia.
Qed.

Lemma same_whole : forall o o' c, same_blocks o o' -> whole o c -> whole o' c.
Proof. intros o o' c B [T H C]. split; [eapply same_tidy; eassumption|intro x; eapply same_held; [exact B|apply H]|rewrite (same_count _ _ B); assumption]. Qed.

Lemma action_inv : forall k a o o' l p c, holds o l p -> whole o c -> l_action k a o = Ok o' ->
  exists l' p', effect a l p l' p' /\ holds o' l' p' /\ whole o' c.
Proof.
  intros k a o o' l p c H W E. assert (D : a = ARealloc \/ a <> ARealloc) by (destruct a; (left; reflexivity) || (right; discriminate)). destruct D as [->|Na].
  - destruct (realloc_ok o c k W) as (o1 & E1 & W1 & D1 & D2 & D3). rewrite E1 in E. apply Ok_inj in E. subst o1.
    exists l, p. split; [split; reflexivity|]. split; [eapply holds_lists; eassumption|assumption].
  - destruct (holds_action _ _ _ _ _ _ H Na E) as (l' & p' & F & H' & B). exists l', p'. split; [assumption|]. split; [assumption|]. eapply same_whole; eassumption.
Qed.

Lemma actions_inv : forall k xs o o' l p c, holds o l p -> whole o c -> l_actions k xs o = Ok o' ->
  exists l' p', effects xs l p l' p' /\ holds o' l' p' /\ whole o' c.
Proof.
  induction xs as [|a xs IH]; intros o o' l p c H W E; cbn [l_actions] in E.
  - apply Ok_inj in E. subst o'. exists l, p. split; [constructor|split; assumption].
  - bind_inv E o1 Eo. destruct (action_inv _ _ _ _ _ _ _ H W Eo) as (l1 & p1 & F1 & H1 & W1).
    destruct (IH _ _ _ _ _ H1 W1 E) as (l2 & p2 & F2 & H2 & W2). exists l2, p2. split; [econstructor; eassumption|split; assumption].
Qed.

Lemma effect_det : forall a l p l1 p1 l2 p2, effect a l p l1 p1 -> effect a l p l2 p2 -> l1 = l2 /\ p1 = p2.
Proof.
  intros [i f|f|num| |] l p l1 p1 l2 p2 H1 H2; cbn [effect] in *.
  - destruct H1 as (_ & -> & ->), H2 as (_ & -> & ->). auto.
  - destruct H1 as (-> & ->), H2 as (-> & ->). auto.
  - destruct H1 as ((i & f & A1 & A2 & A3 & ->) & ->), H2 as ((j & g & B1 & B2 & B3 & ->) & ->).
    assert (i = j); [|subst; auto]. destruct (Nat.lt_trichotomy i j) as [Q|[Q|Q]]; [|assumption|]; exfalso; [apply (B3 _ _ Q A1); assumption|apply (A3 _ _ Q B1); assumption].
  - destruct H1 as (-> & ->), H2 as (-> & ->). auto.
  - destruct H1 as (-> & ->), H2 as (-> & ->). auto.
Qed.

Lemma action_possible : forall k a o l p l' p' c, holds o l p -> whole o c -> effect a l p l' p' -> length l < k -> length p < k ->
  exists o', l_action k a o = Ok o' /\ holds o' l' p'.
Proof.
  intros k a o l p l' p' c H W F Hl Hp.
  assert (X : exists o', l_action k a o = Ok o').
  { destruct W as [T Hd C]. destruct H as (L & P & K & [S N] & [SP NP] & Vl & Vp & D & A).
    assert (LL : length l = length L) by (subst l; apply vals_length). assert (LP : length p = length P) by (subst p; apply vals_length).
    unfold l_action. destruct (Hd Pstate) as [b Hb]. unfold b_use. rewrite Hb, (proj1 (td_live _ T _ _ Hb)). cbn [bind].
    destruct a as [i f|f|num| |]; cbn [effect] in F.
    - destruct F as (I & _). destruct (edit_ok L i f _ _ S N) as (x & v & m & E1 & E2 & E3 & E4); [lia|].
      rewrite E2. cbn [bind]. rewrite (load_live _ _ _ E3). cbn [bind]. rewrite (store_live _ _ _ _ E3). cbn [bind]. eauto.
    - destruct (h_insertFirst_ok L k (f_psi f) (f_K f) (f_depth f) (f_theta f) (f_num f) (f_layer f) (f_bottom f) _ _ K S N) as (h' & L' & E1 & _); [lia|]. rewrite E1. cbn [bind]. eauto.
    - destruct F as ((i & g & A1 & A2 & A3 & _) & _).
      assert (Ep : exists j, pos_of num (vals L) = Some j).
      { destruct (pos_of num (vals L)) as [j|] eqn:E; [eauto|]. exfalso. pose proof (proj1 (pos_of_None num (vals L)) E) as Q. rewrite <- Vl in A1. apply (Q g); [eapply nth_error_In; exact A1|assumption]. }
      destruct Ep as [j Ep]. destruct (h_deleteFront_ok num L k _ _ j K S N) as (h' & q & L' & x & E1 & _); [lia|assumption|]. rewrite E1. cbn [bind]. eauto.
    - assert (X : exists h, (match lf_prev o with None => Ok (lf_nodes o) | Some _ => h_listDelete k (lf_nodes o) (lf_prev o) end) = Ok h /\ heap_ok h /\ seg h (lf_head o) L None).
      { destruct (h_listDelete_ok P k _ _ SP NP) as (h' & E1 & T1 & O1 & F1); [lia|].
        assert (G : heap_ok h' /\ seg h' (lf_head o) L None).
        { split; [intros x Hx; rewrite T1 in Hx; rewrite O1; [apply K; assumption|intro Q; pose proof (seg_below _ _ _ _ _ K SP Q); lia]|].
          eapply seg_frame; [|exact S]. intros x Hx. apply O1. auto. }
        destruct (lf_prev o) as [q|]; [exists h'; split; [assumption|exact G]|]. exists (lf_nodes o). split; [reflexivity|split; assumption]. }
      destruct X as (h & Eh & Kh & Sh). rewrite Eh. cbn [bind]. destruct (h_listCopy_ok L k h _ Kh Sh) as (h' & q & L' & E1 & _); [lia|]. rewrite E1. cbn [bind]. eauto.
    - destruct (delete_many [Pdepth; Ptheta] o [] (tidy_loose _ T)) as (o1 & E & _).
      + intros x _. split; [apply Hd|intros []].
      + repeat constructor; cbn; intuition discriminate.
      + rewrite E. cbn [bind]. eauto. }
  destruct X as [o' E]. exists o'. split; [assumption|]. destruct (action_inv _ _ _ _ _ _ _ H W E) as (l1 & p1 & F1 & H1 & _).
  destruct (effect_det _ _ _ _ _ _ _ F F1) as [-> ->]. assumption.
Qed.

(** A failing action was asked for something impossible, or ran out of fuel. *)
Lemma action_fails : forall k a o l p c r, holds o l p -> whole o c -> l_action k a o = Stop r -> length l < k -> length p < k ->
  (exists i f, a = AEdit i f /\ length l <= i /\ r = UB NullDeref) \/ (exists num, a = ADelete num /\ (forall f, In f l -> f_num f <> num) /\ r = Abort).
Proof.
  intros k a o l p c r H W E Hl Hp.
  assert (X : (exists l' p', effect a l p l' p') -> False).
  { intros (l' & p' & F). destruct (action_possible _ _ _ _ _ _ _ _ H W F Hl Hp) as (o' & E' & _). congruence. }
  destruct a as [i f|f|num| |]; cbn [effect] in X.
  - left. exists i, f. split; [reflexivity|]. destruct (Nat.lt_ge_cases i (length l)) as [Q|Q]; [exfalso; apply X; eauto|]. split; [assumption|].
    destruct W as [T Hd C]. destruct H as (L & P & K & [S N] & [SP NP] & Vl & Vp & D & A).
    unfold l_action in E. destruct (Hd Pstate) as [b Hb]. unfold b_use in E. rewrite Hb, (proj1 (td_live _ T _ _ Hb)) in E. cbn [bind] in E.
    subst l. rewrite vals_length in Q. destruct (edit_end _ _ _ _ S Q) as [R|R]; rewrite R in E; cbn in E; congruence.
  - exfalso. apply X. eauto.
  - right. exists num. split; [reflexivity|]. destruct (pos_of num l) as [j|] eqn:Ep.
    + exfalso. apply X. destruct (pos_of_Some _ _ _ Ep) as (g & G1 & G2 & G3). eexists _, _. split; [|reflexivity]. exists j, g. auto.
    + pose proof (proj1 (pos_of_None num l) Ep) as Q. split; [assumption|]. destruct W as [T Hd C]. destruct H as (L & P & K & [S N] & [SP NP] & Vl & Vp & D & A).
      unfold l_action in E. destruct (Hd Pstate) as [b Hb]. unfold b_use in E. rewrite Hb, (proj1 (td_live _ T _ _ Hb)) in E. cbn [bind] in E.
      subst l. rewrite (h_deleteFront_absent num L k _ _ S) in E; [cbn in E; congruence|rewrite vals_length in Hl; assumption|assumption].
  - exfalso. apply X. eauto.
  - exfalso. apply X. eauto.
Qed.

(** ** Finalize and the destructor *)
Definition final_slots : list Life.slot :=
  [Psoils; Pdepth; Ptheta; PsoilT; PsoilTz; Ptype; Pcal_e; Pcal_r; Pcal_n; Pcal_alpha; Pcal_K; Pthick; Pcum; Pgiuh; Pfrozen; Pinput; Pstate].

Lemma finalize_ok : forall o l p c k, holds o l p -> whole o c -> length l < k -> length p < k ->
  exists o1 o2, l_Finalize k o = Ok o1 /\ l_destroy o1 = Ok o2 /\ no_front (lf_nodes o1) /\ no_front (lf_nodes o2) /\ all_released o2 /\ 19 + live_blocks o2 = c /\
    (forall k', l_Finalize k' o1 = Stop (UB UseAfterFree)) /\ (forall k' a, l_action k' a o1 = Stop (UB UseAfterFree)) /\ (forall k', l_Finalize k' o2 = Stop (UB UseAfterFree)) /\
    l_destroy o2 = Stop (UB DoubleFree).
Proof.
  intros o l p c k (L & P & K & [S N] & [SP NP] & Vl & Vp & D & A) [T Hd C] Hl Hp.
  assert (LL : length l = length L) by (subst l; apply vals_length). assert (LP : length p = length P) by (subst p; apply vals_length).
  destruct (h_listDelete_ok L k _ _ S N) as (h1 & E1 & T1 & O1 & F1); [lia|].
  assert (SP1 : seg h1 (lf_prev o) P None). { eapply seg_frame; [|exact SP]. intros x Hx. apply O1. intro Q. exact (D _ Q Hx). }
  destruct (h_listDelete_ok P k h1 _ SP1 NP) as (h2 & E2 & T2 & O2 & F2); [lia|].
  assert (NF : no_front h2).
  { intros a n Ha. destruct (in_dec Nat.eq_dec a (addrs P)) as [Ip|Ip]; [rewrite F2 in Ha by assumption; discriminate|]. rewrite O2 in Ha by assumption.
    destruct (in_dec Nat.eq_dec a (addrs L)) as [Il|Il]; [rewrite F1 in Ha by assumption; discriminate|]. rewrite O1 in Ha by assumption. destruct (A _ _ Ha); contradiction. }
  set (o0 := o <| lf_nodes := h2 |>). assert (B0 : same_blocks o o0) by (split; reflexivity). pose proof (same_tidy _ _ B0 T) as T0.
  destruct (delete_many final_slots o0 [] (tidy_loose _ T0)) as (o1 & E3 & L1 & S1 & C1 & D1 & _ & _).
  { intros x _. split; [apply (same_held _ _ _ B0), Hd|intros []]. }
  { repeat constructor; cbn; intuition discriminate. }
  destruct (delete_many [Pord; Pqueue] o1 _ L1) as (o2 & E4 & L2 & S2 & C2 & D4 & _ & _).
  { intros x Hx. split; [unfold held; rewrite S1; apply Hd|]. cbn in *. intuition (subst; discriminate). }
  { repeat constructor; cbn; intuition discriminate. }
  assert (R : forall x, exists a, lf_slot o2 x = At a /\ ar_cell (lf_ar o2) a = BFreed).
  { intro x. destruct (Hd x) as [a Ha]. exists a. assert (Q : lf_slot o2 x = At a) by (rewrite S2, S1; exact Ha). split; [assumption|].
    apply (ls_gone _ _ L2 x); [|assumption]. destruct x; cbn; tauto. }
  destruct (Hd Pstate) as [a Ha]. destruct (Hd Pqueue) as [b Hb]. exists o1, o2.
  assert (St1 : lf_slot o1 Pstate = At a /\ ar_cell (lf_ar o1) a = BFreed).
  { assert (Q : lf_slot o1 Pstate = At a) by (rewrite S1; exact Ha). split; [assumption|]. apply (ls_gone _ _ L1 Pstate); [cbn; tauto|assumption]. }
  split; [|split; [|split; [|split; [|split; [|split; [|split; [|split; [|split]]]]]]]].
  - unfold l_Finalize, b_use. rewrite Ha, (proj1 (td_live _ T _ _ Ha)). cbn [bind]. rewrite Hb, (proj1 (td_live _ T _ _ Hb)). cbn [bind]. rewrite E1. cbn [bind]. rewrite E2. cbn [bind]. exact E3.
  - exact E4.
  - rewrite D1. exact NF.
  - rewrite D4, D1. exact NF.
  - exact R.
  - cbn [final_slots length] in C1, C2. rewrite (same_count _ _ B0) in C1. lia.
  - intro k'. unfold l_Finalize, b_use. destruct St1 as [-> ->]. reflexivity.
  - intros k' x. unfold l_action, b_use. destruct St1 as [-> ->]. reflexivity.
  - intro k'. unfold l_Finalize, b_use. destruct (R Pstate) as (x & -> & ->). reflexivity.
  - unfold l_destroy. cbn [b_deletes]. unfold b_delete. destruct (R Pord) as (x & -> & ->). reflexivity.
Qed.

Lemma finalize_fuel : forall o l p k o1, holds o l p -> l_Finalize k o = Ok o1 -> length l < k /\ length p < k.
Proof.
  intros o l p k o1 Ho E1. destruct Ho as (L & P & K & [S N] & [SP NP] & Vl & Vp & Dj & A). unfold l_Finalize in E1. bind_inv E1 u1 Eu1. bind_inv E1 u2 Eu2. bind_inv E1 h1 Eh1. bind_inv E1 h2 Eh2.
    subst l p. rewrite !vals_length. pose proof (delete_fuel _ _ _ _ _ S N Eh1) as Q. split; [assumption|].
    destruct (h_listDelete_ok L k _ _ S N Q) as (h' & E' & T' & O' & F'). rewrite Eh1 in E'. apply Ok_inj in E'. subst h'. eapply delete_fuel; [|exact NP|exact Eh2].
    eapply seg_frame; [|exact SP]. intros x Hx. apply O'. intro Z. exact (Dj _ Z Hx).
Qed.

(** ** From the configuration *)
Section Any.
Context {fp : Fp}.

Lemma key_in : forall k, In k (required_keys ++ optional_keys) -> In k keys. Proof. intros k H. exact H. Qed.

Lemma start_whole : forall files junk ls s, Initialize files junk ls = Ok s -> forall k, S (length (st_head s)) < k ->
  exists o, l_Initialize k ls (p_sft (st_p s)) (st_head s) l_construct = Ok o /\ holds o (st_head s) [] /\ whole o (blocks_of ls (p_sft (st_p s))).
Proof.
  intros files junk ls s H k Hk. destruct (need_all _ _ _ _ H) as [R Z]. destruct (init_inv _ _ _ _ H) as (c & st & rows & tab & thick & psi & ord & I).
  destruct (init_fronts _ _ _ _ _ _ _ _ _ _ _ I) as (N & Len & F). apply init_ok; auto.
  - intros f Hf. apply In_nth_error in Hf. destruct Hf as [i Hi]. destruct (F i f Hi) as (t & en & d & ff & _ & _ & _ & _ & ->). reflexivity.
  - apply cnt_pos; [cbn; tauto|]. apply R. cbn. tauto.
  - apply cnt_pos; [cbn; tauto|]. apply R. cbn. tauto.
  - intro E. apply cnt_pos; [cbn; tauto|]. apply Z. assumption.
Qed.
End Any.

Section Any2.
Context {fp : Fp}.
Variables (files : string -> option (list row)) (junk : dbl) (ls : list string) (s : state).
Hypothesis H : Initialize files junk ls = Ok s.
Let sft := p_sft (st_p s).

Lemma reached_inv : forall xs o, reached ls sft (st_head s) xs o ->
  exists l p, effects xs (st_head s) [] l p /\ holds o l p /\ whole o (blocks_of ls sft).
Proof.
  intros xs o (k & o0 & Hk & E0 & E). destruct (start_whole _ _ _ _ H k Hk) as (o' & E' & H' & W'). fold sft in E', W'. rewrite E0 in E'. apply Ok_inj in E'. subst o'.
  eapply actions_inv; eassumption.
Qed.

Lemma starts : forall k, S (length (st_head s)) < k -> exists o, l_Initialize k ls sft (st_head s) l_construct = Ok o /\ holds o (st_head s) [].
Proof. intros k Hk. destruct (start_whole _ _ _ _ H k Hk) as (o & E & H' & _). eauto. Qed.

Lemma refines : forall xs o, reached ls sft (st_head s) xs o -> exists l p, effects xs (st_head s) [] l p /\ holds o l p.
Proof. intros xs o R. destruct (reached_inv xs o R) as (l & p & E & Ho & _). eauto. Qed.

Lemma goes_on : forall xs o l p a l' p' k, reached ls sft (st_head s) xs o -> holds o l p -> effect a l p l' p' -> length l < k -> length p < k ->
  exists o', l_action k a o = Ok o' /\ holds o' l' p'.
Proof. intros xs o l p a l' p' k R Ho F Hl Hp. destruct (reached_inv xs o R) as (l0 & p0 & E & _ & W). eapply action_possible; eassumption. Qed.

Lemma only_asked : forall xs o l p a k r, reached ls sft (st_head s) xs o -> holds o l p -> length l < k -> length p < k -> l_action k a o = Stop r ->
  (exists i f, a = AEdit i f /\ length l <= i /\ r = UB NullDeref) \/ (exists num, a = ADelete num /\ (forall f, In f l -> f_num f <> num) /\ r = Abort).
Proof. intros xs o l p a k r R Ho Hl Hp E. destruct (reached_inv xs o R) as (l0 & p0 & _ & _ & W). eapply action_fails; eassumption. Qed.

Lemma releases : forall xs o l p k, reached ls sft (st_head s) xs o -> holds o l p -> length l < k -> length p < k ->
  exists o1 o2, l_Finalize k o = Ok o1 /\ l_destroy o1 = Ok o2 /\ no_front (lf_nodes o1) /\ no_front (lf_nodes o2) /\ all_released o2 /\
    forall t y z, exactly t "layer_thickness" ls -> exactly y "layer_soil_type" ls -> exactly z "soil_z" ls ->
      live_blocks o2 + 3 + (if p_sft (st_p s) then 1 else 0) = 2 * t + y + z.
Proof.
  intros xs o l p k R Ho Hl Hp. destruct (reached_inv xs o R) as (l0 & p0 & _ & _ & W).
  destruct (finalize_ok _ _ _ _ k Ho W Hl Hp) as (o1 & o2 & E1 & E2 & F1 & F2 & A & C & _). exists o1, o2. split; [assumption|]. split; [assumption|]. split; [assumption|]. split; [assumption|].
  split; [assumption|]. intros t y z Ht Hy Hz. apply exactly_cnt in Ht; [|cbn; tauto]. apply exactly_cnt in Hy; [|cbn; tauto]. apply exactly_cnt in Hz; [|cbn; tauto]. subst t y z.
  unfold blocks_of, sft in C. destruct (p_sft (st_p s)); lia.
Qed.

Lemma nothing_left : forall xs o o1 o2 k, once ls -> (p_sft (st_p s) = true \/ forall l, In l ls -> ~ line_sets "soil_z" l) ->
  reached ls sft (st_head s) xs o -> l_Finalize k o = Ok o1 -> l_destroy o1 = Ok o2 -> no_front (lf_nodes o2) /\ live_blocks o2 = 0.
Proof.
  intros xs o o1 o2 k O D R E1 E2. destruct (reached_inv xs o R) as (l & p & _ & Ho & W).
  pose proof (finalize_fuel _ _ _ _ _ Ho E1) as Hk.
  destruct (releases xs o l p k R Ho (proj1 Hk) (proj2 Hk)) as (o1' & o2' & E1' & E2' & _ & F2 & _ & C). rewrite E1 in E1'. apply Ok_inj in E1'. subst o1'. rewrite E2 in E2'. apply Ok_inj in E2'. subst o2'.
  split; [assumption|]. destruct (need_all _ _ _ _ H) as [Rq Z].
  specialize (C _ _ _ (cnt_exactly "layer_thickness" ls ltac:(cbn; tauto)) (cnt_exactly "layer_soil_type" ls ltac:(cbn; tauto)) (cnt_exactly "soil_z" ls ltac:(cbn; tauto))).
  pose proof (cnt_once "layer_thickness" ls ltac:(cbn; tauto) O). pose proof (cnt_once "layer_soil_type" ls ltac:(cbn; tauto) O). pose proof (cnt_once "soil_z" ls ltac:(cbn; tauto) O).
  destruct D as [D|D]; [rewrite D in C; lia|]. rewrite (cnt_zero "soil_z" ls) in C by (cbn; tauto || assumption). destruct (p_sft (st_p s)); lia.
Qed.

Lemma twice : forall xs o o1 k, reached ls sft (st_head s) xs o -> l_Finalize k o = Ok o1 ->
  (forall k', l_Finalize k' o1 = Stop (UB UseAfterFree)) /\ (forall k' a, l_action k' a o1 = Stop (UB UseAfterFree)).
Proof.
  intros xs o o1 k R E1. destruct (reached_inv xs o R) as (l & p & _ & Ho & W).
  pose proof (finalize_fuel _ _ _ _ _ Ho E1) as Hk.
  destruct (finalize_ok _ _ _ _ k Ho W (proj1 Hk) (proj2 Hk)) as (o1' & o2 & E1' & _ & _ & _ & _ & _ & X & Y & _). rewrite E1 in E1'. apply Ok_inj in E1'. subst o1'. auto.
Qed.

(** Without Finalize the destructor leaves every front, and all blocks but two. *)
Lemma no_finalize : forall xs o, reached ls sft (st_head s) xs o -> exists o2, l_destroy o = Ok o2 /\ lf_nodes o2 = lf_nodes o /\ 17 <= live_blocks o2.
Proof.
  intros xs o R. destruct (reached_inv xs o R) as (l & p & _ & Ho & [T Hd C]).
  destruct (delete_many [Pord; Pqueue] o [] (tidy_loose _ T)) as (o2 & E & L2 & S2 & C2 & D & _).
  - intros x _. split; [apply Hd|intros []].
  - repeat constructor; cbn; intuition discriminate.
  - exists o2. split; [assumption|]. split; [assumption|]. cbn [length] in C2. destruct (need_all _ _ _ _ H) as [Rq Z].
    pose proof (cnt_pos "layer_thickness" ls ltac:(cbn; tauto) (Rq "layer_thickness" ltac:(cbn; tauto))). pose proof (cnt_pos "layer_soil_type" ls ltac:(cbn; tauto) (Rq "layer_soil_type" ltac:(cbn; tauto))).
    unfold blocks_of, sft in C. destruct (p_sft (st_p s)).
    + pose proof (cnt_pos "soil_z" ls ltac:(cbn; tauto) (Z eq_refl)). lia.
    + lia.
Qed.

(** Soil temperature cells without coupling are lost. *)
Lemma cells_leak : forall xs o o1 o2 k, p_sft (st_p s) = false -> (exists l, In l ls /\ line_sets "soil_z" l) ->
  reached ls sft (st_head s) xs o -> l_Finalize k o = Ok o1 -> l_destroy o1 = Ok o2 -> 1 <= live_blocks o2.
Proof.
  intros xs o o1 o2 k F Hz R E1 E2. destruct (reached_inv xs o R) as (l & p & _ & Ho & W).
  pose proof (finalize_fuel _ _ _ _ _ Ho E1) as Hk.
  destruct (releases xs o l p k R Ho (proj1 Hk) (proj2 Hk)) as (o1' & o2' & E1' & E2' & _ & F2 & _ & C). rewrite E1 in E1'. apply Ok_inj in E1'. subst o1'. rewrite E2 in E2'. apply Ok_inj in E2'. subst o2'.
  specialize (C _ _ _ (cnt_exactly "layer_thickness" ls ltac:(cbn; tauto)) (cnt_exactly "layer_soil_type" ls ltac:(cbn; tauto)) (cnt_exactly "soil_z" ls ltac:(cbn; tauto))).
  destruct (need_all _ _ _ _ H) as [Rq _].
  pose proof (cnt_pos "layer_thickness" ls ltac:(cbn; tauto) (Rq "layer_thickness" ltac:(cbn; tauto))). pose proof (cnt_pos "layer_soil_type" ls ltac:(cbn; tauto) (Rq "layer_soil_type" ltac:(cbn; tauto))).
  pose proof (cnt_pos "soil_z" ls ltac:(cbn; tauto) Hz). rewrite F in C. lia.
Qed.
End Any2.

(** Every sequence of effects can be executed. *)
Lemma actions_possible : forall xs l p l' p', effects xs l p l' p' -> exists n, forall k, n <= k -> forall o c, holds o l p -> whole o c ->
  exists o', l_actions k xs o = Ok o' /\ holds o' l' p'.
Proof.
  intros xs l p l' p' E. induction E as [l p|a xs l p l1 p1 l2 p2 F E [n IH]].
  - exists 0. intros k _ o c H _. exists o. split; [reflexivity|assumption].
  - exists (S (n + length l + length p)). intros k Hk o c H W. destruct (action_possible k _ _ _ _ _ _ _ H W F) as (o1 & E1 & H1); [lia|lia|].
    destruct (action_inv _ _ _ _ _ _ _ H W E1) as (_ & _ & _ & _ & W1). destruct (IH k ltac:(lia) o1 c H1 W1) as (o2 & E2 & H2).
    exists o2. cbn [l_actions]. rewrite E1. cbn [bind]. split; assumption.
Qed.
Lemma all_reached : forall (fp : Fp) files junk ls s, Initialize files junk ls = Ok s -> forall xs l p, effects xs (st_head s) [] l p ->
  exists o, reached ls (p_sft (st_p s)) (st_head s) xs o /\ holds o l p.
Proof.
  intros fp files junk ls s H xs l p E. destruct (actions_possible _ _ _ _ _ E) as [n X]. set (k := n + S (S (length (st_head s)))).
  destruct (start_whole _ _ _ _ H k) as (o0 & E0 & H0 & W0); [unfold k; lia|]. destruct (X k ltac:(unfold k; lia) o0 _ H0 W0) as (o & E1 & H1).
  exists o. split; [|assumption]. exists k, o0. split; [unfold k; lia|]. split; assumption.
Qed.
