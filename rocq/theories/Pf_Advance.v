(** One pass of the main loop. *)

From Coq Require Import Reals Lra ZArith List Bool Lia.
From Verif Require Import Outcome Dbl Types ListOps Soil Fronts Infil Move State Spec_Common Spec_List Spec_Profile Spec_Advance Lib Pf_List Pf_Structure Pf_SafeMove.
Import ListNotations.
Open Scope R_scope.

Section Any.
Context {fp : Fp} {cfg : Cfg}.

Definition meets (e : env) (c n : front) : Prop :=
  forall s, soil_of e (f_layer c) = Ok s -> f_psi c = f_psi n /\ f_theta c = theta_of_h s (f_psi n).

Lemma bind_inv : forall A B (m : outcome A) (k : A -> outcome B) b, bind m k = Ok b -> exists a, m = Ok a /\ k a = Ok b.
Proof. intros A B [a|r] k b H; [eauto|discriminate]. Qed.

Lemma lset_id : forall (l : list front) w c, nth_error l w = Some c -> lset l w c = l.
Proof. induction l as [|x l IH]; intros [|w] c E; try discriminate; cbn in *; [injection E as ->; reflexivity|rewrite IH; auto]. Qed.

Lemma lset_other : forall (l : list front) w i c, i <> w -> nth_error (lset l w c) i = nth_error l i.
Proof. induction l as [|x l IH]; intros [|w] [|i] c E; cbn; try reflexivity; try congruence. apply IH. congruence. Qed.

Lemma move_one_travels : forall e dt precip wfd prev w l aet l' aet' c, sound_env e -> Str e l -> numbered prev -> length prev = length l -> finite dt ->
  nth_error l w = Some c ->
  move_one e dt precip wfd prev (listLength l) (Z.of_nat (S w)) l aet = Ok (l', aet') ->
  exists c', l' = lset l w c' /\ travelled e dt c c' /\ (f_bottom c = true -> forall n, nth_error l (S w) = Some n -> meets e c' n).
Proof.
  intros e dt precip wfd prev w l aet l' aet' c HE H HN HL Hdt Ec M.
  assert (Hw : (w < length l)%nat) by (apply nth_error_Some; congruence).
  unfold move_one, listLength in M.
  assert (Hne : l <> []) by (destruct l; [cbn in Hw; lia|discriminate]).
  rewrite (find_num l w (st_num _ _ H) Hw) in M. rewrite (find_old l prev w Hne HN) in M by lia.
  assert (Rc := Str_range _ _ _ _ H Ec). destruct (env_soil e _ HE Rc) as [s Es].
  destruct (findFrontOld (Z.of_nat (S w) + 1) l prev) as [lno pno] eqn:Eno. cbv zeta in M.
  rewrite (proj2 (lget_Ok _ _ _) Ec) in M. cbn [bind] in M. rewrite Es in M. cbn [bind] in M.
  apply bind_inv in M as (c0 & _ & M).
  destruct (Z.eqb_spec (Z.of_nat (S w)) (Z.of_nat (length l))) as [Hlast|Hnl].
  - cbn [bind] in M. destruct (Z.ltb_spec (Z.of_nat (S w)) (Z.of_nat (length l))); [lia|]. cbn [andb] in M.
    destruct (Z.eqb_spec (f_layer c + 1) (f_layer c)); [lia|]. cbn [negb andb] in M.
    assert (Ec' : nth_error l (length l - 1) = Some c) by (rewrite <- Ec; f_equal; lia).
    destruct (deepest_is e l c H Ec') as (B1 & B2 & B3 & B4).
    assert (Hno : forall g, nth_error l (S w) = Some g -> False).
    { intros g En. assert (S w < length l)%nat by (apply nth_error_Some; congruence). lia. }
    destruct (Z.of_nat (length l) =? e_nlayers e)%Z.
    + apply bind_inv in M as (o & _ & M). apply bind_inv in M as (b & _ & M). apply bind_inv in M as ([th a1] & _ & M).
      apply Ok_inj in M. apply pair_equal_spec in M as [<- _]. eexists. split; [reflexivity|]. split; [|intros _ g En; destruct (Hno g En)].
      unfold travelled. cbn. rewrite B1. do 5 (split; [reflexivity|]). rewrite B4.
      destruct (env_cum e (e_nlayers e) HE) as (z & Ez & Hz). { destruct HE. lia. }
      rewrite B3 in Ez. apply Ok_inj in Ez. rewrite Ez. apply still; assumption.
    + apply Ok_inj in M. apply pair_equal_spec in M as [<- _]. exists c. split; [symmetry; apply (lset_id _ _ _ Ec)|].
      split; [|intros _ g En; destruct (Hno g En)]. unfold travelled. rewrite B1. repeat split.
  - destruct (nth_error l (S w)) as [n|] eqn:En; [|apply nth_error_None in En; lia].
    assert (Hlt : (Z.of_nat (S w) <? Z.of_nat (length l))%Z = true) by (apply Z.ltb_lt; lia).
    replace (Z.of_nat (S w) + 1)%Z with (Z.of_nat (S (S w))) in * by lia.
    rewrite Hlt, orb_true_r in M. rewrite (find_num l (S w) (st_num _ _ H)) in M by lia. cbn [pget] in M. rewrite (proj2 (lget_Ok _ _ _) En) in M. cbn [bind andb] in M.
    destruct (Z.eqb_spec (f_layer n) (f_layer c)) as [Hlay|Hlay]; cbn [negb] in M.
    + cbn [andb bind] in M.
      assert (Hc : f_bottom c = false) by (eapply Str_above; eauto).
      apply bind_inv in M as (o & _ & M).
      destruct (f_layer c =? 1)%Z eqn:H1.
      * apply bind_inv in M as (no & _ & M). apply bind_inv in M as (col & Hcol & M). cbv zeta in M.
        destruct (_ && negb _)%bool in M.
        -- apply Ok_inj in M. apply pair_equal_spec in M as [<- _]. eexists. split; [reflexivity|]. split; [|rewrite Hc; discriminate].
           unfold travelled. cbn. rewrite Hc, H1. do 5 (split; [reflexivity|]). eauto.
        -- destruct (_ <? s_theta_r s)%d in M.
           ++ apply bind_inv in M as (m1 & _ & M). apply bind_inv in M as ([l2 ?] & _ & M). apply bind_inv in M as (m2 & _ & M). discriminate.
           ++ apply Ok_inj in M. apply pair_equal_spec in M as [<- _]. eexists. split; [reflexivity|]. split; [|rewrite Hc; discriminate].
              unfold travelled. cbn. rewrite Hc, H1. do 5 (split; [reflexivity|]). eauto.
      * apply bind_inv in M as (no & _ & M). apply bind_inv in M as (no2 & _ & M). apply bind_inv in M as (b & _ & M).
        apply bind_inv in M as ([th a1] & _ & M).
        apply Ok_inj in M. apply pair_equal_spec in M as [<- _]. eexists. split; [reflexivity|]. split; [|rewrite Hc; discriminate].
        unfold travelled. cbn. rewrite Hc, H1. do 5 (split; [reflexivity|]). reflexivity.
    + assert (Hc : f_bottom c = true) by (destruct (f_bottom c) eqn:B; [reflexivity|]; exfalso; apply Hlay; destruct (Str_next _ _ _ _ H Ec B) as (n' & En' & Q); congruence).
      apply Ok_inj in M. apply pair_equal_spec in M as [<- _]. eexists. split; [reflexivity|]. split.
      * unfold travelled. cbn. rewrite Hc. do 5 (split; [reflexivity|]). reflexivity.
      * intros _ n' E. injection E as <-. intros s' E'. cbn in *. rewrite Es in E'. apply Ok_inj in E'. subst s'. split; reflexivity.
Qed.

Lemma move_loop_travels : forall e dt precip wfd prev, sound_env e -> numbered prev -> finite dt -> forall k l aet l' aet', Str e l -> length prev = length l ->
  (k <= length l)%nat -> move_loop k e dt precip wfd prev (listLength l) l aet = Ok (l', aet') ->
  length l' = length l /\ (forall i, (k <= i)%nat -> nth_error l' i = nth_error l i) /\
  (forall i c, (i < k)%nat -> nth_error l i = Some c ->
     exists c', nth_error l' i = Some c' /\ travelled e dt c c' /\ (f_bottom c = true -> forall n, nth_error l' (S i) = Some n -> meets e c' n)).
Proof.
  intros e dt precip wfd prev HE HN Hdt. induction k as [|k IH]; intros l aet l' aet' H HL Hk M.
  - cbn in M. apply Ok_inj in M. apply pair_equal_spec in M as [<- _]. split; [reflexivity|]. split; [reflexivity|]. intros; lia.
  - cbn [move_loop] in M. apply bind_inv in M as ([l1 a1] & M1 & M).
    destruct (nth_error l k) as [c|] eqn:Ec; [|apply nth_error_None in Ec; lia].
    pose proof (move_one_ok e dt precip wfd prev k l aet HE H HN HL Hdt ltac:(lia)) as OK. rewrite M1 in OK. cbn [ends fst] in OK. destruct OK as [H1 L1].
    destruct (move_one_travels _ _ _ _ _ _ _ _ _ _ c HE H HN HL Hdt Ec M1) as (c' & -> & T & Q).
    replace (listLength l) with (listLength (lset l k c')) in M by (unfold listLength; congruence).
    destruct (IH _ _ _ _ H1 (eq_trans HL (eq_sym L1)) ltac:(lia) M) as (R1 & R2 & R3).
    split; [congruence|]. split.
    + intros i Hi. rewrite R2 by lia. apply lset_other. lia.
    + intros i d Hi Ei. destruct (Nat.eq_dec i k) as [->|Ni].
      * rewrite Ec in Ei. injection Ei as <-. exists c'. split; [rewrite R2 by lia; apply nth_error_lset_eq; lia|]. split; [exact T|].
        intros B n En. rewrite R2, lset_other in En by lia. exact (Q B n En).
      * apply R3; [lia|]. rewrite lset_other by assumption. assumption.
Qed.

Lemma loop_advances : forall e dt precip wfd prev head aet l' aet', sound_env e -> profile (e_nlayers e) (e_cum e) head -> deepest_rests head ->
  numbered prev -> length prev = length head -> finite dt ->
  move_loop (length head) e dt precip wfd prev (listLength head) head aet = Ok (l', aet') ->
  Forall2 (travelled e dt) head l' /\ heads_meet e l'.
Proof.
  intros e dt precip wfd prev head aet l' aet' HE HP HR HN HL Hdt M.
  assert (H : Str e head). { apply Str_iff; [destruct HE; lia|]. auto. }
  destruct (move_loop_travels _ _ _ _ _ HE HN Hdt _ _ _ _ _ H HL (le_n _) M) as (R1 & _ & R3). split.
  - clear - R1 R3. revert l' R1 R3. induction head as [|c r IH]; intros [|c' r'] R1 R3; try discriminate; constructor.
    + destruct (R3 0%nat c ltac:(cbn; lia) eq_refl) as (d & E & T & _). injection E as <-. assumption.
    + apply IH; [cbn in R1; lia|]. intros i d Hi Ei. destruct (R3 (S i) d ltac:(cbn; lia) Ei) as (d' & E & Q). eauto.
  - intros i c n s Ec En B Es. destruct (nth_error head i) as [d|] eqn:Ed.
    + destruct (R3 i d) as (c' & E & T & Q); [apply nth_error_Some; congruence|assumption|]. rewrite Ec in E. injection E as <-.
      apply Q; [|assumption|assumption]. destruct T as (_ & _ & T & _). congruence.
    + apply nth_error_None in Ed. assert (i < length l')%nat by (apply nth_error_Some; congruence). lia.
Qed.

End Any.
