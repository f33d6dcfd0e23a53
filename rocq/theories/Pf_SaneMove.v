(** Every routine keeps the fronts whole: no NaN in them (binary64). *)

From Coq Require Import Reals Lra ZArith List Bool Lia.
From Verif Require Import Outcome Dbl Binary64 Types ListOps Soil Fronts Infil Move State Lib Spec_Common Spec_Soil Spec_Update Spec_Profile Spec_Storage
  Spec_Physical Spec_RoundMono Spec_SatRound Spec_StartRound Spec_SaneRun Pf_Dbl Pf_Structure Pf_Repair Pf_SingleMerge Pf_RoundMono Pf_SaneBase.
Import ListNotations.
Open Scope R_scope.

Section Sane.
Local Existing Instance binary64.
Context {cfg : Cfg}.
Variables (e : env) (M : R).
Hypothesis HV : double_column M e.
Hypothesis HF : frozen_in_range e.
Notation nn a := (below (Fin 0) a).

Definition Kok (k : dbl) : Prop := exists K, k = Fin K /\ 0 <= K <= M.

(** The working form of [whole_front]. *)
Definition phys (f : front) : Prop :=
  (1 <= f_layer f <= e_nlayers e)%Z /\ nn (f_psi f) /\ (exists s, soil_of e (f_layer f) = Ok s /\ wet s (f_theta f)) /\ Kok (f_K f).

Lemma phys_iff : forall f, whole_front M e f <-> phys f.
Proof. intro f. split; [intros [A B C D]; unfold phys, Kok; auto|intros (A & B & C & D); constructor; assumption]. Qed.

Lemma phys_wet : forall f s, phys f -> soil_of e (f_layer f) = Ok s -> wet s (f_theta f).
Proof. intros f s (_ & _ & (s' & A & B) & _) E. congruence. Qed.

Lemma head_from : forall lay s th, (1 <= lay <= e_nlayers e)%Z -> soil_of e lay = Ok s -> wet s th -> nn (h_of_Se s (Se_of_theta s th)).
Proof.
  intros lay s th R E W. destruct (HV _ _ R E) as ((r & te & k & RS & He & _) & _ & ia & Ei & Hi). eapply head_unit; try eassumption. eapply wet_unit; eassumption.
Qed.

Lemma conduct_from : forall lay s th x, (1 <= lay <= e_nlayers e)%Z -> soil_of e lay = Ok s -> wet s th -> 0 <= x <= 1 ->
  Kok (K_of_Se s (Se_of_theta s th) (s_Ksat s * Fin x)%d) /\ Kok (K_of_Se s (Se_of_theta s th) (Fin x * s_Ksat s)%d) /\ Kok (K_of_Se s (Se_of_theta s th) (s_Ksat s * Fin x) * Fin x)%d.
Proof.
  intros lay s th x R E W Hx. destruct (HV _ _ R E) as ((r & te & k & RS & He & Ek & Rk & Pk) & (k' & Ek' & Lk) & _). rewrite Ek in Ek'. injection Ek' as <-.
  pose proof (wet_unit s r te th RS He W) as U. pose proof RS as (_ & _ & _ & _ & _ & _ & _ & Hm).
  destruct (K_unit s k x M ltac:(exists x; split; [reflexivity|exact Hx]) Hm ltac:(lra) Rk _ U) as (K & (K1 & K2 & K3) & K' & K4 & K5). rewrite Ek.
  split; [|split]; [exists K; auto|exists K; auto|rewrite K1; exists K'; auto].
Qed.

Lemma water_from : forall lay s h, (1 <= lay <= e_nlayers e)%Z -> soil_of e lay = Ok s -> nn h -> wet s (theta_of_h s h).
Proof. intros lay s h R E N. destruct (HV _ _ R E) as ((r & te & k & RS & _) & _). eapply content_wet; eassumption. Qed.

(** Any water content of the soil may be put into a front when its head is computed from it. *)
Lemma phys_theta : forall f f' s th, phys f -> f_layer f' = f_layer f -> f_K f' = f_K f -> soil_of e (f_layer f) = Ok s -> wet s th ->
  f_theta f' = th -> f_psi f' = h_of_Se s (Se_of_theta s th) -> phys f'.
Proof.
  intros f f' s th (H1 & H2 & H3 & H4) El EK Es W Et Ep. pose proof (head_from _ _ _ H1 Es W) as A.
  split; [congruence|]. split; [congruence|]. split; [exists s; split; congruence|congruence].
Qed.

Lemma phys_K : forall f k, phys f -> Kok k -> phys (set_K f k).
Proof. intros f k (H1 & H2 & H3 & H4) K. repeat split; cbn; auto; apply H1. Qed.

Lemma phys_but : forall f g, phys f -> f_layer g = f_layer f -> f_psi g = f_psi f -> f_theta g = f_theta f -> f_K g = f_K f -> phys g.
Proof. intros f g (H1 & H2 & (s & H3 & H5) & H4) A B C D. split; [congruence|]. split; [congruence|]. split; [exists s; split; congruence|congruence]. Qed.

Lemma phys_num : forall f k, phys f -> phys (set_num f k).
Proof. intros f k H. apply (phys_but f); auto. Qed.

Lemma phys_delete : forall num l l' q, Forall phys l -> listDeleteFront num l = Ok (l', q) -> Forall phys l'.
Proof. intros num l l' q H E. eapply delete_Forall; [|exact H|exact E]. intros f Hf. apply phys_num. exact Hf. Qed.

Lemma Forall_get : forall (P : front -> Prop) l p c, Forall P l -> lget l p = Ok c -> P c.
Proof. intros P l p c H E. apply lget_Ok in E. apply nth_error_In in E. rewrite Forall_forall in H. auto. Qed.

Lemma frozen_get : forall k x, (1 <= k <= e_nlayers e)%Z -> aget (e_frozen e) k = Ok x -> exists y, x = Fin y /\ 0 <= y <= 1.
Proof. intros k x Hk E. destruct (HF k Hk) as (y & Ey & By). exists y. split; [congruence|assumption]. Qed.

(** Head and conductivity recomputed from the water content. *)
Lemma phys_refresh : forall f f' s x, phys f -> soil_of e (f_layer f) = Ok s -> aget (e_frozen e) (f_layer f) = Ok x ->
  f_layer f' = f_layer f -> f_theta f' = f_theta f -> f_psi f' = h_of_Se s (Se_of_theta s (f_theta f)) ->
  (f_K f' = K_of_Se s (Se_of_theta s (f_theta f)) (s_Ksat s * x)%d \/ f_K f' = K_of_Se s (Se_of_theta s (f_theta f)) (x * s_Ksat s)%d) -> phys f'.
Proof.
  intros f f' s x H Es Ex El Et Ep EK. pose proof (phys_wet f s H Es) as W.
  pose proof H as (H1 & _). destruct (frozen_get _ _ H1 Ex) as (y & -> & By). destruct (conduct_from _ s _ y H1 Es W By) as (K1 & K2 & _).
  pose proof (head_from _ s _ H1 Es W) as A. split; [congruence|]. split; [congruence|]. split; [exists s; split; congruence|].
  destruct EK as [-> | ->]; assumption.
Qed.

(** ** Merging *)

Lemma merge_step_phys : forall p l l', Forall phys l -> merge_step e p l = Ok l' -> Forall phys l'.
Proof.
  intros p l l' H E. unfold merge_step in E. bind_inv E c Ec. bind_inv E n En. destruct (_ && _ && _)%bool; [|apply Ok_inj in E; subst; assumption].
  bind_inv E nxx Enn. cbv zeta in E. bind_inv E u Eu. bind_inv E s Es. bind_inv E ff Ef. bind_inv E x Ex. destruct x as [l1 q]. apply Ok_inj in E. subst l1.
  eapply phys_delete; [|exact Ex]. apply Forall_lset; [assumption|].
  eapply (phys_refresh c); try eassumption; try reflexivity; [eapply Forall_get; eassumption|left; reflexivity].
Qed.

Lemma merge_loop_phys : forall k p l l', Forall phys l -> merge_loop k e p l = Ok l' -> Forall phys l'.
Proof.
  induction k as [|k IH]; intros p l l' H E; cbn [merge_loop] in E; [discriminate|]. destruct (_ =? _)%Z; [apply Ok_inj in E; subst; assumption|].
  bind_inv E l1 Q1. eapply IH; [|exact E]. eapply merge_step_phys; eassumption.
Qed.
Lemma merge_phys : forall l l', Forall phys l -> lgar_merge_wetting_fronts e l = Ok l' -> Forall phys l'.
Proof. intros l l'. apply merge_loop_phys. Qed.

(** ** Crossing *)

Lemma cross_step_phys : forall p l l', Forall phys l -> cross_step e p l = Ok l' -> Forall phys l'.
Proof.
  intros p l l' H E. unfold cross_step in E. bind_inv E c Ec. bind_inv E s Es. bind_inv E ff Ef. cbv zeta in E. bind_inv E n En. bind_inv E ck Eck.
  destruct (_ && _ && _)%bool eqn:C; [|apply Ok_inj in E; subst; assumption]. apply andb_prop in C as [_ C]. apply negb_true_iff, Z.eqb_neq in C.
  bind_inv E s2 Es2. bind_inv E nxx Enn. bind_inv E ck1 Eck1. apply Ok_inj in E. subst l'.
  assert (Pc : phys c) by (eapply Forall_get; eassumption). assert (Pn : phys n) by (eapply Forall_get; eassumption).
  assert (P1 : phys (mkF ck (f_theta c) (h_of_Se s (Se_of_theta s (f_theta c))) (K_of_Se s (Se_of_theta s (f_theta c)) (s_Ksat s * ff)%d) (f_layer c) (f_num c) true (Fin 0))).
  { eapply (phys_refresh c); try eassumption; try reflexivity. left. reflexivity. }
  apply Forall_lset; [apply Forall_lset; assumption|].
  destruct P1 as (_ & P1 & _). cbn [f_psi] in P1. destruct Pc as (Rc & _). destruct Pn as (_ & _ & _ & Kn).
  split; [cbn; lia|]. split; [exact P1|]. split; [|exact Kn].
  exists s2. split; [exact Es2|]. cbn [f_theta]. eapply water_from; [|exact Es2|exact P1]. lia.
Qed.

Lemma cross_loop_phys : forall k p l l', Forall phys l -> cross_loop k e p l = Ok l' -> Forall phys l'.
Proof.
  induction k as [|k IH]; intros p l l' H E; cbn [cross_loop] in E; [discriminate|]. destruct (_ =? _)%Z; [apply Ok_inj in E; subst; assumption|].
  bind_inv E l1 Q1. eapply IH; [|exact E]. eapply cross_step_phys; eassumption.
Qed.
Lemma cross_phys : forall l l', Forall phys l -> lgar_wetting_fronts_cross_layer_boundary e l = Ok l' -> Forall phys l'.
Proof. intros l l'. apply cross_loop_phys. Qed.

(** ** The bottom of the column: the front above the last one lies in the same layer *)

Hypothesis HE : sound_env e.

Lemma domain_loop_phys : forall D, aget (e_cum e) (e_nlayers e) = Ok D -> forall k p l fl l', Str e l -> Forall phys l ->
  domain_loop k e D p l = Ok (fl, l') -> Forall phys l'.
Proof.
  intros D ED. induction k as [|k IH]; intros p l fl l' HS H E; cbn [domain_loop] in E; [congruence|].
  destruct (_ >=? _)%Z; [congruence|]. bind_inv E c Ec. bind_inv E t Et. bind_inv E n En.
  destruct (nth_error l (S (S p))) as [nxx|] eqn:Enn; [eapply IH; eassumption|].
  destruct (f_depth c >=? D)%d eqn:C; [|eapply IH; eassumption].
  cbv zeta in E. bind_inv E s Es. bind_inv E ff Ef. bind_inv E x Ex. destruct x as [l1 q]. apply Ok_inj in E. apply pair_equal_spec in E as [_ <-].
  assert (Pc : phys c) by (eapply Forall_get; eassumption). pose proof En as En'. pose proof Ec as Ec'. apply lget_Ok in En', Ec'.
  assert (EL : f_layer n = f_layer c).
  { destruct (f_bottom c) eqn:B.
    - exfalso. destruct (Str_bottom _ _ _ _ HS Ec' B) as [B1 B2]. rewrite En' in B2. pose proof (Str_range _ _ _ _ HS En') as Rn. pose proof (Str_range _ _ _ _ HS Ec') as Rc.
      destruct (env_cum e (e_nlayers e) HE ltac:(lia)) as (z & Ez & _). destruct (env_cum e (f_layer c) HE ltac:(lia)) as (z' & Ez' & _).
      pose proof (cum_mono e HE (f_layer c) (e_nlayers e) z' z ltac:(lia) ltac:(lia) Ez' Ez) as L.
      rewrite Ez in ED. apply Ok_inj in ED. subst D. rewrite B1 in Ez'. apply Ok_inj in Ez'. rewrite Ez' in C.
      unfold dgeb, dleb, Rleb in C. destruct (Rle_dec z z'); [lra|discriminate].
    - destruct (Str_next _ _ _ _ HS Ec' B) as (n0 & E0 & L0). congruence. }
  assert (Es' : soil_of e (f_layer c) = Ok s) by (unfold soil_of; rewrite Et; exact Es).
  eapply phys_delete; [|exact Ex]. apply Forall_lset; [assumption|].
  eapply (phys_refresh c); try eassumption; try reflexivity. left. reflexivity.
Qed.
Lemma domain_phys : forall D l fl l', aget (e_cum e) (e_nlayers e) = Ok D -> Str e l -> Forall phys l ->
  lgar_wetting_front_cross_domain_boundary e D l = Ok (fl, l') -> Forall phys l'.
Proof.
  intros D l fl l' ED HS H E. unfold lgar_wetting_front_cross_domain_boundary in E. destruct l; [congruence|]. eapply domain_loop_phys; eassumption.
Qed.

(** ** Repair *)

Lemma fix_above_phys : forall k psi l l', nn psi -> Forall phys l -> fix_above e k psi l = Ok l' -> Forall phys l'.
Proof.
  intros k psi l. induction l as [|c r IH]; intros l' Hp H E; cbn [fix_above] in E; [discriminate|]. destruct (f_layer c <? k)%Z; [|congruence].
  bind_inv E s Es. bind_inv E r' Er. apply Ok_inj in E. subst l'. inversion H as [|x y (R1 & R2 & R3 & R4) Hr]; subst. constructor; [|eauto].
  split; [exact R1|]. split; [exact Hp|]. split; [|exact R4]. exists s. split; [exact Es|]. cbn [f_theta set_psi set_theta]. eapply water_from; eassumption.
Qed.

Lemma fix_pair_phys : forall c l l' q d, Forall phys l -> fix_pair e c l = Ok (l', q, d) -> Forall phys l'.
Proof.
  intros c l l' q d H E. unfold fix_pair in E. cbv zeta in E. bind_inv E m Em. bind_inv E x Ex. destruct x as [l1 succ]. destruct succ as [q'|]; [|discriminate].
  bind_inv E l2 Q2. bind_inv E m2 Em2. apply Ok_inj in E. injection E as <- _ _. assert (H1 : Forall phys l1) by (eapply phys_delete; eassumption).
  destruct (_ >? _)%Z; [|apply Ok_inj in Q2; congruence]. bind_inv Q2 cur Ecur. bind_inv Q2 s Es.
  assert (Pc : phys cur) by (eapply Forall_get; eassumption). pose proof (phys_wet _ _ Pc Es) as W.
  pose proof Pc as (Rc & _). pose proof (head_from _ s _ Rc Es W) as A.
  eapply fix_above_phys; [exact A| |exact Q2]. apply Forall_lset; [assumption|].
  eapply (phys_theta cur); try eassumption; reflexivity.
Qed.

Lemma fix_loop_phys : forall k i p l mc l' mc', Forall phys l -> fix_loop k e i p l mc = Ok (l', mc') -> Forall phys l'.
Proof.
  induction k as [|k IH]; intros i p l mc l' mc' H E; cbn [fix_loop] in E; [discriminate|]. destruct (_ <=? _)%Z; [|congruence].
  destruct (nth_error l p) as [c|]; [|congruence]. destruct (nth_error l (S p)) as [n|]; [|congruence].
  destruct (dry_over_wet c n); [|eapply IH; eassumption]. bind_inv E x Ex. destruct x as [[l1 q] dm]. eapply IH; [|exact E]. eapply fix_pair_phys; eassumption.
Qed.
Lemma check_and_fix_phys : forall l mc l' mc', Forall phys l -> check_and_fix e l mc = Ok (l', mc') -> Forall phys l'.
Proof.
  intros l mc l' mc' H E. unfold check_and_fix in E. bind_inv E b Eb. destruct b; [|congruence]. unfold lgar_fix_dry_over_wet_wetting_fronts in E.
  destruct l; [discriminate|]. eapply fix_loop_phys; eassumption.
Qed.

(** ** Motion *)

Lemma within_wet : forall s r te t, rounded_soil s r te -> r <= t <= te -> wet s (Fin t).
Proof. intros s r te t (Er & Ee & _) H. exists r, te, t. split; [assumption|]. split; [assumption|]. split; [reflexivity|]. split; [split; [lra|left; lra]|lra]. Qed.
Lemma clamp_range : forall lay s x, (1 <= lay <= e_nlayers e)%Z -> soil_of e lay = Ok s -> wet s (clamp_theta s x).
Proof.
  intros lay s x R E. destruct (HV _ _ R E) as ((r & te & k & RS & _) & _). assert (Q : exists t, clamp_theta s x = Fin t /\ r <= t <= te).
  { pose proof RS as (Er & Ee & B & _). unfold clamp_theta. rewrite Er, Ee. unfold dfmax, dfmin.
    destruct x; cbn; unfold Rltb; repeat (destruct (Rlt_dec _ _); cbn); eexists; (split; [reflexivity|lra]). }
  destruct Q as (t & -> & B). eapply within_wet; eassumption.
Qed.
Lemma clamp_range2 : forall lay s x, (1 <= lay <= e_nlayers e)%Z -> soil_of e lay = Ok s -> wet s (dfmax (s_theta_r s) (dfmin (s_theta_e s) x)).
Proof.
  intros lay s x R E. destruct (HV _ _ R E) as ((r & te & k & RS & _) & _). assert (Q : exists t, dfmax (s_theta_r s) (dfmin (s_theta_e s) x) = Fin t /\ r <= t <= te).
  { pose proof RS as (Er & Ee & B & _). rewrite Er, Ee. unfold dfmax, dfmin.
    destruct x; cbn; unfold Rltb; repeat (destruct (Rlt_dec _ _); cbn); eexists; (split; [reflexivity|lra]). }
  destruct Q as (t & -> & B). eapply within_wet; eassumption.
Qed.

Lemma balance_clamped : forall lay s po p blw prior newm a b add aet th aet', balance_theta e lay s po p blw prior newm a b add aet = Ok (th, aet') ->
  exists x, th = clamp_theta s x.
Proof.
  intros lay s po p blw prior newm a b add aet th aet' E. unfold balance_theta in E. cbv zeta in E. bind_inv E x Ex. destruct x as [[[p1 n1] dth] dz].
  bind_inv E dth2 Q2. bind_inv E dz2 Q3. bind_inv E y Ey. destruct y as [th1 a1]. apply Ok_inj in E. apply pair_equal_spec in E as [<- _]. eauto.
Qed.

Lemma move_one_phys : forall dt precip wfd prev nf wf l aet l' aet', Forall phys l ->
  move_one e dt precip wfd prev nf wf l aet = Ok (l', aet') -> Forall phys l'.
Proof.
  intros dt precip wfd prev nf wf l aet l' aet' H E. unfold move_one in E. cbv zeta in E.
  set (pn := if (_ || _)%bool then _ else _) in E. clearbody pn.
  destruct (findFrontOld wf l prev) as [lo po]. destruct (findFrontOld (wf + 1) l prev) as [lno pno].
  destruct (findFront wf l) as [p|]; [|discriminate]. bind_inv E c Ec. bind_inv E s Es. bind_inv E u Eu. clear u Eu. bind_inv E blw Eb.
  assert (Pc : phys c) by (eapply Forall_get; eassumption).
  pose proof Pc as (Rc & Hc & _ & Kc).
  assert (CL : forall f th, f_layer f = f_layer c -> f_K f = f_K c -> wet s th ->
    Forall phys (lset l p (set_psi (set_theta f th) (h_of_Se s (Se_of_theta s th))))).
  { intros f th Q1 Q2 W. apply Forall_lset; [assumption|]. eapply (phys_theta c); try eassumption; reflexivity. }
  destruct (_ && _)%bool; [|destruct (_ && _ && _)%bool; [|destruct (_ && _)%bool; [|congruence]]].
  - bind_inv E n En. apply Ok_inj in E. apply pair_equal_spec in E as [<- _]. apply Forall_lset; [assumption|].
    assert (Pn : phys n) by (destruct pn as [i|]; [eapply Forall_get; eassumption|discriminate]). destruct Pn as (_ & Hn & _ & _).
    split; [exact Rc|]. split; [exact Hn|]. split; [|exact Kc]. exists s. split; [exact Es|]. cbn [f_theta set_psi set_theta set_depth]. eapply water_from; eassumption.
  - bind_inv E o Eo. bind_inv E base Ebase. bind_inv E x Ex. destruct x as [th a1]. apply Ok_inj in E. apply pair_equal_spec in E as [<- _].
    apply CL; [reflexivity|reflexivity|]. apply balance_clamped in Ex as [x ->]. eapply clamp_range; eassumption.
  - bind_inv E n En. bind_inv E o Eo. destruct (f_layer c =? 1)%Z.
    + bind_inv E no Eno. bind_inv E column Ecol. cbn [f_dzdt f_bottom f_theta f_num set_depth] in E.
      destruct (_ && _)%bool.
      * apply Ok_inj in E. apply pair_equal_spec in E as [<- _]. pose proof (phys_wet _ _ Pc Es) as W.
        apply Forall_lset; [assumption|]. eapply (phys_theta c); try eassumption; try reflexivity.
      * destruct (_ <? _)%d.
        -- bind_inv E m1 Em1. bind_inv E x Ex. destruct x as [l1 q]. bind_inv E m2 Em2. discriminate.
        -- apply Ok_inj in E. apply pair_equal_spec in E as [<- _]. apply CL; [reflexivity|reflexivity|]. eapply clamp_range2; eassumption.
    + bind_inv E no' Eno'. bind_inv E no Eno. bind_inv E base Ebase. bind_inv E x Ex. destruct x as [th a1]. apply Ok_inj in E. apply pair_equal_spec in E as [<- _].
      apply CL; [reflexivity|reflexivity|]. apply balance_clamped in Ex as [x ->]. eapply clamp_range; eassumption.
Qed.

Lemma move_loop_phys : forall dt precip wfd prev nf k l aet l' aet', Forall phys l ->
  move_loop k e dt precip wfd prev nf l aet = Ok (l', aet') -> Forall phys l'.
Proof.
  intros dt precip wfd prev nf. induction k as [|k IH]; intros l aet l' aet' H E; cbn [move_loop] in E; [congruence|].
  bind_inv E x Ex. destruct x as [l1 a1]. eapply IH; [|exact E]. eapply move_one_phys; eassumption.
Qed.

Lemma closure_loop_phys : forall k p target l mass err factor dn sw aug iter l' err' g, Forall phys l ->
  closure_loop k e p target l mass err factor dn sw aug iter = Ok (l', err', g) -> Forall phys l'.
Proof.
  induction k as [|k IH]; intros p target l mass err factor dn sw aug iter l' err' g H E; cbn [closure_loop] in E; (destruct (_ >? _)%d; [|congruence]); [congruence|].
  cbv zeta in E. destruct (if (mass <? target)%d then _ else _) as [[dn1 sw1] fa1]. bind_inv E g0 Ef. bind_inv E d Ed. bind_inv E m Em.
  eapply IH; [|exact E]. apply Forall_lset; [assumption|]. eapply (phys_but g0); try reflexivity. eapply Forall_get; eassumption.
Qed.

Lemma closure_phys : forall old precip l aet l' aet' fl, Forall phys l -> closure e old precip l aet = Ok (l', aet', fl) -> Forall phys l'.
Proof.
  intros old precip l aet l' aet' fl H E. unfold closure in E. bind_inv E l1 Q1. cbv zeta in E. bind_inv E s Es. bind_inv E u Eu.
  assert (H1 : Forall phys l1) by (eapply cross_phys; eassumption). destruct (findFront _ l1) as [p|]; [|discriminate]. bind_inv E g0 Ef.
  destruct (_ <? _)%d; [|congruence]. bind_inv E m Em. bind_inv E x Ex. destruct x as [[l2 err] g].
  assert (H2 : Forall phys l2) by (eapply closure_loop_phys; eassumption). destruct g; [|congruence]. bind_inv E m2 Em2. congruence.
Qed.

Lemma refresh_phys : forall l l', Forall phys l -> refresh_psi e l = Ok l' -> Forall phys l'.
Proof.
  induction l as [|c r IH]; intros l' H E; cbn [refresh_psi] in E; [discriminate|]. destruct r as [|n r]; [congruence|].
  bind_inv E c' Ec. bind_inv E r' Er. apply Ok_inj in E. subst l'. inversion H as [|x y Hc Hr]; subst. constructor; [|eauto].
  destruct (_ >? _)%d; [|apply Ok_inj in Ec; congruence]. bind_inv Ec s Es. bind_inv Ec ff Ef. cbv zeta in Ec. apply Ok_inj in Ec. subst c'.
  eapply (phys_refresh c); try eassumption; try reflexivity. right. reflexivity.
Qed.

Lemma fix_single_phys : forall l l', Forall phys l -> fix_single e l = Ok l' -> Forall phys l'.
Proof.
  intros l l' H E. unfold fix_single in E. destruct l as [|c [|]]; [congruence| |congruence]. bind_inv E d Ed. apply Ok_inj in E. subst l'.
  inversion H; subst. constructor; [|constructor]. destruct (_ <>? _)%d; [|assumption]. apply (phys_but c); auto.
Qed.

(** The phases in order; the structure is needed only at the bottom of the column. *)
Lemma merge_phases_phys : forall l l' fl mc, Str e l -> Forall phys l -> ~ (exists l2 mc2 l3, check_and_fix e l (Fin 0) = Ok (l2, mc2) /\
    lgar_merge_wetting_fronts e l2 = Ok l3 /\ cross_tie e l3) -> merge_phases e l = Ok (l', fl, mc) -> Forall phys l'.
Proof.
  intros l l' fl mc HS H HT E. unfold merge_phases in E. bind_inv E x1 Q1. destruct x1 as [l1 mc1]. bind_inv E l2 Q2. bind_inv E l3 Q3.
  bind_inv E x4 Q4. destruct x4 as [l4 mc4]. bind_inv E l5 Q5. bind_inv E D ED. bind_inv E x6 Q6. destruct x6 as [fl6 l6]. bind_inv E x7 Q7. destruct x7 as [l7 mc7].
  apply Ok_inj in E. injection E as <- _ _.
  assert (P1 : Forall phys l1) by (eapply check_and_fix_phys; eassumption). assert (P2 : Forall phys l2) by (eapply merge_phys; eassumption).
  assert (P3 : Forall phys l3) by (eapply cross_phys; eassumption). assert (P4 : Forall phys l4) by (eapply check_and_fix_phys; eassumption).
  assert (P5 : Forall phys l5) by (eapply merge_phys; eassumption).
  destruct (check_and_fix_ok e l (Fin 0) HE HS) as (y1 & z1 & F1 & S1). rewrite Q1 in F1. apply Ok_inj in F1. apply pair_equal_spec in F1 as [<- _].
  pose proof (ends_Ok _ _ _ _ _ (merge_ok e l1 HE S1) Q2) as S2. cbn beta in S2.
  assert (T2 : ~ cross_tie e l2) by (intro T; apply HT; exists l1, mc1, l2; auto).
  destruct (cross_ok e l2 HE ltac:(tauto) T2) as (y3 & F3 & S3). rewrite Q3 in F3. apply Ok_inj in F3. subst y3.
  destruct (check_and_fix_ok e l3 mc1 HE ltac:(tauto)) as (y4 & z4 & F4 & S4). rewrite Q4 in F4. apply Ok_inj in F4. apply pair_equal_spec in F4 as [<- _].
  pose proof (ends_Ok _ _ _ _ _ (merge_ok e l4 HE S4) Q5) as S5. cbn beta in S5.
  eapply check_and_fix_phys; [|exact Q7]. eapply domain_phys; [exact ED| |exact P5|exact Q6]. tauto.
Qed.

End Sane.
