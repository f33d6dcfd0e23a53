(** The frozen factors reach the conductivity of the fronts only. *)

From Coq Require Import Reals ZArith List Bool Lia.
From Verif Require Import Outcome Dbl Types ListOps Soil Fronts Infil Move Lib Spec_Frost.
Import ListNotations.

Definition rK (f g : front) : Prop := g = set_K f (f_K g).
Lemma rK_but : forall f g, rK f g <-> but_K f g.
Proof. intros [? ? ? ? ? ? ? ?] [? ? ? ? ? ? ? ?]. unfold rK, but_K, set_K. cbn. split; [intro H; injection H; intuition congruence|intros (-> & -> & -> & -> & -> & -> & ->); reflexivity]. Qed.
Lemma rK_list : forall l m, Forall2 rK l m <-> same_but_K l m.
Proof. intros. split; induction 1; constructor; try (apply rK_but; assumption); assumption. Qed.

Lemma alike_bind : forall {A B C D} (R : A -> B -> Prop) (S : C -> D -> Prop) x y f g, alike R x y -> (forall a b, R a b -> alike S (f a) (g b)) -> alike S (bind x f) (bind y g).
Proof. intros A B C D R S [a|r] [b|r'] f g H K; cbn in *; try contradiction; [apply K; exact H|exact H]. Qed.
Lemma alike_eq : forall {A} (x : outcome A), alike eq x x.
Proof. intros A [a|r]; reflexivity. Qed.

Section Lists.
Notation L := (Forall2 rK).

Lemma L_length : forall l m, L l m -> length l = length m. Proof. induction 1; cbn; auto. Qed.
Lemma L_len : forall l m, L l m -> listLength l = listLength m. Proof. intros. unfold listLength. erewrite L_length; eauto. Qed.
Lemma L_nth : forall l m i, L l m -> match nth_error l i, nth_error m i with Some f, Some g => rK f g | None, None => True | _, _ => False end.
Proof. intros l m i H. revert i. induction H; intros [|i]; cbn; try exact I; [assumption|apply IHForall2]. Qed.
Lemma L_get : forall l m i, L l m -> alike rK (lget l i) (lget m i).
Proof. intros l m i H. unfold lget. pose proof (L_nth l m i H). destruct (nth_error l i), (nth_error m i); cbn; auto. Qed.
Lemma L_set : forall l m i f g, L l m -> rK f g -> L (lset l i f) (lset m i g).
Proof. intros l m i f g H. revert i. induction H; intros [|i] K; cbn; constructor; auto. Qed.
Lemma rK_num : forall f g, rK f g -> f_num f = f_num g. Proof. intros f g ->. reflexivity. Qed.
Lemma L_pos : forall k l m, L l m -> pos_of k l = pos_of k m.
Proof. induction 1 as [|f g l m F H IH]; cbn; [reflexivity|]. rewrite (rK_num _ _ F), IH. reflexivity. Qed.
Lemma L_bump : forall d l m, L l m -> L (bump d l) (bump d m).
Proof. induction 1 as [|f g l m F H IH]; cbn; constructor; [|exact IH]. rewrite F. reflexivity. Qed.
Lemma L_firstn : forall i l m, L l m -> L (firstn i l) (firstn i m).
Proof. intros i l m H. revert i. induction H; intros [|i]; cbn; constructor; auto. Qed.
Lemma L_skipn : forall i l m, L l m -> L (skipn i l) (skipn i m).
Proof. intros i l m H. revert i. induction H; intros [|i]; cbn; auto. Qed.
Lemma L_delete : forall k l m, L l m -> alike (fun x y => L (fst x) (fst y) /\ snd x = snd y) (listDeleteFront k l) (listDeleteFront k m).
Proof.
  intros k l m H. unfold listDeleteFront. rewrite (L_pos k l m H). destruct (pos_of k m) as [i|]; [|reflexivity]. cbv zeta.
  assert (X : L (firstn i l ++ bump (-1) (skipn (S i) l)) (firstn i m ++ bump (-1) (skipn (S i) m))) by (apply Forall2_app; [apply L_firstn|apply L_bump, L_skipn]; exact H).
  cbn [alike fst snd]. split; [exact X|]. rewrite (L_length _ _ X). reflexivity.
Qed.
End Lists.

Section Env.
Context {fp : Fp} {cfg : Cfg}.
Variables (nl : Z) (cum : list dbl) (st : list (option Z)) (so : list (option soil)) (fr fr' : list dbl).
Hypothesis FL : length fr = length fr'.
Let e := mkEnv nl cum st so fr.
Let e' := mkEnv nl cum st so fr'.
Notation L := (Forall2 rK).

Lemma F_frozen : forall i, alike (fun _ _ : dbl => True) (aget fr i) (aget fr' i).
Proof.
  intros i. unfold aget. destruct (i <? 0)%Z; [reflexivity|]. destruct (nth_error fr (Z.to_nat i)) eqn:E, (nth_error fr' (Z.to_nat i)) eqn:E'; cbn; auto.
  - apply nth_error_None in E'. assert (Z.to_nat i < length fr)%nat by (apply nth_error_Some; congruence). lia.
  - apply nth_error_None in E. assert (Z.to_nat i < length fr')%nat by (apply nth_error_Some; congruence). lia.
Qed.

(** One step in two programs at once. *)
Ltac rk := match goal with H : rK ?f ?g |- _ => let k := fresh "k" in unfold rK in H; set (k := f_K g) in H; clearbody k; subst g end.
Ltac close := solve [ reflexivity | exact I | assumption | (constructor; close) | (apply L_set; close) | (split; close) ].
Ltac red' := cbn [f_depth f_theta f_psi f_layer f_num f_bottom f_dzdt set_K set_depth set_theta set_psi set_bottom set_num set_dzdt set_layer e_nlayers e_cum e_stype e_soils e_frozen e e' fst snd] in *.
Ltac step := first
  [ apply (alike_bind eq); [apply alike_eq | let x := fresh "x" in intros x ? <-; red']
  | apply (alike_bind (fun _ _ : dbl => True)); [apply F_frozen | let x := fresh "ff" in let y := fresh "ff'" in intros x y _; red']
  | apply (alike_bind rK); [apply L_get; close | let x := fresh "c" in let y := fresh "c'" in intros x y ?; rk; red']
  | match goal with |- alike _ (if ?b then _ else _) (if ?b then _ else _) => destruct b end ].
Ltac fin := cbn [alike fst snd]; close.

Lemma F_mass : forall l m, L l m -> forall c s, mass_loop c l s = mass_loop c m s.
Proof.
  induction 1 as [|f g l m F H IH]; intros c s; [reflexivity|]. rk. cbn [mass_loop]. red'. destruct (aget c (f_layer f - 1)) as [b|]; [|reflexivity]. cbn [bind].
  destruct H as [|f1 g1 l m F1 H]; [reflexivity|]. rk. red'. apply IH.
Qed.
Lemma F_bal : forall l m c, L l m -> lgar_calc_mass_bal c l = lgar_calc_mass_bal c m. Proof. intros. apply F_mass. assumption. Qed.
Lemma F_drain : forall l m, L l m -> forall w, free_drainage_loop l w = free_drainage_loop m w.
Proof.
  induction 1 as [|f g l m F H IH]; intros w; [reflexivity|]. rk. cbn [free_drainage_loop]. destruct H as [|f1 g1 l m F1 H]; [reflexivity|]. rk. red'. destruct (_ =? _)%Z; [reflexivity|apply IH].
Qed.
Lemma F_wfd : forall l m, L l m -> wetting_front_free_drainage l = wetting_front_free_drainage m.
Proof. intros l m H. unfold wetting_front_free_drainage. rewrite (F_drain _ _ H), (L_len _ _ H). reflexivity. Qed.

Lemma F_merge_step : forall p l m, L l m -> alike L (merge_step e p l) (merge_step e' p m).
Proof.
  intros p l m H. unfold merge_step. step. step. step; [|fin]. step. step. step. step.
  apply (alike_bind (fun x y => L (fst x) (fst y) /\ snd x = snd y)); [apply L_delete; close|]. intros [? ?] [? ?] [? ?]. fin.
Qed.
Lemma F_merge_loop : forall k p l m, L l m -> alike L (merge_loop k e p l) (merge_loop k e' p m).
Proof.
  induction k as [|k IH]; intros p l m H; cbn [merge_loop]; [reflexivity|]. rewrite (L_len _ _ H). step; [fin|]. apply (alike_bind L); [apply F_merge_step; exact H|]. intros. apply IH. assumption.
Qed.
Lemma F_merge : forall l m, L l m -> alike L (lgar_merge_wetting_fronts e l) (lgar_merge_wetting_fronts e' m).
Proof. intros l m H. unfold lgar_merge_wetting_fronts. rewrite (L_length _ _ H). apply F_merge_loop, H. Qed.
Lemma F_cross_step : forall p l m, L l m -> alike L (cross_step e p l) (cross_step e' p m).
Proof. intros p l m H. unfold cross_step. step. step. step. step. step. step; [|fin]. step. step. step. fin. Qed.
Lemma F_cross_loop : forall k p l m, L l m -> alike L (cross_loop k e p l) (cross_loop k e' p m).
Proof.
  induction k as [|k IH]; intros p l m H; cbn [cross_loop]; [reflexivity|]. rewrite (L_len _ _ H). step; [fin|]. apply (alike_bind L); [apply F_cross_step; exact H|]. intros. apply IH. assumption.
Qed.
Lemma F_cross : forall l m, L l m -> alike L (lgar_wetting_fronts_cross_layer_boundary e l) (lgar_wetting_fronts_cross_layer_boundary e' m).
Proof. intros l m H. unfold lgar_wetting_fronts_cross_layer_boundary. rewrite (L_length _ _ H). apply F_cross_loop, H. Qed.
Notation RL := (fun x y => fst x = fst y /\ L (snd x) (snd y)).
Notation LR := (fun x y => L (fst x) (fst y) /\ snd x = snd y).
Lemma F_domain_loop : forall k d p l m, L l m -> alike RL (domain_loop k e d p l) (domain_loop k e' d p m).
Proof.
  induction k as [|k IH]; intros d p l m H; cbn [domain_loop]; [fin|]. rewrite (L_len _ _ H). step; [fin|]. step. step. step.
  pose proof (L_nth l m (S (S p)) H) as N. destruct (nth_error l (S (S p))), (nth_error m (S (S p))); try contradiction; [apply IH; exact H|]. step; [|apply IH; exact H].
  step. step. apply (alike_bind LR); [apply L_delete; close|]. intros [? ?] [? ?] [? ?]. fin.
Qed.
Lemma F_domain : forall d l m, L l m -> alike RL (lgar_wetting_front_cross_domain_boundary e d l) (lgar_wetting_front_cross_domain_boundary e' d m).
Proof.
  intros d l m H. unfold lgar_wetting_front_cross_domain_boundary. rewrite (L_length _ _ H). destruct H as [|f g l m F H]; [fin|]. apply F_domain_loop. close.
Qed.
Lemma F_fix_above : forall k psi l m, L l m -> alike L (fix_above e k psi l) (fix_above e' k psi m).
Proof.
  induction 1 as [|f g l m F H IH]; cbn [fix_above]; [reflexivity|]. rk. red'. step; [|fin]. step. apply (alike_bind L); [exact IH|]. intros. fin.
Qed.
Lemma F_fix_pair : forall c g l m, rK c g -> L l m -> alike (fun x y => L (fst (fst x)) (fst (fst y)) /\ snd (fst x) = snd (fst y) /\ snd x = snd y) (fix_pair e c l) (fix_pair e' g m).
Proof.
  intros c g l m F H. rk. unfold fix_pair. red'. rewrite (F_bal _ _ cum H). step. apply (alike_bind LR); [apply L_delete; close|]. intros [l1 q] [m1 q'] [H1 Q]. red'. subst q'. destruct q as [q|]; [|reflexivity].
  apply (alike_bind L). { step; [|fin]. step. step. apply F_fix_above. close. }
  intros l2 m2 H2. rewrite (F_bal _ _ cum H2). step. fin.
Qed.
Lemma F_fix_loop : forall k i p l m mc, L l m -> alike LR (fix_loop k e i p l mc) (fix_loop k e' i p m mc).
Proof.
  induction k as [|k IH]; intros i p l m mc H; cbn [fix_loop]; [reflexivity|]. rewrite (L_len _ _ H). step; [|fin].
  pose proof (L_nth l m p H) as N. destruct (nth_error l p) as [c|], (nth_error m p) as [c'|]; try contradiction; [|fin].
  pose proof (L_nth l m (S p) H) as N'. destruct (nth_error l (S p)) as [n|], (nth_error m (S p)) as [n'|]; try contradiction; [|fin].
  assert (D : dry_over_wet c n = dry_over_wet c' n') by (rewrite N, N'; reflexivity). rewrite D. step; [|apply IH; exact H].
  apply (alike_bind _ _ _ _ _ _ (F_fix_pair _ _ _ _ N H)). intros [[l1 q] dm] [[m1 q'] dm'] (H1 & Q & E). red'. subst. apply IH. exact H1.
Qed.
Lemma F_fix : forall mc l m, L l m -> alike LR (lgar_fix_dry_over_wet_wetting_fronts e mc l) (lgar_fix_dry_over_wet_wetting_fronts e' mc m).
Proof. intros mc l m H. unfold lgar_fix_dry_over_wet_wetting_fronts. rewrite (L_length _ _ H). destruct H; [reflexivity|]. apply F_fix_loop. close. Qed.
Lemma F_check_dry : forall l m, L l m -> check_dry l = check_dry m.
Proof. induction 1 as [|f g l m F H IH]; [reflexivity|]. cbn [check_dry]. destruct H as [|f1 g1 l m F1 H]; [reflexivity|]. assert (D : dry_over_wet f f1 = dry_over_wet g g1) by (rewrite F, F1; reflexivity). rewrite D, IH. reflexivity. Qed.

Lemma F_masses : masses_above e = masses_above e'. Proof. reflexivity. Qed.
Lemma F_tmb_loop : forall k, tmb_loop k e = tmb_loop k e'.
Proof. induction k as [|k IH]; [reflexivity|]. cbn [tmb_loop]. rewrite IH. reflexivity. Qed.
Lemma F_tmb : lgar_theta_mass_balance e = lgar_theta_mass_balance e'. Proof. unfold lgar_theta_mass_balance. rewrite F_tmb_loop. reflexivity. Qed.
Lemma F_balance : balance_theta e = balance_theta e'. Proof. unfold balance_theta. rewrite F_tmb. reflexivity. Qed.
Lemma L_pget : forall l m p, L l m -> alike rK (pget l p) (pget m p).
Proof. intros l m [i|] H; cbn; [apply L_get; exact H|reflexivity]. Qed.

Lemma F_move_one : forall dt precip wfd prev prev' nf wf l m aet, L l m -> L prev prev' -> alike LR (move_one e dt precip wfd prev nf wf l aet) (move_one e' dt precip wfd prev' nf wf m aet).
Proof.
  intros dt precip wfd prev prev' nf wf l m aet H HP. unfold move_one. unfold findFront. rewrite !(fun k => L_pos k l m H).
  assert (O : forall k, L (fst (findFrontOld k l prev)) (fst (findFrontOld k m prev')) /\ snd (findFrontOld k l prev) = snd (findFrontOld k m prev')).
  { intro k. unfold findFrontOld. pose proof (L_pos k _ _ H) as P1. pose proof (L_pos k _ _ HP) as P2. destruct H; [split; [exact HP|reflexivity]|]. destruct HP; (split; [|assumption]); close. }
  pose proof (O wf) as [O1 O2]. pose proof (O (wf + 1)%Z) as [O3 O4]. destruct (findFrontOld wf l prev) as [lo po], (findFrontOld wf m prev') as [mo qo]. destruct (findFrontOld (wf + 1) l prev) as [lno pno], (findFrontOld (wf + 1) m prev') as [mno qno]. red'. subst qo qno.
  destruct (pos_of wf m) as [p|]; [|reflexivity].
  set (pn := if ((wf =? 1)%Z || (wf <? nf)%Z)%bool then pos_of (wf + 1) m else None). clearbody pn.
  step. step. apply (alike_bind (fun _ _ => True)). { step; [exact I|]. pose proof (L_pget l m (pos_of (wf - 1) m) H) as P. destruct (pget l _), (pget m _); cbn in *; try contradiction; auto. }
  intros _ _ _. apply (alike_bind eq). { step; [reflexivity|]. apply (alike_bind rK); [apply L_pget, H|]. intros. rk. reflexivity. }
  intros below ? <-. step.
  { apply (alike_bind rK); [apply L_pget, H|]. intros. rk. fin. }
  step.
  { apply (alike_bind rK); [apply L_pget, O1|]. intros. rk. red'. step. rewrite F_balance. step. destruct x1 as [th aet']. fin. }
  step; [|fin]. apply (alike_bind rK); [apply L_pget, H|]. intros. rk. red'. apply (alike_bind rK); [apply L_pget, O1|]. intros. rk. red'. step.
  - apply (alike_bind rK); [apply L_pget, O3|]. intros. rk. red'. step. step; [fin|]. step; [|fin].
    match goal with |- context [lgar_calc_mass_bal cum (lset m p ?f)] => match goal with |- context [lgar_calc_mass_bal cum (lset l p ?g)] => assert (X : L (lset l p g) (lset m p f)) by close end end.
    rewrite (F_bal _ _ cum X). step. apply (alike_bind LR); [apply L_delete; exact X|]. intros [? ?] [? ?] [? ?]. red'. erewrite F_bal by eassumption. step. reflexivity.
  - step. apply (alike_bind rK); [apply L_pget, O3|]. intros. rk. red'. step. rewrite F_balance. step. destruct x1 as [th aet']. fin.
Qed.
Lemma F_move_loop : forall k dt precip wfd prev prev' nf l m aet, L l m -> L prev prev' -> alike LR (move_loop k e dt precip wfd prev nf l aet) (move_loop k e' dt precip wfd prev' nf m aet).
Proof.
  induction k as [|k IH]; intros dt precip wfd prev prev' nf l m aet H HP; cbn [move_loop]; [fin|]. apply (alike_bind _ _ _ _ _ _ (F_move_one _ _ _ _ _ _ _ _ _ _ H HP)). intros [l1 a1] [m1 b1] [H1 E]. red'. subst b1. apply IH; assumption.
Qed.
Notation LRR := (fun x y => L (fst (fst x)) (fst (fst y)) /\ snd (fst x) = snd (fst y) /\ snd x = snd y).
Lemma F_closure_loop : forall k p target l m mass err factor dn sw aug iter, L l m -> alike LRR (closure_loop k e p target l mass err factor dn sw aug iter) (closure_loop k e' p target m mass err factor dn sw aug iter).
Proof.
  induction k as [|k IH]; intros p target l m mass err factor dn sw aug iter H; cbn [closure_loop]; (step; [|fin]); [fin|].
  cbv zeta. match goal with |- alike _ (match ?x with _ => _ end) _ => destruct x as [[dn' sw'] factor'] end.
  step. step. match goal with |- context [lgar_calc_mass_bal cum (lset m p ?f)] => match goal with |- context [lgar_calc_mass_bal cum (lset l p ?g)] => assert (X : L (lset l p g) (lset m p f)) by close end end.
  rewrite (F_bal _ _ cum X). step. apply IH. exact X.
Qed.
Lemma F_closure : forall om precip l m aet, L l m -> alike LRR (closure e om precip l aet) (closure e' om precip m aet).
Proof.
  intros om precip l m aet H. unfold closure. apply (alike_bind _ _ _ _ _ _ (F_cross _ _ H)). intros l1 m1 H1. rewrite (F_wfd _ _ H1). step. step. unfold findFront. rewrite (L_pos _ _ _ H1).
  destruct (pos_of _ m1) as [p|]; [|reflexivity]. step. step; [|fin]. rewrite (F_bal _ _ cum H1). step.
  match goal with |- alike _ (bind (closure_loop _ _ _ _ _ _ _ ?f _ _ _ _) _) (bind (closure_loop _ _ _ _ _ _ _ ?g _ _ _ _) _) => assert (X : f = g) end.
  { pose proof (L_nth l1 m1 (S p) H1) as N. destruct (nth_error l1 (S p)), (nth_error m1 (S p)); try contradiction; [rk|]; reflexivity. }
  rewrite X. apply (alike_bind _ _ _ _ _ _ (F_closure_loop _ _ _ _ _ _ _ _ _ _ _ _ H1)). intros [[l2 er] gv] [[m2 er'] gv'] (H2 & E & E'). red'. subst. step; [|fin]. rewrite (F_bal _ _ cum H2). step. fin.
Qed.
Lemma F_check : forall l m mc, L l m -> alike LR (check_and_fix e l mc) (check_and_fix e' m mc).
Proof.
  intros l m mc H. unfold check_and_fix, lgar_check_dry_over_wet_wetting_fronts. rewrite (F_check_dry _ _ H). apply (alike_bind eq); [destruct H; reflexivity|]. intros b ? <-. step; [apply F_fix; exact H|fin].
Qed.
Lemma F_phases : forall l m, L l m -> alike LRR (merge_phases e l) (merge_phases e' m).
Proof.
  intros l m H. unfold merge_phases. apply (alike_bind _ _ _ _ _ _ (F_check _ _ _ H)). intros [l1 c1] [m1 d1] [H1 E1]. red'. subst.
  apply (alike_bind _ _ _ _ _ _ (F_merge _ _ H1)). intros l2 m2 H2. apply (alike_bind _ _ _ _ _ _ (F_cross _ _ H2)). intros l3 m3 H3.
  apply (alike_bind _ _ _ _ _ _ (F_check _ _ _ H3)). intros [l4 c4] [m4 d4] [H4 E4]. red'. subst. apply (alike_bind _ _ _ _ _ _ (F_merge _ _ H4)). intros l5 m5 H5. step.
  apply (alike_bind _ _ _ _ _ _ (F_domain _ _ _ H5)). intros [x6 l6] [y6 m6] [E6 H6]. red'. subst. apply (alike_bind _ _ _ _ _ _ (F_check _ _ _ H6)). intros [l7 c7] [m7 d7] [H7 E7]. red'. subst. fin.
Qed.
Lemma F_refresh : forall l m, L l m -> alike L (refresh_psi e l) (refresh_psi e' m).
Proof.
  induction 1 as [|f g l m F H IH]; cbn [refresh_psi]; [reflexivity|]. rk. destruct H as [|f1 g1 l m F1 H]; [fin|]. red'.
  apply (alike_bind rK). { step; [|fin]. step. step. fin. } intros. apply (alike_bind L); [exact IH|]. intros. fin.
Qed.
Lemma F_single : forall l m, L l m -> alike L (fix_single e l) (fix_single e' m).
Proof.
  intros l m H. destruct H as [|f g l m F H]; [fin|]. rk. destruct H as [|f1 g1 l m F1 H]; cbn [fix_single]; [|fin]. step. destruct (_ <>? _)%d; fin.
Qed.
Lemma F_move : forall dt volin wfd om aet head head' prev prev', L head head' -> L prev prev' ->
  alike LRR (lgar_move_wetting_fronts e dt volin wfd om aet head prev) (lgar_move_wetting_fronts e' dt volin wfd om aet head' prev').
Proof.
  intros dt volin wfd om aet head head' prev prev' H HP. unfold lgar_move_wetting_fronts. step. rewrite (L_len _ _ H), (L_length _ _ H).
  apply (alike_bind _ _ _ _ _ _ (F_move_loop _ _ _ _ _ _ _ _ _ _ H HP)). intros [l1 a1] [m1 b1] [H1 E1]. red'. subst b1.
  apply (alike_bind LRR). { destruct H; [fin|apply F_closure; exact H1]. }
  intros [[l2 a2] x2] [[m2 b2] y2] (H2 & E2 & E2'). red'. subst. apply (alike_bind _ _ _ _ _ _ (F_phases _ _ H2)). intros [[l3 a3] x3] [[m3 b3] y3] (H3 & E3 & E3'). red'. subst.
  apply (alike_bind _ _ _ _ _ _ (F_refresh _ _ H3)). intros l4 m4 H4. apply (alike_bind _ _ _ _ _ _ (F_single _ _ H4)). intros l5 m5 H5. fin.
Qed.
End Env.

Lemma move_frost : forall (fp : Fp) (cfg : Cfg) e e' dt volin wfd om aet head head' prev prev', other_frost e e' -> same_but_K head head' -> same_but_K prev prev' ->
  alike (fun x y => same_but_K (fst (fst x)) (fst (fst y)) /\ snd (fst x) = snd (fst y) /\ snd x = snd y)
    (lgar_move_wetting_fronts e dt volin wfd om aet head prev) (lgar_move_wetting_fronts e' dt volin wfd om aet head' prev').
Proof.
  intros fp cfg [nl cum st so fr] [nl' cum' st' so' fr'] dt volin wfd om aet head head' prev prev' (X1 & X2 & X3 & X4 & X5) H HP. cbn [e_nlayers e_cum e_stype e_soils e_frozen] in *. subst nl' cum' st' so'.
  apply rK_list in H, HP. pose proof (F_move nl cum st so fr fr' X5 dt volin wfd om aet head head' prev prev' H HP) as M.
  destruct (lgar_move_wetting_fronts _ _ _ _ _ _ head _) as [x|], (lgar_move_wetting_fronts _ _ _ _ _ _ head' _) as [y|]; cbn in M |- *; try exact M. destruct M as (M1 & M2 & M3). split; [apply rK_list; exact M1|split; assumption].
Qed.
