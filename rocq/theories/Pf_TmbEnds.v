(** The head iteration ends, unless a mass, a thickness or a water content is infinite or the head is negative. *)

From Coq Require Import Reals Lra ZArith List Bool Lia.
From Verif Require Import Outcome Dbl Exact Types ListOps Soil Fronts Infil Lib Spec_Common Spec_Soil Spec_Balance Spec_Fuel Spec_Ends Pf_Dbl Pf_Pow Pf_Soil Pf_NoFuel Pf_GeffEnds Pf_HeadEnds.
Import ListNotations.
Open Scope R_scope.

Lemma tame_cases : forall x, tame x -> x = NaN \/ exists r, x = Fin r.
Proof. intros [r| | |] [H1 H2]; eauto; contradiction. Qed.
Lemma tame_fin : forall r, tame (Fin r). Proof. intro. split; discriminate. Qed.
Lemma tame_nan : tame NaN. Proof. split; discriminate. Qed.

Section Exactly.
Local Existing Instance exact.

Lemma tame_add : forall x y, tame x -> tame y -> tame (x + y)%d.
Proof. intros x y H1 H2. apply tame_cases in H1 as [->|[a ->]]; apply tame_cases in H2 as [->|[b ->]]; split; discriminate. Qed.
Lemma tame_sub : forall x y, tame x -> tame y -> tame (x - y)%d.
Proof. intros x y H1 H2. apply tame_cases in H1 as [->|[a ->]]; apply tame_cases in H2 as [->|[b ->]]; split; discriminate. Qed.
Lemma tame_mul : forall x y, tame x -> tame y -> tame (x * y)%d.
Proof. intros x y H1 H2. apply tame_cases in H1 as [->|[a ->]]; apply tame_cases in H2 as [->|[b ->]]; split; discriminate. Qed.
Lemma tame_div : forall x b, tame x -> b <> 0 -> tame (x / Fin b)%d.
Proof. intros x b H1 H2. apply tame_cases in H1 as [->|[a ->]]; [|rewrite div_fin by assumption]; split; discriminate. Qed.
Lemma tame_abs : forall x, tame x -> tame (dabs x).
Proof. intros x H1. apply tame_cases in H1 as [->|[a ->]]; split; discriminate. Qed.
Lemma tame_min : forall x y, tame x -> tame y -> tame (dfmin x y).
Proof. intros x y H1 H2. unfold dfmin. destruct x, y; try assumption; destruct (_ <? _)%d; assumption. Qed.
Lemma tame_max : forall x y, tame x -> tame y -> tame (dfmax x y).
Proof. intros x y H1 H2. unfold dfmax. destruct x, y; try assumption; destruct (_ <? _)%d; assumption. Qed.

(** The water content that belongs to a head that is not negative. *)
Lemma theta_tame : forall s r e a n m k psi, vg_soil s r e a n m k -> not_negative psi -> tame (theta_of_h s psi).
Proof.
  intros s r e a n m k psi V H. destruct psi as [x| | |]; [|discriminate H || idtac..].
  - rewrite (theta_of_h_is s r e a n m k x V (nn_Fin_inv _ H)). apply tame_fin.
  - destruct V. unfold theta_of_h, calc_theta_from_h. rewrite vg_r, vg_e, vg_a, vg_n, vg_m. change (lit 1) with (Fin 1).
    replace (Fin a * PInf)%d with PInf by (cbn; unfold inf_sign; destruct (Rlt_dec 0 a); [reflexivity|lra]).
    replace (dpow PInf (Fin n)) with PInf by (unfold dpow; rewrite eqb_f by lra; cbn [deqb]; destruct (Rlt_dec 0 n); [reflexivity|lra]). change (Fin 1 + PInf)%d with PInf.
    replace (dpow PInf (Fin m)) with PInf by (unfold dpow; rewrite eqb_f by lra; cbn [deqb]; destruct (Rlt_dec 0 m); [reflexivity|lra]). split; discriminate.
  - destruct V. unfold theta_of_h, calc_theta_from_h. rewrite vg_r, vg_e, vg_a, vg_n, vg_m. change (Fin a * NaN)%d with NaN.
    replace (dpow NaN (Fin n)) with NaN by (unfold dpow; rewrite eqb_f by lra; reflexivity). replace (lit 1 + NaN)%d with NaN by reflexivity.
    replace (dpow NaN (Fin m)) with NaN by (unfold dpow; rewrite eqb_f by lra; reflexivity). split; discriminate.
Qed.
Lemma theta_nan : forall s r e a n m k, vg_soil s r e a n m k -> theta_of_h s NaN = NaN.
Proof.
  intros s r e a n m k V. destruct V. unfold theta_of_h, calc_theta_from_h. rewrite vg_r, vg_e, vg_a, vg_n, vg_m. change (Fin a * NaN)%d with NaN.
  replace (dpow NaN (Fin n)) with NaN by (unfold dpow; rewrite eqb_f by lra; reflexivity). replace (lit 1 + NaN)%d with NaN by reflexivity.
  replace (dpow NaN (Fin m)) with NaN by (unfold dpow; rewrite eqb_f by lra; reflexivity). reflexivity.
Qed.

Section Head.
Variables (e : env) (lay : Z) (s : soil) (dth dz : list (option dbl)).
Hypothesis VG : forall k sk, (1 <= k <= lay)%Z -> soil_of e k = Ok sk -> exists r te a n m ks, vg_soil sk r te a n m ks.
Hypothesis L1 : (1 <= lay)%Z.
Hypothesis HS : soil_of e lay = Ok s.
Hypothesis TZ : forall k x, uget dz k = Ok x -> tame x.
Hypothesis TT : forall k x, uget dth k = Ok x -> tame x.

(** Not a number, or stopped. *)
Definition bad (m : outcome dbl) : Prop := m = Ok NaN \/ exists r, m = Stop r /\ r <> OutOfFuel.
Definition body (psi : dbl) : Z -> dbl -> outcome dbl := fun k m => sk <- soil_of e k ;; zk <- uget dz k ;; tk <- uget dth k ;; Ok (m + zk * (theta_of_h sk psi - tk))%d.

Lemma stop_bad : forall A (m : outcome A) r, fin any m -> m = Stop r -> r <> OutOfFuel.
Proof. intros A m r H ->. exact H. Qed.
Lemma add_nan : forall x, (x + NaN)%d = NaN. Proof. intros [| | |]; reflexivity. Qed.
Lemma mul_nan : forall x, (x * NaN)%d = NaN. Proof. intros [| | |]; reflexivity. Qed.
Lemma sub_nan : forall x, (x - NaN)%d = NaN. Proof. intros [| | |]; reflexivity. Qed.

Lemma zfor_nan : forall psi k i, bad (zfor i k (body psi) NaN).
Proof.
  intro psi. induction k as [|k IH]; intro i; [left; reflexivity|]. cbn [zfor]. unfold body at 1.
  destruct (soil_of e i) as [sk|r] eqn:E1; [|right; exists r; split; [reflexivity|exact (stop_bad _ _ _ (fin_soil e i) E1)]]. cbn [bind].
  destruct (uget dz i) as [zk|r] eqn:E2; [|right; exists r; split; [reflexivity|exact (stop_bad _ _ _ (fin_uget _ dz i) E2)]]. cbn [bind].
  destruct (uget dth i) as [tk|r] eqn:E3; [|right; exists r; split; [reflexivity|exact (stop_bad _ _ _ (fin_uget _ dth i) E3)]]. cbn [bind]. apply IH.
Qed.

Lemma tail_cases : forall k i, (1 <= i)%Z -> (i + Z.of_nat k - 1 <= lay)%Z ->
  (exists ps, length ps = k /\ forall j p, nth_error ps j = Some p -> layer_part e dth dz (i + Z.of_nat j) p) \/ (forall psi acc, bad (zfor i k (body psi) acc)).
Proof.
  induction k as [|k IH]; intros i Hi Hk; [left; exists []; split; [reflexivity|intros [|?] ? ?; discriminate]|].
  assert (C : (exists sk z t r te a n m ks, soil_of e i = Ok sk /\ vg_soil sk r te a n m ks /\ uget dz i = Ok (Fin z) /\ uget dth i = Ok (Fin t)) \/ (forall psi acc, bad (zfor i (Datatypes.S k) (body psi) acc))).
  { cbn [zfor]. unfold body at 1.
    destruct (soil_of e i) as [sk|r] eqn:E1; [|right; intros; right; exists r; split; [reflexivity|exact (stop_bad _ _ _ (fin_soil e i) E1)]]. cbn [bind].
    destruct (uget dz i) as [zk|r] eqn:E2; [|right; intros; right; exists r; split; [reflexivity|exact (stop_bad _ _ _ (fin_uget _ dz i) E2)]]. cbn [bind].
    destruct (uget dth i) as [tk|r] eqn:E3; [|right; intros; right; exists r; split; [reflexivity|exact (stop_bad _ _ _ (fin_uget _ dth i) E3)]]. cbn [bind].
    destruct (tame_cases zk (TZ _ _ E2)) as [->|[z ->]]. { right. intros psi acc. replace (acc + NaN * (theta_of_h sk psi - tk))%d with NaN by (symmetry; apply add_nan). apply zfor_nan. }
    destruct (tame_cases tk (TT _ _ E3)) as [->|[t ->]]. { right. intros psi acc. rewrite sub_nan, mul_nan, add_nan. apply zfor_nan. }
    left. destruct (VG i sk ltac:(lia) E1) as (r & te & a & n & m & ks & V). do 9 eexists. split; [reflexivity|]. split; [exact V|]. split; reflexivity. }
  destruct C as [(sk & z & t & r & te & a & n & m & ks & E1 & V & E2 & E3)|C]; [|right; exact C].
  destruct (IH (i + 1)%Z ltac:(lia) ltac:(lia)) as [(ps & HL & HN)|B].
  - left. exists (mkPart z t r te a n m :: ps). split; [cbn; lia|]. intros [|j] p Hp; cbn in Hp.
    + injection Hp as <-. exists sk, ks. cbn. rewrite Z.add_0_r. auto.
    + specialize (HN j p Hp). replace (i + Z.of_nat (Datatypes.S j))%Z with (i + 1 + Z.of_nat j)%Z by lia. exact HN.
  - right. intros psi acc. cbn [zfor]. unfold body at 1. rewrite E1, E2, E3. cbn [bind]. apply B.
Qed.

Lemma mass_nan : forall psi, bad (tmb_mass e lay NaN psi dth dz).
Proof.
  intro psi. unfold tmb_mass.
  destruct (uget dz lay) as [zk|r] eqn:E2; [|right; exists r; split; [reflexivity|exact (stop_bad _ _ _ (fin_uget _ dz lay) E2)]]. cbn [bind].
  destruct (uget dth lay) as [tk|r] eqn:E3; [|right; exists r; split; [reflexivity|exact (stop_bad _ _ _ (fin_uget _ dth lay) E3)]]. cbn [bind].
  replace (Fin 0 + zk * (NaN - tk))%d with NaN by (replace (NaN - tk)%d with NaN by reflexivity; rewrite mul_nan; reflexivity). apply zfor_nan.
Qed.

Lemma parts_cases : (exists ps p, layer_parts e dth dz lay ps p) \/ (forall th psi, bad (tmb_mass e lay th psi dth dz)).
Proof.
  unfold tmb_mass.
  destruct (uget dz lay) as [zk|r] eqn:E2; [|right; intros; right; exists r; split; [reflexivity|exact (stop_bad _ _ _ (fin_uget _ dz lay) E2)]]. cbn [bind].
  destruct (uget dth lay) as [tk|r] eqn:E3; [|right; intros; right; exists r; split; [reflexivity|exact (stop_bad _ _ _ (fin_uget _ dth lay) E3)]]. cbn [bind].
  destruct (tame_cases zk (TZ _ _ E2)) as [->|[z ->]]. { right. intros th psi. apply zfor_nan. }
  destruct (tame_cases tk (TT _ _ E3)) as [->|[t ->]]. { right. intros th psi. rewrite sub_nan, mul_nan, add_nan. apply zfor_nan. }
  destruct (VG lay s ltac:(lia) HS) as (r & te & a & n & m & ks & V).
  destruct (tail_cases (Z.to_nat (lay - 1)) 1 ltac:(lia) ltac:(lia)) as [(ps & HL & HN)|B].
  - left. exists ps, (mkPart z t r te a n m). split; [lia|]. split.
    + intros j p Hp. specialize (HN j p Hp). replace (Z.of_nat (Datatypes.S j)) with (1 + Z.of_nat j)%Z by lia. exact HN.
    + exists s, ks. cbn. auto.
  - right. intros th psi. apply B.
Qed.

Lemma delta_nan : forall prior, dabs (NaN - prior)%d = NaN. Proof. reflexivity. Qed.
Lemma gt_nan : forall x, (NaN >? x)%d = false. Proof. intros [| | |]; reflexivity. Qed.

(** After a pass whose mass is not a number the loop ends. *)
Definition moved (x : tmb) (prior : dbl) : dbl :=
  let aug := ((t_iter x + 1 >? 1000)%Z && negb (t_aug x))%bool in
  let factor := if aug then (t_factor x * lit 100)%d else t_factor x in
  if (t_new x >? prior)%d then (t_psi x + lit (1 / 10) * factor)%d
  else
    let factor := if t_switched x then factor else (factor * lit (1 / 10))%d in
    let psi := (t_psi x - lit (1 / 10) * factor)%d in
    if ((psi <? Fin 0) && (t_psi x <>? Fin 0))%d then (t_psi x * lit (1 / 10))%d else psi.

Lemma bad_pass : forall prior x k, bad (tmb_mass e lay (theta_of_h s (moved x prior)) (moved x prior) dth dz) -> tmb_loop (Datatypes.S (Datatypes.S k)) e lay s prior dth dz x <> Stop OutOfFuel.
Proof.
  intros prior x k B. cbn [tmb_loop]. destruct (t_delta x >? tmb_tol)%d; [|discriminate]. unfold moved in B. unfold tmb_step. cbv zeta in *.
  destruct (t_new x >? prior)%d.
  - destruct B as [E|(r & E & N)]; rewrite E; cbn [bind]; [|congruence]. rewrite delta_nan.
    repeat match goal with |- context [if ?c then Ok (_, true) else _] => destruct c; [cbn [bind]; discriminate|] end. cbn [bind t_delta]. rewrite gt_nan. discriminate.
  - match goal with |- context [if (?a && ?b)%bool then (t_psi x * lit (1 / 10))%d else _] => destruct (a && b)%bool end;
    (destruct B as [E|(r & E & N)]; rewrite E; cbn [bind]; [|congruence]; rewrite delta_nan;
     repeat match goal with |- context [if ?c then Ok (_, true) else _] => destruct c; [cbn [bind]; discriminate|] end; cbn [bind t_delta]; rewrite gt_nan; discriminate).
Qed.

Lemma mass_fin : forall th psi, fin any (tmb_mass e lay th psi dth dz).
Proof.
  intros th psi. unfold tmb_mass. eapply fin_bind; [apply fin_uget|]. intros z _. eapply fin_bind; [apply fin_uget|]. intros t _. apply fin_zfor; [|exact I]. intros k m _.
  eapply fin_bind; [apply fin_soil|]. intros sk _. eapply fin_bind; [apply fin_uget|]. intros zk _. eapply fin_bind; [apply fin_uget|]. intros tk _. exact I.
Qed.

Theorem tmb_settles : forall b psi new prior aet, not_negative psi -> tame new -> tame prior -> settles (fun j => @lgar_theta_mass_balance exact (bounded b j) e lay s psi new prior aet dth dz).
Proof.
  intros b psi new prior aet Hpsi Hnew Hprior.
  assert (X : forall x0, (exists N, forall j, (N <= j)%nat -> tmb_loop j e lay s prior dth dz x0 <> Stop OutOfFuel) -> x0 = mkT psi psi (dfmax (lit 1) (psi / lit 100))%d false (Fin 0) new (dabs (new - prior)%d) (dabs (new - prior)%d) 0 false 0 false ->
     settles (fun j => @lgar_theta_mass_balance exact (bounded b j) e lay s psi new prior aet dth dz)).
  { intros x0 (N & HN) Ex. exists N. intros j Hj. unfold lgar_theta_mass_balance. cbv zeta. destruct (_ <=? _)%d; [discriminate|]. rewrite <- Ex. change (@fuel (bounded b j)) with j. specialize (HN j Hj).
    destruct (tmb_loop j e lay s prior dth dz x0) as [y|r]; [discriminate|]. cbn [bind]. congruence. }
  eapply X; [|reflexivity]. clear X.
  assert (NA : dabs (new - prior)%d = NaN -> exists N, forall j, (N <= j)%nat -> tmb_loop j e lay s prior dth dz (mkT psi psi (dfmax (lit 1) (psi / lit 100))%d false (Fin 0) new (dabs (new - prior)%d) (dabs (new - prior)%d) 0 false 0 false) <> Stop OutOfFuel).
  { intro E. exists 1%nat. intros [|j] Hj; [lia|]. cbn [tmb_loop t_delta]. rewrite E, gt_nan. discriminate. }
  destruct (tame_cases _ Hprior) as [->|[pr ->]]; [apply NA; rewrite sub_nan; reflexivity|]. destruct (tame_cases _ Hnew) as [->|[nw ->]]; [apply NA; reflexivity|]. clear NA.
  destruct (VG lay s ltac:(lia) HS) as (r & te & a & n & m & ks & V).
  destruct psi as [p0| | |]; [|discriminate Hpsi || idtac..].
  - destruct parts_cases as [(ps & p & HP)|B].
    + destruct (head_sec e lay s dth dz ps p HP HS pr p0 nw (nn_Fin_inv _ Hpsi)) as (N & y & HN). exists N. intros j Hj. change (dabs (Fin nw - Fin pr))%d with (Fin (Rabs (nw - pr))). rewrite (HN j Hj). discriminate.
    + exists 2%nat. intros [|[|j]] Hj; try lia. apply bad_pass. apply B.
  - replace (dfmax (lit 1) (PInf / lit 100)) with PInf by (cbn; destruct (Rlt_dec 100 0); [lra|reflexivity]). exists 2%nat. intros [|[|j]] Hj; try lia.
    destruct (Fin nw >? Fin pr)%d eqn:U.
    + cbn [tmb_loop t_delta]. destruct (_ >? tmb_tol)%d; [|discriminate]. unfold tmb_step. cbv zeta. cbn [t_new t_psi t_factor t_iter t_aug t_prev t_sat t_count t_dprev]. rewrite U. change ((0 + 1 >? 1000)%Z && negb false)%bool with false. cbv iota.
      replace (PInf + lit (1 / 10) * PInf)%d with PInf by (cbn; unfold inf_sign; destruct (Rlt_dec 0 (1 / 10)); [reflexivity|lra]).
      pose proof (mass_fin (theta_of_h s PInf) PInf) as F. destruct (tmb_mass e lay (theta_of_h s PInf) PInf dth dz) as [mm|rr]; [|cbn [bind]; intro Q; injection Q as ->; exact (F eq_refl)]. cbn [bind].
      replace (PInf - PInf)%d with NaN by reflexivity. change (dabs NaN) with NaN. replace (NaN <? lit (1 / 1000000000000000))%d with false by reflexivity. cbn [andb].
      match goal with |- context [if ?d then (0 + 1)%Z else 0%Z] => destruct d end; (change (lit 10000000) with (Fin 10000000); cbn [Z.eqb]; replace (PInf >? Fin 10000000)%d with true by reflexivity; cbn; discriminate).
    + apply bad_pass. unfold moved. cbn [t_new t_psi t_factor t_iter t_aug t_switched]. rewrite U. change ((0 + 1 >? 1000)%Z && negb false)%bool with false. cbv iota zeta.
      replace (PInf * lit (1 / 10))%d with PInf by (cbn; unfold inf_sign; destruct (Rlt_dec 0 (1 / 10)); [reflexivity|lra]).
      replace (PInf - lit (1 / 10) * PInf)%d with NaN by (cbn; unfold inf_sign; destruct (Rlt_dec 0 (1 / 10)); [reflexivity|lra]). replace (NaN <? Fin 0)%d with false by reflexivity. cbn [andb].
      rewrite (theta_nan s r te a n m ks V). apply mass_nan.
  - exists 2%nat. intros [|[|j]] Hj; try lia. apply bad_pass. replace (moved _ _) with NaN; [rewrite (theta_nan s r te a n m ks V); apply mass_nan|]. symmetry. unfold moved. cbn [t_new t_psi t_factor t_iter t_aug t_switched].
    destruct (_ >? _)%d; [reflexivity|]. cbv zeta. match goal with |- context [(?a <? Fin 0)%d] => replace (a <? Fin 0)%d with false by reflexivity end. reflexivity.
Qed.

(** ** The demand *)

Lemma mass_tame : forall th psi mm, tame th -> not_negative psi -> tmb_mass e lay th psi dth dz = Ok mm -> tame mm.
Proof.
  intros th psi mm Hth Hpsi E. unfold tmb_mass in E. destruct (uget dz lay) as [z|] eqn:E1; [|discriminate E]. cbn [bind] in E. destruct (uget dth lay) as [t|] eqn:E2; [|discriminate E]. cbn [bind] in E.
  assert (G : forall k i acc, (1 <= i)%Z -> (i + Z.of_nat k - 1 <= lay)%Z -> tame acc -> zfor i k (body psi) acc = Ok mm -> tame mm).
  { induction k as [|k IH]; intros i acc Hi Hk Ha X; [cbn in X; congruence|]. cbn [zfor] in X. unfold body at 1 in X. destruct (soil_of e i) as [sk|] eqn:F1; [|discriminate X]. cbn [bind] in X.
    destruct (uget dz i) as [zk|] eqn:F2; [|discriminate X]. cbn [bind] in X. destruct (uget dth i) as [tk|] eqn:F3; [|discriminate X]. cbn [bind] in X.
    destruct (VG i sk ltac:(lia) F1) as (r & te & a & n & m & ks & V). eapply IH; [| | |exact X]; [lia|lia|].
    apply tame_add; [exact Ha|]. apply tame_mul; [exact (TZ _ _ F2)|]. apply tame_sub; [exact (theta_tame _ _ _ _ _ _ _ _ V Hpsi)|exact (TT _ _ F3)]. }
  eapply G; [| | |exact E]; [lia|lia|]. apply tame_add; [apply tame_fin|]. apply tame_mul; [exact (TZ _ _ E1)|]. apply tame_sub; [exact Hth|exact (TT _ _ E2)].
Qed.

Definition steady (x : tmb) : Prop := not_negative (t_factor x) /\ (t_sat x = false -> not_negative (t_psi x) /\ tame (t_delta x)).

Lemma steady_step : forall prior x y b, tame prior -> steady x -> tmb_step e lay s prior dth dz x = Ok (y, b) -> steady y.
Proof.
  intros prior x y b Hp [SF SP] E. unfold tmb_step in E. cbv zeta in E.
  set (f1 := if ((t_iter x + 1 >? 1000)%Z && negb (t_aug x))%bool then (t_factor x * lit 100)%d else t_factor x) in E.
  assert (F1 : not_negative f1). { unfold f1. destruct (_ && _)%bool; [apply nn_mul; [exact SF|apply nn_lit; lra]|exact SF]. }
  set (f2 := if t_switched x then f1 else (f1 * lit (1 / 10))%d) in E.
  assert (F2 : not_negative f2). { unfold f2. destruct (t_switched x); [exact F1|]. apply nn_mul; [exact F1|apply nn_lit; lra]. }
  destruct (VG lay s ltac:(lia) HS) as (r & te & a & n & m & ks & V).
  assert (X : forall psi prev f sw sat, not_negative f -> (sat = false -> not_negative psi) ->
    bind (tmb_mass e lay (theta_of_h s psi) psi dth dz) (fun mass =>
      if ((dabs (psi - prev) <? lit (1 / 1000000000000000)) && (f <? lit (1 / 10000000000000)))%d
      then Ok (mkT psi prev f sw (theta_of_h s psi) mass (dabs (mass - prior)%d) (t_dprev x) (t_count x) sat (t_iter x + 1) ((t_iter x + 1 >? 1000)%Z && negb (t_aug x) || t_aug x), true)
      else if ((if (dabs (dabs (mass - prior) - t_dprev x) <? lit (1 / 1000000000000000))%d then (t_count x + 1)%Z else 0%Z) =? 5)%Z
      then Ok (mkT psi prev f sw (theta_of_h s psi) mass (dabs (mass - prior)%d) (t_dprev x) (if (dabs (dabs (mass - prior) - t_dprev x) <? lit (1 / 1000000000000000))%d then (t_count x + 1)%Z else 0%Z) sat (t_iter x + 1) ((t_iter x + 1 >? 1000)%Z && negb (t_aug x) || t_aug x), true)
      else if (psi >? lit 10000000)%d
      then Ok (mkT psi prev f sw (theta_of_h s psi) mass (dabs (mass - prior)%d) (t_dprev x) (if (dabs (dabs (mass - prior) - t_dprev x) <? lit (1 / 1000000000000000))%d then (t_count x + 1)%Z else 0%Z) sat (t_iter x + 1) ((t_iter x + 1 >? 1000)%Z && negb (t_aug x) || t_aug x), true)
      else if ((psi <=? Fin 0) && (prev <? Fin 0))%d
      then Ok (mkT psi prev f sw (theta_of_h s psi) mass (dabs (mass - prior)%d) (t_dprev x) (if (dabs (dabs (mass - prior) - t_dprev x) <? lit (1 / 1000000000000000))%d then (t_count x + 1)%Z else 0%Z) sat (t_iter x + 1) ((t_iter x + 1 >? 1000)%Z && negb (t_aug x) || t_aug x), true)
      else Ok (mkT psi prev f sw (theta_of_h s psi) mass (dabs (mass - prior)%d) (dabs (mass - prior)%d) (if (dabs (dabs (mass - prior) - t_dprev x) <? lit (1 / 1000000000000000))%d then (t_count x + 1)%Z else 0%Z) sat (t_iter x + 1) ((t_iter x + 1 >? 1000)%Z && negb (t_aug x) || t_aug x), false))
    = Ok (y, b) -> steady y).
  { intros psi prev f sw sat Hf Hs Y. destruct (tmb_mass e lay (theta_of_h s psi) psi dth dz) as [mass|] eqn:EM; [|discriminate Y]. cbn [bind] in Y.
    assert (T : sat = false -> not_negative psi /\ tame (dabs (mass - prior)%d)).
    { intro Z. specialize (Hs Z). split; [exact Hs|]. apply tame_abs, tame_sub; [|exact Hp]. eapply mass_tame; [|exact Hs|exact EM]. exact (theta_tame _ _ _ _ _ _ _ _ V Hs). }
    repeat match type of Y with (if ?c then _ else _) = _ => destruct c end; apply Ok_inj in Y; apply pair_equal_spec in Y as [<- _]; split; cbn [t_factor t_sat t_psi t_delta]; assumption. }
  destruct (t_new x >? prior)%d.
  - eapply X; [exact F1| |exact E]. intro Z. destruct (SP Z) as [P _]. apply nn_add; [exact P|]. apply nn_mul; [apply nn_lit; lra|exact F1].
  - eapply X; [exact F2| |exact E]. intro Z. apply orb_false_iff in Z as [Z _]. rewrite Z. cbn [andb]. exact Z.
Qed.

Lemma steady_loop : forall prior k x y, tame prior -> steady x -> tmb_loop k e lay s prior dth dz x = Ok y -> steady y.
Proof.
  intros prior. induction k as [|k IH]; intros x y Hp Hx E; [discriminate E|]. cbn [tmb_loop] in E. destruct (t_delta x >? tmb_tol)%d; [|congruence].
  destruct (tmb_step e lay s prior dth dz x) as [[z b]|] eqn:ES; [|discriminate E]. cbn [bind] in E. pose proof (steady_step prior x z b Hp Hx ES) as Hz. destruct b; [congruence|]. exact (IH z y Hp Hz E).
Qed.

Theorem tmb_demand : forall (cfg : Cfg) psi new prior aet th a, not_negative psi -> tame new -> tame prior -> tame aet -> lgar_theta_mass_balance e lay s psi new prior aet dth dz = Ok (th, a) -> tame a.
Proof.
  intros cfg psi new prior aet th a Hpsi Hn Hp Ha E. unfold lgar_theta_mass_balance in E. cbv zeta in E. destruct (_ <=? tmb_tol)%d; [congruence|].
  match type of E with bind (tmb_loop _ _ _ _ _ _ _ ?x0) _ = _ => destruct (tmb_loop fuel e lay s prior dth dz x0) as [y|] eqn:EL; [|discriminate E]; assert (S0 : steady x0) end.
  { split; cbn [t_factor t_sat t_psi t_delta]; [apply nn_fmax; [apply nn_lit; lra|apply nn_div; [exact Hpsi|apply nn_lit; lra]]|]. intros _. split; [exact Hpsi|]. apply tame_abs, tame_sub; assumption. }
  pose proof (steady_loop _ _ _ _ Hp S0 EL) as [_ SY]. cbn [bind] in E. apply Ok_inj in E. apply pair_equal_spec in E as [_ <-].
  destruct (_ && (t_psi y <>? Fin 0))%bool; [apply tame_fin|]. destruct ((t_delta y >? tmb_tol)%d && negb (t_sat y))%bool eqn:B; [|exact Ha]. apply andb_true_iff in B as [_ B]. apply negb_true_iff in B. destruct (SY B) as [_ T].
  apply tame_sub; [exact Ha|]. apply tame_abs, tame_sub; [exact T|apply tame_fin].
Qed.
End Head.
End Exactly.
