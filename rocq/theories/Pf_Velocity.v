(** Velocities of the wetting fronts. *)

From Coq Require Import Reals Lra ZArith List Bool Lia.
From Verif Require Import Outcome Dbl Exact Types ListOps Soil Fronts Infil Lib Spec_Common Spec_Soil Spec_Column Spec_Update Spec_Profile Spec_Storage Spec_Velocity
  Pf_Dbl Pf_Pow Pf_Soil Pf_Geff Pf_Column Pf_Profile Pf_Structure Pf_SafeUpdate.
Import ListNotations.
Open Scope R_scope.

Section Any.
Context {fp : Fp} {cfg : Cfg}.

Lemma big_not_zero : deqb (lit 10000) (Fin 0) = false.
Proof.
  pose proof (rnd_mono 1 10000 ltac:(lra)) as M. rewrite rnd_one in M. unfold lit. destruct (rnd 10000) as [x| | |]; cbn in *; try reflexivity.
  apply Rleb_true in M. apply Reqb_false. lra.
Qed.

Lemma front_limited : forall e closed nint h c n v, f_bottom c = false -> dzdt_front e closed nint h c n = Ok v -> limited v.
Proof.
  intros e closed nint h c n v HB H. unfold dzdt_front in H. cbv zeta in H.
  repeat (let z := fresh "z" in let Hz := fresh "Hz" in first [bind_inv H z Hz|match type of H with (if ?b then _ else _) = _ => destruct b; [discriminate|] end]).
  rewrite HB in H. cbn [negb] in H. rewrite andb_true_r in H.
  match type of H with context [if (?d =? Fin 0)%d then _ else _] => set (dz := d) in H end.
  apply Ok_inj in H. subst v. unfold limited. pose proof big_not_zero as B.
  destruct (deqb dz (Fin 0)) eqn:E0.
  - destruct (dgtb (lit (1 / 1000000000)) (lit 10000)) eqn:E.
    + split; [apply dltb_irrefl|congruence].
    + split; [exact E|reflexivity].
  - destruct (dgtb dz (lit 10000)) eqn:E.
    + split; [apply dltb_irrefl|congruence].
    + split; [exact E|congruence].
Qed.

Lemma loop_velocities : forall (V : dbl -> Prop) e closed nint h l l',
  (forall i c n v, nth_error l i = Some c -> nth_error l (S i) = Some n -> f_bottom c = false -> dzdt_front e closed nint h c n = Ok v -> V v) ->
  dzdt_loop e closed nint h l = Ok l' -> velocities V l l'.
Proof.
  intros V e closed nint h l. induction l as [|c r IH]; intros l' HV H; cbn [dzdt_loop] in H.
  - apply Ok_inj in H. subst l'. split; [reflexivity|]. intros [|i] f g E; discriminate.
  - destruct (f_K c <? Fin 0)%d; [discriminate|]. bind_inv H s Es. bind_inv H ff Ef. destruct r as [|n r].
    + apply Ok_inj in H. subst l'. split; [reflexivity|]. intros [|i] f g Hf Hg; [|destruct i; discriminate]. cbn in Hf, Hg. injection Hf as <-. injection Hg as <-.
      split; [destruct c; reflexivity|]. split; [reflexivity|]. cbn. split; intros; lia.
    + bind_inv H v Ev. bind_inv H rest Er. apply Ok_inj in H. subst l'.
      destruct (IH rest (fun i => HV (S i)) Er) as [L N]. split; [cbn [length] in *; lia|]. intros [|i] f g Hf Hg.
      * cbn in Hf, Hg. injection Hf as <-. injection Hg as <-. split; [destruct c; reflexivity|]. cbn [length]. split; [lia|].
        split; intros _ B; rewrite B in Ev; [apply Ok_inj in Ev; subst v; reflexivity|]. cbn [set_dzdt f_dzdt]. exact (HV 0%nat c n v eq_refl eq_refl B Ev).
      * destruct (N i f g Hf Hg) as (A1 & A2 & A3 & A4). cbn [length] in *. split; [exact A1|]. split; [intro; apply A2; lia|]. split; intro; [apply A3|apply A4]; lia.
Qed.

Theorem velocities_any : forall e closed nint h l l', lgar_dzdt_calc e closed nint h l = Ok l' -> velocities limited l l'.
Proof.
  intros e closed nint h l l' H. unfold lgar_dzdt_calc in H. destruct l as [|c r]; [discriminate|]. eapply loop_velocities; [|exact H].
  intros i c0 n v _ _ B E. eapply front_limited; eassumption.
Qed.
End Any.

Section Exactly.
Local Existing Instance exact.

(** Positive, possibly infinite. *)
Definition pinf (x : dbl) : Prop := x = PInf \/ exists b, x = Fin b /\ 0 < b.

Lemma pinf_div : forall z k, 0 < z -> 0 <= k -> pinf (Fin z / Fin k)%d.
Proof.
  intros z k Hz Hk. cbn. destruct (Req_EM_T k 0).
  - left. unfold inf_sign. destruct (Rlt_dec 0 z); [reflexivity|contradiction].
  - right. eexists. split; [reflexivity|]. assert (0 < / k) by (apply Rinv_0_lt_compat; lra). unfold Rdiv. nra.
Qed.
Lemma pinf_add : forall x y, pinf x -> pinf y -> pinf (x + y)%d.
Proof. intros x y [->|(a & -> & Ha)] [->|(b & -> & Hb)]; cbn; [left|left|left|right]; eauto. eexists. split; [reflexivity|lra]. Qed.
Lemma div_pinf : forall z x, 0 <= z -> pinf x -> exists q, (Fin z / x)%d = Fin q /\ 0 <= q.
Proof.
  intros z x Hz [->|(b & -> & Hb)]; [exists 0; split; [reflexivity|lra]|]. rewrite div_fin by lra. eexists. split; [reflexivity|].
  assert (0 < / b) by (apply Rinv_0_lt_compat; lra). unfold Rdiv. nra.
Qed.

Lemma conductivity_at : forall s r es a n m k x psi, vg_soil s r es a n m k -> 0 < x -> 0 <= psi ->
  K_of_Se s (Se_of_theta s (theta_of_h s (Fin psi))) (s_Ksat s * Fin x)%d = Fin (vg_K (k * x) m (vg_Se a n m psi)) /\ 0 < vg_K (k * x) m (vg_Se a n m psi).
Proof.
  intros s r es a n m k x psi V Hx Hp. rewrite (theta_of_h_is s r es a n m k), (Se_of_theta_is s r es a n m k) by assumption. pose proof V as V'. destruct V'.
  pose proof (Se_h_range a n m psi ltac:(assumption) ltac:(lra) ltac:(lra) Hp) as S1.
  replace ((vg_theta r es a n m psi - r) / (es - r)) with (vg_Se a n m psi) by (unfold vg_theta; field; lra).
  unfold K_of_Se. rewrite vg_k, vg_m. change (Fin k * Fin x)%d with (Fin (k * x)). rewrite K_of_Se_is by lra. split; [reflexivity|].
  rewrite <- (vg_K_0 (k * x) m) by lra. apply vg_K_lt; try lra. apply Rmult_lt_0_compat; lra.
Qed.

Lemma denominator_pos : forall e lay psi b, sound_env e -> vg_column e -> conducting e -> (1 <= lay <= e_nlayers e)%Z -> 0 <= psi -> pinf b ->
  exists y, dzdt_denominator e lay (Fin psi) b = Ok y /\ pinf y.
Proof.
  intros e lay psi b HE HV HC Hl Hp Hb. unfold dzdt_denominator.
  match goal with |- exists m, zfor _ _ ?b ?s = _ /\ _ => destruct (zfor_inv _ (fun _ => pinf) b (Z.to_nat (lay - 1)) 1%Z s) as (m & E & Hm) end; [|assumption|eauto].
  intros j m Hj Hm. destruct (env_soil e (lay - j)%Z HE ltac:(lia)) as [s Es]. destruct (HC (lay - j)%Z ltac:(lia)) as (x & Ef & Hx).
  destruct (env_cum e j HE ltac:(lia)) as (c1 & E1 & _). destruct (env_cum e (j - 1)%Z HE ltac:(lia)) as (c0 & E0 & _).
  assert (c0 < c1). { eapply (se_incr _ HE (j - 1)%Z); [lia|exact E0|]. replace (j - 1 + 1)%Z with j by lia. exact E1. }
  rewrite Es. cbn [bind]. rewrite Ef. cbn [bind]. rewrite E1. cbn [bind]. rewrite E0. cbn [bind].
  destruct (HV (lay - j)%Z s ltac:(lia) Es) as (r & es & a & n & vm & k & V). destruct (conductivity_at _ _ _ _ _ _ _ _ _ V Hx Hp) as [EK PK]. cbv zeta. rewrite EK.
  eexists. split; [reflexivity|]. apply pinf_add; [assumption|]. change (Fin c1 - Fin c0)%d with (Fin (c1 - c0)). apply pinf_div; lra.
Qed.

Lemma geff_at : forall closed nint e k s t1 t2 ks, capillary closed nint e -> vg_column e -> (1 <= k <= e_nlayers e)%Z -> soil_of e k = Ok s -> 0 < ks ->
  forall r es, s_theta_r s = Fin r -> s_theta_e s = Fin es -> r <= t1 -> t1 <= t2 -> t2 <= es ->
  exists N, forall cfg : Cfg, (N <= fuel)%nat -> exists g, calc_Geff closed (Fin t1) (Fin t2) s (Fin ks) nint = Ok (Fin g) /\ 0 <= g.
Proof.
  intros closed nint e k s t1 t2 ks HC HV Hk Es Hks r es Er Ee H1 H2 H3. destruct (HV k s Hk Es) as (r' & es' & a & n & m & kk & V).
  assert (r' = r /\ es' = es) as [-> ->]. { destruct V. split; congruence. }
  unfold capillary in HC. destruct closed.
  - exists 0%nat. intros cfg _. destruct (HC k s Hk Es) as (lam & pb & El & Ep & Hl & Hp).
    destruct (geff_closed_bounds cfg t1 t2 s (Fin ks) nint r es lam pb Er Ee El Ep Hl Hp (vg_re _ _ _ _ _ _ _ V) H1 H2 H3) as (g & E & G & _). exists g. split; [exact E|lra].
  - destruct (geff_terminates s r es a n m kk ks t1 t2 nint V Hks ltac:(lra) ltac:(lra) HC) as [N HN]. exists N. intros cfg Hf.
    destruct (HN cfg Hf) as (g & E & G & _). exists g. auto.
Qed.

Lemma clamp_velocity : forall q, 0 <= q ->
  exists x, (let dz := if (Fin q =? Fin 0)%d && negb false then lit (1 / 1000000000) else Fin q in if (dz >? lit 10000)%d then lit 10000 else dz) = Fin x /\ 0 < x <= 10000 /\ (0 < q -> x = Rmin 10000 q).
Proof.
  intros q Hq. cbn [negb]. rewrite andb_true_r. cbn [deqb]. change (lit (1 / 1000000000)) with (Fin (1 / 1000000000)). change (lit 10000) with (Fin 10000). unfold Reqb. cbv zeta.
  destruct (Req_EM_T q 0).
  - unfold dgtb. rewrite ltb_f by lra. eexists. split; [reflexivity|]. split; lra.
  - unfold dgtb. destruct (Rle_dec q 10000).
    + rewrite ltb_f by lra. exists q. split; [reflexivity|]. split; [lra|]. intros _. rewrite Rmin_right; lra.
    + rewrite ltb_t by lra. exists 10000. split; [reflexivity|]. split; [lra|]. intros _. rewrite Rmin_left; lra.
Qed.

(** The front [c] and its successor, both in the same layer. *)
Lemma front_exact : forall e closed nint h c n, sound_env e -> vg_column e -> conducting e -> capillary closed nint e -> 0 <= h ->
  (1 <= f_layer c <= e_nlayers e)%Z -> f_layer n = f_layer c -> f_bottom c = false -> finite (f_depth c) -> flowing e c -> within_soil e c -> within_soil e n ->
  exists N, forall cfg : Cfg, (N <= fuel)%nat ->
    (val (f_theta n) <= val (f_theta c) -> exists v, dzdt_front e closed nint (Fin h) c n = Ok (Fin v) /\ 0 < v <= 10000) /\
    (val (f_theta c) < val (f_theta n) -> dzdt_front e closed nint (Fin h) c n = Stop (ExitCode 0)).
Proof.
  intros e closed nint h c n HE HV HC HG Hh Rc Ln HB Fd [(K & EK & HK) (psi & Ep & Hp) Hd0 (top & Et & Htop)] (s & r & es & t & Es & Er & Ee & Etc & Htc) (s' & r' & es' & t' & Es' & Er' & Ee' & Etn & Htn).
  rewrite Ln in Es'. rewrite Es in Es'. apply Ok_inj in Es'. subst s'. rewrite Er in Er'. injection Er' as <-. rewrite Ee in Ee'. injection Ee' as <-.
  destruct (HC _ Rc) as (x & Ex & Hx). destruct (HV _ s Rc Es) as (r0 & es0 & a & nn & m & k & V). assert (PK : 0 < k * x). { destruct V. apply Rmult_lt_0_compat; assumption. }
  destruct Fd as [d Ed]. rewrite Ed in Htop, Hd0. cbn [val] in Htop, Hd0. rewrite Etc, Etn. cbn [val].
  destruct (Rle_dec t' t) as [Hle|Hgt].
  - destruct (geff_at closed nint e (f_layer c) s t' t (k * x) HG HV Rc Es PK r es Er Ee ltac:(lra) Hle ltac:(lra)) as [N HN]. exists N. intros cfg Hf.
    split; [intros _|lra]. destruct (HN cfg Hf) as (g & Eg & Hg). unfold dzdt_front. rewrite Es. cbn [bind]. rewrite Ex. cbn [bind]. rewrite EK, Etc, Etn, Ed, Ep, HB.
    replace (s_Ksat s * Fin x)%d with (Fin (k * x)) by (rewrite (vg_k _ _ _ _ _ _ _ V); reflexivity).
    assert (Q1 : exists q, (Fin (k * x) * (Fin g + Fin h) / Fin d)%d = Fin q /\ 0 <= q).
    { cbn [dadd dmul]. apply (div_pinf (k * x * (g + h)) (Fin d)); [nra|right; eauto]. }
    destruct Q1 as (q & Eq & Hq).
    assert (FIN : forall p, 0 <= p -> exists v, (let dz := if (Fin t - Fin t' >? Fin 0)%d then (lit 1 / (Fin t - Fin t') * Fin p)%d else Fin 0 in
      let dz0 := if (dz =? Fin 0)%d && negb false then lit (1 / 1000000000) else dz in if (dz0 >? lit 10000)%d then lit 10000 else dz0) = Fin v /\ 0 < v <= 10000).
    { intros p Hpp. change (Fin t - Fin t')%d with (Fin (t - t')). cbv zeta. destruct (Rle_dec (t - t') 0).
      - replace (Fin (t - t') >? Fin 0)%d with false by (symmetry; apply ltb_f; lra). destruct (clamp_velocity 0 ltac:(lra)) as (v & E & Hv & _). exists v. split; [exact E|exact Hv].
      - replace (Fin (t - t') >? Fin 0)%d with true by (symmetry; apply ltb_t; lra). change (lit 1) with (Fin 1). rewrite div_fin by lra. change (Fin (1 / (t - t')) * Fin p)%d with (Fin (1 / (t - t') * p)).
        assert (0 < / (t - t')) by (apply Rinv_0_lt_compat; lra). destruct (clamp_velocity (1 / (t - t') * p)) as (v & E & Hv & _); [unfold Rdiv; nra|]. exists v. split; [exact E|exact Hv]. }
    destruct (Z.eqb_spec (f_layer c) 1) as [L1|L1].
    + rewrite L1. change (1 >? 1)%Z with false. cbv iota. cbn [bind]. unfold dgtb at 1. rewrite ltb_f by lra. rewrite Eg. cbn [bind]. rewrite Eq.
      change (Fin q + Fin K)%d with (Fin (q + K)). destruct (FIN (q + K) ltac:(lra)) as (v & E & Hv). exists v. split; [apply f_equal; exact E|exact Hv].
    + replace (f_layer c >? 1)%Z with true by (symmetry; apply Z.gtb_lt; lia). rewrite Et. cbn [bind]. unfold dgtb at 1. rewrite ltb_f by lra. rewrite Eg. cbn [bind].
      destruct (denominator_pos e (f_layer c) psi (Fin 0 + (Fin d - Fin top) / Fin K)%d HE HV HC Rc Hp) as (y & Ey & Hy).
      { change (Fin d - Fin top)%d with (Fin (d - top)). destruct (pinf_div (d - top) K ltac:(lra) HK) as [->|(b & -> & Hb)]; [left; reflexivity|right]. eexists. split; [reflexivity|lra]. }
      rewrite Ey. cbn [bind]. destruct (div_pinf d y ltac:(lra) Hy) as (w & Ew & Hw). rewrite Ew, Eq. change (Fin w + Fin q)%d with (Fin (w + q)).
      destruct (FIN (w + q) ltac:(lra)) as (v & E & Hv). exists v. split; [apply f_equal; exact E|exact Hv].
  - exists 0%nat. intros cfg _. split; [lra|intros _]. unfold dzdt_front. rewrite Es. cbn [bind]. rewrite Ex. cbn [bind]. rewrite Etc, Etn.
    destruct (f_layer c >? 1)%Z; [rewrite Et|]; cbn [bind]; unfold dgtb at 1; rewrite ltb_t by lra; reflexivity.
Qed.

(** The whole list. *)
Lemma loop_exact : forall e closed nint h, sound_env e -> vg_column e -> conducting e -> capillary closed nint e -> 0 <= h ->
  forall l k, pre (e_cum e) (e_nlayers e) k l (e_nlayers e + 1) -> measured l -> within_soils e l -> Forall (flowing e) l ->
  exists N, forall cfg : Cfg, (N <= fuel)%nat ->
    (wet_over_dry l -> exists l', dzdt_loop e closed nint (Fin h) l = Ok l') /\
    (somewhere_dry_over_wet l -> dzdt_loop e closed nint (Fin h) l = Stop (ExitCode 0)).
Proof.
  intros e closed nint h HE HV HC HG Hh. induction l as [|c r IH]; intros k P M W F.
  - exists 0%nat. intros cfg _. split; [eexists; reflexivity|]. intros (i & f & g & E & _). destruct i; discriminate.
  - inversion M as [|? ? Mc Mr]; subst. inversion W as [|? ? Wc Wr]; subst. inversion F as [|? ? Fc Fr]; subst.
    assert (Pr : exists k', pre (e_cum e) (e_nlayers e) k' r (e_nlayers e + 1)) by (destruct P as (_ & _ & P); destruct (f_bottom c); [destruct P|]; eauto).
    destruct Pr as (k' & Pr). destruct (IH k' Pr Mr Wr Fr) as [N1 HN1].
    assert (Rc : (1 <= f_layer c <= e_nlayers e)%Z) by (destruct P as (-> & X & _); exact X).
    destruct (env_soil e _ HE Rc) as [s Es]. destruct (env_frozen e _ HE Rc) as [ff Ef]. destruct (fl_K _ _ Fc) as (K & EK & HK).
    assert (HEAD : forall cfg : Cfg, dzdt_loop e closed nint (Fin h) (c :: r) = match r with [] => Ok [c] | n :: _ =>
      v <- (if f_bottom c then Ok (Fin 0) else dzdt_front e closed nint (Fin h) c n) ;; rest' <- dzdt_loop e closed nint (Fin h) r ;; Ok (set_dzdt c v :: rest') end).
    { intro cfg. cbn [dzdt_loop]. rewrite EK. rewrite ltb_f by lra. rewrite Es. cbn [bind]. rewrite Ef. cbn [bind]. reflexivity. }
    destruct r as [|n r].
    + exists 0%nat. intros cfg _. rewrite HEAD. split; [eexists; reflexivity|]. intros (i & f & g & _ & E & _). destruct i as [|[|i]]; discriminate.
    + assert (SH : somewhere_dry_over_wet (c :: n :: r) <-> (f_bottom c = false /\ val (f_theta c) < val (f_theta n)) \/ somewhere_dry_over_wet (n :: r)).
      { split.
        - intros (i & f & g & H1 & H2 & H3 & H4). destruct i as [|i]; [injection H1 as <-; injection H2 as <-; auto|]. right. exists i, f, g. auto.
        - intros [[H1 H2]|(i & f & g & H)]; [exists 0%nat, c, n; auto|exists (S i), f, g; exact H]. }
      assert (WH : wet_over_dry (c :: n :: r) -> (f_bottom c = false -> val (f_theta n) <= val (f_theta c)) /\ wet_over_dry (n :: r)).
      { intro H. split; [intro B; exact (H 0%nat c n eq_refl eq_refl B)|]. intros i. exact (H (S i)). }
      destruct (f_bottom c) eqn:B.
      * exists N1. intros cfg Hf. destruct (HN1 cfg Hf) as [A1 A2]. rewrite HEAD. cbn [bind]. split.
        -- intro H. destruct (A1 (proj2 (WH H))) as [l' E]. rewrite E. cbn [bind]. eauto.
        -- intro H. apply SH in H as [[H _]|H]; [discriminate|]. rewrite (A2 H). reflexivity.
      * assert (Ln : f_layer n = f_layer c). { destruct P as (L1 & _ & P). rewrite B in P. destruct P as (L2 & _). congruence. }
        inversion Wr as [|? ? Wn _]; subst.
        destruct (front_exact e closed nint h c n HE HV HC HG Hh Rc Ln B (proj1 Mc) Fc Wc Wn) as [N2 HN2].
        exists (Nat.max N1 N2). intros cfg Hf. destruct (HN1 cfg ltac:(lia)) as [A1 A2]. destruct (HN2 cfg ltac:(lia)) as [B1 B2]. rewrite HEAD. split.
        -- intro H. destruct (WH H) as [H1 H2]. destruct (B1 (H1 eq_refl)) as (v & -> & _). cbn [bind]. destruct (A1 H2) as [l' E]. rewrite E. cbn [bind]. eauto.
        -- intro H. destruct (Rle_dec (val (f_theta n)) (val (f_theta c))) as [L|L].
           ++ apply SH in H as [[_ H]|H]; [lra|]. destruct (B1 L) as (v & -> & _). cbn [bind]. rewrite (A2 H). reflexivity.
           ++ rewrite B2 by lra. reflexivity.
Qed.

Theorem velocities_exact : forall e closed nint h l, sound_env e -> vg_column e -> conducting e -> capillary closed nint e -> 0 <= h ->
  profile (e_nlayers e) (e_cum e) l -> measured l -> within_soils e l -> Forall (flowing e) l -> wet_over_dry l ->
  exists N, forall cfg : Cfg, (N <= fuel)%nat -> exists l', lgar_dzdt_calc e closed nint (Fin h) l = Ok l' /\ velocities limited_exactly l l'.
Proof.
  intros e closed nint h l HE HV HC HG Hh HP M W F HW. apply profile_scan in HP as [_ P]; [|apply HE].
  destruct (loop_exact e closed nint h HE HV HC HG Hh l 1 P M W F) as [N HN].
  assert (NE : l <> []) by (intros ->; cbn in P; pose proof (se_n _ HE); lia). destruct l as [|c0 r0]; [contradiction|].
  assert (FR : forall i, exists Ni, forall cfg : Cfg, (Ni <= fuel)%nat -> forall c n v, nth_error (c0 :: r0) i = Some c -> nth_error (c0 :: r0) (S i) = Some n ->
     f_bottom c = false -> dzdt_front e closed nint (Fin h) c n = Ok v -> limited_exactly v).
  { intro i. destruct (nth_error (c0 :: r0) i) as [c|] eqn:Ec; [|exists 0%nat; intros; discriminate].
    destruct (nth_error (c0 :: r0) (S i)) as [n|] eqn:En; [|exists 0%nat; intros; discriminate].
    destruct (f_bottom c) eqn:B; [exists 0%nat; intros cfg _ c1 n1 v E1 _ B1; congruence|].
    pose proof (nth_error_In _ _ Ec) as Ic. pose proof (nth_error_In _ _ En) as In_. unfold measured in M. unfold within_soils in W. rewrite Forall_forall in M, W, F.
    destruct (split_nth _ _ _ _ Ec) as (l1 & l2 & EL & Hl1). rewrite EL in P. apply pre_app in P as (j & _ & P). destruct P as (Lc & Rc & P). rewrite B in P.
    assert (En2 : nth_error l2 0 = Some n). { rewrite EL in En. rewrite nth_error_app2 in En by lia. replace (S i - length l1)%nat with 1%nat in En by lia. exact En. }
    destruct l2 as [|n' l2]; [discriminate|]. injection En2 as ->. destruct P as (Ln & _).
    destruct (front_exact e closed nint h c n HE HV HC HG Hh ltac:(lia) ltac:(lia) B (proj1 (M _ Ic)) (F _ Ic) (W _ Ic) (W _ In_)) as [Ni HNi].
    exists Ni. intros cfg Hf c1 n1 v E1 E2 B1 Ev. injection E1 as <-. injection E2 as <-.
    destruct (HNi cfg Hf) as [A _]. destruct (A (HW i c n Ec En B)) as (x & Ex & Hx). rewrite Ex in Ev. apply Ok_inj in Ev. subst v. exists x. auto. }
  assert (BD : forall k, exists Nk, forall cfg : Cfg, (Nk <= fuel)%nat -> forall i c n v, (i < k)%nat -> nth_error (c0 :: r0) i = Some c -> nth_error (c0 :: r0) (S i) = Some n ->
     f_bottom c = false -> dzdt_front e closed nint (Fin h) c n = Ok v -> limited_exactly v).
  { induction k as [|k [Nk IHk]]; [exists 0%nat; intros; lia|]. destruct (FR k) as [Ni HNi]. exists (Nat.max Nk Ni). intros cfg Hf i c n v Hi. 
    destruct (Nat.eq_dec i k) as [->|]; [apply HNi; lia|apply IHk; lia]. }
  destruct (BD (length (c0 :: r0))) as [Nb HNb]. exists (Nat.max N Nb). intros cfg Hf. destruct (HN cfg ltac:(lia)) as [A _]. destruct (A HW) as [l' E].
  exists l'. split; [exact E|]. eapply loop_velocities; [|exact E]. intros i c n v Ec En B Ev. eapply (HNb cfg ltac:(lia) i); eauto. apply nth_error_Some. congruence.
Qed.

Theorem dry_over_wet_exits : forall e closed nint h l, sound_env e -> vg_column e -> conducting e -> capillary closed nint e -> 0 <= h ->
  profile (e_nlayers e) (e_cum e) l -> measured l -> within_soils e l -> Forall (flowing e) l -> somewhere_dry_over_wet l ->
  exists N, forall cfg : Cfg, (N <= fuel)%nat -> lgar_dzdt_calc e closed nint (Fin h) l = Stop (ExitCode 0).
Proof.
  intros e closed nint h l HE HV HC HG Hh HP M W F HW. apply profile_scan in HP as [_ P]; [|apply HE].
  destruct (loop_exact e closed nint h HE HV HC HG Hh l 1 P M W F) as [N HN].
  assert (NE : l <> []) by (intros ->; cbn in P; pose proof (se_n _ HE); lia). destruct l as [|c0 r0]; [contradiction|].
  exists N. intros cfg Hf. apply (HN cfg Hf). assumption.
Qed.
End Exactly.
