(** What the conductivity of the soil does to the drive, the capacity and the dry depth (exact arithmetic). *)

From Coq Require Import Reals Lra ZArith List Bool Lia.
From Verif Require Import Outcome Dbl Types ListOps Soil Fronts Infil Move State Update Exact Lib Spec_Common Spec_Soil Spec_Update Spec_Profile Spec_Storage Spec_Physical Spec_Velocity Spec_Frost
  Pf_Dbl Pf_Pow Pf_Geff Pf_Soil Pf_Frozen Pf_Physical Pf_Storm3.
Import ListNotations.
Open Scope R_scope.

Section Exactly.
Local Existing Instance exact.

(** ** Scaling *)
Section Scale.
Variable c : R.
Hypothesis Hc : 0 < c.
Definition sc (x : dbl) : dbl := match x with Fin a => Fin (c * a) | _ => x end.

Lemma sc_add : forall x y, (sc x + sc y)%d = sc (x + y)%d.
Proof. intros [x| | |] [y| | |]; cbn; try reflexivity. f_equal; ring. Qed.
Lemma sc_opp : forall x, dopp (sc x) = sc (dopp x).
Proof. intros [x| | |]; cbn; try reflexivity. f_equal; ring. Qed.
Lemma sc_sub : forall x y, (sc x - sc y)%d = sc (x - y)%d.
Proof. intros [x| | |] [y| | |]; cbn; try reflexivity. f_equal; ring. Qed.
Lemma pos_iff : forall a, 0 < c * a <-> 0 < a.
Proof. intro a. split; intro H; [apply Rmult_lt_reg_l with c; lra|apply Rmult_lt_0_compat; lra]. Qed.
Lemma neg_iff : forall a, c * a < 0 <-> a < 0.
Proof. intro a. split; intro H; [apply Rmult_lt_reg_l with c; lra|assert (0 < c * - a) by (apply Rmult_lt_0_compat; lra); lra]. Qed.
Lemma zero_iff : forall a, c * a = 0 <-> a = 0.
Proof. intro a. split; intro H; [apply Rmult_integral in H; lra|subst; ring]. Qed.
Lemma sc_sign : forall a, inf_sign (c * a) = inf_sign a.
Proof.
  intros a. unfold inf_sign. pose proof (pos_iff a) as P. pose proof (neg_iff a) as N.
  destruct (Rlt_dec 0 (c * a)), (Rlt_dec 0 a); try tauto; destruct (Rlt_dec (c * a) 0), (Rlt_dec a 0); tauto.
Qed.
Lemma sc_inf : forall a, sc (inf_sign a) = inf_sign a.
Proof. intro a. unfold inf_sign. destruct (Rlt_dec 0 a); [reflexivity|]. destruct (Rlt_dec a 0); reflexivity. Qed.
Lemma sc_mul : forall x y, (sc x * y)%d = sc (x * y)%d.
Proof.
  intros [x| | |] [y| | |]; cbn; rewrite ?sc_sign, <- ?sc_opp, ?sc_inf; try reflexivity. f_equal; ring.
Qed.
Lemma sc_div : forall x y, (sc x / y)%d = sc (x / y)%d.
Proof.
  intros [x| | |] [y| | |]; cbn; try reflexivity; try (destruct (Rlt_dec _ _); reflexivity); try (f_equal; ring).
  destruct (Req_EM_T y 0); [rewrite sc_sign, sc_inf; reflexivity|]. cbn. f_equal. field. assumption.
Qed.
Lemma sc_both : forall x y, (sc x / sc y)%d = (x / y)%d.
Proof.
  intros [x| | |] [y| | |]; cbn; try reflexivity; try (pose proof (neg_iff y); destruct (Rlt_dec (c * y) 0), (Rlt_dec y 0); tauto || reflexivity).
  pose proof (zero_iff y). destruct (Req_EM_T (c * y) 0), (Req_EM_T y 0); try tauto; [apply sc_sign|]. cbn. f_equal. field. lra.
Qed.

Context {cfg : Cfg}.
Lemma sc_K : forall Se k m, calc_K_from_Se Se (Fin (c * k)) m = sc (calc_K_from_Se Se (Fin k) m).
Proof. intros. unfold calc_K_from_Se. change (Fin (c * k)) with (sc (Fin k)). rewrite !sc_mul. reflexivity. Qed.
Lemma sc_loop : forall j s k hi h2 dh K1 G, geff_loop j s (Fin (c * k)) hi h2 dh (sc K1) (sc G) = (g <- geff_loop j s (Fin k) hi h2 dh K1 G ;; Ok (sc g)).
Proof.
  induction j as [|j IH]; intros; cbn [geff_loop]; [reflexivity|]. destruct (h2 <? hi)%d; [|reflexivity]. cbv zeta. rewrite sc_K, sc_sub, sc_both, sc_add, sc_mul, sc_div, sc_add. apply IH.
Qed.
Lemma sc_geff : forall closed t1 t2 s k n, calc_Geff closed t1 t2 s (Fin (c * k)) n = calc_Geff closed t1 t2 s (Fin k) n.
Proof.
  intros closed t1 t2 s k n. unfold calc_Geff. destruct closed; [reflexivity|]. cbn [negb]. cbv zeta. rewrite sc_K. change (Fin 0) with (Fin 0).
  replace (Fin 0) with (sc (Fin 0)) at 1 by (cbn; f_equal; ring). rewrite sc_loop. destruct (geff_loop _ _ _ _ _ _ _ _) as [g|]; [|reflexivity]. cbn [bind].
  change (Fin (c * k)) with (sc (Fin k)). rewrite sc_both. reflexivity.
Qed.
End Scale.

(** The drive does not depend on the conductivity of the saturated soil. *)
Lemma geff_indep : forall (cfg : Cfg) closed t1 t2 s k k' n, 0 < k -> 0 < k' -> calc_Geff closed t1 t2 s (Fin k) n = calc_Geff closed t1 t2 s (Fin k') n.
Proof.
  intros cfg closed t1 t2 s k k' n H H'. replace k with (k / k' * k') by (field; lra). apply sc_geff. apply Rdiv_lt_0_compat; assumption.
Qed.

(** ** More and less *)

Lemma less_min : forall x y z, less x y -> less (dfmin x z) (dfmin y z).
Proof.
  intros x y z [<-|(a & b & -> & -> & H)]; [left; reflexivity|]. destruct z as [z| | |]; dsimp; dcrush; try (left; reflexivity); right; do 2 eexists; repeat (split; [reflexivity|]); lra.
Qed.
Lemma less_cap : forall x y z, less x y -> less (if (x >? z)%d then z else x) (if (y >? z)%d then z else y).
Proof.
  intros x y z [<-|(a & b & -> & -> & H)]; [left; reflexivity|]. destruct z as [z| | |]; dsimp; dcrush; try (left; reflexivity); right; do 2 eexists; repeat (split; [reflexivity|]); lra.
Qed.

(** The partition of the surface water. *)
Lemma partition_less : forall dt pm f1 f2 w q1 o1 i1 q2 o2 i2, less f1 f2 -> 0 < dt -> 0 <= pm -> 0 <= w ->
  surface_partition (Fin dt) (Fin w) (Fin 0) (Fin pm) f1 = (Fin q1, Fin o1, Fin i1) ->
  surface_partition (Fin dt) (Fin w) (Fin 0) (Fin pm) f2 = (Fin q2, Fin o2, Fin i2) ->
  0 <= i1 -> 0 <= i2 -> o1 <= pm -> o2 <= pm -> i1 <= i2 /\ q2 <= q1 /\ o2 <= o1.
Proof.
  intros dt pm f1 f2 w q1 o1 i1 q2 o2 i2 [<-|(a & b & -> & -> & H)] Hd Hp Hw H1 H2.
  - rewrite H1 in H2. injection H2 as <- <- <-. lra.
  - assert (M : a * dt <= b * dt) by (apply Rmult_le_compat_r; lra). unfold surface_partition in H1, H2. revert M H1 H2.
    change (Fin a * Fin dt)%d with (Fin (a * dt)). change (Fin b * Fin dt)%d with (Fin (b * dt)). generalize (a * dt) (b * dt). intros x y M H1 H2 Hi1 Hi2 Ho1 Ho2.
    dcrush; dinv; subst; try discriminate; lra.
Qed.

(** ** The drive towards saturation *)
Lemma geff_sat : forall (cfg : Cfg) closed nint e k s t1 ks g, capillary closed nint e -> vg_column e -> (1 <= k <= e_nlayers e)%Z -> soil_of e k = Ok s ->
  calc_Geff closed t1 (s_theta_e s) s ks nint = Ok g -> not_negative g.
Proof.
  intros cfg closed nint e k s t1 ks g HC HV Hk Es E. destruct closed; [|exact (Pf_Geff.geff_integral_nn _ _ _ _ _ _ E)].
  destruct (HC k s Hk Es) as (lam & pb & El & Eb & L0 & P0). destruct (HV k s Hk Es) as (r & te & a & n & m & kk & V).
  unfold calc_Geff, Se_of_theta, calc_Se_from_theta in E. cbn [negb] in E. cbv zeta in E. rewrite (vg_e _ _ _ _ _ _ _ V), (vg_r _ _ _ _ _ _ _ V), El, Eb in E.
  pose proof (vg_re _ _ _ _ _ _ _ V) as R0.
  assert (E1 : ((Fin te - Fin r) / (Fin te - Fin r))%d = Fin 1). { cbn. destruct (Req_EM_T (te - r) 0); [lra|]. cbn. f_equal. field. lra. }
  rewrite E1, pow_one in E.
  assert (E2 : exists h, (Fin pb * ((lit 2 + lit 3 * Fin lam) / (lit 1 + lit 3 * Fin lam)))%d = Fin h /\ 0 <= h).
  { cbn. destruct (Req_EM_T (1 + 3 * lam) 0); [lra|]. cbn. eexists. split; [reflexivity|]. apply Rmult_le_pos; [lra|]. apply Rlt_le, Rdiv_lt_0_compat; lra. }
  destruct E2 as (h & E2 & H0). rewrite E2 in E. apply Ok_inj in E. subst g. generalize (dpow ((t1 - Fin r) / (Fin te - Fin r)) (lit 3 + lit 1 / Fin lam))%d as X.
  intro X. assert (N : not_negative (Fin h)) by (apply nn_Fin; exact H0).
  destruct X as [x| | |]; try exact N.
  - change (lit 1) with (Fin 1). cbn. destruct (Req_EM_T (1 - x) 0) as [Q|Q].
    + rewrite Q, Rmult_0_r. unfold inf_sign. destruct (Rlt_dec 0 0); [lra|]. exact N.
    + cbn. replace (h * (1 - x) / (1 - x)) with h by (field; exact Q). exact N.
  - change (lit 1) with (Fin 1). cbn. unfold inf_sign. destruct (Rlt_dec 0 h); cbn; [exact N|]. destruct (Rlt_dec h 0); cbn; exact N.
  - change (lit 1) with (Fin 1). cbn. unfold inf_sign. destruct (Rlt_dec 0 h); cbn; [exact N|]. destruct (Rlt_dec h 0); cbn; exact N.
Qed.
End Exactly.
