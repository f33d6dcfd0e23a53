(** What water on the surface does to the velocities. *)

From Coq Require Import Reals Lra ZArith List Bool Lia.
From Verif Require Import Outcome Dbl Exact Types ListOps Soil Fronts Infil Lib Spec_Common Spec_Column Spec_Update Spec_Velocity Spec_Ponding Spec_Speed Pf_Dbl Pf_Pow Pf_Velocity Pf_Ponding.
Import ListNotations.
Open Scope R_scope.
Local Existing Instance exact.

Section Run.
Context {cfg : Cfg}.

Lemma dadd_comm : forall x y : dbl, (x + y)%d = (y + x)%d.
Proof. intros [x| | |] [y| | |]; try reflexivity. cbn. f_equal. apply Rplus_comm. Qed.

Lemma clamp_pair : forall p q x y, p <= q ->
  (let dz := if (Fin p =? Fin 0)%d && negb false then lit (1 / 1000000000) else Fin p in if (dz >? lit 10000)%d then lit 10000 else dz) = Fin x ->
  (let dz := if (Fin q =? Fin 0)%d && negb false then lit (1 / 1000000000) else Fin q in if (dz >? lit 10000)%d then lit 10000 else dz) = Fin y -> 0 < x ->
  x = 1 / 1000000000 \/ (x = Rmin 10000 p /\ y = Rmin 10000 q).
Proof.
  intros p q x y Hpq. cbn [negb]. rewrite !andb_true_r. cbn [deqb]. change (lit (1 / 1000000000)) with (Fin (1 / 1000000000)). change (lit 10000) with (Fin 10000). unfold Reqb, dgtb, dltb, Rltb, Rmin. cbv zeta.
  intros H1 H2 Hx. destruct (Req_EM_T p 0), (Req_EM_T q 0); repeat destruct (Rlt_dec _ _) in H1; repeat destruct (Rlt_dec _ _) in H2; injection H1 as <-; injection H2 as <-; repeat destruct (Rle_dec _ _); try lra.
Qed.

Lemma front_speed : forall e closed nint h h' c n z t t' k x y, h <= h' -> f_bottom c = false -> f_depth c = Fin z -> 0 < z -> f_theta c = Fin t -> f_theta n = Fin t' -> conducts e c k -> 0 <= k ->
  dzdt_front e closed nint (Fin h) c n = Ok (Fin x) -> dzdt_front e closed nint (Fin h') c n = Ok (Fin y) -> 0 < x ->
  x = 1 / 1000000000 \/ (t' < t /\ y = Rmin 10000 (x + k * (h' - h) / (z * (t - t')))).
Proof.
  intros e closed nint h h' c n z t t' k x y Hh HB Ez Hz Et Et' (s & ks & ff & Es & Ek & Ef & ->) Hk H1 H2 Hx. unfold dzdt_front in H1, H2. rewrite Es in H1, H2. cbn [bind] in H1, H2. rewrite Ef in H1, H2. cbn [bind] in H1, H2.
  rewrite Ek, Ez, Et, Et', HB in H1, H2. change (Fin ks * Fin ff)%d with (Fin (ks * ff)) in H1, H2. set (k := ks * ff) in *.
  bind_inv H1 bs EB. rewrite EB in H2. cbn [bind] in H2. destruct (Fin t' >? Fin t)%d eqn:EGT; [discriminate|].
  bind_inv H1 G EG. rewrite EG in H2. cbn [bind] in H2. change (Fin t - Fin t')%d with (Fin (t - t')) in *.
  assert (LT : t' <= t). { unfold dgtb, dltb in EGT. unfold Rltb in EGT. destruct (Rlt_dec t t'); [discriminate|]. lra. }
  assert (K : forall A B1 B2 : dbl, (G = Fin (val G) -> B1 = Fin (k * (val G + h) / z) /\ B2 = Fin (k * (val G + h') / z)) -> (G <> Fin (val G) -> B1 = B2 /\ forall r, B1 <> Fin r) ->
     forall u v, (u = (if (Fin (t - t') >? Fin 0)%d then lit 1 / Fin (t - t') * (A + B1) else Fin 0)%d) -> (v = (if (Fin (t - t') >? Fin 0)%d then lit 1 / Fin (t - t') * (A + B2) else Fin 0)%d) ->
     (let dz := if (u =? Fin 0)%d && negb false then lit (1 / 1000000000) else u in if (dz >? lit 10000)%d then lit 10000 else dz) = Fin x ->
     (let dz := if (v =? Fin 0)%d && negb false then lit (1 / 1000000000) else v in if (dz >? lit 10000)%d then lit 10000 else dz) = Fin y ->
     x = 1 / 1000000000 \/ (t' < t /\ y = Rmin 10000 (x + k * (h' - h) / (z * (t - t'))))).
  { intros A B1 B2 KF KN u v Eu Ev X1 X2.
    destruct (Rle_dec (t - t') 0) as [L|L].
    - assert (TT : (Fin (t - t') >? Fin 0)%d = false) by (apply ltb_f; lra). rewrite TT in Eu, Ev. subst u v. left. cbn [negb deqb] in X1. unfold Reqb in X1. destruct (Req_EM_T 0 0); [|lra]. cbn [andb] in X1. cbv zeta in X1.
      change (lit (1 / 1000000000)) with (Fin (1 / 1000000000)) in X1. change (lit 10000) with (Fin 10000) in X1. unfold dgtb in X1. rewrite ltb_f in X1 by lra. injection X1 as <-. reflexivity.
    - assert (TT : (Fin (t - t') >? Fin 0)%d = true) by (apply ltb_t; lra). rewrite TT in Eu, Ev. change (lit 1) with (Fin 1) in Eu, Ev. rewrite div_fin in Eu, Ev by lra.
      assert (SAME : B1 = B2 -> u = v) by (intros ->; congruence).
      assert (I : 0 < / (t - t')) by (apply Rinv_0_lt_compat; lra). assert (P : 0 <= k * (h' - h) / (z * (t - t'))). { apply Rmult_le_pos; [apply Rmult_le_pos; lra|]. left. apply Rinv_0_lt_compat. apply Rmult_lt_0_compat; lra. }
      assert (INF : u = v -> u = PInf -> x = 1 / 1000000000 \/ t' < t /\ y = Rmin 10000 (x + k * (h' - h) / (z * (t - t')))).
      { intros <- ->. cbn in X1, X2. injection X1 as <-. injection X2 as <-. right. split; [lra|]. rewrite Rmin_left; lra. }
      assert (NOT : u = NInf \/ u = NaN -> False). { intros [->| ->]; cbn in X1; discriminate. }
      assert (DEC : G = Fin (val G) \/ G <> Fin (val G)) by (destruct G; [left; reflexivity|right; discriminate..]). destruct DEC as [GF|GN].
      + destruct (KF GF) as [-> ->]. destruct A as [a| | |].
        * cbn [dadd dmul rnd exact] in Eu, Ev. subst u v.
          assert (EQ : 1 / (t - t') * (a + k * (val G + h') / z) = 1 / (t - t') * (a + k * (val G + h) / z) + k * (h' - h) / (z * (t - t'))) by (field; lra).
          destruct (clamp_pair (1 / (t - t') * (a + k * (val G + h) / z)) (1 / (t - t') * (a + k * (val G + h') / z)) x y ltac:(rewrite EQ; lra) X1 X2 Hx) as [E|[E1 E2]]; [left; exact E|right; split; [lra|]]. rewrite EQ in E2.
          revert E1 E2. unfold Rmin. repeat destruct (Rle_dec _ _); intros; subst; lra.
        * cbn in Eu, Ev. unfold inf_sign in Eu, Ev. destruct (Rlt_dec 0 (1 / (t - t'))); [|unfold Rdiv in *; lra]. apply INF; congruence.
        * exfalso. apply NOT. cbn in Eu. unfold inf_sign in Eu. destruct (Rlt_dec 0 (1 / (t - t'))); [|unfold Rdiv in *; lra]. left. exact Eu.
        * exfalso. apply NOT. right. exact Eu.
      + destruct (KN GN) as [-> NF]. assert (UV : u = v) by congruence. destruct u as [u0| | |] eqn:EU; [|apply INF; [exact UV|reflexivity]|exfalso; apply NOT; left; reflexivity|exfalso; apply NOT; right; reflexivity].
        exfalso. destruct A as [a| | |], B2 as [b| | |]; try (exact (NF _ eq_refl)); cbn in Eu; unfold inf_sign in Eu; repeat destruct (Rlt_dec _ _) in Eu; discriminate. }
  assert (BB : forall hh, (G = Fin (val G) -> (Fin k * (G + Fin hh) / Fin z)%d = Fin (k * (val G + hh) / z)) /\ (G <> Fin (val G) -> (Fin k * (G + Fin hh) / Fin z)%d = (Fin k * (G + Fin 0) / Fin z)%d /\ forall r, (Fin k * (G + Fin hh) / Fin z)%d <> Fin r)).
  { intro hh. split.
    - intros ->. cbn [dadd dmul rnd exact val]. apply div_fin. lra.
    - intro GN. destruct G as [g| | |]; [contradiction GN; reflexivity|..]; (split; [reflexivity|]); intro r; cbn; unfold inf_sign; repeat (destruct (Rlt_dec _ _) || destruct (Req_EM_T _ _)); try discriminate; cbn; destruct (Rlt_dec _ _); discriminate. }
  destruct (BB h) as [F1 N1]. destruct (BB h') as [F2 N2].
  assert (KN : G <> Fin (val G) -> (Fin k * (G + Fin h) / Fin z)%d = (Fin k * (G + Fin h') / Fin z)%d /\ forall r, (Fin k * (G + Fin h) / Fin z)%d <> Fin r).
  { intro GN. destruct (N1 GN) as [E R]. destruct (N2 GN) as [E' _]. split; [congruence|exact R]. }
  destruct (f_layer c =? 1)%Z.
  - cbn [bind] in H1, H2. apply Ok_inj in H1, H2. eapply (K (f_K c)); [intro GF; split; [exact (F1 GF)|exact (F2 GF)]|exact KN|reflexivity|reflexivity| |].
    + rewrite (dadd_comm (f_K c)). exact H1.
    + rewrite (dadd_comm (f_K c)). exact H2.
  - bind_inv H1 dz1 D1. bind_inv D1 den ED. rewrite ED in H2. cbn [bind] in H2. apply Ok_inj in D1. subst dz1. apply Ok_inj in H1, H2.
    eapply (K (Fin z / den)%d); [intro GF; split; [exact (F1 GF)|exact (F2 GF)]|exact KN|reflexivity|reflexivity|exact H1|exact H2].
Qed.

Lemma loop_speed : forall e closed nint h h' l l1 l2, h <= h' -> dzdt_loop e closed nint (Fin h) l = Ok l1 -> dzdt_loop e closed nint (Fin h') l = Ok l2 -> speeded e h h' l l1 l2.
Proof.
  intros e closed nint h h' l. induction l as [|c r IH]; intros l1 l2 Hh H1 H2.
  - intros [|i] f n; intros; discriminate.
  - cbn [dzdt_loop] in H1, H2. destruct (f_K c <? Fin 0)%d; [discriminate|]. bind_inv H1 s Es. rewrite Es in H2. cbn [bind] in H2. bind_inv H1 ff Ef. rewrite Ef in H2. cbn [bind] in H2.
    destruct r as [|n r]; [intros [|i] f m; intros; try discriminate; destruct i; discriminate|].
    bind_inv H1 v1 V1. bind_inv H1 r1 RR1. apply Ok_inj in H1. subst l1. bind_inv H2 v2 V2. bind_inv H2 r2 RR2. apply Ok_inj in H2. subst l2.
    intros [|i] f m f1 f2 z t t' k x y E1 E2 HB A1 A2 Ez Hz Et Et' HC Hk X Y Hx.
    + cbn [nth_error] in *. injection E1 as <-. injection E2 as <-. injection A1 as <-. injection A2 as <-. rewrite HB in V1, V2. cbn [f_dzdt set_dzdt] in X, Y. change (f_dzdt (set_dzdt c v1)) with v1 in X. change (f_dzdt (set_dzdt c v2)) with v2 in Y. subst v1 v2.
      eapply front_speed; eassumption.
    + cbn [nth_error] in A1, A2. eapply (IH r1 r2 Hh RR1 RR2 i f m); eassumption.
Qed.

Lemma calc_speed : forall e closed nint h h' l l1 l2, h <= h' -> lgar_dzdt_calc e closed nint (Fin h) l = Ok l1 -> lgar_dzdt_calc e closed nint (Fin h') l = Ok l2 ->
  same_but_dzdt l1 l2 /\ speeded e h h' l l1 l2.
Proof.
  intros e closed nint h h' l l1 l2 Hh H1 H2. split; [exact (dz_trans _ _ _ (dz_sym _ _ (dzdt_but _ _ _ _ _ _ H1)) (dzdt_but _ _ _ _ _ _ H2))|].
  destruct l as [|c r]; [discriminate|]. exact (loop_speed _ _ _ _ _ _ _ _ Hh H1 H2).
Qed.
End Run.
