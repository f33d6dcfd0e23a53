(** What the output file of the standalone program adds up to (exact arithmetic). *)

From Coq Require Import String Ascii Reals Lra ZArith List Bool Lia.
From RecordUpdate Require Import RecordSet.
From Verif Require Import Outcome Dbl Exact Types ListOps Fronts Giuh State Update Bmi Config Driver Lib Spec_Common Spec_List Spec_Column Spec_Update Spec_Bmi
  Spec_Profile Spec_Config Spec_Run Spec_Driver Pf_Dbl Pf_Update Pf_Clock Pf_Bmi Pf_BmiMem Pf_BmiRun Pf_ConfigThm Pf_InitTotal Pf_Pow Pf_Giuh Pf_Ledger Pf_Signs Pf_DriverRun.
Import ListNotations.
Import RecordSetNotations.
Open Scope R_scope.
Open Scope list_scope.

Section Exact.
Local Existing Instance exact.
Context {cfg : Cfg}.

Lemma frame_more : forall u s a xs s' a', runs u s a xs s' a' -> mb_giuh (st_mb s') = mb_giuh (st_mb s) /\ mb_Q (st_mb s') = mb_Q (st_mb s) /\ mb_in (st_mb s') = mb_in (st_mb s).
Proof.
  intros u s a xs s' a' H. induction H as [|s a s1 a1 xs s2 a2 Hs Hr IH]; [repeat split|].
  destruct (substep_inv _ _ _ _ _ Hs) as (volstart & b & volend & mbl & precip & pet & prate & petr & _ & _ & _ & _ & _ & _ & _ & _ & _ & Es & _).
  subst s1. exact IH.
Qed.

(** Published values and totals of an Update. *)
Lemma update_totals : forall s s' b, p_invalid (st_p s) = false -> Update s = Ok s' -> st_out s' = Some b ->
  (forall k f, In (k, f) totals -> exists x, nth_error (columns_of b) k = Some (x * cm_to_m)%d /\ f (st_mb s') = (f (st_mb s) + x)%d) /\
  nth_error (columns_of b) 5 = Some (mb_end (st_mb s') * cm_to_m)%d /\ mb_start (st_mb s') = mb_start (st_mb s) /\
  exists r giuh q, giuh_convolution_integral r (g_N s) (g_ord s) (g_queue s) = Ok (giuh, q) /\ g_queue s' = q /\ g_N s' = g_N s /\ g_ord s' = g_ord s /\
    nth_error (columns_of b) 3 = Some (r * cm_to_m)%d /\ nth_error (columns_of b) 6 = Some (giuh * cm_to_m)%d.
Proof.
  intros s s' b Hv H Ho. destruct (Update_inv _ _ Hv H) as (s1 & vcal & volend & s2 & dt & n & s3 & a & E1 & E2 & _ & _ & E5 & E6 & E7).
  destruct (prologue_inv _ _ _ E1) as (Emb & _ & _ & _ & _ & G1 & G2 & G3 & _). destruct (steps_inv _ _ _ _ E5) as (_ & _ & Es2).
  destruct (loop_runs _ _ _ _ _ _ E6) as (xs & Hr1 & _). destruct (finish_inv _ _ _ _ E7) as (giuh & q & mbl & EG & _ & Es').
  destruct (runs_frame _ _ _ _ _ _ _ Hr1) as (_ & _ & M0 & M1 & M2 & M3 & M4 & _ & M5 & N1 & N2 & N3 & _). destruct (frame_more _ _ _ _ _ _ Hr1) as (M6 & M7 & M8).
  assert (Emb2 : st_mb s2 = st_mb s) by (subst s2; exact Emb). rewrite Emb2 in *.
  assert (X1 : g_N s3 = g_N s) by (rewrite N1; subst s2; exact G1). assert (X2 : g_ord s3 = g_ord s) by (rewrite N2; subst s2; exact G2).
  assert (X3 : g_queue s3 = g_queue s) by (rewrite N3; subst s2; exact G3). rewrite X1, X2, X3 in EG.
  rewrite Es' in Ho. apply some_inj in Ho. rewrite Es'. cbn [st_mb g_N g_ord g_queue mb_start mb_end].
  split; [|split; [|split]].
  - intros k f Hk. subst b. cbn in Hk.
    destruct Hk as [E|[E|[E|[E|[E|[E|[E|[E|[]]]]]]]]]; apply pair_equal_spec in E as [<- <-]; eexists; (split; [reflexivity|]);
      cbn [mb_precip mb_pet mb_aet mb_runoff mb_giuh mb_Q mb_in mb_rech]; rewrite ?M0, ?M1, ?M2, ?M3, ?M4, ?M5, ?M6, ?M7, ?M8; reflexivity.
  - subst b. reflexivity.
  - exact M0.
  - exists (a_runoff a), giuh, q. split; [exact EG|]. subst b. split; [reflexivity|]. split; [exact X1|]. split; [exact X2|]. split; reflexivity.
Qed.

Lemma with_forcing_same : forall p e s, st_mb (with_forcing p e s) = st_mb s /\ p_invalid (st_p (with_forcing p e s)) = p_invalid (st_p s) /\ g_N (with_forcing p e s) = g_N s /\
  g_ord (with_forcing p e s) = g_ord s /\ g_queue (with_forcing p e s) = g_queue s.
Proof. intros. repeat split. Qed.

Lemma row_column : forall k t b hd rs x xs, nth_error (columns_of b) k = Some x -> column k rs = xs -> column k (mkRowOut t (map D (columns_of b)) hd :: rs) = Some (D x) :: xs.
Proof. intros k t b hd rs x xs H <-. unfold column. cbn [map w_vars]. rewrite nth_error_map, H. reflexivity. Qed.

Lemma cm_to_m_is : cm_to_m = Fin (1 / 100).
Proof. reflexivity. Qed.

Lemma driven_invalid : forall s ps rs s', driven s ps rs s' -> p_invalid (st_p s') = p_invalid (st_p s).
Proof.
  intros s ps rs s' H. induction H as [|s t p e s1 b ps rs s2 U So H IH]; [reflexivity|]. rewrite IH.
  destruct (Update_static _ _ U) as [(_ & _ & _ & _ & _ & _ & _ & S6 & _) _]. exact S6.
Qed.

Theorem column_sums : forall s ps rs s', driven s ps rs s' -> p_invalid (st_p s) = false -> forall k f, In (k, f) totals -> forall x y, f (st_mb s) = Fin x -> f (st_mb s') = Fin y ->
  sums_to k rs ((y - x) / 100).
Proof.
  intros s ps rs s' H Hv k f Hk. revert Hv. induction H as [s|s t p e s1 b ps rs s2 U So H IH]; intros Hv x y Hx Hy.
  - exists []. split; [reflexivity|]. cbn [Rsum]. rewrite Hx in Hy. injection Hy as ->. field.
  - destruct (update_totals _ _ _ (Hv : p_invalid (st_p (with_forcing p e s)) = false) U So) as (T & _). destruct (T k f Hk) as (d & Ed & Ef).
    assert (Hv1 : p_invalid (st_p s1) = false). { destruct (Update_static _ _ U) as [(_ & _ & _ & _ & _ & _ & _ & S6 & _) _]. exact (eq_trans S6 Hv). }
    assert (F1 : exists z, f (st_mb s1) = Fin z).
    { clear - H Hy Hk Hv1 cfg. revert y Hy. induction H as [s|s t p e s1 b ps rs s2 U So H IH]; intros y Hy; [eauto|].
      assert (Hv2 : p_invalid (st_p s1) = false). { destruct (Update_static _ _ U) as [(_ & _ & _ & _ & _ & _ & _ & S6 & _) _]. exact (eq_trans S6 Hv1). }
      destruct (IH Hv2 y Hy) as (z & Hz). destruct (update_totals _ _ _ (Hv1 : p_invalid (st_p (with_forcing p e s)) = false) U So) as (T & _). destruct (T k f Hk) as (d & Ed & Ef).
      rewrite Ef in Hz. apply fin_add in Hz as (z1 & z2 & Hz & _). exists z1. exact Hz. }
    destruct F1 as (z & Hz). destruct (IH Hv1 z y Hz Hy) as (xs & C & S). rewrite Hz in Ef. symmetry in Ef. apply fin_add in Ef as (x' & d' & Hx' & -> & ->).
    change (f (st_mb s) = Fin x') in Hx'. rewrite Hx in Hx'. injection Hx' as <-.
    exists (d' / 100 :: xs). split; [|cbn [Rsum]; rewrite S; field].
    cbn [map]. apply row_column; [|exact C]. rewrite Ed, cm_to_m_is. cbn. do 2 f_equal. field.
Qed.

(** The totals at the end are the sums; the printed balance is the balance of the file. *)
Theorem file_balance : forall s ps rs s' g, driven s ps rs s' -> ps <> [] -> fresh s -> p_invalid (st_p s) = false -> global_error (st_mb s') = Fin g ->
  exists V0 P Ro A Rc V W C,
    mb_start (st_mb s) = Fin V0 /\ sums_to 0 rs P /\ sums_to 3 rs Ro /\ sums_to 2 rs A /\ sums_to 8 rs Rc /\ last_storage rs V /\
    mb_on (st_mb s') = Fin W /\ mb_calib (st_mb s') = Fin C /\
    V0 / 100 + P - Ro - A - Rc - V - W / 100 + C / 100 = g / 100.
Proof.
  intros s ps rs s' g H N Fr Hv Hg. unfold global_error in Hg.
  apply fin_add in Hg as (g1 & C & Hg & HC & ->). apply fin_sub in Hg as (g2 & V & Hg & HV & ->). apply fin_sub in Hg as (g3 & Rc & Hg & HRc & ->).
  apply fin_sub in Hg as (g4 & W & Hg & HW & ->). apply fin_sub in Hg as (g5 & A & Hg & HA & ->). apply fin_sub in Hg as (g6 & Ro & Hg & HR & ->).
  apply fin_add in Hg as (V0 & P & HV0 & HP & ->).
  destruct Fr as ((v & _ & E0) & Z1 & Z2 & Z3 & Z4 & _).
  assert (St : mb_start (st_mb s') = mb_start (st_mb s) /\ (ps <> [] -> forall v, mb_end (st_mb s') = Fin v -> last_storage rs (v / 100))).
  { clear - H Hv cfg. induction H as [s|s t p e s1 b ps rs s2 U So H IH]; [split; [reflexivity|intros []; reflexivity]|].
    destruct (update_totals _ _ _ (Hv : p_invalid (st_p (with_forcing p e s)) = false) U So) as (_ & T1 & T2 & _).
    assert (Hv1 : p_invalid (st_p s1) = false). { destruct (Update_static _ _ U) as [(_ & _ & _ & _ & _ & _ & _ & S6 & _) _]. exact (eq_trans S6 Hv). }
    destruct (IH Hv1) as [I1 I2]. split; [rewrite I1; exact T2|]. intros _ v Ev. destruct ps as [|q ps].
    - inversion H; subst. exists [], (mkRowOut t (map D (columns_of b)) (st_head s2)). split; [reflexivity|]. cbn [w_vars]. rewrite nth_error_map, T1, Ev, cm_to_m_is. cbn. do 3 f_equal. field.
    - destruct (I2 (fun E => ltac:(discriminate E)) v Ev) as (r0 & r & -> & Er). eexists (_ :: r0), r. split; [reflexivity|exact Er]. }
  destruct St as [St1 St2]. exists V0, (P / 100), (Ro / 100), (A / 100), (Rc / 100), (V / 100), W, C.
  assert (CS := column_sums _ _ _ _ H Hv).
  split; [congruence|]. split; [replace (P / 100) with ((P - 0) / 100) by field; eapply (CS 0%nat mb_precip); [cbn; tauto| |]; assumption|].
  split; [replace (Ro / 100) with ((Ro - 0) / 100) by field; eapply (CS 3%nat mb_runoff); [cbn; tauto| |]; assumption|].
  split; [replace (A / 100) with ((A - 0) / 100) by field; eapply (CS 2%nat mb_aet); [cbn; tauto| |]; assumption|].
  split; [replace (Rc / 100) with ((Rc - 0) / 100) by field; eapply (CS 8%nat mb_rech); [cbn; tauto| |]; assumption|].
  split; [apply St2; assumption|]. split; [assumption|]. split; [assumption|]. field.
Qed.

(** What the file misses is within the tolerance of the sub-steps. *)
Theorem file_error : forall s ps rs s', driven s ps rs s' -> ps <> [] -> fresh s -> signs s -> p_invalid (st_p s) = false -> not_negative (c_pmax (st_cal s)) ->
  exists xs, history (fun s => not_negative (c_pmax (st_cal s))) s xs s' /\
    (Forall (fun x => finite (residual x)) xs -> finite (mb_calib (st_mb s')) ->
     exists g, global_error (st_mb s') = Fin g /\ Rabs g <= INR (List.length xs) * (1 / 10000 + 1 / 1000000000000)).
Proof.
  intros s ps rs s' H N Fr Sg Hv HQ. set (Q := fun s : state => not_negative (c_pmax (st_cal s))).
  assert (QE : forall a b, Q a -> user_edit a b -> st_cal b = st_cal a -> Q b) by (unfold Q; intros a b q _ ->; exact q).
  assert (QU : forall a b, Q a -> Update a = Ok b -> Q b).
  { unfold Q. intros a b q U. destruct (Update_static _ _ U) as [(_ & _ & _ & _ & _ & _ & S6 & _) _]. rewrite S6. exact q. }
  (* the last step apart *)
  assert (L : exists ps1 t p e rs1 s1 r1, driven s ps1 rs1 s1 /\ Update (with_forcing p e s1) = Ok s' /\ ps = ps1 ++ [(t, p, e)] /\ rs = rs1 ++ [r1]).
  { clear - H N. induction H as [s|s t p e s1 b ps rs s2 U So H IH]; [contradiction|]. destruct ps as [|q ps].
    - inversion H; subst. exists [], t, p, e, [], s. eexists. split; [constructor|]. split; [exact U|]. split; reflexivity.
    - destruct IH as (ps1 & t1 & p1 & e1 & rs1 & sx & r1 & D1 & U1 & -> & ->); [discriminate|]. exists ((t, p, e) :: ps1), t1, p1, e1. eexists (_ :: rs1), sx, r1.
      split; [econstructor; eassumption|]. split; [exact U1|]. split; reflexivity. }
  destruct L as (ps1 & t & p & e & rs1 & s1 & r1 & D1 & U & _ & _).
  destruct (driven_history _ _ _ _ Q QE QU D1 HQ) as (xs & Hh).
  assert (Q1 : Q s1). { clear - D1 HQ QU cfg. induction D1 as [|s t p e s1 b ps rs s2 U So H IH]; [exact HQ|]. apply IH. apply (QU (with_forcing p e s) s1 HQ U). }
  assert (Ed : user_edit s1 (with_forcing p e s1)).
  { exists p, e, (p_soilT (st_p s1)), (st_cal s1), (st_out s1), (p_nfronts (st_p s1)), (p_theta_wf (st_p s1)), (p_depth_wf (st_p s1)). destruct s1 as [? ? ? [] ? ? ? ? ? ? ? ?]. reflexivity. }
  pose proof (hist_edit _ _ _ _ _ Hh Ed Q1) as H1. destruct (executed_exists _ _ U) as (u & zs & X). exists (xs ++ zs). split; [eapply hist_update; eassumption|].
  intros Ff Fc. eapply history_bound; eassumption.
Qed.

(** Routed runoff: what has not left yet is in the queue. *)
Theorem file_routing : forall s ps rs s', driven s ps rs s' -> p_invalid (st_p s) = false -> forall ord q r0 r1, (1 <= List.length ord)%nat -> List.length q = S (List.length ord) ->
  g_N s = Z.of_nat (List.length ord) -> g_ord s = map Fin ord -> g_queue s = map Fin q -> mb_runoff (st_mb s) = Fin r0 -> mb_runoff (st_mb s') = Fin r1 ->
  exists Ro Qs q', sums_to 3 rs Ro /\ sums_to 6 rs Qs /\ g_queue s' = map Fin q' /\ List.length q' = List.length q /\
    100 * Qs + Rsum (firstn (List.length ord) q') = Rsum (firstn (List.length ord) q) + 100 * Ro * Rsum ord.
Proof.
  intros s ps rs s' H Hv ord q r0 r1 L1 L2 HN HO. revert Hv q r0 L2 HN HO. induction H as [s|s t p e s1 b ps rs s2 U So H IH]; intros Hv q r0 L2 HN HO HQ H0 H1.
  - exists 0, 0, q. split; [exists []; split; reflexivity|]. split; [exists []; split; reflexivity|]. split; [exact HQ|]. split; [reflexivity|]. lra.
  - destruct (update_totals _ _ _ (Hv : p_invalid (st_p (with_forcing p e s)) = false) U So) as (T & _ & _ & (r & giuh & q1 & EG & Eq1 & EN & EO & C3 & C6)).
    assert (Hv1 : p_invalid (st_p s1) = false). { destruct (Update_static _ _ U) as [(_ & _ & _ & _ & _ & _ & _ & S6 & _) _]. exact (eq_trans S6 Hv). }
    destruct (T 3%nat mb_runoff) as (d & Ed & Ef); [cbn; tauto|].
    assert (F1 : exists z, mb_runoff (st_mb s1) = Fin z).
    { clear - H H1 Hv1 cfg. induction H as [s|s t p e s1 b ps rs s2 U So H IH]; [eauto|].
      assert (Hv2 : p_invalid (st_p s1) = false). { destruct (Update_static _ _ U) as [(_ & _ & _ & _ & _ & _ & _ & S6 & _) _]. exact (eq_trans S6 Hv1). }
      destruct (IH H1 Hv2) as (z & Hz). destruct (update_totals _ _ _ (Hv1 : p_invalid (st_p (with_forcing p e s)) = false) U So) as (T & _).
      destruct (T 3%nat mb_runoff) as (d & Ed & Ef); [cbn; tauto|]. rewrite Ef in Hz. apply fin_add in Hz as (z1 & z2 & Hz & _). exists z1. exact Hz. }
    destruct F1 as (z & Hz).
    assert (Er : exists rr, r = Fin rr).
    { rewrite Hz in Ef. symmetry in Ef. apply fin_add in Ef as (x' & d' & _ & -> & _). rewrite C3 in Ed. apply some_inj in Ed. rewrite cm_to_m_is in Ed.
      assert (Ed' : (r * Fin (1 / 100))%d = Fin (d' * (1 / 100))) by (rewrite Ed; reflexivity). apply fin_mul in Ed' as (rr & _ & -> & _). eauto. }
    destruct Er as (rr & ->). change (giuh_convolution_integral (Fin rr) (g_N s) (g_ord s) (g_queue s) = Ok (giuh, q1)) in EG. rewrite HN, HO, HQ in EG.
    destruct (giuh_exact_step rr ord q L1 L2) as (out & q' & G & L3 & _ & _ & Gz & Gs). rewrite G in EG. apply Ok_inj, pair_equal_spec in EG as [<- <-].
    change (g_N s1 = g_N s) in EN. change (g_ord s1 = g_ord s) in EO.
    destruct (IH Hv1 q' z (eq_trans L3 L2) (eq_trans EN HN) (eq_trans EO HO) Eq1 Hz H1) as (Ro & Qs & q2 & (xs & X1 & X2) & (ys & Y1 & Y2) & EQ & LQ & B).
    exists (rr / 100 + Ro), (out / 100 + Qs), q2.
    split; [exists (rr / 100 :: xs); split; [cbn [map]; apply row_column; [rewrite C3, cm_to_m_is; cbn; do 2 f_equal; field|exact X1]|cbn [Rsum]; lra]|].
    split; [exists (out / 100 :: ys); split; [cbn [map]; apply row_column; [rewrite C6, cm_to_m_is; cbn; do 2 f_equal; field|exact Y1]|cbn [Rsum]; lra]|].
    split; [exact EQ|]. split; [congruence|].
    assert (Rsum q' = Rsum (firstn (List.length ord) q')).
    { assert (Lq : List.length q' = S (List.length ord)) by congruence. clear - Gz Lq. destruct (exists_last (l := q')) as (q0 & z & ->); [intros ->; discriminate|].
      rewrite app_length in Lq. cbn in Lq. assert (Lq0 : List.length q0 = List.length ord) by lia. rewrite <- Lq0 in Gz |- *. rewrite app_nth2, Nat.sub_diag in Gz by lia. cbn in Gz. subst z.
      rewrite firstn_app, firstn_all, Nat.sub_diag. cbn [firstn]. rewrite app_nil_r, Rsum_app. cbn. lra. }
    lra.
Qed.
End Exact.

(** ** The program *)
Section Program.
Local Existing Instance exact.
Context {cfg : Cfg}.

(** The number of steps. *)
Theorem program_steps : forall files texts junk ls ts types gs psi dt fres max rows endsec res, good_config files ls ts types gs psi dt fres max rows -> ends_at ls endsec -> 0 <= endsec ->
  simulate files texts junk ls = Ok res ->
  exists s f n, Initialize files junk ls = Ok s /\ ReadForcingData texts ls = Ok f /\ INR n <= endsec / (fres * 3600) < INR n + 1 /\ (n <= List.length (fo_pet f))%nat /\
    driven s (first_steps n f) (rs_rows res) (ob_s (rs_obj res)) /\ List.length (first_steps n f) = n /\ List.length (rs_rows res) = n.
Proof.
  intros files texts junk ls ts types gs psi dt fres max rows endsec res G (m & u & k & Gm & Uk & Lm & ->) E0 H.
  destruct (simulate_inv _ _ _ _ _ H) as (s & f & n & Es & Ef & En & N & D1 & L1 & L2 & _).
  destruct (configured files junk _ _ _ _ _ _ _ _ _ G) as (s' & Es' & _ & _ & _ & _ & _ & _ & _ & _ & Fr). rewrite Es in Es'. apply Ok_inj in Es'. subst s'.
  rewrite (endtime_units _ _ _ _ _ _ _ Gm Uk Lm Es), Fr in En. destruct G as [[[_ _ _ _ _ _ _ _ _ (R1 & R2 & R3 & R4) _ _ _] _] _].
  change (Fin fres * lit 3600)%d with (Fin (fres * 3600)) in En. rewrite div_fin in En by lra. set (x := value m * k / (fres * 3600)) in *.
  assert (X : 0 <= x). { apply Rmult_le_pos; [assumption|]. apply Rlt_le, Rinv_0_lt_compat. lra. }
  unfold d2i in En. assert (T : trunc x = Int_part x) by (unfold trunc; destruct (Rlt_dec x 0); [lra|reflexivity]). rewrite T in En. destruct (base_Int_part x) as [B1 B2].
  destruct (_ && _)%bool; [|discriminate]. apply Ok_inj in En. subst n.
  assert (Z0 : (0 <= Int_part x)%Z). { assert (-1 < Int_part x)%Z by (apply lt_IZR; cbn; lra). lia. }
  exists s, f, (Z.to_nat (Int_part x)). split; [exact Es|]. split; [exact Ef|]. split; [rewrite INR_IZR_INZ, Z2Nat.id by assumption; lra|].
  split; [lia|]. split; [exact D1|]. split; assumption.
Qed.

Theorem program_balance : forall files texts junk ls ts types gs psi dt fres max rows res g, good_config files ls ts types gs psi dt fres max rows ->
  simulate files texts junk ls = Ok res -> rs_rows res <> [] -> rs_printed res = Fin g ->
  exists s V0 P Ro A Rc V W C, Initialize files junk ls = Ok s /\ lgar_calc_mass_bal (p_cum (st_p s)) (st_head s) = Ok (Fin V0) /\
    sums_to 0 (rs_rows res) P /\ sums_to 3 (rs_rows res) Ro /\ sums_to 2 (rs_rows res) A /\ sums_to 8 (rs_rows res) Rc /\ last_storage (rs_rows res) V /\
    mb_on (st_mb (ob_s (rs_obj res))) = Fin W /\ mb_calib (st_mb (ob_s (rs_obj res))) = Fin C /\
    V0 / 100 + P - Ro - A - Rc - V - W / 100 + C / 100 = g / 100.
Proof.
  intros files texts junk ls ts types gs psi dt fres max rows res g G H N Hg. destruct (simulate_inv _ _ _ _ _ H) as (s & f & n & Es & Ef & En & Nn & D1 & L1 & L2 & Pr).
  destruct (configured files junk _ _ _ _ _ _ _ _ _ G) as (s' & Es' & _ & Fr & _ & Hv & _). rewrite Es in Es'. apply Ok_inj in Es'. subst s'. rewrite Pr in Hg.
  assert (N1 : first_steps (Z.to_nat n) f <> []). { intro E. rewrite E in L2. cbn in L2. rewrite <- L2 in L1. destruct (rs_rows res); [contradiction|discriminate]. }
  destruct (file_balance _ _ _ _ _ D1 N1 Fr Hv Hg) as (V0 & P & Ro & A & Rc & V & W & C & B0 & B). destruct Fr as ((v & Ev & E0) & _).
  exists s, V0, P, Ro, A, Rc, V, W, C. split; [exact Es|]. split; [congruence|exact B].
Qed.
End Program.
