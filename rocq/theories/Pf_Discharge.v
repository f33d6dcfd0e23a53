(** The discharge column of the output is the convolution of the runoff column with the configured hydrograph. *)

From Coq Require Import String Ascii Reals Lra ZArith List Bool Lia.
From RecordUpdate Require Import RecordSet.
From Verif Require Import Outcome Dbl Exact Types ListOps Fronts Giuh State Update Bmi Config Driver Lib Spec_Common Spec_List Spec_Column Spec_Update Spec_Bmi Spec_Giuh
  Spec_Profile Spec_Config Spec_Run Spec_Driver Pf_Dbl Pf_Update Pf_Clock Pf_Bmi Pf_BmiMem Pf_BmiRun Pf_Init Pf_InitState Pf_InitExact Pf_ConfigThm Pf_InitTotal Pf_Pow Pf_Giuh Pf_Ledger Pf_Signs Pf_DriverRun Pf_DriverBalance Spec_Discharge.
Import ListNotations.
Import RecordSetNotations.
Open Scope R_scope.
Open Scope list_scope.

Section Exact.
Local Existing Instance exact.
Context {cfg : Cfg}.

(** The runoffs of the Updates go through the routing one after the other. *)
Lemma driven_calls : forall s ps rs s', driven s ps rs s' -> p_invalid (st_p s) = false ->
  exists rr oo, giuh_calls (g_N s) (g_ord s) (g_queue s) rr = Ok (oo, g_queue s') /\ column 3 rs = map (fun x => Some (D (x * cm_to_m)%d)) rr /\
    column 4 rs = map (fun x => Some (D (x * cm_to_m)%d)) oo /\ column 6 rs = map (fun x => Some (D (x * cm_to_m)%d)) oo.
Proof.
  intros s ps rs s' H. induction H as [s|s t p e s1 b ps rs s2 U So H IH]; intro Hv; [exists [], []; repeat split|].
  assert (Hv0 : p_invalid (st_p (with_forcing p e s)) = false) by exact Hv.
  destruct (update_totals _ _ _ Hv0 U So) as (T & _ & _ & (r & giuh & q1 & EG & Eq1 & EN & EO & C3 & C6)).
  assert (Hv1 : p_invalid (st_p s1) = false). { destruct (Update_static _ _ U) as [(_ & _ & _ & _ & _ & _ & _ & S6 & _) _]. exact (eq_trans S6 Hv). }
  destruct (IH Hv1) as (rr & oo & G & K3 & K4 & K6).
  assert (C4 : nth_error (columns_of b) 4 = Some (giuh * cm_to_m)%d).
  { destruct (Update_inv _ _ Hv0 U) as (x1 & vcal & volend & x2 & dt & n & x3 & a & _ & _ & _ & _ & _ & _ & E7). destruct (finish_inv _ _ _ _ E7) as (g2 & q2 & mbl & _ & _ & Es').
    rewrite Es' in So. apply some_inj in So. subst b. cbn in C6 |- *. exact C6. }
  change (giuh_convolution_integral r (g_N s) (g_ord s) (g_queue s) = Ok (giuh, q1)) in EG. change (g_N s1 = g_N s) in EN. change (g_ord s1 = g_ord s) in EO.
  exists (r :: rr), (giuh :: oo). split; [|split; [|split]].
  - cbn [giuh_calls]. rewrite EG. cbn [bind]. rewrite <- EN, <- EO, <- Eq1, G. reflexivity.
  - cbn [map]. exact (row_column 3 t b _ rs _ _ C3 K3).
  - cbn [map]. exact (row_column 4 t b _ rs _ _ C4 K4).
  - cbn [map]. exact (row_column 6 t b _ rs _ _ C6 K6).
Qed.

Lemma numbers_cm : forall (rr : list dbl) xs, map (fun x => Some (D (x * cm_to_m)%d)) rr = map (fun v => Some (D (Fin v))) xs -> rr = map Fin (map (fun v => v * 100) xs).
Proof.
  induction rr as [|r rr IH]; intros [|x xs] H; try discriminate; [reflexivity|]. cbn [map] in *. assert (H2 := f_equal (@tl _) H). cbn [tl] in H2. rewrite <- (IH xs H2). f_equal.
  assert (H1 : (r * cm_to_m)%d = Fin x) by (apply (f_equal (fun l => match l with Some (D v) :: _ => v | _ => NaN end)) in H; exact H). clear - H1.
  rewrite cm_to_m_is in H1. apply fin_mul in H1 as (a & b & -> & B & E). assert (b = 1 / 100) as -> by (injection B; congruence). f_equal. lra.
Qed.
Lemma numbers_m : forall xs, map (fun x => Some (D (x * cm_to_m)%d)) (map Fin xs) = map (fun v => Some (D (Fin v))) (map (fun x => x / 100) xs).
Proof. intro xs. rewrite !map_map. apply map_ext. intro x. rewrite cm_to_m_is. cbn. do 3 f_equal. lra. Qed.

Lemma nth_scale : forall c xs t, nth t (map (fun v => v * c) xs) 0 = nth t xs 0 * c.
Proof. intros c xs. induction xs as [|x xs IH]; intros [|t]; cbn; try lra. apply IH. Qed.
Lemma convolution_scale : forall ord xs c t, convolution ord (map (fun v => v * c) xs) t = convolution ord xs t * c.
Proof.
  intros ord xs c t. unfold convolution. rewrite Rmult_comm, scal_sum. apply sum_eq. intros i _. rewrite nth_scale. ring.
Qed.
Lemma Rsum_scale : forall c xs, Rsum (map (fun v => v * c) xs) = Rsum xs * c.
Proof. intros c xs. induction xs as [|x xs IH]; cbn [map Rsum]; [lra|]. rewrite IH. lra. Qed.

(** The ordinates that Initialize leaves. *)
Lemma ordinates_start : forall files junk ls s ts types gs psi dt fres max rows, good_config files ls ts types gs psi dt fres max rows -> Initialize files junk ls = Ok s ->
  exists k, (1 <= k)%nat /\ steps_per_hour fres k /\ g_ord s = map Fin (per_step k (map value gs)) /\ g_N s = Z.of_nat (List.length (per_step k (map value gs))) /\
    g_queue s = map Fin (repeat 0 (S (List.length (per_step k (map value gs))))) /\ (1 <= List.length (per_step k (map value gs)))%nat /\ p_invalid (st_p s) = false /\ gs <> [].
Proof.
  intros files junk ls s ts types gs psi dt fres max rows G H.
  destruct (configured files junk _ _ _ _ _ _ _ _ _ G) as (s' & Es' & _ & _ & _ & Hv & _ & _ & _ & _ & Fr). rewrite H in Es'. apply Ok_inj in Es'. subst s'.
  destruct G as [[[_ _ _ _ (lg & Lg & Ag & Ng & Gg & Pg) _ _ _ _ (R1 & R2 & R3 & R4) _ _ _] _] R5]. destruct gs as [|g0 gs]; [contradiction|].
  destruct (read_giuh _ _ _ _ _ _ _ Lg Ag Gg H) as (factor & D1 & P & N & E).
  rewrite Fr in D1. change (lit 1) with (Fin 1) in D1. rewrite div_fin in D1 by lra. unfold d2i in D1. destruct (_ && _)%bool; [|discriminate]. apply Ok_inj in D1.
  assert (X : 1 <= 1 / fres). { apply Rmult_le_reg_r with fres; [assumption|]. replace (1 / fres * fres) with 1 by (field; lra). lra. }
  assert (F1 : (1 <= factor)%Z) by (subst factor; apply trunc_ge1; exact X).
  assert (FT : IZR factor <= 1 / fres < IZR factor + 1). { subst factor. unfold trunc. destruct (Rlt_dec (1 / fres) 0); [lra|]. destruct (base_Int_part (1 / fres)). lra. }
  set (k := Z.to_nat factor). assert (EK : INR k = IZR factor) by (unfold k; rewrite INR_IZR_INZ, Z2Nat.id by lia; reflexivity).
  assert (EO : g_ord s = map Fin (per_step k (map value (g0 :: gs)))).
  { rewrite E, value_exact. unfold dofZ. cbn [rnd exact]. rewrite <- EK. fold k. assert (K0 : INR k <> 0) by (rewrite EK; apply IZR_le in F1; lra). unfold spread, per_step. generalize (map value (g0 :: gs)) as l.
    induction l as [|y l IH]; [reflexivity|]. cbn [map flat_map]. rewrite map_app, IH. f_equal. rewrite div_fin by assumption. generalize (y / INR k) as v. clear. intro v. induction k as [|j IHj]; [reflexivity|]. cbn [repeat map]. f_equal. exact IHj. }
  assert (EL : List.length (per_step k (map value (g0 :: gs))) = (k * List.length (g0 :: gs))%nat).
  { unfold per_step. generalize (g0 :: gs) as l. induction l as [|y l IH]; [cbn; lia|]. cbn [map flat_map]. rewrite app_length, repeat_length, IH. cbn [List.length]. nia. }
  assert (EN : g_N s = Z.of_nat (List.length (per_step k (map value (g0 :: gs))))) by (rewrite N, EL; unfold k; nia).
  exists k. split; [unfold k; lia|]. split.
  { unfold steps_per_hour. rewrite EK. destruct FT as [Q1 Q2]. apply (Rmult_le_compat_r fres) in Q1; [|lra]. apply (Rmult_lt_compat_r fres) in Q2; [|lra].
    replace (1 / fres * fres) with 1 in Q1, Q2 by (field; lra). lra. }
  split; [exact EO|]. split; [exact EN|]. split; [|split; [|split; [exact Hv|discriminate]]].
  - unfold Initialize in H. bind_inv H z Ez. bind_inv H vs Evs. bind_inv H os Eos. apply Ok_inj in H. subst s. cbn [g_queue g_N] in *. rewrite EN.
    replace (Z.to_nat (Z.of_nat (List.length (per_step k (map value (g0 :: gs)))) + 1)) with (S (List.length (per_step k (map value (g0 :: gs))))) by lia.
    generalize (S (List.length (per_step k (map value (g0 :: gs))))) as n. clear. induction n as [|n IH]; [reflexivity|]. cbn [repeat map]. f_equal. exact IH.
  - rewrite EL. cbn [List.length]. unfold k. nia.
Qed.
Lemma per_step_sum : forall k gs, (1 <= k)%nat -> Rsum (per_step k gs) = Rsum gs.
Proof.
  intros k gs K. assert (K0 : INR k <> 0) by (apply not_0_INR; lia). assert (RS : forall c n, Rsum (repeat c n) = c * INR n).
  { intros c n. induction n as [|n IH]; [cbn; lra|]. cbn [repeat Rsum]. rewrite IH, S_INR. lra. }
  induction gs as [|g gs IH]; [reflexivity|]. cbn [per_step flat_map Rsum]. rewrite Rsum_app, RS. fold (per_step k gs). rewrite IH. field. assumption.
Qed.

Theorem program_discharge : forall files texts junk ls ts types gs psi dt fres max rows res Ros, good_config files ls ts types gs psi dt fres max rows ->
  simulate files texts junk ls = Ok res -> shows 3 (rs_rows res) Ros ->
  exists k Gs, (1 <= k)%nat /\ steps_per_hour fres k /\ shows 4 (rs_rows res) Gs /\ shows 6 (rs_rows res) Gs /\ List.length Gs = List.length Ros /\
    (forall t, (t < List.length Ros)%nat -> nth t Gs 0 = convolution (per_step k (map value gs)) Ros t) /\
    (forall wet dry, Ros = wet ++ repeat 0 dry -> (k * List.length gs <= dry)%nat -> Rsum Gs = Rsum Ros * Rsum (map value gs)).
Proof.
  intros files texts junk ls ts types gs psi dt fres max rows res Ros G H S3. destruct (simulate_inv _ _ _ _ _ H) as (s & f & n & Es & _ & _ & _ & D1 & _).
  destruct (ordinates_start _ _ _ _ _ _ _ _ _ _ _ _ G Es) as (k & K1 & K2 & EO & EN & EQ & L1 & Hv & _).
  destruct (driven_calls _ _ _ _ D1 Hv) as (rr & oo & C & C3 & C4 & C6). unfold shows in S3. change (column 3 (rs_rows res) = map (fun v => Some (D (Fin v))) Ros) in S3.
  rewrite S3 in C3. symmetry in C3. apply numbers_cm in C3. subst rr. rewrite EO, EN, EQ in C.
  destruct (giuh_convolution _ (map (fun v => v * 100) Ros) L1) as (outs & q' & C' & LO & CV). rewrite C' in C. apply Ok_inj, pair_equal_spec in C as [EOO _]. subst oo.
  rewrite numbers_m in C4, C6. rewrite map_length in LO. exists k, (map (fun x => x / 100) outs). split; [exact K1|]. split; [exact K2|]. split; [exact C4|]. split; [exact C6|]. split; [rewrite map_length; exact LO|]. split.
  - intros t Ht. rewrite map_length in CV. specialize (CV t Ht). rewrite convolution_scale in CV. change (fun x => x / 100) with (fun v => v * / 100). rewrite nth_scale, CV. lra.
  - intros wet dry -> Dry. assert (EL : List.length (per_step k (map value gs)) = (k * List.length gs)%nat).
    { unfold per_step. clear. induction gs as [|y l IH]; [cbn; lia|]. cbn [map flat_map]. rewrite app_length, repeat_length, IH. cbn [List.length]. nia. }
    destruct (giuh_drains (per_step k (map value gs)) (map (fun v => v * 100) wet) dry L1 ltac:(lia)) as (outs2 & q2 & C2 & S2 & _).
    rewrite map_app in C'. assert (ER : map (fun v => v * 100) (repeat 0 dry) = repeat 0 dry) by (clear; induction dry as [|d IH]; [reflexivity|]; cbn [repeat map]; rewrite IH; f_equal; lra).
    rewrite ER, C2 in C'. apply Ok_inj, pair_equal_spec in C' as [M _]. assert (outs = outs2). { clear - M. revert outs M. induction outs2 as [|a l IH]; intros [|b o] M; try discriminate; [reflexivity|]. injection M as M1 M2. subst. f_equal. apply IH; assumption. }
    subst outs2. change (fun x => x / 100) with (fun v => v * / 100). rewrite Rsum_scale, S2, Rsum_scale, per_step_sum, Rsum_app by assumption.
    assert (Z : Rsum (repeat 0 dry) = 0) by (clear; induction dry as [|d IH]; [reflexivity|]; cbn [repeat Rsum]; lra). rewrite Z. field.
Qed.
End Exact.
