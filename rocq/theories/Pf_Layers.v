(** Flow through several layers: velocities and infiltration capacity. *)

From Coq Require Import Reals Lra ZArith List Bool Lia.
From Verif Require Import Outcome Dbl Exact Types ListOps Soil Fronts Infil Lib Spec_Common Spec_Soil Spec_Column Spec_Update Spec_Profile Spec_Storage Spec_Velocity
  Pf_Dbl Pf_Pow Pf_Soil Pf_Geff Pf_Column Pf_Profile Pf_Structure Pf_SafeUpdate Pf_Velocity.
Import ListNotations.
Open Scope R_scope.

Lemma Rsum_ext : forall (f g : nat -> R) n i, (forall j, (i <= j < i + n)%nat -> f j = g j) -> Rsum (map f (seq i n)) = Rsum (map g (seq i n)).
Proof. induction n as [|n IH]; intros i H; cbn; [reflexivity|]. rewrite H by lia. f_equal. apply IH. intros. apply H. lia. Qed.

Lemma Rsum_S : forall (f : nat -> R) n, Rsum (map f (seq 0 (S n))) = Rsum (map f (seq 0 n)) + f n.
Proof. intros. rewrite seq_S, map_app, Rsum_app. cbn. ring. Qed.

Lemma Rsum_rev : forall n (f : nat -> R), Rsum (map f (seq 0 n)) = Rsum (map (fun j => f (n - 1 - j)%nat) (seq 0 n)).
Proof.
  induction n as [|n IH]; intro f; [reflexivity|]. rewrite Rsum_S. rewrite (IH f). cbn [seq map Rsum]. replace (S n - 1 - 0)%nat with n by lia.
  rewrite <- seq_shift, map_map. rewrite Rplus_comm. f_equal. apply Rsum_ext. intros j Hj. f_equal. lia.
Qed.

Lemma Rsum_nonneg : forall (f : nat -> R) n, (forall j, (j < n)%nat -> 0 <= f j) -> 0 <= Rsum (map f (seq 0 n)).
Proof. induction n as [|n IH]; intro H; [cbn; lra|]. rewrite Rsum_S. pose proof (H n ltac:(lia)). assert (0 <= Rsum (map f (seq 0 n))) by (apply IH; intros; apply H; lia). lra. Qed.

Section Exactly.
Local Existing Instance exact.

Definition mirrored (ts ks : list R) : R := Rsum (map (fun j => nth j ts 0 / nth (length ks - 1 - j) ks 0) (seq 0 (length ks))).

Lemma conductivities_pos : forall e psi lay ks j, conductivities e psi lay ks -> 0 <= psi -> (j < length ks)%nat -> 0 < nth j ks 0.
Proof.
  intros e psi lay ks j [L C] Hp Hj. destruct (nth_error ks j) as [kj|] eqn:E; [|apply nth_error_None in E; lia].
  rewrite (nth_error_nth ks j 0 E). destruct (C _ _ E) as (s & r & es & a & n & m & k & x & _ & V & _ & Hx & ->).
  exact (proj2 (conductivity_at _ _ _ _ _ _ _ _ _ V Hx Hp)).
Qed.

Lemma denominator_is : forall e ts ss lay psi ks b, column e ts ss -> (1 <= lay <= e_nlayers e)%Z -> conductivities e psi lay ks -> 0 <= psi ->
  dzdt_denominator e lay (Fin psi) (Fin b) = Ok (Fin (b + mirrored ts ks)).
Proof.
  intros e ts ss lay psi ks b C Hl HK Hp. pose proof HK as [L CK]. unfold dzdt_denominator, mirrored. rewrite (col_n _ _ _ C) in Hl.
  replace (Z.to_nat (lay - 1)) with (length ks) by lia. apply zfor_sum. intros j x Hj.
  replace (lay - (1 + Z.of_nat j))%Z with (Z.of_nat (S (length ks - 1 - j))) by lia.
  destruct (nth_error ks (length ks - 1 - j)) as [kj|] eqn:E; [|apply nth_error_None in E; lia].
  destruct (CK _ _ E) as (s & r & es & a & n & m & k & y & Es & V & Ef & Hy & EK). rewrite Es. cbn [bind]. rewrite Ef. cbn [bind].
  replace (1 + Z.of_nat j)%Z with (Z.of_nat (S j)) by lia. rewrite (column_cum _ _ _ _ C) by lia. cbn [bind].
  replace (Z.of_nat (S j) - 1)%Z with (Z.of_nat j) by lia. rewrite (column_cum _ _ _ _ C) by lia. cbn [bind]. cbv zeta.
  destruct (conductivity_at _ _ _ _ _ _ _ _ _ V Hy Hp) as [-> PK]. rewrite <- EK in *. rewrite (nth_error_nth ks _ 0 E).
  rewrite firstn_sum_S by lia. cbn [dsub rnd exact]. rewrite div_fin by lra. cbn. do 2 f_equal. f_equal. f_equal. ring.
Qed.

Lemma above_is : forall e ts ss lay ks b, column e ts ss -> (1 <= lay <= e_nlayers e)%Z -> saturated_conductivities e lay ks ->
  layers_above_sum e lay (Fin b) = Ok (Fin (b + resistance ts ks)).
Proof.
  intros e ts ss lay ks b C Hl [L CK]. unfold layers_above_sum, resistance. rewrite (col_n _ _ _ C) in Hl.
  replace (Z.to_nat (lay - 1)) with (length ks) by lia. rewrite Rsum_rev. apply zfor_sum. intros j x Hj.
  set (i := (length ks - 1 - j)%nat). replace (lay - (1 + Z.of_nat j))%Z with (Z.of_nat (S i)) by (unfold i; lia).
  destruct (nth_error ks i) as [kj|] eqn:E; [|apply nth_error_None in E; unfold i in E; lia].
  destruct (CK _ _ E) as (s & k & y & Es & Ek & Ef & EK & K0). rewrite Es. cbn [bind]. rewrite Ef. cbn [bind]. assert (i < length ks)%nat by (unfold i; lia).
  rewrite (column_cum _ _ _ _ C) by lia. cbn [bind].
  replace (lay - (1 + Z.of_nat j + 1))%Z with (Z.of_nat i) by (unfold i; lia). rewrite (column_cum _ _ _ _ C) by lia. cbn [bind]. cbv zeta.
  rewrite Ek. cbn [dmul rnd exact]. rewrite <- EK. rewrite (nth_error_nth ks _ 0 E).
  rewrite firstn_sum_S by lia. cbn [dsub rnd exact]. rewrite div_fin by assumption. cbn. do 2 f_equal. f_equal. f_equal. ring.
Qed.

(** Velocity of a front, with the sum that the code computes. *)
Lemma velocity_is : forall (cfg : Cfg) e ts ss c n closed nint s lay psi ks z top K k x G h t t',
  column e ts ss -> Forall (fun w => 0 < w) ts -> (1 <= lay <= e_nlayers e)%Z -> f_layer c = lay -> f_bottom c = false ->
  f_depth c = Fin z -> f_K c = Fin K -> f_psi c = Fin psi -> f_theta c = Fin t -> f_theta n = Fin t' -> 0 < K -> 0 <= psi -> t' < t -> 0 <= h ->
  aget (e_cum e) (lay - 1)%Z = Ok (Fin top) -> top < z -> 0 < z ->
  soil_of e lay = Ok s -> s_Ksat s = Fin k -> aget (e_frozen e) lay = Ok (Fin x) -> 0 < k * x ->
  calc_Geff closed (Fin t') (Fin t) s (Fin (k * x)) nint = Ok (Fin G) -> 0 <= G -> conductivities e psi lay ks ->
  dzdt_front e closed nint (Fin h) c n = Ok (Fin (Rmin 10000 (layered_velocity z top K (mirrored ts ks) (k * x) G h (t - t')))).
Proof.
  intros cfg e ts ss c n closed nint s lay psi ks z top K k x G h t t' C HT Hl Lc HB Ed EK Ep Et Et' HK Hp Htt Hh Etop Htop Hz Es Ek Ef Hkx EG HG HC.
  assert (HR : 0 <= mirrored ts ks).
  { apply Rsum_nonneg. intros j Hj. pose proof (conductivities_pos e psi lay ks (length ks - 1 - j) HC Hp ltac:(lia)) as P1.
    assert (0 < / nth (length ks - 1 - j) ks 0) by (apply Rinv_0_lt_compat; assumption).
    assert (0 <= nth j ts 0). { destruct (nth_in_or_default j ts 0) as [I| ->]; [|lra]. rewrite Forall_forall in HT. left. apply HT. assumption. } unfold Rdiv. nra. }
  assert (PV : 0 < layered_velocity z top K (mirrored ts ks) (k * x) G h (t - t')).
  { unfold layered_velocity. assert (0 < / (t - t')) by (apply Rinv_0_lt_compat; lra). assert (0 < / z) by (apply Rinv_0_lt_compat; lra). assert (0 < / K) by (apply Rinv_0_lt_compat; lra).
    assert (0 < (z - top) / K + mirrored ts ks) by (unfold Rdiv; nra). assert (0 < / ((z - top) / K + mirrored ts ks)) by (apply Rinv_0_lt_compat; lra).
    apply Rmult_lt_0_compat; [assumption|]. unfold Rdiv. assert (0 <= k * x * (G + h) * / z) by (assert (0 <= k * x * (G + h)) by nra; nra).
    assert (0 < z * / ((z - top) * / K + mirrored ts ks)) by (apply Rmult_lt_0_compat; [lra|exact H3]). lra. }
  assert (FIN : forall p, / (t - t') * p = layered_velocity z top K (mirrored ts ks) (k * x) G h (t - t') ->
    (let dz := if (Fin t - Fin t' >? Fin 0)%d then (lit 1 / (Fin t - Fin t') * Fin p)%d else Fin 0 in
      let dz0 := if (dz =? Fin 0)%d && negb false then lit (1 / 1000000000) else dz in if (dz0 >? lit 10000)%d then lit 10000 else dz0)
    = Fin (Rmin 10000 (layered_velocity z top K (mirrored ts ks) (k * x) G h (t - t')))).
  { intros p E. change (Fin t - Fin t')%d with (Fin (t - t')). cbv zeta. replace (Fin (t - t') >? Fin 0)%d with true by (symmetry; apply ltb_t; lra).
    change (lit 1) with (Fin 1). rewrite div_fin by lra. change (Fin (1 / (t - t')) * Fin p)%d with (Fin (1 / (t - t') * p)).
    replace (1 / (t - t') * p) with (/ (t - t') * p) by (field; lra). rewrite E.
    destruct (clamp_velocity _ (Rlt_le _ _ PV)) as (v & Ev & _ & V2). rewrite <- (V2 PV). exact Ev. }
  assert (QG : (Fin (k * x) * (Fin G + Fin h) / Fin z)%d = Fin (k * x * (G + h) / z)) by (cbn [dadd dmul rnd exact]; apply div_fin; lra).
  unfold dzdt_front. rewrite Lc, Es. cbn [bind]. rewrite Ef. cbn [bind]. rewrite Ek, EK, Et, Et', Ed, Ep, HB. change (Fin k * Fin x)%d with (Fin (k * x)).
  destruct (Z.eqb_spec lay 1) as [L1|L1].
  - assert (ks = []) as ->. { destruct HC as [L _]. destruct ks; [reflexivity|cbn [length] in L; lia]. }
    assert (top = 0) as ->. { subst lay. rewrite L1 in Etop. change (1 - 1)%Z with (Z.of_nat 0) in Etop. rewrite (column_cum _ _ _ _ C) in Etop by lia. cbn in Etop. congruence. }
    rewrite L1. change (1 >? 1)%Z with false. cbv iota. cbn [bind]. unfold dgtb at 1. rewrite ltb_f by lra. rewrite EG. cbn [bind]. rewrite QG. change (Fin (k * x * (G + h) / z) + Fin K)%d with (Fin (k * x * (G + h) / z + K)).
    apply f_equal. apply FIN. unfold layered_velocity, mirrored. cbn. f_equal. rewrite Rplus_comm. f_equal. field. lra.
  - replace (lay >? 1)%Z with true by (symmetry; apply Z.gtb_lt; lia). rewrite Etop. cbn [bind]. unfold dgtb at 1. rewrite ltb_f by lra. rewrite EG. cbn [bind].
    change (Fin z - Fin top)%d with (Fin (z - top)). rewrite (div_fin (z - top)) by lra. change (Fin 0 + Fin ((z - top) / K))%d with (Fin (0 + (z - top) / K)).
    rewrite (denominator_is _ _ _ _ _ _ _ C Hl HC Hp). cbn [bind]. rewrite QG.
    assert (0 < (z - top) / K). { assert (0 < / K) by (apply Rinv_0_lt_compat; lra). unfold Rdiv; nra. }
    rewrite div_fin by lra. change (Fin (z / (0 + (z - top) / K + mirrored ts ks)) + Fin (k * x * (G + h) / z))%d with (Fin (z / (0 + (z - top) / K + mirrored ts ks) + k * x * (G + h) / z)).
    apply f_equal. apply FIN. unfold layered_velocity. rewrite Rplus_0_l. reflexivity.
Qed.

Lemma mirrored_resistance : forall ts ks, ((length ks <= 1)%nat \/ exists k0, Forall (eq k0) ks) -> mirrored ts ks = resistance ts ks.
Proof.
  intros ts ks H. unfold mirrored, resistance. apply Rsum_ext. intros j Hj. f_equal. destruct H as [H|[k0 H]].
  - f_equal. lia.
  - rewrite Forall_forall in H. rewrite <- (H (nth (length ks - 1 - j) ks 0)), <- (H (nth j ks 0)) by (apply nth_In; lia). reflexivity.
Qed.

Theorem velocity_two_layers : forall (cfg : Cfg) e ts ss c n closed nint s lay psi ks z top K k x G h t t',
  column e ts ss -> Forall (fun w => 0 < w) ts -> (1 <= lay <= e_nlayers e)%Z -> f_layer c = lay -> f_bottom c = false ->
  f_depth c = Fin z -> f_K c = Fin K -> f_psi c = Fin psi -> f_theta c = Fin t -> f_theta n = Fin t' -> 0 < K -> 0 <= psi -> t' < t -> 0 <= h ->
  aget (e_cum e) (lay - 1)%Z = Ok (Fin top) -> top < z -> 0 < z ->
  soil_of e lay = Ok s -> s_Ksat s = Fin k -> aget (e_frozen e) lay = Ok (Fin x) -> 0 < k * x ->
  calc_Geff closed (Fin t') (Fin t) s (Fin (k * x)) nint = Ok (Fin G) -> 0 <= G -> conductivities e psi lay ks ->
  (lay <= 2)%Z \/ (exists k0, Forall (eq k0) ks) ->
  dzdt_front e closed nint (Fin h) c n = Ok (Fin (Rmin 10000 (layered_velocity z top K (resistance ts ks) (k * x) G h (t - t')))).
Proof.
  intros. rewrite <- mirrored_resistance; [eapply velocity_is; eassumption|].
  match goal with H : _ \/ _ |- _ => destruct H as [H'|H']; [left|right; exact H'] end. match goal with H : conductivities _ _ _ _ |- _ => destruct H as [L _]; lia end.
Qed.

(** Infiltration capacity through several layers. *)
Theorem capacity_layers : forall (cfg : Cfg) e ts ss tes closed nint dt aet pond rain wfd head fd nx cur s lay ks z top k x G m q,
  column e ts ss -> Forall2 (fun s x => s_theta_e s = Fin x) ss tes -> (2 <= lay <= e_nlayers e)%Z -> listLength head <> e_nlayers e ->
  pget head (findFront wfd head) = Ok fd -> pget head (findFront (wfd + 1)%Z head) = Ok nx -> nth_error head 0 = Some cur ->
  f_layer fd = lay -> f_depth fd = Fin z -> aget (e_cum e) (lay - 1)%Z = Ok (Fin top) -> top < z -> 0 < z ->
  soil_of e lay = Ok s -> s_Ksat s = Fin k -> aget (e_frozen e) (f_layer cur) = Ok (Fin x) -> 0 < k * x ->
  calc_Geff closed (f_theta nx) (s_theta_e s) s (Fin (k * x)) nint = Ok (Fin G) -> saturated_conductivities e lay ks -> (z - top) / (k * x) + resistance ts ks <> 0 ->
  lgar_calc_mass_bal (e_cum e) head = Ok (Fin m) -> 0 < dt ->
  infiltration_capacity e closed nint (Fin dt) (Fin aet) (Fin pond) (Fin rain) wfd head = Ok (Fin q) ->
  q = Rmin (z / ((z - top) / (k * x) + resistance ts ks) + (G + Rmax (pond - rain * dt) 0) * (k * x) / z) ((column_capacity ts tes - m) / dt).
Proof.
  intros cfg e ts ss tes closed nint dt aet pond rain wfd head fd nx cur s lay ks z top k x G m q C HTE Hl HN Efd Enx Ecur Lf Ed Etop Htop Hz Es Ek Ef Hkx EG HS HR EM Hdt H.
  unfold infiltration_capacity in H. rewrite Efd in H. cbn [bind] in H. rewrite Lf, Es in H. cbn [bind] in H. unfold lget in H at 1. rewrite Ecur in H. cbn [bind] in H.
  rewrite Ef in H. cbn [bind] in H. rewrite Ek in H. change (Fin k * Fin x)%d with (Fin (k * x)) in H.
  destruct (Z.eqb_spec (listLength head) (e_nlayers e)); [contradiction|]. rewrite Enx in H. cbn [bind] in H. rewrite EG in H. cbn [bind] in H.
  destruct (Z.eqb_spec lay 1); [lia|]. rewrite Etop in H. cbn [bind] in H. rewrite Ed in H. change (Fin z - Fin top)%d with (Fin (z - top)) in H. rewrite (div_fin (z - top)) in H by lra.
  rewrite (above_is e ts ss lay ks _ C ltac:(lia) HS) in H. cbn [bind] in H. bind_inv H s1 Es1. rewrite EM in H. cbn [bind] in H.
  rewrite (max_storage_is _ _ _ _ C HTE) in H. cbn [bind] in H. apply Ok_inj in H.
  replace ((e_nlayers e =? listLength head)%Z) with false in H by (symmetry; apply Z.eqb_neq; auto). rewrite andb_false_r in H.
  rewrite (div_fin z) in H by assumption.
  replace (dfmax (Fin pond - Fin rain * Fin dt)%d (Fin 0)) with (Fin (Rmax (pond - rain * dt) 0)) in H.
  2:{ cbn. unfold Rltb, Rmax. destruct (Rlt_dec _ _), (Rle_dec _ _); try reflexivity; f_equal; lra. }
  cbn [dadd dmul dsub rnd exact] in H. rewrite !div_fin in H by lra. cbn [dadd rnd exact] in H.
  match type of H with (if (Fin ?a >? Fin ?b)%d then _ else _) = _ => set (A := a) in *; set (B := b) in * end.
  unfold dgtb in H. cbn in H. unfold Rltb in H. symmetry. destruct (Rlt_dec B A) as [L|L]; injection H as <-.
  - apply Rmin_right. left. exact L.
  - apply Rmin_left. apply Rnot_lt_le. exact L.
Qed.
End Exactly.
