(** One sub-step in a column of one layer. *)

From Coq Require Import Reals Lra ZArith List Bool Lia.
From RecordUpdate Require Import RecordSet.
From Verif Require Import Outcome Dbl Exact Types ListOps Soil Fronts Infil Move State Update Lib Spec_Common Spec_List Spec_Soil Spec_Geff Spec_Update Spec_Profile Spec_Storage
  Spec_Velocity Spec_Single Spec_SubSingle Pf_Dbl Pf_Pow Pf_Soil Pf_List Pf_Structure Pf_SafeMove Pf_Cross Pf_Geff Pf_Velocity Pf_Aet Pf_Surface Pf_Single Pf_SingleMerge Pf_SingleStop Pf_Alone Pf_SafeUpdate Pf_Storage Pf_Merge.
Import ListNotations.
Import RecordSetNotations.
Open Scope R_scope.
Local Existing Instance exact.

(** ** Capillary drive *)

Lemma geff_more : forall s ks k hi h2 dh K1 G g j, geff_loop k s ks hi h2 dh K1 G = Ok g -> geff_loop (k + j) s ks hi h2 dh K1 G = Ok g.
Proof.
  intros s ks. induction k as [|k IH]; intros hi h2 dh K1 G g j H; [discriminate|]. cbn [Nat.add geff_loop] in *. destruct (h2 <? hi)%d; [|assumption]. cbv zeta in *. apply IH. exact H.
Qed.

Lemma geff_loop_stop : forall s ks k hi h2 dh K1 G why, geff_loop k s ks hi h2 dh K1 G = Stop why -> why = OutOfFuel.
Proof.
  intros s ks. induction k as [|k IH]; intros hi h2 dh K1 G why H; cbn [geff_loop] in H; [congruence|]. destruct (h2 <? hi)%d; [|discriminate]. exact (IH _ _ _ _ _ _ H).
Qed.

Section Sub.
Context {cfg : Cfg}.

Lemma geff_stop : forall closed t1 t2 s ks nint why, calc_Geff closed t1 t2 s ks nint = Stop why -> why = OutOfFuel.
Proof.
  intros closed t1 t2 s ks nint why H. unfold calc_Geff in H. destruct closed; cbn [negb] in H; [discriminate|]. cbv zeta in H.
  apply bind_Stop in H as [H|(g & _ & H)]; [|discriminate]. exact (geff_loop_stop _ _ _ _ _ _ _ _ _ H).
Qed.

Definition slow (closed : bool) (why : reason) : Prop := why = OutOfFuel /\ closed = false.

Lemma single_column : forall e s r te D, single e s r te D -> vg_column e.
Proof.
  intros e s r te D HS k s' Hk E. rewrite (sg_n _ _ _ _ _ HS) in Hk. assert (k = 1%Z) as -> by lia. rewrite (sg_soil _ _ _ _ _ HS) in E. apply Ok_inj in E. subst s'.
  destruct (sg_vg _ _ _ _ _ HS) as (a & n & m & kk & V). eauto 8.
Qed.

Lemma geff_value : forall e s r te D closed nint t1 t2 ks g, single e s r te D -> capillary closed nint e -> 0 < ks -> r <= t1 -> t1 <= t2 -> t2 <= te ->
  calc_Geff closed (Fin t1) (Fin t2) s (Fin ks) nint = Ok g -> exists x, g = Fin x /\ 0 <= x.
Proof.
  intros e s r te D closed nint t1 t2 ks g HS HC Hk H1 H2 H3 H. destruct (sg_vg _ _ _ _ _ HS) as (a & n & m & kk & V).
  assert (R1 : (1 <= 1 <= e_nlayers e)%Z) by (rewrite (sg_n _ _ _ _ _ HS); lia).
  destruct (geff_at closed nint e 1 s t1 t2 ks HC (single_column _ _ _ _ _ HS) R1 (sg_soil _ _ _ _ _ HS) Hk r te (vg_r _ _ _ _ _ _ _ V) (vg_e _ _ _ _ _ _ _ V) H1 H2 H3) as [N HN].
  pose (big := {| fuel := (@fuel cfg + N)%nat; ngen := ngen |}). destruct (HN big) as (x & Ex & Hx); [cbn; lia|]. exists x. split; [|assumption].
  cut (@calc_Geff exact big closed (Fin t1) (Fin t2) s (Fin ks) nint = Ok g); [congruence|]. clear - H. unfold calc_Geff in *. destruct closed; cbn [negb] in *; [exact H|]. cbv zeta in *.
  apply bind_Ok in H as (G & E & H). change (@fuel big) with (@fuel cfg + N)%nat. rewrite (geff_more _ _ _ _ _ _ _ _ _ N E). exact H.
Qed.

Lemma geff_ends : forall e s r te D closed nint t1 t2 ks, single e s r te D -> capillary closed nint e -> 0 < ks -> r <= t1 -> t1 <= t2 -> t2 <= te ->
  ends (slow closed) (fun g => exists x, g = Fin x /\ 0 <= x) (calc_Geff closed (Fin t1) (Fin t2) s (Fin ks) nint).
Proof.
  intros e s r te D closed nint t1 t2 ks HS HC Hk H1 H2 H3. destruct (calc_Geff closed (Fin t1) (Fin t2) s (Fin ks) nint) as [g|w] eqn:E; cbn.
  - exact (geff_value _ _ _ _ _ _ _ _ _ _ _ HS HC Hk H1 H2 H3 E).
  - split; [exact (geff_stop _ _ _ _ _ _ _ E)|]. destruct closed; [discriminate E|reflexivity].
Qed.

(** ** Demand *)

Lemma demand_value : forall u s r te D dt c l pet, plain u s r te D dt -> f_layer c = 1%Z -> conducts c -> 0 <= pet ->
  exists a, calc_aet (u_env u) (Fin pet) (u_dt u) (u_wilting u) (u_fc u) (c :: l) = Ok (Fin a) /\ 0 <= a <= pet * dt.
Proof.
  intros u s r te D dt c l pet HP L1 [_ HC] Hpet. destruct (pl_demand _ _ _ _ _ _ HP) as (wp & fc & Ew & Ef & Hw & Hf & Hs). rewrite Ew, Ef, (pl_dt _ _ _ _ _ _ HP).
  pose proof (pl_pos _ _ _ _ _ _ HP) as Hdt. pose proof (pl_single _ _ _ _ _ _ HP) as HS. destruct (sg_vg _ _ _ _ _ HS) as (a & n & m & k & V).
  assert (Es : soil_of (u_env u) (f_layer c) = Ok s) by (rewrite L1; exact (sg_soil _ _ _ _ _ HS)).
  pose proof V as V'. destruct V'. destruct (half_head r te a n m fc wp ltac:(lra) ltac:(lra) ltac:(lra) ltac:(lra) Hf Hw Hs) as (h5 & H5 & E5).
  destruct HC as [EP|(psi & EP & Hpsi)].
  - exists 0. split; [|split; [lra|apply Rmult_le_pos; lra]]. unfold calc_aet. cbn [lget nth_error bind]. rewrite Es. cbn [bind]. cbv zeta.
    rewrite !(theta_of_h_is s r te a n m k) by assumption. change (lit 1) with (Fin 1). change (lit 2) with (Fin 2). change (lit 3) with (Fin 3).
    cbn [dsub dmul rnd exact]. rewrite div_fin by lra. cbn [dadd rnd exact].
    replace ((vg_theta r te a n m fc - vg_theta r te a n m wp) * 1 / 2 + vg_theta r te a n m wp) with (vg_theta r te a n m h5) by (rewrite E5; field).
    rewrite <- (theta_of_h_is s r te a n m k h5 V (Rlt_le _ _ H5)), (h_inverse s r te a n m k h5 V (Rlt_le _ _ H5)). rewrite EP.
    replace (PInf / Fin h5)%d with PInf by (cbn; destruct (Rlt_dec h5 0); [lra|reflexivity]).
    assert (P3 : dpow PInf (Fin 3) = PInf). { unfold dpow. rewrite eqb_f by lra. cbn. destruct (Rlt_dec 0 3); [reflexivity|lra]. }
    rewrite P3. change (Fin 1 + PInf)%d with PInf. change (Fin 1 / PInf)%d with (Fin 0). cbn [dmul rnd exact].
    assert (0 <= pet * dt) by (apply Rmult_le_pos; lra). unfold dgtb. rewrite ltb_f by lra. rewrite ltb_f by lra. f_equal. f_equal. ring.
  - rewrite (aet_is (u_env u) s r te a n m k c l pet dt wp fc psi h5) by (try assumption; lra). eexists. split; [reflexivity|].
    unfold reduced_demand. assert (0 <= pet * dt) by (apply Rmult_le_pos; lra).
    assert (Q : 0 <= psi / h5) by (apply Rmult_le_pos; [assumption|left; apply Rinv_0_lt_compat; assumption]).
    pose proof (pow_le (psi / h5) 3 Q). set (z := 1 + (psi / h5) ^ 3). assert (Hz : 1 <= z) by (unfold z; lra).
    assert (0 < / z) by (apply Rinv_0_lt_compat; lra). assert (/ z <= 1) by (rewrite <- Rinv_1; apply Rinv_le_contravar; lra). split; [apply Rmult_le_pos; [assumption|lra]|].
    rewrite <- (Rmult_1_r (pet * dt)) at 2. apply Rmult_le_compat_l; assumption.
Qed.

(** ** Infiltration *)

Lemma single_max : forall e s r te D, single e s r te D -> max_storage e = Ok (Fin (te * D)).
Proof.
  intros e s r te D HS. unfold max_storage. rewrite (sg_n _ _ _ _ _ HS). change (Z.to_nat 1) with 1%nat. cbn [zfor]. rewrite (sg_soil _ _ _ _ _ HS). cbn [bind].
  rewrite (sg_bottom _ _ _ _ _ HS). cbn [bind]. change (1 - 1)%Z with 0%Z. rewrite (sg_top _ _ _ _ _ HS). cbn [bind]. destruct (sg_vg _ _ _ _ _ HS) as (a & n & m & k & V).
  rewrite (vg_e _ _ _ _ _ _ _ V). cbn [dadd dsub dmul rnd exact]. do 2 f_equal. ring.
Qed.

Lemma capacity_many : forall u s r te D dt T aet w prate head, plain u s r te D dt -> graded (u_env u) T D head -> below_surface head -> (2 <= length head)%nat ->
  ends (slow (u_closed u)) (fun q => exists x, q = Fin x) (infiltration_capacity (u_env u) (u_closed u) (u_nint u) (u_dt u) aet (Fin w) (Fin prate) 1 head).
Proof.
  intros u s r te D dt T aet w prate head HP G HB H2. pose proof (pl_single _ _ _ _ _ _ HP) as HS. pose proof (pl_pos _ _ _ _ _ _ HP) as Hdt. rewrite (pl_dt _ _ _ _ _ _ HP).
  destruct head as [|c [|n b]]; try (cbn in H2; lia). pose proof (graded_str _ _ _ _ _ _ _ HS G) as HSt.
  assert (Lc : f_layer c = 1%Z) by (eapply (single_layer _ _ _ _ _ _ 0); [exact HS|exact HSt|reflexivity]).
  assert (Ln : f_layer n = 1%Z) by (eapply (single_layer _ _ _ _ _ _ 1); [exact HS|exact HSt|reflexivity]).
  unfold infiltration_capacity. cbv zeta.
  assert (F1 : findFront 1 (c :: n :: b) = Some 0%nat) by (apply (find_num (c :: n :: b) 0 (st_num _ _ HSt)); cbn; lia).
  assert (F2 : findFront (1 + 1) (c :: n :: b) = Some 1%nat) by (apply (find_num (c :: n :: b) 1 (st_num _ _ HSt)); cbn; lia).
  rewrite F1, F2. cbn [pget lget nth_error bind]. rewrite Lc, (sg_soil _ _ _ _ _ HS). cbn [bind].
  destruct (sg_frozen _ _ _ _ _ HS) as (x & Ex & Hx). rewrite Ex. cbn [bind]. rewrite (sg_n _ _ _ _ _ HS).
  replace (listLength (c :: n :: b) =? 1)%Z with false by (symmetry; apply Z.eqb_neq; unfold listLength; cbn [length]; lia).
  destruct (sg_vg _ _ _ _ _ HS) as (a & nn & m & k & V). rewrite (vg_k _ _ _ _ _ _ _ V). change (Fin k * Fin x)%d with (Fin (k * x)).
  assert (Hkx : 0 < k * x) by (destruct V; apply Rmult_lt_0_compat; assumption).
  destruct (within_single _ _ _ _ _ n HS Ln) as (tn & Etn & Htn). { pose proof (gr_within _ _ _ _ G) as W. inversion W as [|? ? ? W']; subst. inversion W'; subst. constructor; auto. }
  rewrite Etn, (vg_e _ _ _ _ _ _ _ V). eapply ends_bind; [exact (geff_ends _ _ _ _ _ _ _ _ _ _ HS (pl_capillary _ _ _ _ _ _ HP) Hkx (proj1 Htn) (proj2 Htn) (Rle_refl te))|].
  intros g _ (gv & -> & Hg).
  change (1 =? 1)%Z with true. cbv iota. cbn [bind].
  pose proof (gr_measured _ _ _ _ G) as M. assert (Md : exists d, f_depth c = Fin d). { inversion M as [|? ? Q]; subst. apply Q. }
  destruct Md as [d Ed]. assert (Hd : 0 < d). { inversion HB as [|? ? Q]; subst. rewrite Ed in Q. exact Q. }
  rewrite Ed. cbn [bind].
  replace (1 =? listLength (c :: n :: b))%Z with false by (symmetry; apply Z.eqb_neq; unfold listLength; cbn [length]; lia).
  rewrite andb_false_r. rewrite (single_mass _ _ _ _ _ _ HS HSt M). cbn [bind]. rewrite (single_max _ _ _ _ _ HS). cbn [bind].
  change (Fin w - Fin prate * Fin dt)%d with (Fin (w - prate * dt)). rewrite fmax_fin. cbn [dadd dsub dmul lit rnd exact]. rewrite !div_fin by lra.
  cbn [ends dadd dsub dmul lit rnd exact]. match goal with |- context [if ?t then _ else _] => destruct t end; eauto.
Qed.

Lemma capacity_alone : forall u s r te D dt T aet w prate c, plain u s r te D dt -> graded (u_env u) T D [c] ->
  ends (slow (u_closed u)) (fun q => exists x, q = Fin x) (infiltration_capacity (u_env u) (u_closed u) (u_nint u) (u_dt u) (Fin aet) (Fin w) (Fin prate) 1 [c]).
Proof.
  intros u s r te D dt T aet w prate c HP G. pose proof (pl_single _ _ _ _ _ _ HP) as HS. pose proof (pl_pos _ _ _ _ _ _ HP) as Hdt. rewrite (pl_dt _ _ _ _ _ _ HP).
  pose proof (graded_str _ _ _ _ _ _ _ HS G) as HSt. destruct (alone_front _ _ _ _ _ _ HS HSt) as (B & Ed & L & N & Z0). pose proof (single_D _ _ _ _ _ HS) as HD.
  unfold infiltration_capacity. cbv zeta. unfold findFront. assert (P1 : pos_of 1 [c] = Some 0%nat) by (cbn; rewrite N; reflexivity). rewrite P1. cbn [pget lget nth_error bind].
  rewrite L, (sg_soil _ _ _ _ _ HS). cbn [bind]. destruct (sg_frozen _ _ _ _ _ HS) as (x & Ex & Hx). rewrite Ex. cbn [bind]. rewrite (sg_n _ _ _ _ _ HS). change (listLength [c]) with 1%Z.
  change (1 =? 1)%Z with true. cbv iota. cbn [bind]. destruct (sg_vg _ _ _ _ _ HS) as (a & nn & m & k & V). rewrite (vg_k _ _ _ _ _ _ _ V), Ed.
  rewrite (single_mass _ _ _ _ _ _ HS HSt (gr_measured _ _ _ _ G)). cbn [bind]. rewrite (single_max _ _ _ _ _ HS). cbn [bind].
  change (Fin w - Fin prate * Fin dt)%d with (Fin (w - prate * dt)). rewrite fmax_fin. cbn [dadd dsub dmul lit rnd exact]. rewrite !div_fin by lra. cbn [ends dadd dsub dmul lit rnd exact].
  match goal with |- context [dfmin (Fin ?y) (Fin ?z)] => rewrite (fmin_fin y z) end. match goal with |- context [if ?t then Fin (Rmin ?y ?z) else Fin ?y] => destruct t end; match goal with |- context [if ?t then _ else _] => destruct t end; eauto.
Qed.

Lemma capacity_value : forall u s r te D dt T aet w prate head, plain u s r te D dt -> graded (u_env u) T D head -> below_surface head ->
  ends (slow (u_closed u)) (fun q => exists x, q = Fin x) (infiltration_capacity (u_env u) (u_closed u) (u_nint u) (u_dt u) (Fin aet) (Fin w) (Fin prate) 1 head).
Proof.
  intros u s r te D dt T aet w prate head HP G HB. pose proof (pl_single _ _ _ _ _ _ HP) as HS. destruct head as [|c [|n b]].
  - exfalso. eapply Str_nonempty; [apply (se_n _ (sg_env _ _ _ _ _ HS))|exact (graded_str _ _ _ _ _ _ _ HS G)|reflexivity].
  - eapply capacity_alone; eassumption.
  - eapply capacity_many; try eassumption. cbn. lia.
Qed.

Lemma insert_ends : forall u s r te D dt T aet w prate b, plain u s r te D dt -> graded (u_env u) T D (b_head b) -> below_surface (b_head b) ->
  b_ponded b = Fin w -> 0 <= w -> b_volin b = Fin 0 -> b_aet b = Fin aet ->
  ends (slow (u_closed u)) (fun c => exists i ro o, c = mkSub (b_head b) (b_prev b) (Fin aet) (Fin o) (Fin i) (Fin ro) (Fin o) (b_rech b) /\ w = i + ro + o /\ 0 <= o) (sub_insert u 1 (Fin prate) b).
Proof.
  intros u s r te D dt T aet w prate b HP G HB Ew Hw Ei Ea. unfold sub_insert, lgar_insert_water. rewrite Ew, Ei, Ea.
  eapply ends_bind; [eapply ends_bind; [exact (capacity_value _ _ _ _ _ _ _ _ _ _ _ HP G HB)|]|].
  - intros q _ (x & ->). cbn [ends]. instantiate (1 := fun y => exists iv rv ov, y = (Fin rv, Fin ov, Fin iv) /\ w = iv + rv + ov /\ 0 <= ov /\ 0 <= rv).
    rewrite (pl_dt _ _ _ _ _ _ HP). pose proof (pl_pos _ _ _ _ _ _ HP) as Hdt. destruct (pl_pond _ _ _ _ _ _ HP) as (pm & Epm & Hpm). rewrite Epm.
    unfold surface_partition. assert (Z0 : 0 / dt = 0) by (field; lra). dsimp. rewrite ?Z0. dcrush; do 3 eexists; (split; [reflexivity|split; [|split]]); lra.
  - intros [[ro o] i] _ (iv & rv & ov & E & F1 & F2 & F3). injection E as -> -> ->. rewrite ltb_f by lra. cbn [ends]. exists iv, rv, ov. auto.
Qed.

(** ** A new front *)

Lemma dry_ends : forall u s r te D dt l c n b, plain u s r te D dt -> l = c :: b -> f_layer c = 1%Z -> f_theta c = Fin n -> r <= n -> n < te ->
  ends (slow (u_closed u)) (fun x => exists d y, x = (Fin d, y) /\ 0 < d <= D) (lgar_calc_dry_depth (u_env u) (u_closed u) (u_nint u) (u_dt u) l).
Proof.
  intros u s r te D dt l c n b HP -> Lc En Hr He. pose proof (pl_single _ _ _ _ _ _ HP) as HS. pose proof (pl_pos _ _ _ _ _ _ HP) as Hdt. rewrite (pl_dt _ _ _ _ _ _ HP).
  unfold lgar_calc_dry_depth. cbn [lget nth_error bind]. rewrite Lc, (sg_soil _ _ _ _ _ HS). cbn [bind]. destruct (sg_frozen _ _ _ _ _ HS) as (x & Ex & Hx). rewrite Ex. cbn [bind].
  destruct (sg_vg _ _ _ _ _ HS) as (a & nn & m & k & V). rewrite (vg_k _ _ _ _ _ _ _ V), (vg_e _ _ _ _ _ _ _ V), En. change (Fin k * Fin x)%d with (Fin (k * x)).
  assert (Hkx : 0 < k * x) by (destruct V; apply Rmult_lt_0_compat; assumption).
  eapply ends_bind; [exact (geff_ends _ _ _ _ _ _ _ _ _ _ HS (pl_capillary _ _ _ _ _ _ HP) Hkx Hr (Rlt_le _ _ He) (Rle_refl te))|]. intros g _ (gv & -> & Hg).
  rewrite (sg_bottom _ _ _ _ _ HS). cbn [bind ends]. change (Fin te - Fin n)%d with (Fin (te - n)). change (Fin dt * Fin (k * x))%d with (Fin (dt * (k * x))).
  rewrite div_fin by lra. set (tau := dt * (k * x) / (te - n)).
  assert (Ht : 0 < tau) by (apply Rdiv_lt_0_compat; [apply Rmult_lt_0_compat; assumption|lra]).
  change (lit 4) with (Fin 4). change (lit (1 / 2)) with (Fin (1 / 2)). cbn [dmul dadd rnd exact].
  assert (Hq : 0 <= tau * tau + 4 * tau * gv). { pose proof (Rmult_le_pos tau gv ltac:(lra) Hg). pose proof (Rmult_lt_0_compat tau tau Ht Ht). lra. }
  replace (dsqrt (Fin (tau * tau + 4 * tau * gv))) with (Fin (sqrt (tau * tau + 4 * tau * gv))).
  2: { unfold dsqrt. destruct (Rlt_dec (tau * tau + 4 * tau * gv) 0); [lra|reflexivity]. }
  cbn [dmul dadd rnd exact]. rewrite fmin_fin. do 2 eexists. split; [reflexivity|]. pose proof (sqrt_pos (tau * tau + 4 * tau * gv)). pose proof (single_D _ _ _ _ _ HS).
  split; [apply Rmin_glb_lt; lra|apply Rmin_l].
Qed.

Lemma create_single : forall e s r te D T n b pond dry, single e s r te D -> graded e T D (n :: b) -> below_surface (n :: b) -> val (f_depth n) <= D -> val (f_theta n) < te ->
  0 < dry <= D -> 0 < pond ->
  exists l' pond' vin, lgar_create_surficial_front e (Fin pond) (Fin dry) (f_theta n) (n :: b) = Ok (l', Fin pond', Fin vin) /\
    graded e T D l' /\ below_surface l' /\ storage l' = storage (n :: b) + vin /\ pond = vin + pond' /\ 0 <= pond' /\ (rooted s (n :: b) -> rooted s l').
Proof.
  intros e s r te D T n b pond dry HS G BS Hn Hlt Hdry Hp. pose proof (graded_str _ _ _ _ _ _ _ HS G) as H. pose proof (sg_env _ _ _ _ _ HS) as HE.
  assert (Ln : f_layer n = 1%Z) by (eapply (single_layer _ _ _ _ _ _ 0); [exact HS|exact H|reflexivity]).
  destruct (sg_vg _ _ _ _ _ HS) as (a & nn & m & k & V). pose proof (vg_e _ _ _ _ _ _ _ V) as Ete. pose proof (sg_soil _ _ _ _ _ HS) as Es.
  destruct G as [G1 G2 G3 G4 G5 G6 G7 G8 G9].
  destruct (within_single _ _ _ _ _ n HS Ln) as (t1 & Et1 & Ht1). { inversion G4; subst. constructor; auto. }
  inversion G3 as [|q1 q2 [[dn Edn] _] M']; subst q1 q2. rewrite Et1 in *. cbn [val] in *.
  unfold lgar_create_surficial_front. rewrite Es. cbn [bind]. rewrite Ete.
  destruct (sg_frozen _ _ _ _ _ HS) as (x & Ef & Hx). rewrite Ef, (sg_bottom _ _ _ _ _ HS).
  set (t := if Rlt_dec pond (dry * (te - t1)) then t1 + pond / dry else te).
  set (vin := if Rlt_dec pond (dry * (te - t1)) then pond else dry * (te - t1)).
  assert (Hpd : 0 < pond / dry) by (apply Rdiv_lt_0_compat; lra).
  assert (Ht : t1 < t <= te).
  { unfold t. destruct (Rlt_dec pond (dry * (te - t1))) as [Q|Q]; [|lra]. split; [lra|].
    assert (pond / dry < te - t1); [|lra]. apply Rmult_lt_reg_r with dry; [lra|]. unfold Rdiv. rewrite Rmult_assoc, Rinv_l by lra. lra. }
  assert (Hv : vin = dry * (t - t1)). { unfold vin, t. destruct (Rlt_dec pond (dry * (te - t1))); [field; lra|ring]. }
  assert (Hv2 : vin <= pond). { unfold vin. destruct (Rlt_dec pond (dry * (te - t1))); lra. }
  assert (E1 : (Fin dry * (Fin te - Fin t1) >? Fin pond)%d = if Rlt_dec pond (dry * (te - t1)) then true else false) by reflexivity.
  assert (E2 : (if (Fin dry * (Fin te - Fin t1) >? Fin pond)%d then Fin pond else Fin dry * (Fin te - Fin t1))%d = Fin vin).
  { rewrite E1. unfold vin. destruct (Rlt_dec _ _); reflexivity. }
  assert (E3 : (if (Fin dry * (Fin te - Fin t1) >? Fin pond)%d then Fin 0 else Fin pond - Fin dry * (Fin te - Fin t1))%d = Fin (pond - vin)).
  { rewrite E1. unfold vin. destruct (Rlt_dec _ _); cbn; f_equal; lra. }
  assert (E4 : (if (Fin dry * (Fin te - Fin t1) >? Fin pond)%d then dfmin (Fin t1 + Fin pond / Fin dry) (Fin te) else Fin te)%d = Fin t).
  { rewrite E1. destruct (Rlt_dec pond (dry * (te - t1))) as [Q|Q].
    - rewrite div_fin by lra. assert (Et : t = t1 + pond / dry) by (unfold t; destruct (Rlt_dec pond (dry * (te - t1))); [reflexivity|lra]).
      change (Fin t1 + Fin (pond / dry))%d with (Fin (t1 + pond / dry)). rewrite <- Et. cbn. unfold Rltb. repeat destruct (Rlt_dec _ _); try reflexivity; f_equal; lra.
    - unfold t. destruct (Rlt_dec pond (dry * (te - t1))); [lra|reflexivity]. }
  cbv zeta. rewrite E2, E3, E4.
  replace (if (Fin dry * (Fin te - Fin t1) >? Fin pond)%d then Ok (Fin 0) else Ok (Fin D)) with (Ok (if (Fin dry * (Fin te - Fin t1) >? Fin pond)%d then Fin 0 else Fin D))
    by (destruct (_ >? _)%d; reflexivity).
  unfold listInsertFirst. cbn [bind]. change (bump 1 (n :: b)) with (set_num n (f_num n + 1) :: bump 1 b). cbv iota.
  match goal with |- context [set_dzdt ?x ?y] => set (c := set_dzdt x y) end.
  assert (Hc1 : f_depth c = Fin dry) by reflexivity. assert (Hc2 : f_theta c = Fin t) by reflexivity.
  change (set_num n (f_num n + 1) :: bump 1 b) with (bump 1 (n :: b)) in *. set (l1 := c :: bump 1 (n :: b)).
  assert (S1 : Str e l1) by (apply insert_str; auto).
  assert (CK : conducts c).
  { destruct (single_K _ _ _ _ _ _ HS Ef t ltac:(lra)) as [(k1 & K1 & K2) _]. split.
    - cbn [c set_dzdt set_K set_psi f_K]. rewrite K1. cbn [dmul rnd exact]. eexists. split; [reflexivity|]. apply Rmult_le_pos; lra.
    - exact (single_psi _ _ _ _ _ t HS ltac:(lra)). }
  assert (FB : forall P : front -> Prop, (forall f z, P f -> P (set_num f z)) -> Forall P (n :: b) -> Forall P (bump 1 (n :: b))).
  { intros P HPn F. unfold bump. apply Forall_map. eapply Forall_impl; [|exact F]. intros f Pf. apply HPn. exact Pf. }
  assert (G' : graded e T D l1).
  { apply Str_iff in S1 as [P1 P2]; [|apply HE]. constructor; [exact P1|exact P2| | | | | | |].
    - constructor; [split; [exists dry|exists t]; auto|apply measured_bump; assumption].
    - constructor; [|apply FB; [intros f z Q; exact Q|assumption]]. exists s, r, te, t. split; [exact Es|]. split; [exact (vg_r _ _ _ _ _ _ _ V)|]. split; [exact Ete|]. split; [reflexivity|lra].
    - unfold l1. change (bump 1 (n :: b)) with (set_num n (f_num n + 1) :: bump 1 b). split.
      + intros _. rewrite Hc2. cbn [set_num f_theta]. rewrite Et1. cbn. lra.
      + apply (drier_bump (n :: b) 1). assumption.
    - apply (FB (fun f => 0 < val (f_depth f))); [intros f z Q; exact Q|assumption].
    - apply (FB (fun f => val (f_depth f) <= D)); [intros f z Q; exact Q|]. constructor; [exact Hn|]. exact G7.
    - intros f E. injection E as <-. left. rewrite Hc1. cbn. lra.
    - constructor; [exact CK|]. apply FB; [intros f z Q; exact Q|assumption]. }
  assert (DA : damp te l1).
  { constructor; [rewrite Hc1, Hc2; cbn; lra|]. apply FB; [intros f z Q; exact Q|]. apply Forall_forall. intros f Hf. split.
    - apply In_nth_error in Hf as [i Ei]. pose proof (single_layer _ _ _ _ _ _ _ _ HS H Ei) as Lf. destruct (within_single _ _ _ _ _ f HS Lf) as (tf & Etf & Htf); [|rewrite Etf; cbn; lra].
      constructor; [|constructor]. unfold within_soils in G4. rewrite Forall_forall in G4. apply G4. eapply nth_error_In. exact Ei.
    - unfold below_surface in BS. rewrite Forall_forall in BS. apply BS. assumption. }
  assert (St1 : storage l1 = storage (n :: b) + vin).
  { unfold l1, storage. change (c :: bump 1 (n :: b)) with ([c] ++ bump 1 (n :: b)). rewrite slabs_app, slabs_bump. cbn [slabs lastd]. rewrite Hc1, Hc2, Et1, Edn, Hv. cbn [val]. lra. }
  assert (RB : rooted s (n :: b) -> rooted s l1) by (intro RT; constructor; [discriminate|]; apply FB; [intros f z Q; exact Q|exact RT]).
  assert (DB : forall l, damp te l -> below_surface l) by (intros l F; eapply Forall_impl; [|exact F]; intros f [_ Q]; exact Q).
  match goal with |- context [if ?z then _ else _] => destruct z end.
  - fold l1. destruct (merge_single T e s r te D l1 HS G') as (l2 & EM & G2' & S2 & _ & DM). rewrite EM. cbn [bind].
    rewrite (cross_single _ _ _ _ _ _ HS (graded_str _ _ _ _ _ _ _ HS G2')). cbn [bind]. exists l2, (pond - vin), vin. split; [reflexivity|]. split; [assumption|].
    split; [apply DB, (proj1 DM), DA|]. split; [rewrite S2; exact St1|]. split; [lra|]. split; [lra|]. intro RT. apply (proj2 DM), RB, RT.
  - fold l1. cbn [bind]. exists l1, (pond - vin), vin. split; [reflexivity|]. split; [assumption|]. split; [apply DB, DA|]. split; [exact St1|]. split; [lra|]. split; [lra|]. exact RB.
Qed.

(** ** Velocities *)

Lemma drier_nth : forall l i c n, drier_downwards l -> nth_error l i = Some c -> nth_error l (Datatypes.S i) = Some n -> f_layer c = f_layer n -> val (f_theta n) < val (f_theta c).
Proof.
  induction l as [|a l IH]; intros [|i] c n DD Ec En L; try discriminate.
  - destruct l as [|b l]; [discriminate|]. cbn in Ec, En. injection Ec as <-. injection En as <-. apply DD. exact L.
  - destruct l as [|b l]; [destruct i; discriminate|]. apply (IH i); [apply DD|exact Ec|exact En|exact L].
Qed.

Lemma velocity_ends : forall e s r te D closed nint h c n k d tc tn, single e s r te D -> capillary closed nint e -> 0 <= h -> f_layer c = 1%Z -> f_bottom c = false ->
  f_K c = Fin k -> 0 <= k -> f_depth c = Fin d -> f_theta c = Fin tc -> f_theta n = Fin tn -> r <= tn <= te -> r <= tc <= te -> tn <= tc ->
  ends (slow closed) (fun v => 0 < d -> exists x, v = Fin x /\ 0 < x) (dzdt_front e closed nint (Fin h) c n).
Proof.
  intros e s r te D closed nint h c n K d t t' HS HG Hh L1 HB EK HK Ed Etc Etn Hn Hc Hle. unfold dzdt_front. rewrite L1, (sg_soil _ _ _ _ _ HS). cbn [bind].
  destruct (sg_frozen _ _ _ _ _ HS) as (x & Ex & Hx). rewrite Ex. cbn [bind]. change (1 >? 1)%Z with false. cbv iota. cbn [bind]. rewrite EK, Etc, Etn, Ed, HB.
  destruct (sg_vg _ _ _ _ _ HS) as (a & nn & m & k & V). rewrite (vg_k _ _ _ _ _ _ _ V). change (Fin k * Fin x)%d with (Fin (k * x)).
  assert (Hkx : 0 < k * x) by (destruct V; apply Rmult_lt_0_compat; assumption).
  unfold dgtb at 1. rewrite ltb_f by lra.
  eapply ends_bind; [exact (geff_ends _ _ _ _ _ _ _ _ _ _ HS HG Hkx (proj1 Hn) Hle (proj2 Hc))|]. intros g _ (gv & -> & Hg).
  change (1 =? 1)%Z with true. cbv iota. cbn [bind ends]. intros Hd.
  assert (Q1 : exists q, (Fin (k * x) * (Fin gv + Fin h) / Fin d)%d = Fin q /\ 0 <= q).
  { cbn [dadd dmul rnd exact]. rewrite div_fin by lra. eexists. split; [reflexivity|]. apply Rmult_le_pos; [apply Rmult_le_pos; lra|left; apply Rinv_0_lt_compat; assumption]. }
  destruct Q1 as (q & -> & Hq). change (Fin q + Fin K)%d with (Fin (q + K)). change (Fin t - Fin t')%d with (Fin (t - t')). destruct (Rle_dec (t - t') 0).
  - replace (Fin (t - t') >? Fin 0)%d with false by (symmetry; apply ltb_f; lra). destruct (clamp_velocity 0 ltac:(lra)) as (v & E & Hv & _). exists v. split; [exact E|lra].
  - replace (Fin (t - t') >? Fin 0)%d with true by (symmetry; apply ltb_t; lra). change (lit 1) with (Fin 1). rewrite div_fin by lra. change (Fin (1 / (t - t')) * Fin (q + K))%d with (Fin (1 / (t - t') * (q + K))).
    assert (0 < / (t - t')) by (apply Rinv_0_lt_compat; lra). destruct (clamp_velocity (1 / (t - t') * (q + K))) as (v & E & Hv & _); [unfold Rdiv; nra|]. exists v. split; [exact E|lra].
Qed.

(** The fronts as the velocities see them. *)
Definition streams (r te : R) (f : front) : Prop := f_layer f = 1%Z /\ (exists k, f_K f = Fin k /\ 0 <= k) /\ finite (f_depth f) /\ exists t, f_theta f = Fin t /\ r <= t <= te.

Lemma velocities_stop : forall e s r te D closed nint h, single e s r te D -> capillary closed nint e -> 0 <= h -> forall l, Forall (streams r te) l -> drier_downwards l ->
  ends (slow closed) (fun _ => True) (dzdt_loop e closed nint (Fin h) l).
Proof.
  intros e s r te D closed nint h HS HC Hh. induction l as [|c l IH]; intros F DD; cbn [dzdt_loop]; [exact Logic.I|].
  inversion F as [|q1 q2 (L1 & (k & EK & Hk) & (d & Ed) & tc & Etc & Htc) F']; subst q1 q2. rewrite EK. rewrite ltb_f by lra. rewrite L1, (sg_soil _ _ _ _ _ HS). cbn [bind].
  destruct (sg_frozen _ _ _ _ _ HS) as (x & Ex & Hx). rewrite Ex. cbn [bind]. destruct l as [|n l]; [exact Logic.I|].
  inversion F' as [|q1 q2 (L2 & _ & _ & tn & Etn & Htn) _]; subst q1 q2. destruct DD as [D1 D2]. specialize (D1 (eq_trans L1 (eq_sym L2))). rewrite Etc, Etn in D1. cbn [val] in D1.
  eapply ends_bind with (P := fun _ => True).
  - destruct (f_bottom c) eqn:B; [exact Logic.I|].
    eapply ends_mono; [intros w Hw; exact Hw| |exact (velocity_ends _ _ _ _ _ _ _ _ _ _ _ _ _ _ HS HC Hh L1 B EK Hk Ed Etc Etn Htn Htc (Rlt_le _ _ D1))]. intros; exact Logic.I.
  - intros v _ _. eapply ends_bind; [exact (IH F' D2)|]. intros; exact Logic.I.
Qed.

Lemma graded_streams : forall e s r te D T l, single e s r te D -> graded e T D l -> Forall (streams r te) l.
Proof.
  intros e s r te D T l HS G. pose proof (graded_str _ _ _ _ _ _ _ HS G) as H. apply Forall_forall. intros f Hf. pose proof Hf as Hi. apply In_nth_error in Hi as [i Ei].
  pose proof (single_layer _ _ _ _ _ _ _ _ HS H Ei) as L1. pose proof (gr_K _ _ _ _ G) as K. pose proof (gr_measured _ _ _ _ G) as M. pose proof (gr_within _ _ _ _ G) as W.
  unfold measured, within_soils in *. rewrite Forall_forall in K, M, W. split; [assumption|]. split; [apply (K f Hf)|]. split; [apply (M f Hf)|].
  apply (within_single _ _ _ _ _ f HS L1). constructor; [exact (W f Hf)|constructor].
Qed.

Lemma but_Forall : forall (P : front -> Prop) l l', (forall f v, P f -> P (set_dzdt f v)) -> Forall2 but_velocity l l' -> Forall P l -> Forall P l'.
Proof. intros P l l' HP. induction 1 as [|f g l l' E _ IH]; intro F; [constructor|]. inversion F; subst. constructor; [rewrite E; apply HP; assumption|auto]. Qed.

Lemma but_slabs : forall l l', Forall2 but_velocity l l' -> forall z, slabs z l' = slabs z l.
Proof. induction 1 as [|f g l l' E _ IH]; intro z; [reflexivity|]. cbn [slabs]. rewrite IH, E. reflexivity. Qed.

Lemma but_drier : forall l l', Forall2 but_velocity l l' -> drier_downwards l -> drier_downwards l'.
Proof.
  induction 1 as [|f g l l' E H IH]; [auto|]. destruct H as [|f2 g2 l l' E2 H]; [auto|]. intros [D1 D2]. split; [|auto]. rewrite E, E2. exact D1.
Qed.

Lemma speeds_single : forall e s r te D T closed nint h l, single e s r te D -> capillary closed nint e -> 0 <= h -> graded e T D l ->
  ends (slow closed) (fun l' => graded e T D l' /\ storage l' = storage l /\ (below_surface l -> Forall sinks l' /\ below_surface l') /\
    (forall f g, hd_error l = Some f -> hd_error l' = Some g -> f_depth g = f_depth f) /\ (rooted s l -> rooted s l')) (lgar_dzdt_calc e closed nint (Fin h) l).
Proof.
  intros e s r te D T closed nint h l HS HC Hh G. pose proof (graded_str _ _ _ _ _ _ _ HS G) as H. pose proof (sg_env _ _ _ _ _ HS) as HE. pose proof (graded_streams _ _ _ _ _ _ _ HS G) as F.
  unfold lgar_dzdt_calc. assert (Hne : l <> []) by (eapply Str_nonempty; eauto using se_n). destruct l as [|c0 b0] eqn:EL; [contradiction|]. rewrite <- EL in *. clear EL Hne.
  pose proof (velocities_stop _ _ _ _ _ _ _ _ HS HC Hh l F (gr_drier _ _ _ _ G)) as ST.
  assert (RG : forall f, In f l -> (1 <= f_layer f <= e_nlayers e)%Z) by (intros f Hf; apply In_nth_error in Hf as [i Ei]; eapply Str_range; eassumption).
  pose proof (dzdt_loop_ok e closed nint (Fin h) l HE RG) as OK.
  destruct (dzdt_loop e closed nint (Fin h) l) as [l'|w] eqn:E; [|exact ST]. cbn [ends] in *. destruct OK as [BV LS].
  pose proof (but_velocity_str _ _ _ BV LS H) as H'. destruct (proj1 (Str_iff e l' (se_n _ HE)) H') as [P1 P2].
  destruct G as [G1 G2 G3 G4 G5 G6 G7 G8 G9]. pose proof (Forall2_length _ _ _ _ _ BV) as LL.
  assert (TL : Forall2 but_velocity (tl l) (tl l')) by (destruct BV; [constructor|assumption]).
  split; [|split; [apply but_slabs; assumption|split; [|split; [|intro RT; eapply but_Forall; [|exact BV|exact RT]; intros f v Q; exact Q]]]].
  - constructor; [exact P1|exact P2| | | | | | |].
    + eapply but_Forall; [|exact BV|exact G3]. intros f v Q; exact Q.
    + eapply but_Forall; [|exact BV|exact G4]. intros f v Q; exact Q.
    + eapply but_drier; eassumption.
    + eapply but_Forall; [|exact TL|exact G6]. intros f v Q; exact Q.
    + eapply (but_Forall (fun f => val (f_depth f) <= D)); [|exact TL|exact G7]. intros f v Q; exact Q.
    + intros g Eg. destruct BV as [|f g' ? ? Q _]; [discriminate|]. injection Eg as <-. rewrite Q. exact (G8 f eq_refl).
    + eapply but_Forall; [|exact BV|exact G9]. intros f v Q; exact Q.
  - intro BS. split; [|eapply (but_Forall (fun f => 0 < val (f_depth f))); [|exact BV|exact BS]; intros f v Q; exact Q].
    assert (VV : velocities (fun v => exists x, v = Fin x /\ 0 < x) l l').
    { eapply loop_velocities; [|exact E]. intros i c n v Ec En B Ev. rewrite Forall_forall in F.
      destruct (F c (nth_error_In _ _ Ec)) as (L1 & (k & EK & Hk) & (d & Ed) & tc & Etc & Htc). destruct (F n (nth_error_In _ _ En)) as (L2 & _ & _ & tn & Etn & Htn).
      assert (DN : tn < tc). { pose proof (drier_nth _ _ _ _ G5 Ec En (eq_trans L1 (eq_sym L2))) as Q. rewrite Etc, Etn in Q. exact Q. }
      pose proof (velocity_ends _ _ _ _ _ _ _ _ _ _ _ _ _ _ HS HC Hh L1 B EK Hk Ed Etc Etn Htn Htc (Rlt_le _ _ DN)) as Q. rewrite Ev in Q. apply Q.
      unfold below_surface in BS. rewrite Forall_forall in BS. specialize (BS c (nth_error_In _ _ Ec)). rewrite Ed in BS. exact BS. }
    destruct VV as [_ VV]. apply Forall_forall. intros g Hg. apply In_nth_error in Hg as [i Eg]. destruct (Forall2_nth _ _ _ _ BV _ _ Eg) as (f & Ef & Q).
    intro B. assert (Bf : f_bottom f = false) by (rewrite Q in B; exact B). destruct (Str_next _ _ _ _ H Ef Bf) as (n & En & _).
    destruct (VV _ _ _ Ef Eg) as (_ & _ & _ & R4). apply R4; [|assumption]. apply nth_error_Some. congruence.
  - intros f g Ef Eg. destruct BV as [|f' g' ? ? Q _]; [discriminate|]. injection Ef as <-. injection Eg as <-. rewrite Q. reflexivity.
Qed.
(** ** The hydrological part of a sub-step *)

Definition dried (closed : bool) (r : R) (why : reason) : Prop := slow closed why \/ (0 <= r -> why = UB UseAfterFree).

Lemma spins_dried : forall closed r why, slow closed why -> dried closed r why.
Proof. intros closed r why H. left. exact H. Qed.

Lemma motion_ends : forall closed e s r te D dt vin a head, single e s r te D -> settled e te D head -> (2 <= length head)%nat -> 0 < dt ->
  ends (dried closed r) (fun x => lgar_move_wetting_fronts e (Fin dt) (Fin vin) 1 (Fin (storage head)) (Fin a) head head = Ok x)
    (lgar_move_wetting_fronts e (Fin dt) (Fin vin) 1 (Fin (storage head)) (Fin a) head head).
Proof.
  intros closed e s r te D dt vin a head HS HD H2 Hdt. destruct head as [|c [|no h]]; try (cbn in H2; lia).
  destruct (lgar_move_wetting_fronts _ _ _ _ _ _ _ _) as [x|why] eqn:E; cbn [ends]; [reflexivity|]. right. intro Hr. exact (proj1 (motion_stop _ _ _ _ _ _ _ _ _ _ _ _ HS HD Hdt Hr E)).
Qed.

(** The motion may also end because the head iteration of the only front does not. *)
Definition halted (closed : bool) (r : R) (l : list front) (why : reason) : Prop := dried closed r why \/ length l = 1%nat /\ why = OutOfFuel.
Lemma dried_halted : forall closed r l why, dried closed r why -> halted closed r l why.
Proof. intros. left. assumption. Qed.
Lemma slow_halted : forall closed r l why, slow closed why -> halted closed r l why.
Proof. intros. left. left. assumption. Qed.

Lemma motion_any : forall closed e s r te D dt vin a head, single e s r te D -> settled e te D head -> footing s r head -> 0 < dt ->
  ends (halted closed r head) (fun x : list front * dbl * dbl => let '(l', a', q) := x in exists a2 q2, a' = Fin a2 /\ q = Fin q2 /\ graded e (te - 1 / 1000000000000000) D l' /\
      ((2 <= length head)%nat -> Rabs (storage l' - (storage head + vin - a2 - q2)) <= 1 / 10000000) /\ (rooted s head -> rooted s l') /\
      (vin <= a -> forall c, hd_error head = Some c -> val (f_theta c) <= te - 1 / 1000000000000000 -> graded e (te + 1) D l' /\ damp (val (f_theta c)) l'))
    (lgar_move_wetting_fronts e (Fin dt) (Fin vin) 1 (Fin (storage head)) (Fin a) head head).
Proof.
  intros closed e s r te D dt vin a head HS HD HF Hdt. destruct head as [|c [|no h]].
  - exfalso. eapply Str_nonempty; [apply (se_n _ (sg_env _ _ _ _ _ HS))|exact (graded_str _ _ _ _ _ _ _ HS (sd_graded _ _ _ _ HD))|reflexivity].
  - destruct (HF eq_refl) as [RT Hr]. eapply ends_mono; [| |exact (alone_motion e s r te D dt vin a c HS HD RT Hr)].
    + intros why ->. right. split; reflexivity.
    + intros [[l' a'] q] (c' & a2 & q2 & -> & -> & -> & G & R' & B & W). exists a2, q2. split; [reflexivity|]. split; [reflexivity|]. split; [apply G|]. split; [cbn; lia|]. split; [intros _; exact R'|].
      intros Hva c0 E0 _. injection E0 as <-. split; [apply G|]. inversion B; subst. constructor; [split; [apply W; exact Hva|assumption]|constructor].
  - eapply ends_mono; [apply dried_halted| |exact (motion_ends closed e s r te D dt vin a (c :: no :: h) HS HD ltac:(cbn; lia) Hdt)].
    intros [[l' a'] q] E. destruct (motion_at (te - 1 / 1000000000000000) _ _ _ _ _ _ _ _ _ _ _ _ HS HD ltac:(cbn; lia) Hdt ltac:(left; lra) E) as (a2 & q2 & -> & -> & G & B & DA & RB).
    exists a2, q2. split; [reflexivity|]. split; [reflexivity|]. split; [exact G|]. split; [intros _; exact B|]. split; [exact RB|]. intros Hva c0 E0 Hc. split; [|apply DA; assumption].
    assert (HC : forall f, hd_error (c :: no :: h) = Some f -> val (f_theta f) <= te - 1 / 1000000000000000) by (intros f Ef; rewrite E0 in Ef; injection Ef as <-; exact Hc).
    destruct (motion_at (te + 1) _ _ _ _ _ _ _ _ _ _ _ _ HS HD ltac:(cbn; lia) Hdt (or_intror (conj Hva HC)) E) as (a3 & q3 & _ & _ & G1 & _). exact G1.
Qed.

(** What a phase leaves behind: the water [w] on the surface and the storage of [head] are in the column, on the surface, or gone. *)
Definition accounts (te D w : R) (e : env) (head : list front) (b : sub) : Prop :=
  exists a ro on q, b_aet b = Fin a /\ b_runoff b = Fin ro /\ b_on b = Fin on /\ b_rech b = Fin q /\ 0 <= on /\ (exists pd, b_ponded b = Fin pd /\ 0 <= pd) /\ b_volin b = Fin (w - ro - on) /\
    graded e (te - 1 / 1000000000000000) D (b_head b) /\
    ((2 <= length head)%nat -> Rabs (storage (b_head b) - (storage head + w - ro - on - a - q)) <= 1 / 10000000).

Lemma surface_rest : forall u s r te D dt b w, plain u s r te D dt -> b_ponded b = Fin w -> 0 <= w -> exists ro on pd, sub_no_insert u b = mkSub (b_head b) (b_prev b) (b_aet b) (Fin pd) (b_volin b) (Fin ro) (Fin on) (b_rech b) /\
  ro + on = w /\ 0 <= on /\ 0 <= pd.
Proof.
  intros u s r te D dt b w HP Ew Hw. destruct (pl_pond _ _ _ _ _ _ HP) as (pm & Ep & Hpm). unfold sub_no_insert. rewrite Ew, Ep. destruct (Rlt_dec w pm).
  - rewrite ltb_t by assumption. exists 0, w, 0. split; [reflexivity|]. lra.
  - rewrite ltb_f by lra. exists (w - pm), pm, pm. split; [reflexivity|]. lra.
Qed.

Lemma created : forall u s r te D dt c h pond a, plain u s r te D dt -> let head := c :: h in settled (u_env u) te D head -> footing s r head -> val (f_theta c) + 1 / 1000000000000 < te -> 0 <= a -> 0 < pond ->
  ends (halted (u_closed u) r head) (fun b => exists pd a2 q vin, b_volin b = Fin vin /\ b_aet b = Fin a2 /\ b_rech b = Fin q /\ b_ponded b = Fin pd /\ 0 <= pd /\ pond = vin + pd /\
    graded (u_env u) (te - 1 / 1000000000000000) D (b_head b) /\ ((2 <= length head)%nat -> Rabs (storage (b_head b) - (storage head + vin - a2 - q)) <= 1 / 10000000) /\ (rooted s head -> rooted s (b_head b)))
    (sub_create u 1 (Fin (storage head)) (Fin a) (Fin pond) head head).
Proof.
  intros u s r te D dt c h pond a HP head HD HF Hth Ha Hpond. pose proof (pl_single _ _ _ _ _ _ HP) as HS. pose proof (pl_pos _ _ _ _ _ _ HP) as Hdt. unfold sub_create. rewrite (pl_dt _ _ _ _ _ _ HP).
  eapply ends_bind; [exact (motion_any (u_closed u) _ _ _ _ _ _ 0 a head HS HD HF Hdt)|]. intros [[l1 a1] q1] _ (a2 & q2 & -> & -> & _ & B1 & RB & DA).
  destruct (DA Ha c eq_refl ltac:(lra)) as [G1 DB]. clear DA.
  cbv beta iota. assert (Eq : (if Fin q2 <>? Fin 0 then Fin q2 else Fin 0)%d = Fin q2).
  { unfold dneb. destruct (Req_EM_T q2 0) as [-> |N]; [rewrite eqb_t by reflexivity|rewrite eqb_f by assumption]; reflexivity. }
  pose proof (graded_str _ _ _ _ _ _ _ HS G1) as S1. destruct l1 as [|n1 b1]; [exfalso; eapply Str_nonempty; [apply (se_n _ (sg_env _ _ _ _ _ HS))|exact S1|reflexivity]|].
  assert (L1 : f_layer n1 = 1%Z) by (eapply (single_layer _ _ _ _ _ _ 0); [exact HS|exact S1|reflexivity]).
  pose proof (gr_within _ _ _ _ G1) as W1. inversion W1 as [|q3 q4 W2 _]; subst q3 q4. destruct (within_single _ _ _ _ _ n1 HS L1 (Forall_cons _ W2 (Forall_nil _))) as (t1 & Et1 & Ht1).
  pose proof DB as DA'. inversion DA' as [|q3 q4 [T1 D1] _]; subst q3 q4. rewrite Et1 in T1. cbn [val] in T1.
  rewrite <- (pl_dt _ _ _ _ _ _ HP). eapply ends_bind; [eapply ends_mono; [apply slow_halted| |exact (dry_ends _ _ _ _ _ _ _ n1 t1 b1 HP eq_refl L1 Et1 (proj1 Ht1) ltac:(lra))]; intros x Q; exact Q|].
  intros x _ (dry & y & -> & Hdry). cbn [lget nth_error bind].
  assert (BS : below_surface (n1 :: b1)) by (eapply Forall_impl; [|exact DB]; intros f [_ Q]; exact Q).
  assert (Hn : val (f_depth n1) <= D). { destruct (gr_first _ _ _ _ G1 n1 eq_refl) as [Q|Q]; [assumption|]. rewrite Et1 in Q. cbn [val] in Q. lra. }
  assert (G2 : graded (u_env u) (te - 1 / 1000000000000000) D (n1 :: b1)) by (destruct G1; constructor; try assumption; intros f Ef; injection Ef as <-; left; exact Hn).
  destruct (create_single _ _ _ _ _ _ n1 b1 pond dry HS G2 BS Hn ltac:(rewrite Et1; cbn [val]; lra) Hdry Hpond) as (l2 & pd & vin & EC & G3 & _ & S3 & Ep & Hpd & RC).
  rewrite EC. cbn [bind ends]. exists pd, a2, q2, vin. cbn [b_aet b_rech b_ponded b_head b_volin]. split; [reflexivity|]. split; [reflexivity|]. split; [exact Eq|]. split; [reflexivity|]. split; [assumption|]. split; [assumption|]. split; [assumption|].
  split; [|auto]. rewrite S3. replace (storage (n1 :: b1) + vin - (storage head + vin - a2 - q2)) with (storage (n1 :: b1) - (storage head + 0 - a2 - q2)) by ring. exact B1.
Qed.

Lemma drains_any : forall e s r te D l, single e s r te D -> Str e l -> wetting_front_free_drainage l = 1%Z.
Proof.
  intros e s r te D l HS H. destruct l as [|c [|n b]]; [exfalso; eapply Str_nonempty; [apply (se_n _ (sg_env _ _ _ _ _ HS))|exact H|reflexivity]|reflexivity|eapply drains_first; eassumption].
Qed.

Lemma hydro_single : forall u s r te D dt head pp pr pet volon w, plain u s r te D dt -> settled (u_env u) te D head -> footing s r head -> 0 <= pet -> 0 <= w -> (0 < pr * dt -> 0 < w) ->
  ends (halted (u_closed u) r head) (fun b => (accounts te D w (u_env u) head b /\ (rooted s head -> rooted s (b_head b))) /\
      (forall f, hd_error (b_head b) = Some f -> 0 < val (f_depth f) -> below_surface (b_head b) /\ Forall sinks (b_head b)))
    (sub_hydro u pp (Fin pr) (Fin pet) (Fin (pr * dt)) volon (Fin w) (Fin (storage head)) head head).
Proof.
  intros u s r te D dt head pp pr pet volon w HP HD HF Hpet Hw Hpw. pose proof (pl_single _ _ _ _ _ _ HP) as HS. pose proof (pl_pos _ _ _ _ _ _ HP) as Hdt. pose proof HD as HD'. destruct HD' as [G BS SK].
  pose proof (graded_str _ _ _ _ _ _ _ HS G) as H. destruct head as [|c h]; [exfalso; eapply Str_nonempty; [apply (se_n _ (sg_env _ _ _ _ _ HS))|exact H|reflexivity]|]. set (head := c :: h) in *.
  assert (Lc : f_layer c = 1%Z) by (eapply (single_layer _ _ _ _ _ _ 0); [exact HS|exact H|reflexivity]).
  pose proof (gr_K _ _ _ _ G) as CK. inversion CK as [|q1 q2 Cc _]; subst q1 q2.
  unfold sub_hydro. eapply ends_bind with (P := fun x => exists a, x = Fin a /\ 0 <= a).
  { destruct (Rlt_dec 0 pet).
    - unfold dgtb. rewrite ltb_t by assumption. destruct (demand_value _ _ _ _ _ _ c h pet HP Lc Cc Hpet) as (a & Ea & Ha & _). fold head in Ea. rewrite Ea. cbn [ends]. eauto.
    - unfold dgtb. rewrite ltb_f by lra. cbn [ends]. exists 0. split; [reflexivity|lra]. }
  intros x _ (a & -> & Ha). pose proof (drains_any _ _ _ _ _ _ HS H) as DF. rewrite DF. unfold create_decision. change (lget head 0) with (Ok c). cbn [bind]. rewrite Lc, (sg_soil _ _ _ _ _ HS). cbn [bind].
  destruct (sg_vg _ _ _ _ _ HS) as (al & nn & m & k & V). rewrite (vg_e _ _ _ _ _ _ _ V).
  pose proof (gr_measured _ _ _ _ G) as ME. inversion ME as [|q1 q2 [_ (tc & Etc)] _]; subst q1 q2. rewrite Etc. change (lit (1 / 1000000000000)) with (Fin (1 / 1000000000000)). change (Fin tc + Fin (1 / 1000000000000))%d with (Fin (tc + 1 / 1000000000000)).
  set (P := fun b => accounts te D w (u_env u) head b /\ (rooted s head -> rooted s (b_head b))).
  assert (ST : forall b, P b -> ends (halted (u_closed u) r head) (fun b => (accounts te D w (u_env u) head b /\ (rooted s head -> rooted s (b_head b))) /\
      (forall f, hd_error (b_head b) = Some f -> 0 < val (f_depth f) -> below_surface (b_head b) /\ Forall sinks (b_head b)))
      (l <- lgar_dzdt_calc (u_env u) (u_closed u) (u_nint u) (b_ponded b) (b_head b) ;; Ok (mkSub l (b_prev b) (b_aet b) (b_ponded b) (b_volin b) (b_runoff b) (b_on b) (b_rech b)))).
  { intros b [(a2 & ro & on & q & E1 & E2 & E3 & E4 & E5 & (pd & E6 & E7) & EV & E8 & E9) ER]. rewrite E6.
    eapply ends_bind; [eapply ends_mono; [apply slow_halted| |exact (speeds_single _ _ _ _ _ _ _ _ _ _ HS (pl_capillary _ _ _ _ _ _ HP) E7 E8)]; intros y Q; exact Q|].
    intros l _ (G2 & S2 & V2 & D2 & R2). cbn [ends]. split; [split|].
    - exists a2, ro, on, q. cbn [b_aet b_runoff b_on b_rech b_head b_ponded]. repeat (split; [assumption|]). split; [eauto|]. split; [exact EV|]. split; [assumption|]. rewrite S2. assumption.
    - cbn [b_head]. auto.
    - cbn [b_head]. intros f Ef Hf. destruct (V2) as [V3 V4]; [|split; assumption]. pose proof (gr_below _ _ _ _ E8) as B0. destruct (b_head b) as [|f0 bb]; [constructor|]. cbn [tl] in B0.
      constructor; [|exact B0]. rewrite <- (D2 f0 f eq_refl Ef). exact Hf. }
  set (create := if _ || _ then false else _). destruct create eqn:EC.
  - assert (HC : tc + 1 / 1000000000000 < te /\ 0 < pr * dt).
    { unfold create in EC. match type of EC with (if ?q || _ then _ else _) = _ => destruct q eqn:Q; [discriminate EC|] end. cbn [orb] in EC. destruct (volon >? Fin 0)%d; [discriminate|]. apply andb_prop in EC as [_ Q2]. split.
      - unfold dgeb in Q. destruct (Rlt_dec (tc + 1 / 1000000000000) te); [assumption|]. exfalso. revert Q. apply Bool.not_false_iff_true. apply leb_t. lra.
      - destruct (Rlt_dec 0 (pr * dt)); [assumption|]. unfold dgtb in Q2. rewrite ltb_f in Q2 by lra. discriminate. }
    destruct HC as [Hth Hpr]. eapply ends_bind; [exact (created u s r te D dt c h w a HP HD HF ltac:(rewrite Etc; exact Hth) Ha (Hpw Hpr))|].
    intros b _ (pd & a2 & q & vin & EV & E1 & E2 & E3 & E4 & E5 & E6 & E7 & E8). rewrite andb_false_r. destruct (surface_rest _ _ _ _ _ _ b pd HP E3 E4) as (ro & on & pd' & EN & F1 & F2 & F3).
    cbn [bind]. apply ST. rewrite EN. split; [|exact E8]. exists a2, ro, on, q. cbn [b_aet b_runoff b_on b_rech b_head b_ponded]. do 5 (split; [first [assumption|reflexivity]|]). split; [eauto|]. split; [cbn [b_volin]; rewrite EV; f_equal; lra|]. split; [assumption|].
    replace (storage head + w - ro - on - a2 - q) with (storage head + vin - a2 - q) by lra. exact E7.
  - cbn [bind b_ponded negb]. rewrite andb_true_r.
    eapply ends_bind with (P := fun b => exists i ro on pd, b = mkSub head head (Fin a) (Fin pd) (Fin i) (Fin ro) (Fin on) (Fin 0) /\ w = i + ro + on /\ 0 <= on /\ 0 <= pd).
    { destruct (Rlt_dec 0 w).
      - unfold dgtb. rewrite ltb_t by assumption. eapply ends_mono; [apply slow_halted| |exact (insert_ends u s r te D dt _ a w pr (mkSub head head (Fin a) (Fin w) (Fin 0) (Fin 0) (Fin 0) (Fin 0)) HP G BS eq_refl Hw eq_refl eq_refl)].
        intros b (i & ro & o & -> & Q1 & Q2). exists i, ro, o, o. split; [reflexivity|]. split; [assumption|]. split; assumption.
      - unfold dgtb. rewrite ltb_f by lra. cbn [ends]. destruct (surface_rest _ _ _ _ _ _ (mkSub head head (Fin a) (Fin w) (Fin 0) (Fin 0) (Fin 0) (Fin 0)) w HP eq_refl Hw) as (ro & on & pd & EN & F1 & F2 & F3).
        rewrite EN. exists 0, ro, on, pd. split; [reflexivity|]. split; [lra|]. split; assumption. }
    intros b _ (i & ro & on & pd & -> & Q1 & Q2 & Q3). eapply ends_bind; [|intros b _ Pb; exact (ST b Pb)]. unfold sub_move. cbn [b_volin b_aet b_head b_prev b_ponded b_runoff b_on]. rewrite (pl_dt _ _ _ _ _ _ HP).
    eapply ends_bind; [exact (motion_any (u_closed u) _ _ _ _ _ _ i a head HS HD HF Hdt)|]. intros [[l1 a1] q1] _ (a2 & q2 & -> & -> & G2 & B2 & RB & _).
    cbn [ends]. split; [|exact RB]. exists a2, ro, on, q2. cbn [b_aet b_runoff b_on b_rech b_head b_ponded]. do 5 (split; [first [assumption|reflexivity]|]). split; [eauto|]. split; [cbn [b_volin]; f_equal; lra|]. split; [assumption|].
    replace (storage head + w - ro - on - a2 - q2) with (storage head + i - a2 - q2) by lra. exact B2.
Qed.
(** ** The sub-step *)

Lemma clean_value : forall on, 0 <= on -> exists v, clean_volon (Fin on) = Fin v /\ Rabs (on - v) <= 1 / 1000000000000.
Proof.
  intros on H. unfold clean_volon. rewrite fmax_fin, Rmax_left by lra. change (lit (1 / 1000000000000)) with (Fin (1 / 1000000000000)). cbv zeta. unfold dgtb. destruct (Rlt_dec (1 / 1000000000000) on).
  - rewrite ltb_t by assumption. exists on. split; [reflexivity|]. replace (on - on) with 0 by ring. rewrite Rabs_R0. lra.
  - rewrite ltb_f by lra. exists 0. split; [reflexivity|]. rewrite Rabs_pos_eq by lra. lra.
Qed.

(** What the sub-step may stop with. *)
Definition held_up (closed : bool) (r : R) (l : list front) (why : reason) : Prop := halted closed r l why \/ why = AssertFail \/ length l = 1%nat /\ why = Abort.

Theorem substep_any : forall u s r te D dt st a, plain u s r te D dt -> placed u te D st a -> footing s r (st_head st) ->
  ends (held_up (u_closed u) r (st_head st)) (fun x : state * acc => let (st', a') := x in placed u te D st' a' /\ (exists m, mb_local (st_mb st') = Some (Fin m) /\ Rabs m <= slack (st_head st)) /\
      water_kept dt st a st' a' (slack (st_head st) + 1 / 1000000000000) /\ (rooted s (st_head st) -> rooted s (st_head st')) /\ ((2 <= length (st_head st))%nat -> water_kept dt st a st' a' (1 / 10000000)) /\ surface_kept dt st a a') (substep u st a).
Proof.
  intros u s r te D dt st a HP HPL HF. destruct HPL as [C1 C2 C3 (on & C4 & C5) (p & C6) (pe & C7)]. pose proof (pl_single _ _ _ _ _ _ HP) as HS. pose proof (pl_pos _ _ _ _ _ _ HP) as Hdt.
  unfold substep. match goal with |- context [p_cum ?q] => change (p_cum q) with (p_cum (st_p st)); change (p_precip_prev q) with (p_precip_prev (st_p st)) end.
  rewrite C1, C3, C4, C6, C7, (pl_dt _ _ _ _ _ _ HP), !fmax_fin. change mm_to_cm with (Fin (1 / 10)). set (pr := Rmax p 0 * (1 / 10)). set (pt := Rmax pe 0 * (1 / 10)).
  change (Fin (Rmax p 0) * Fin (1 / 10))%d with (Fin pr). change (Fin (Rmax pe 0) * Fin (1 / 10))%d with (Fin pt). change (Fin pr * Fin dt)%d with (Fin (pr * dt)). change (Fin (pr * dt) + Fin on)%d with (Fin (pr * dt + on)).
  change (Fin pt * Fin dt)%d with (Fin (pt * dt)). pose proof (Rmax_r p 0) as Hp. pose proof (Rmax_r pe 0) as Hpe. assert (Hpr : 0 <= pr) by (unfold pr; lra). assert (Hpt : 0 <= pt) by (unfold pt; lra).
  assert (Hprd : 0 <= pr * dt) by (apply Rmult_le_pos; lra).
  pose proof (sd_graded _ _ _ _ C2) as G. pose proof (graded_str _ _ _ _ _ _ _ HS G) as H. rewrite (single_mass _ _ _ _ _ _ HS H (gr_measured _ _ _ _ G)). cbn [bind].
  destruct (clean_value on C5) as (von & -> & Hvon). unfold listCopy.
  eapply ends_bind; [eapply ends_mono; [|intros x Q; exact Q|exact (hydro_single u s r te D dt (st_head st) (p_precip_prev (st_p st)) pr pt (Fin von) (pr * dt + on) HP C2 HF Hpt ltac:(lra) ltac:(intro; lra))]; intros why Q; left; exact Q|].
  intros b _ [[(a2 & ro & on' & q & E1 & E2 & E3 & E4 & E5 & E6 & EV & E8 & E9) ER] FIN]. pose proof (graded_str _ _ _ _ _ _ _ HS E8) as H'. rewrite (single_mass _ _ _ _ _ _ HS H' (gr_measured _ _ _ _ E8)). cbn [bind].
  rewrite E1, E2, E3, E4. unfold local_balance. set (m := storage (st_head st) + pr * dt + von - ro - a2 - on' - q - storage (b_head b)).
  match goal with |- context [dabs ?x] => change x with (Fin m) end.
  assert (Hlen : (2 <= length (st_head st))%nat \/ length (st_head st) = 1%nat).
  { destruct (st_head st) as [|x1 [|x2 x3]]; [|right; reflexivity|left; cbn; lia]. exfalso; eapply Str_nonempty; [apply (se_n _ (sg_env _ _ _ _ _ HS))|exact H|reflexivity]. }
  assert (Em : - m = (storage (b_head b) - (storage (st_head st) + (pr * dt + on) - ro - on' - a2 - q)) + (on - von)) by (unfold m; ring).
  assert (Hm2 : (2 <= length (st_head st))%nat -> Rabs m <= 1 / 10000000 + 1 / 1000000000000).
  { intro H2. specialize (E9 H2). rewrite <- Rabs_Ropp, Em. eapply Rle_trans; [apply Rabs_triang|]. lra. }
  change (dabs (Fin m)) with (Fin (Rabs m)). change (lit (1 / 10000)) with (Fin (1 / 10000)). unfold dgtb at 1. destruct (Rlt_dec (1 / 10000) (Rabs m)) as [HA|HA].
  { rewrite ltb_t by assumption. cbn [ends]. right. right. destruct Hlen as [H2|H2]; [specialize (Hm2 H2); lra|]. split; [exact H2|reflexivity]. }
  rewrite ltb_f by lra.
  assert (Hm : Rabs m <= slack (st_head st)). { destruct Hlen as [H2|H2]; destruct (st_head st) as [|x1 [|x2 x3]]; cbn [length] in H2; try lia; cbn [slack]; [apply Hm2; cbn; lia|lra]. }
  destruct (b_head b) as [|f0 bb] eqn:EB; [exfalso; eapply Str_nonempty; [apply (se_n _ (sg_env _ _ _ _ _ HS))|exact H'|reflexivity]|]. cbn [lget nth_error bind].
  pose proof (gr_measured _ _ _ _ E8) as ME. inversion ME as [|q1 q2 [(d0 & Ed0) _] _]; subst q1 q2. rewrite Ed0. unfold dgtb. destruct (Rlt_dec 0 d0) as [Hd|Hd]; [rewrite ltb_t by assumption|rewrite ltb_f by lra; cbn; right; left; reflexivity].
  cbn [cassert bind ends]. rewrite <- EB in *. destruct (FIN f0) as [B1 B2]; [rewrite EB; reflexivity|rewrite Ed0; exact Hd|].
  assert (WK : forall z, Rabs (storage (b_head b) - (storage (st_head st) + (pr * dt + on) - ro - on' - a2 - q)) <= z -> forall st' a', st_head st' = b_head b -> a_on a' = Fin on' -> a_aet a' = (a_aet a + Fin a2)%d ->
    a_runoff a' = (a_runoff a + Fin ro)%d -> a_rech a' = (a_rech a + Fin q)%d -> water_kept dt st a st' a' z).
  { intros z Hz st' a' Q1 Q2 Q3 Q4 Q5. exists p, on, on', a2, ro, q. rewrite Q1. do 6 (split; [assumption|]).
    match goal with |- context [Rabs ?x <= _] => replace x with (storage (b_head b) - (storage (st_head st) + (pr * dt + on) - ro - on' - a2 - q)) by (unfold pr; field) end. exact Hz. }
  split; [|split; [|split; [|split; [|split]]]].
  - constructor; [exact C1| |reflexivity|exists on'; auto|eexists; reflexivity|eexists; reflexivity]. constructor; assumption.
  - exists m. split; [reflexivity|assumption].
  - apply WK; try reflexivity. replace (storage (b_head b) - (storage (st_head st) + (pr * dt + on) - ro - on' - a2 - q)) with (- m + - (on - von)) by (rewrite Em; ring).
    eapply Rle_trans; [apply Rabs_triang|]. rewrite !Rabs_Ropp. lra.
  - exact ER.
  - intro H2. apply WK; try reflexivity. exact (E9 H2).
  - exists p, pe, on, on', (pr * dt + on - ro - on'), ro. cbn [a_on a_in a_runoff a_precip a_pet]. do 3 (split; [assumption|]). split; [reflexivity|]. split; [rewrite EV; reflexivity|]. split; [reflexivity|]. split; [unfold pr; f_equal; f_equal; field|].
    split; [|unfold pr; field]. rewrite fmax_fin, (Rmax_left (pt * dt) 0) by (apply Rmult_le_pos; lra). unfold pt. f_equal. f_equal. field.
Qed.

Theorem substep_single : forall u s r te D dt st a, plain u s r te D dt -> placed u te D st a -> (2 <= length (st_head st))%nat ->
  ends (fun why => dried (u_closed u) r why \/ why = AssertFail) (fun x : state * acc => let (st', a') := x in placed u te D st' a' /\ (exists m, mb_local (st_mb st') = Some (Fin m) /\ Rabs m <= 1 / 10000000 + 1 / 1000000000000) /\
      water_kept dt st a st' a' (1 / 10000000)) (substep u st a).
Proof.
  intros u s r te D dt st a HP HPL H2. eapply ends_mono; [| |exact (substep_any u s r te D dt st a HP HPL ltac:(intro Q; lia))].
  - intros why [[Q|[Q _]]|[Q|[Q _]]]; auto; lia.
  - intros [st' a'] (P1 & (m & Em & Hm) & _ & _ & WK & _). split; [exact P1|]. split; [|exact (WK H2)]. exists m. split; [exact Em|]. destruct (st_head st) as [|x1 [|x2 x3]]; cbn [length slack] in *; try lia. exact Hm.
Qed.
(** ** A sub-step in dry weather *)

Lemma hydro_dry : forall u s r te D dt c no h pp pet volon, plain u s r te D dt -> let head := c :: no :: h in settled (u_env u) te D head -> 0 <= r -> 0 <= pet ->
  val (f_theta c) <= te - 1 / 1000000000000000 -> pet * dt <= val (f_depth c) * (val (f_theta c) - val (f_theta no)) ->
  ends (slow (u_closed u)) (fun b => below_surface (b_head b) /\ graded (u_env u) (te - 1 / 1000000000000000) D (b_head b)) (sub_hydro u pp (Fin 0) (Fin pet) (Fin 0) volon (Fin 0) (Fin (storage head)) head head).
Proof.
  intros u s r te D dt c no h pp pet volon HP head HD Hr Hpet Hth Hdem. pose proof (pl_single _ _ _ _ _ _ HP) as HS. pose proof (pl_pos _ _ _ _ _ _ HP) as Hdt. pose proof HD as HD'. destruct HD' as [G BS SK].
  pose proof (graded_str _ _ _ _ _ _ _ HS G) as H.
  assert (Lc : f_layer c = 1%Z) by (eapply (single_layer _ _ _ _ _ _ 0); [exact HS|exact H|reflexivity]).
  pose proof (gr_K _ _ _ _ G) as CK. inversion CK as [|q1 q2 Cc _]; subst q1 q2. assert (Hpd : 0 <= pet * dt) by (apply Rmult_le_pos; lra).
  unfold sub_hydro. eapply ends_bind with (P := fun x => exists a, x = Fin a /\ 0 <= a <= pet * dt).
  { destruct (Rlt_dec 0 pet).
    - unfold dgtb. rewrite ltb_t by assumption. destruct (demand_value _ _ _ _ _ _ c (no :: h) pet HP Lc Cc Hpet) as (a & Ea & Ha). fold head in Ea. rewrite Ea. cbn [ends]. eauto.
    - unfold dgtb. rewrite ltb_f by lra. cbn [ends]. exists 0. split; [reflexivity|lra]. }
  intros x _ (a & -> & Ha). pose proof (drains_first _ _ _ _ _ _ _ _ HS H) as DF. fold head in DF. rewrite DF. unfold create_decision. change (lget head 0) with (Ok c). cbn [bind]. rewrite Lc, (sg_soil _ _ _ _ _ HS). cbn [bind].
  replace (Fin 0 >? Fin 0)%d with false by (symmetry; apply ltb_f; lra). rewrite andb_false_r.
  match goal with |- context [if ?q then false else false] => replace (if q then false else false) with false by (destruct q; reflexivity) end. cbn [bind b_ponded negb].
  replace (Fin 0 >? Fin 0)%d with false by (symmetry; apply ltb_f; lra). cbn [andb bind].
  destruct (surface_rest _ _ _ _ _ _ (mkSub head head (Fin a) (Fin 0) (Fin 0) (Fin 0) (Fin 0) (Fin 0)) 0 HP eq_refl ltac:(lra)) as (ro & on & pd & EN & F1 & F2 & F3). rewrite EN.
  unfold sub_move. cbn [b_volin b_aet b_head b_prev b_ponded b_runoff b_on b_rech]. rewrite (pl_dt _ _ _ _ _ _ HP).
  destruct (lgar_move_wetting_fronts (u_env u) (Fin dt) (Fin 0) 1 (Fin (storage head)) (Fin a) head head) as [[[l1 a1] q1]|why] eqn:E.
  2: { exfalso. pose proof (proj2 (motion_stop _ _ _ _ _ _ _ _ _ _ _ _ HS HD Hdt Hr E)). lra. }
  destruct (motion_at (te - 1 / 1000000000000000) _ _ _ _ _ _ _ _ _ _ _ _ HS HD ltac:(cbn; lia) Hdt ltac:(left; lra) E) as (a2 & q2 & -> & -> & G2 & _ & DA & _). specialize (DA (proj1 Ha) c eq_refl Hth).
  cbn [bind b_ponded b_head b_prev b_aet b_volin b_runoff b_on b_rech].
  eapply ends_bind; [exact (speeds_single _ _ _ _ _ _ _ _ _ _ HS (pl_capillary _ _ _ _ _ _ HP) F3 G2)|]. intros l _ (G3 & _ & V2 & _ & _). cbn [ends b_head]. split; [|exact G3]. apply V2.
  eapply Forall_impl; [|exact DA]. intros f [_ Q]; exact Q.
Qed.

Theorem substep_dry : forall u s r te D dt st a c no h p pe, plain u s r te D dt -> placed u te D st a -> st_head st = c :: no :: h -> 0 <= r ->
  st_precip st = Fin p -> p <= 0 -> a_on a = Fin 0 -> st_pet st = Fin pe ->
  val (f_theta c) <= te - 1 / 1000000000000000 -> Rmax pe 0 / 10 * dt <= val (f_depth c) * (val (f_theta c) - val (f_theta no)) ->
  ends (slow (u_closed u)) (fun _ => True) (substep u st a).
Proof.
  intros u s r te D dt st a c no h p pe HP HPL EH Hr Ep Hp Eon Epe Hth Hdem.
  assert (H2 : (2 <= length (st_head st))%nat) by (rewrite EH; cbn; lia). pose proof (substep_single _ _ _ _ _ _ _ _ HP HPL H2) as SS.
  destruct (substep u st a) as [x|why] eqn:E; [exact Logic.I|]. cbn [ends] in *. destruct HPL as [C1 C2 C3 _ _ _]. pose proof (pl_single _ _ _ _ _ _ HP) as HS.
  unfold substep in E. match type of E with context [p_cum ?q] => change (p_cum q) with (p_cum (st_p st)) in E; change (p_precip_prev q) with (p_precip_prev (st_p st)) in E end.
  rewrite C1, C3, Eon, Ep, Epe, (pl_dt _ _ _ _ _ _ HP), !fmax_fin in E. rewrite (Rmax_right p 0) in E by lra. change mm_to_cm with (Fin (1 / 10)) in E. set (pt := Rmax pe 0 * (1 / 10)) in *.
  change (Fin (Rmax pe 0) * Fin (1 / 10))%d with (Fin pt) in E. pose proof (Rmax_r pe 0) as Hpe. assert (Hpt : 0 <= pt) by (unfold pt; lra).
  replace (Fin 0 * Fin (1 / 10))%d with (Fin 0) in E by (cbn; f_equal; lra). replace (Fin 0 * Fin dt)%d with (Fin 0) in E by (cbn; f_equal; lra). replace (Fin 0 + Fin 0)%d with (Fin 0) in E by (cbn; f_equal; lra).
  pose proof (sd_graded _ _ _ _ C2) as G. pose proof (graded_str _ _ _ _ _ _ _ HS G) as H. rewrite (single_mass _ _ _ _ _ _ HS H (gr_measured _ _ _ _ G)) in E. cbn [bind] in E. unfold listCopy in E. rewrite EH in *.
  pose proof (hydro_dry u s r te D dt c no h (p_precip_prev (st_p st)) pt (clean_volon (Fin 0)) HP C2 Hr Hpt Hth ltac:(unfold pt; lra)) as HY.
  destruct (sub_hydro _ _ _ _ _ _ _ _ _ _) as [b|w] in E, HY; cbn [bind ends] in *; [|injection E as <-; exact HY].
  destruct HY as [BS G']. pose proof (graded_str _ _ _ _ _ _ _ HS G') as H'. rewrite (single_mass _ _ _ _ _ _ HS H' (gr_measured _ _ _ _ G')) in E. cbn [bind] in E.
  match type of E with (if ?q then _ else _) = _ => destruct q end; [injection E as <-; destruct SS as [[[Q _]|Q]|Q]; [discriminate Q|discriminate (Q Hr)|discriminate Q]|].
  destruct (b_head b) as [|f0 bb]; [exfalso; eapply Str_nonempty; [apply (se_n _ (sg_env _ _ _ _ _ HS))|exact H'|reflexivity]|]. cbn [lget nth_error bind] in E.
  pose proof (gr_measured _ _ _ _ G') as ME. inversion ME as [|q1 q2 [(d0 & Ed0) _] _]; subst q1 q2. inversion BS as [|q1 q2 B1 _]; subst q1 q2. rewrite Ed0 in E, B1. cbn [val] in B1. unfold dgtb in E. rewrite ltb_t in E by assumption.
  discriminate E.
Qed.
End Sub.
