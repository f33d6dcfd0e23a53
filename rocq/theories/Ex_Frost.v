(** Worked example for frozen soil: rain on a column with one unsaturated front, at two temperatures. *)

From Coq Require Import Reals Lra ZArith List Bool Lia.
From RecordUpdate Require Import RecordSet.
From Verif Require Import Outcome Dbl Exact Types ListOps Soil Giuh Fronts Infil Move State Update Lib Spec_Common Spec_Soil Spec_Update Spec_Split Spec_Profile Spec_Storage Spec_Physical Spec_Velocity Spec_Single Spec_SubSingle Spec_Growth Spec_Frozen Spec_Frost
  Pf_Dbl Pf_Pow Pf_Update Pf_Clock Pf_Structure Pf_Profile Pf_SafeMove Pf_Single Pf_SingleMerge Pf_SubSingle Pf_Growth Pf_Frozen Pf_Frost2 Pf_Frost3 Pf_Frost4 Ex_Saturated Ex_Unsaturated Ex_Soil Ex_Geff Ex_Single Ex_SubSingle Ex_Growth.
Import ListNotations.
Import RecordSetNotations.
Open Scope R_scope.

(** The column of Ex_Saturated with frozen factor [a]. *)
Definition fo_env (a : R) : env := mkEnv 1 [Fin 0; Fin 100] [None; Some 1%Z] [None; Some ex_soil] [Fin 1; Fin a].
Definition fo_u (a : R) : upar := mkU (fo_env a) (Fin 1) 120 true (Fin 15495) (Fin 341) (Fin 1).

Section Run.
Local Existing Instance exact.
Context {cfg : Cfg}.
Section Factor.
Variable a : R.

Lemma fo_one : move_one (fo_env a) (Fin 1) (Fin 0) 1 [un_front] 1 (Z.of_nat 1) [un_front] (Fin 0) = Ok ([un_front], Fin 0).
Proof.
  unfold move_one. cbn [Z.of_nat Pos.of_succ_nat]. unfold findFront, findFrontOld.
    cbn [pos_of f_num un_front Z.eqb Pos.eqb Z.add Pos.add Pos.succ Z.ltb Z.compare Pos.compare Pos.compare_cont orb andb lget nth_error bind f_layer].
    change (soil_of (fo_env a) 1) with (Ok ex_soil). cbn [bind negb andb Z.eqb Pos.eqb e_nlayers fo_env].
    cbn [pget lget nth_error bind]. change (aget (e_cum (fo_env a)) (1 - 1)) with (Ok (Fin 0)). cbn [bind].
    unfold balance_theta.
    change (masses_above (fo_env a) 1 ?a ?b None ?st) with (Ok st).
    change (repeat (@None dbl) (Z.to_nat (1 + 1))) with [@None dbl; None].
    cbn [bind].
    change (aset [@None dbl; None] 1 ?x) with (Ok [@None dbl; x]). cbn [bind].
    unfold lgar_theta_mass_balance.
    match goal with |- context [if ?c then Ok (theta_of_h ex_soil _, _) else _] => replace c with true end.
    2: { symmetry. cbn. apply Rleb_true. match goal with |- Rabs ?x <= _ => replace x with 0 by ring end. rewrite Rabs_R0. lra. }
    cbn [bind set_depth f_psi un_front]. rewrite un_theta, un_clamp, un_psi. cbn. f_equal. f_equal. unfold un_front. f_equal.
    unfold set_psi, set_theta. cbn. f_equal. f_equal. ring.
Qed.

Lemma fo_closure : closure (fo_env a) (Fin 34) (Fin 0) [un_front] (Fin 0) = Ok ([un_front], Fin 0, Fin 0).
Proof.
  unfold closure. change (lgar_wetting_fronts_cross_layer_boundary (fo_env a) [un_front]) with (Ok [un_front]). cbn [bind].
    change (wetting_front_free_drainage [un_front]) with 1%Z.
    change (soil_of (fo_env a) 1) with (Ok ex_soil). cbn [bind]. unfold dgtb. rewrite (ltb_t 0 34) by lra. cbn [cassert bind].
    change (findFront 1 [un_front]) with (Some 0%nat). cbn [lget nth_error bind f_theta un_front s_theta_e ex_soil e_cum fo_env].
    match goal with |- context [if ?c then _ else Ok ([un_front], Fin 0, Fin 0)] => replace c with false end; [reflexivity|].
    symmetry. cbn. apply Rltb_false. unfold Rabs. destruct (Rcase_abs _); lra.
Qed.

Lemma fo_move : lgar_move_wetting_fronts (fo_env a) (Fin 1) (Fin 0) 1 (Fin 34) (Fin 0) [un_front] [un_front] = Ok ([un_front], Fin 0, Fin 0).
Proof.
  unfold lgar_move_wetting_fronts. cbn [e_cum e_nlayers fo_env aget Z.ltb Z.compare nth_error Z.to_nat Pos.to_nat Pos.iter_op Init.Nat.add bind].
  change (listLength [un_front]) with 1%Z. cbn [length move_loop].
  rewrite fo_one. cbn [bind].
  rewrite fo_closure. cbn [bind].
  change (merge_phases (fo_env a) [un_front]) with (Ok ([un_front], Fin 0, Fin 0)). cbn [bind].
  change (refresh_psi (fo_env a) [un_front]) with (Ok [un_front]). cbn [bind].
  unfold fix_single. change (aget (e_cum (fo_env a)) 1) with (Ok (Fin 100)). cbn [bind].
  assert (X : (f_depth un_front <>? Fin 100)%d = false) by (change (negb (deqb (Fin 100) (Fin 100)) = false); rewrite eqb_t; reflexivity).
  rewrite X.
  assert (Y : (dabs (Fin 0) >? lit (1 / 10000000))%d = false).
  { cbn. rewrite Rabs_R0. apply Rltb_false. lra. }
  rewrite Y. replace (Fin 0 + Fin 0)%d with (Fin 0) by (cbn; f_equal; ring). reflexivity.
Qed.

Lemma fo_sound : sound_env (fo_env a).
Proof.
  constructor.
  - cbn. lia.
  - intros k Hk. cbn [e_nlayers fo_env] in Hk. assert (K : k = 0%Z \/ k = 1%Z) by lia. destruct K as [-> | ->]; eexists; split; reflexivity.
  - intros k z z' Hk. cbn [e_nlayers fo_env] in Hk. assert (k = 0%Z) as -> by lia. intros E E'. apply Ok_inj in E, E'. injection E as <-. injection E' as <-. lra.
  - intros k Hk. cbn [e_nlayers fo_env] in Hk. assert (k = 1%Z) as -> by lia. eexists. reflexivity.
  - intros k Hk. cbn [e_nlayers fo_env] in Hk. assert (k = 1%Z) as -> by lia. eexists. reflexivity.
Qed.

Hypothesis Ha : 0 < a.

Lemma fo_plain : plain (fo_u a) ex_soil (1 / 10) (2 / 5) 100 1.
Proof.
  constructor; [|reflexivity|lra| | |].
  - constructor; try reflexivity; [exact fo_sound|exists (1 / 100), 2, (1 / 2), 1; exact ex_vg|exists a; split; [reflexivity|exact Ha]].
  - intros k s Hk E. change (e_nlayers (u_env (fo_u a))) with 1%Z in Hk. assert (k = 1%Z) as -> by lia. apply Ok_inj in E. subst s. exists 1, 10. repeat split; lra.
  - exists 1. split; [reflexivity|lra].
  - exists 15495, 341. repeat split; lra.
Qed.

Lemma fo_graded : graded (fo_env a) (2 / 5 - 1 / 1000000000000000) 100 [un_front].
Proof.
  constructor.
  - apply profile_scan; [discriminate|]. split.
    + intros i f E. destruct i as [|i]; [injection E as <-; reflexivity|]. destruct i; discriminate.
    + cbn -[Z.le]. repeat split; try reflexivity; lia.
  - intros f E. injection E as <-. reflexivity.
  - repeat constructor; cbn; eexists; reflexivity.
  - repeat constructor. exists ex_soil, (1 / 10), (2 / 5). eexists. repeat (split; [reflexivity|]). lra.
  - exact Logic.I.
  - constructor.
  - constructor.
  - intros f E. injection E as <-. left. cbn. lra.
  - repeat constructor; cbn; try (eexists; split; [reflexivity|lra]); right; (eexists; split; [reflexivity|lra]).
Qed.

(** The drive towards saturation, and the depth of the new front in terms of the factor. *)
Lemma fo_drive : forall ks, calc_Geff true (Fin (17 / 50)) (Fin (2 / 5)) ex_soil ks 120 = Ok (Fin (25 / 2)).
Proof.
  intro ks. unfold calc_Geff, Se_of_theta, calc_Se_from_theta. cbn [negb]. cbv zeta. cbn [s_theta_e s_theta_r s_lambda s_psib ex_soil].
  assert (E1 : ((Fin (2 / 5) - Fin (1 / 10)) / (Fin (2 / 5) - Fin (1 / 10)))%d = Fin 1). { cbn. destruct (Req_EM_T _ 0); [lra|]. cbn. f_equal. field. } rewrite E1, pow_one.
  assert (E2 : ((Fin (17 / 50) - Fin (1 / 10)) / (Fin (2 / 5) - Fin (1 / 10)))%d = Fin (4 / 5)). { cbn. destruct (Req_EM_T _ 0); [lra|]. cbn. f_equal. field. } rewrite E2.
  assert (E3 : (Fin 10 * ((lit 2 + lit 3 * Fin 1) / (lit 1 + lit 3 * Fin 1)))%d = Fin (25 / 2)). { cbn. destruct (Req_EM_T _ 0); [lra|]. cbn. f_equal. field. } rewrite E3.
  generalize (dpow (Fin (4 / 5)) (lit 3 + lit 1 / Fin 1)%d) as X. intros [x| | |]; change (lit 1) with (Fin 1); cbn.
  - destruct (Req_EM_T (1 - x) 0) as [Q|Q].
    + rewrite Q, Rmult_0_r. unfold inf_sign. destruct (Rlt_dec 0 0); [lra|]. reflexivity.
    + cbn. do 2 f_equal. field. exact Q.
  - unfold inf_sign. destruct (Rlt_dec 0 (25 / 2)); [|lra]. reflexivity.
  - unfold inf_sign. destruct (Rlt_dec 0 (25 / 2)); [|lra]. reflexivity.
  - reflexivity.
Qed.

Variable d : R.
Hypothesis Hd : 0 < d <= 100.
Hypothesis Hs : (50 * a / 3) * (50 * a / 3) + 50 * (50 * a / 3) = (2 * d - 50 * a / 3) * (2 * d - 50 * a / 3).
Hypothesis Hp : 0 <= 2 * d - 50 * a / 3.

Lemma fo_dry : lgar_calc_dry_depth (fo_env a) true 120 (Fin 1) [un_front] = Ok (Fin d, Fin (2 / 5 - 17 / 50)).
Proof.
  unfold lgar_calc_dry_depth. cbn [lget nth_error bind]. change (soil_of (fo_env a) (f_layer un_front)) with (Ok ex_soil). change (aget (e_frozen (fo_env a)) (f_layer un_front)) with (Ok (Fin a)). cbn [bind].
  change (f_theta un_front) with (Fin (17 / 50)). change (s_theta_e ex_soil) with (Fin (2 / 5)). rewrite fo_drive. cbn [bind]. change (aget (e_cum (fo_env a)) (f_layer un_front)) with (Ok (Fin 100)). cbn [bind].
  assert (T : (Fin 1 * (s_Ksat ex_soil * Fin a) / (Fin (2 / 5) - Fin (17 / 50)))%d = Fin (50 * a / 3)). { cbn. destruct (Req_EM_T _ 0); [lra|]. cbn. f_equal. field. } rewrite T.
  assert (Q : (Fin (50 * a / 3) * Fin (50 * a / 3) + lit 4 * Fin (50 * a / 3) * Fin (25 / 2))%d = Fin ((2 * d - 50 * a / 3) * (2 * d - 50 * a / 3))). { cbn. f_equal. lra. } rewrite Q.
  assert (S : dsqrt (Fin ((2 * d - 50 * a / 3) * (2 * d - 50 * a / 3))) = Fin (2 * d - 50 * a / 3)).
  { cbn. destruct (Rlt_dec _ 0) as [L|L]; [exfalso; pose proof (Rmult_le_pos _ _ Hp Hp); lra|]. f_equal. apply sqrt_square. exact Hp. } rewrite S.
  assert (X : (lit (1 / 2) * (Fin (50 * a / 3) + Fin (2 * d - 50 * a / 3)))%d = Fin d). { cbn. f_equal. lra. } rewrite X.
  do 2 f_equal. cbn. unfold Rltb. destruct (Rlt_dec _ _); f_equal; lra.
Qed.

(** What the new front takes in, what runs off and what stays of 2 cm of rain, at most 1 cm staying. *)
Hypothesis Hw : 3 / 50 * d <= 2.
Let left : R := 2 - 3 / 50 * d.
Let off : R := if Rlt_dec left 1 then 0 else left - 1.
Let on : R := if Rlt_dec left 1 then left else 1.

Lemma fo_hydro : exists b pd, sub_hydro (fo_u a) (Fin 0) (Fin 2) (Fin 0) (Fin 2) (Fin 0) (Fin 2) (Fin 34) [un_front] [un_front] = Ok b /\
  length (b_head b) = 2%nat /\ graded (fo_env a) (2 / 5 - 1 / 1000000000000000) 100 (b_head b) /\ below_surface (b_head b) /\
  b_aet b = Fin 0 /\ b_rech b = Fin 0 /\ b_volin b = Fin (3 / 50 * d) /\ b_runoff b = Fin off /\ b_on b = Fin on /\ b_ponded b = Fin pd /\ storage (b_head b) + off + on = 36.
Proof.
  pose proof fo_plain as HP. pose proof (pl_single _ _ _ _ _ _ HP) as HS. unfold sub_hydro. cbn [u_env fo_u]. unfold dgtb at 1. rewrite ltb_f by lra. cbn [bind].
  change (wetting_front_free_drainage [un_front]) with 1%Z. unfold create_decision. cbn [lget nth_error bind]. change (soil_of (fo_env a) (f_layer un_front)) with (Ok ex_soil). cbn [bind].
  change (f_theta un_front + lit (1 / 1000000000000))%d with (Fin (17 / 50 + 1 / 1000000000000)). change (s_theta_e ex_soil) with (Fin (2 / 5)).
  replace (Fin (17 / 50 + 1 / 1000000000000) >=? Fin (2 / 5))%d with false by (symmetry; unfold dgeb, dleb; apply Rleb_false; lra).
  replace (Fin 0 >? Fin 0)%d with false by (symmetry; apply ltb_f; lra). replace (Fin 2 >? Fin 0)%d with true by (symmetry; apply ltb_t; lra). rewrite eqb_t by reflexivity. cbn [orb andb bind].
  unfold sub_create at 1. cbn [u_env u_dt u_closed u_nint fo_u]. rewrite fo_move. cbn [bind].
  assert (Eq : (if Fin 0 <>? Fin 0 then Fin 0 else Fin 0)%d = Fin 0) by (destruct (_ <>? _)%d; reflexivity). rewrite Eq.
  rewrite fo_dry. cbn [bind lget nth_error].
  assert (BS : below_surface [un_front]) by (repeat constructor; cbn; lra).
  destruct (create_single (fo_env a) _ _ _ _ _ un_front [] 2 d HS fo_graded BS ltac:(cbn; lra) ltac:(cbn; lra) Hd ltac:(lra)) as (l2 & pd & vin & EC & G3 & B3 & S3 & Ep & Hpd & _).
  assert (EV : vin = 3 / 50 * d).
  { destruct (create_is (fo_env a) _ _ _ _ _ _ _ EC) as (s & Es & Ei & _). change (soil_of (fo_env a) 1) with (Ok ex_soil) in Es. apply Ok_inj in Es. subst s. change (f_theta un_front) with (Fin (17 / 50)) in Ei. change (s_theta_e ex_soil) with (Fin (2 / 5)) in Ei.
    assert (Q : (Fin d * (Fin (2 / 5) - Fin (17 / 50)))%d = Fin (3 / 50 * d)) by (cbn; f_equal; lra). cbv zeta in Ei. rewrite Q in Ei. unfold dgtb in Ei. rewrite ltb_f in Ei by lra. injection Ei as ->. reflexivity. }
  subst vin. assert (pd = left) as -> by (unfold left; lra).
  change (f_theta un_front) with (Fin (17 / 50)) in *. rewrite EC. cbn [bind b_ponded negb]. rewrite andb_false_r.
  assert (EN : exists pd', sub_no_insert (fo_u a) (mkSub l2 (listCopy l2) (Fin 0) (Fin left) (Fin (3 / 50 * d)) (Fin 0) (Fin 0) (Fin 0)) = mkSub l2 (listCopy l2) (Fin 0) (Fin pd') (Fin (3 / 50 * d)) (Fin off) (Fin on) (Fin 0) /\ 0 <= pd' /\ off + on = left).
  { unfold sub_no_insert. cbn [b_ponded u_pmax fo_u b_head b_prev b_aet b_volin b_rech]. unfold off, on. destruct (Rlt_dec left 1) as [L|L]; [rewrite ltb_t by exact L; exists 0|rewrite ltb_f by lra; exists 1]; (split; [reflexivity|split; lra]). }
  destruct EN as (pd' & EN & F3 & F1). cbn [u_env fo_u] in EN. rewrite EN.
  cbn [bind b_ponded b_head b_prev b_aet b_volin b_runoff b_on b_rech].
  pose proof (speeds_single (fo_env a) _ _ _ _ _ true 120 pd' l2 HS (pl_capillary _ _ _ _ _ _ HP) F3 G3) as SP.
  destruct (lgar_dzdt_calc (fo_env a) true 120 (Fin pd') l2) as [l3|w] eqn:EZ; [|destruct SP as [_ Q]; discriminate Q]. destruct SP as (G4 & S4 & B4 & _). cbn [bind].
  exists (mkSub l3 (listCopy l2) (Fin 0) (Fin pd') (Fin (3 / 50 * d)) (Fin off) (Fin on) (Fin 0)), pd'. cbn [b_head b_aet b_rech b_runoff b_on b_ponded b_volin].
  split; [reflexivity|]. split.
  { rewrite (dzdt_length _ _ _ _ _ _ EZ). clear - EC Hd. unfold lgar_create_surficial_front in EC. cbv zeta in EC. bind_inv EC s Es. bind_inv EC x Ex. bind_inv EC ff Ef. bind_inv EC l1 El.
    apply Ok_inj in EC. apply pair_equal_spec in EC as [EC _]. apply pair_equal_spec in EC as [<- _]. unfold listInsertFirst in El. cbn [bump map] in El.
    match type of El with (if ?q then _ else _) = _ => replace q with false in El by (symmetry; apply ltb_f; lra) end. apply Ok_inj in El. subst. reflexivity. }
  split; [exact G4|]. split; [apply B4; exact B3|].
  repeat (split; [reflexivity|]). rewrite S4, S3. cbn. unfold left in F1. lra.
Qed.

(** The state at the start: one hour of rain, 20 mm/h, after a dry hour, the soil temperature coupled at one cell. *)
Definition fo_params (fr : list dbl) (T : R) : params :=
  mkParams 1 [Fin 0; Fin 100] [Fin 0; Fin 100] [None; Some 1%Z] fr 1 1 [Fin T] [Fin 50] [Fin 1] [Fin (17 / 50)]
    (Fin 1) (Fin 1) (Fin 1) 1 (Fin 15495) (Fin 341) true false (Fin 1) (Fin 0) 120 (Fin 0) (Fin 7200) 0 true false false.
Definition fo_state (fr : list dbl) (T : R) : state :=
  mkState [un_front] [un_front] [None; Some ex_soil] (fo_params fr T) gw_mb (Fin 20) (Fin 0) ex_cal None 1 [Fin 1] [Fin 0; Fin 0].

Lemma fo_count : d2i (Fin 1 / Fin 1 + lit (1 / 100000000))%d = Ok 1%Z.
Proof.
  rewrite div_fin by lra. change (lit (1 / 100000000)) with (Fin (1 / 100000000)). cbn [dadd rnd exact d2i].
  replace (trunc (1 / 1 + 1 / 100000000)) with 1%Z; [reflexivity|]. symmetry. apply trunc_nat; [lia|]. lra.
Qed.
Lemma fo_steps : forall x T, update_steps (fo_state [Fin 1; Fin x] T) = Ok (fo_state [Fin 1; Fin x] T, Fin 1, 1%Z).
Proof.
  intros x T. unfold update_steps. change (p_adaptive (st_p (fo_state [Fin 1; Fin x] T))) with false. cbv iota zeta.
  match goal with |- context [d2i ?x] => change x with (Fin 1 / Fin 1 + lit (1 / 100000000))%d end. rewrite fo_count. reflexivity.
Qed.

Lemma fo_substep : forall T, exists s' a', substep (fo_u a) (fo_state [Fin 1; Fin a] T) (acc0 (Fin 34) (Fin 0)) = Ok (s', a') /\ (exists m, mb_local (st_mb s') = Some m) /\
  g_N s' = 1%Z /\ g_ord s' = [Fin 1] /\ g_queue s' = [Fin 0; Fin 0] /\ a_in a' = Fin (3 / 50 * d) /\ a_runoff a' = Fin off /\ a_on a' = Fin on.
Proof.
  intro T. destruct fo_hydro as (b & pd & E & L & G & B & Ea & Er & Ev & Ero & Eon & Epd & S). pose proof (pl_single _ _ _ _ _ _ fo_plain) as HS. change (u_env (fo_u a)) with (fo_env a) in HS.
  set (st := fo_state [Fin 1; Fin a] T).
  unfold substep, acc0. cbn [a_on a_end]. change (u_dt (fo_u a)) with (Fin 1).
  replace (dfmax (st_precip st) (Fin 0)) with (Fin 20) by (change (st_precip st) with (Fin 20); rewrite fmax_fin, Rmax_left by lra; reflexivity).
  replace (dfmax (st_pet st) (Fin 0)) with (Fin 0) by (change (st_pet st) with (Fin 0); rewrite fmax_fin, Rmax_left by lra; reflexivity).
  change mm_to_cm with (Fin (1 / 10)). replace (Fin 0 * Fin (1 / 10))%d with (Fin 0) by (cbn; f_equal; ring). replace (Fin 20 * Fin (1 / 10))%d with (Fin 2) by (cbn; f_equal; lra).
  replace (Fin 2 * Fin 1)%d with (Fin 2) by (cbn; f_equal; lra). replace (Fin 2 + Fin 0)%d with (Fin 2) by (cbn; f_equal; lra).
  match goal with |- context [p_cum ?q] => change (p_cum q) with [Fin 0; Fin 100]; change (p_precip_prev q) with (Fin 0) end.
  change (st_head st) with [un_front]. rewrite un_mass. cbn [bind]. unfold listCopy.
  replace (clean_volon (Fin 0)) with (Fin 0). 2: { unfold clean_volon. rewrite fmax_fin, Rmax_left by lra. cbv zeta. change (lit (1 / 1000000000000)) with (Fin (1 / 1000000000000)). unfold dgtb. rewrite ltb_f by lra. reflexivity. }
  rewrite E. cbn [bind]. pose proof (graded_str _ _ _ _ _ _ _ HS G) as H. change [Fin 0; Fin 100] with (e_cum (fo_env a)). rewrite (single_mass _ _ _ _ _ _ HS H (gr_measured _ _ _ _ G)). cbn [bind].
  rewrite Ea, Er, Ero, Eon. unfold local_balance. set (m := (34 + 2 + 0 - off - 0 - on - 0 - storage (b_head b))). assert (Hm : m = 0) by (unfold m; lra).
  match goal with |- context [dabs ?x] => change x with (Fin m) end. change (dabs (Fin m)) with (Fin (Rabs m)). change (lit (1 / 10000)) with (Fin (1 / 10000)). unfold dgtb at 1. rewrite ltb_f by (rewrite Hm, Rabs_R0; lra).
  pose proof (gr_measured _ _ _ _ G) as ME. destruct (b_head b) as [|f0 bb] eqn:EB; [discriminate L|]. cbn [lget nth_error bind].
  inversion ME as [|q1 q2 [(d0 & Ed0) _] _]; subst q1 q2. inversion B as [|q1 q2 B1 _]; subst q1 q2. rewrite Ed0 in B1 |- *. cbn [val] in B1. unfold dgtb. rewrite ltb_t by assumption. cbn [cassert bind].
  eexists _, _. split; [reflexivity|]. split; [eexists; reflexivity|]. do 3 (split; [reflexivity|]). cbn [a_in a_runoff a_on]. rewrite Ev. repeat split; cbn; f_equal; ring.
Qed.

Variable T : R.
Hypothesis HT : reduction (mean [T]) = a.

Lemma fo_prologue : forall x, update_prologue (fo_state [Fin 1; Fin x] T) = Ok (fo_state [Fin 1; Fin a] T, Fin 0).
Proof.
  intro x. rewrite (prologue_cells (fo_state [Fin 1; Fin x] T) [100] [[(50, T)]] [] [Fin x]); try reflexivity.
  - cbn [map snd]. rewrite HT. reflexivity.
  - cbn. repeat split; try discriminate. constructor; [cbn; lra|constructor].
Qed.

Lemma fo_update : forall x, exists t b, Update (fo_state [Fin 1; Fin x] T) = Ok t /\ st_out t = Some b /\ o_in b = Fin (3 / 50 * d / 100) /\ o_runoff b = Fin (off / 100) /\ mb_on_ts (st_mb t) = Fin on.
Proof.
  intro x. destruct (fo_substep T) as (s1 & a1 & E & (m & Em) & E1 & E2 & E3 & Ei & Eo & En).
  set (st := fo_state [Fin 1; Fin a] T) in *.
  unfold Update. change (p_invalid (st_p (fo_state [Fin 1; Fin x] T))) with false. cbv iota. rewrite fo_prologue. cbn [bind]. fold st.
  change (lgar_calc_mass_bal (p_cum (st_p st)) (st_head st)) with (lgar_calc_mass_bal [Fin 0; Fin 100] [un_front]). rewrite un_mass. cbn [bind].
  change (st_precip st) with (Fin 20). change (st_pet st) with (Fin 0). unfold dgeb at 1 2. rewrite !leb_t by lra. cbn [cassert bind].
  pose proof (fo_steps a T) as ST. fold st in ST.
  rewrite ST. cbn [bind]. change (Z.to_nat 1) with 1%nat. cbn [subcycle_loop].
  match goal with |- context [substep ?u ?s ?q] => replace (substep u s q) with (substep (fo_u a) st (acc0 (Fin 34) (Fin 0))) by reflexivity end. rewrite E. cbn [bind].
  match goal with |- context [if ?c then Ok ?x else Ok ?x] => replace (if c then Ok x else Ok x) with (Ok x) by (destruct c; reflexivity) end. cbn [bind].
  unfold finish_update. rewrite E1, E2, E3, Em.
  destruct (giuh_convolution_integral (a_runoff a1) 1 [Fin 1] [Fin 0; Fin 0]) as [[g q]|w] eqn:EG; [|discriminate EG]. cbn [bind]. cbv zeta.
  do 2 eexists. split; [reflexivity|]. split; [reflexivity|]. cbn [o_in o_runoff]. rewrite Ei, Eo. split; [cbn; f_equal; lra|]. split; [cbn; f_equal; lra|]. cbn. exact En.
Qed.

(** There is one front, so none crosses a boundary, and the new one is not deeper than it. *)
Lemma fo_free : forall x, ~ update_tie (fo_state [Fin 1; Fin x] T).
Proof.
  intros x (s1 & vcal & volend & s2 & dt & n & xs & s3 & ac & P & M & U & R & L & HY). rewrite fo_prologue in P. apply Ok_inj, pair_equal_spec in P as [<- <-].
  set (st := fo_state [Fin 1; Fin a] T) in *.
  change (lgar_calc_mass_bal (p_cum (st_p st)) (st_head st)) with (lgar_calc_mass_bal [Fin 0; Fin 100] [un_front]) in M. rewrite un_mass in M. apply Ok_inj in M. subst volend.
  pose proof (fo_steps a T) as ST. fold st in ST.
  rewrite ST in U. apply Ok_inj, pair_equal_spec in U as [U <-]. apply pair_equal_spec in U as [<- <-]. destruct xs as [|y ys]; [|cbn in L; lia].
  assert (X : s3 = st /\ ac = acc0 (Fin 34) (mb_on_ts (st_mb st))) by (inversion R; split; congruence). destruct X as [-> ->]. clear R L.
  unfold step_tie in HY. change (st_precip st) with (Fin 20) in HY. change (st_pet st) with (Fin 0) in HY. cbn [u_dt] in HY.
  rewrite !fmax_fin, !Rmax_left in HY by lra. change mm_to_cm with (Fin (1 / 10)) in HY. replace (Fin 0 * Fin (1 / 10))%d with (Fin 0) in HY by (cbn; f_equal; ring). replace (Fin 20 * Fin (1 / 10))%d with (Fin 2) in HY by (cbn; f_equal; lra).
  replace (Fin 2 * Fin 1)%d with (Fin 2) in HY by (cbn; f_equal; lra). change (a_on (acc0 (Fin 34) (mb_on_ts (st_mb st)))) with (Fin 0) in HY. replace (Fin 2 + Fin 0)%d with (Fin 2) in HY by (cbn; f_equal; lra).
  replace (clean_volon (Fin 0)) with (Fin 0) in HY. 2: { unfold clean_volon. rewrite fmax_fin, Rmax_left by lra. cbv zeta. change (lit (1 / 1000000000000)) with (Fin (1 / 1000000000000)). unfold dgtb. rewrite ltb_f by lra. reflexivity. }
  change (st_head st) with [un_front] in HY. change (a_end (acc0 (Fin 34) (mb_on_ts (st_mb st)))) with (Fin 34) in HY. change (p_precip_prev (st_p st)) with (Fin 0) in HY.
  destruct HY as (aet & cr & EA & EC & HY). unfold dgtb in EA. rewrite ltb_f in EA by lra. apply Ok_inj in EA. subst aet. cbn [u_env u_dt u_closed u_nint] in HY, EC.
  change (env_of st) with (fo_env a) in HY, EC. change (p_closed (st_p st)) with true in HY. change (p_nint (st_p st)) with 120%Z in HY. change (wetting_front_free_drainage [un_front]) with 1%Z in HY.
  assert (K : cr = true).
  { unfold create_decision in EC. cbn [lget nth_error bind] in EC. change (soil_of (fo_env a) (f_layer un_front)) with (Ok ex_soil) in EC. cbn [bind] in EC.
    change (f_theta un_front + lit (1 / 1000000000000))%d with (Fin (17 / 50 + 1 / 1000000000000)) in EC. change (s_theta_e ex_soil) with (Fin (2 / 5)) in EC.
    replace (Fin (17 / 50 + 1 / 1000000000000) >=? Fin (2 / 5))%d with false in EC by (symmetry; unfold dgeb, dleb; apply Rleb_false; lra).
    replace (Fin 0 >? Fin 0)%d with false in EC by (symmetry; apply ltb_f; lra). replace (Fin 2 >? Fin 0)%d with true in EC by (symmetry; apply ltb_t; lra). rewrite eqb_t in EC by reflexivity. cbn [orb andb bind] in EC. apply Ok_inj in EC. symmetry. exact EC. }
  subst cr. assert (NC : ~ cross_tie (fo_env a) [un_front]) by (intros (p & l' & Lp & _); cbn in Lp; lia).
  destruct HY as [(l & a' & EM & HY)|(l & aet' & pd & dry & dd & h & EM & ED & EH & HY)].
  - change (listLength [un_front]) with 1%Z in EM. cbn [length move_loop] in EM. rewrite fo_one in EM. cbn [bind] in EM. apply Ok_inj, pair_equal_spec in EM as [<- <-].
    destruct HY as [HY|(l1 & a1 & fl & l2 & mc & l3 & E1 & E2 & E3 & HY)]; [exact (NC HY)|]. rewrite fo_closure in E1. apply Ok_inj in E1. apply pair_equal_spec in E1 as [E1 _]. apply pair_equal_spec in E1 as [<- _].
    assert (l2 = [un_front]) as ->. { change (check_and_fix (fo_env a) [un_front] (Fin 0)) with (Ok ([un_front], Fin 0)) in E2. apply Ok_inj, pair_equal_spec in E2 as [<- _]. reflexivity. }
    change (lgar_merge_wetting_fronts (fo_env a) [un_front]) with (Ok [un_front]) in E3. apply Ok_inj in E3. subst l3. exact (NC HY).
  - rewrite fo_move in EM. apply Ok_inj in EM. apply pair_equal_spec in EM as [EM _]. apply pair_equal_spec in EM as [<- _]. rewrite fo_dry in ED. apply Ok_inj, pair_equal_spec in ED as [<- _].
    destruct HY as (s & ff & nn & r & l1 & _ & _ & En & Dg & _). injection En as <- _. change (f_depth un_front) with (Fin 100) in Dg. unfold dgtb in Dg. rewrite ltb_f in Dg by lra. discriminate Dg.
Qed.

End Factor.

(** Two temperatures: at 274 K the soil conducts as it does unfrozen, a little below freezing three eighths of it. *)
Definition fo_warm : R := 274.
Definition fo_cold : R := 273.15 + ln (3 / 8) / 10.
Lemma fo_warm_is : reduction (mean [fo_warm]) = 1.
Proof.
  unfold reduction, mean, fo_warm. cbn [Rsum length INR]. replace ((274 + 0) / 1) with 274 by lra. rewrite Rmin_right; [apply Rmax_left; lra|].
  left. rewrite <- exp_0. apply exp_increasing. lra.
Qed.
Lemma fo_cold_is : reduction (mean [fo_cold]) = 3 / 8.
Proof.
  unfold reduction, mean, fo_cold. cbn [Rsum length INR]. replace (-10 * (273.15 - (273.15 + ln (3 / 8) / 10 + 0) / 1)) with (ln (3 / 8)) by lra. rewrite exp_ln by lra.
  rewrite Rmin_left by lra. apply Rmax_left. lra.
Qed.
Lemma fo_colder : fo_cold <= fo_warm.
Proof. unfold fo_cold, fo_warm. assert (ln (3 / 8) < ln 1) by (apply ln_increasing; lra). rewrite ln_1 in H. lra. Qed.

Definition fo_start : state := fo_state [Fin 1; Fin 1] 0.

Lemma fo_runs :
  (exists t b, Update (fo_start <| st_p := (st_p fo_start) <| p_soilT := Ts [(50, fo_cold)] |> |>) = Ok t /\ st_out t = Some b /\ o_in b = Fin (3 / 400) /\ o_runoff b = Fin (1 / 400) /\ mb_on_ts (st_mb t) = Fin 1) /\
  (exists t b, Update (fo_start <| st_p := (st_p fo_start) <| p_soilT := Ts [(50, fo_warm)] |> |>) = Ok t /\ st_out t = Some b /\ o_in b = Fin (3 / 200) /\ o_runoff b = Fin 0 /\ mb_on_ts (st_mb t) = Fin (1 / 2)).
Proof.
  split.
  - destruct (fo_update (3 / 8) ltac:(lra) (25 / 2) ltac:(lra) ltac:(lra) ltac:(lra) ltac:(lra) fo_cold fo_cold_is 1) as (t & b & H1 & H2 & H3 & H4 & H5).
    exists t, b. split; [exact H1|]. split; [exact H2|]. rewrite H3, H4, H5. destruct (Rlt_dec _ 1); [lra|]. repeat split; f_equal; lra.
  - destruct (fo_update 1 ltac:(lra) 25 ltac:(lra) ltac:(lra) ltac:(lra) ltac:(lra) fo_warm fo_warm_is 1) as (t & b & H1 & H2 & H3 & H4 & H5).
    exists t, b. split; [exact H1|]. split; [exact H2|]. rewrite H3, H4, H5. destruct (Rlt_dec _ 1); [|lra]. repeat split; f_equal; lra.
Qed.

Lemma fo_front : forall a, physical_front 1 (fo_env a) un_front.
Proof.
  intro a. constructor.
  - cbn. lia.
  - exists ex_soil, (1 / 10), (2 / 5), (1 / 100), 2, (1 / 2), 1, (17 / 50). split; [reflexivity|]. split; [exact ex_vg|]. split; [reflexivity|]. split; [lra|]. right. exists 75. split; [reflexivity|]. split; [lra|].
    rewrite (half_Se 75 (5 / 4)) by lra. field.
  - exists (1 / 10). split; [reflexivity|lra].
Qed.

Lemma fo_lies : forall a, Forall (lies (e_cum (fo_env a))) [un_front].
Proof. intro a. repeat constructor. exists 100, 0. split; [reflexivity|]. split; [lra|]. split; [reflexivity|lra]. Qed.
Lemma fo_column : forall a, vg_column (fo_env a) /\ conducts_at_most 1 (fo_env a) /\ capillary true 120 (fo_env a).
Proof.
  intro a. split; [|split].
  - intros k s Hk E. change (e_nlayers (fo_env a)) with 1%Z in Hk. assert (k = 1%Z) as -> by lia. apply Ok_inj in E. subst s. do 6 eexists. exact ex_vg.
  - intros k s ks Hk E EK. change (e_nlayers (fo_env a)) with 1%Z in Hk. assert (k = 1%Z) as -> by lia. apply Ok_inj in E. subst s. injection EK as <-. lra.
  - intros k s Hk E. change (e_nlayers (fo_env a)) with 1%Z in Hk. assert (k = 1%Z) as -> by lia. apply Ok_inj in E. subst s. exists 1, 10. repeat split; lra.
Qed.
Lemma fo_profile : forall a, profile (e_nlayers (fo_env a)) (e_cum (fo_env a)) [un_front] /\ deepest_rests [un_front].
Proof.
  intro a. split.
  - apply (gr_profile _ _ _ _ (fo_graded a)).
  - intros f E. injection E as <-. reflexivity.
Qed.

(** All that the theorem on Update asks for, except for what the two runs return. *)
Lemma fo_meets :
  let cold := fo_start <| st_p := (st_p fo_start) <| p_soilT := Ts [(50, fo_cold)] |> |> in
  p_invalid (st_p fo_start) = false /\ p_calib (st_p fo_start) = false /\ p_sft (st_p fo_start) = true /\ p_adaptive (st_p fo_start) = false /\ substeps_of fo_start 1 /\
  p_cum (st_p fo_start) = Fin 0 :: map Fin [100] /\ layered [100] [[(50, fo_cold)]] [] /\ colder_cells [[(50, fo_cold)]] [[(50, fo_warm)]] /\
  sound_env (env_of fo_start) /\ vg_column (env_of fo_start) /\ conducts_at_most 1 (env_of fo_start) /\ capillary (p_closed (st_p fo_start)) (p_nint (st_p fo_start)) (env_of fo_start) /\
  profile (p_nlayers (st_p fo_start)) (p_cum (st_p fo_start)) (st_head fo_start) /\ deepest_rests (st_head fo_start) /\ Forall (physical_front 1 (env_of fo_start)) (st_head fo_start) /\ Forall (lies (p_cum (st_p fo_start))) (st_head fo_start) /\
  ~ update_tie cold.
Proof.
  pose proof (fo_column 1) as (C1 & C2 & C3). pose proof (fo_profile 1) as [P1 P2].
  do 4 (split; [reflexivity|]). split; [exact fo_count|]. split; [reflexivity|]. split; [cbn; repeat split; try discriminate; constructor; [cbn; lra|constructor]|].
  split; [constructor; [constructor; [split; [reflexivity|exact fo_colder]|constructor]|constructor]|]. split; [exact (fo_sound 1)|]. split; [exact C1|]. split; [exact C2|]. split; [exact C3|]. split; [exact P1|]. split; [exact P2|].
  split; [constructor; [exact (fo_front 1)|constructor]|]. split; [exact (fo_lies 1)|].
  exact (fo_free (3 / 8) (25 / 2) ltac:(lra) ltac:(lra) ltac:(lra) fo_cold fo_cold_is 1).
Qed.

(** At the tie the warmer soil takes in less: 3.01 cm on the surface, 2.01 cm of them rain. *)
Lemma fo_capacity : forall a, 0 < a <= 1 -> infiltration_capacity (fo_env a) true 120 (Fin 1) (Fin 0) (Fin (301 / 100)) (Fin (201 / 100)) 1 [un_front] = Ok (Fin (101 / 100 * a)).
Proof.
  intros a Ha. unfold infiltration_capacity. change (listLength [un_front]) with 1%Z.
  change (pget [un_front] (findFront 1 [un_front])) with (Ok un_front). cbn [bind f_layer un_front].
  change (soil_of (fo_env a) 1) with (Ok ex_soil). cbn [bind lget nth_error].
  change (aget (e_frozen (fo_env a)) (f_layer un_front)) with (Ok (Fin a)).
  cbn [bind e_nlayers fo_env Z.eqb Pos.eqb]. change (soil_of _ _) with (Ok ex_soil). cbn [bind].
  change (f_theta un_front) with (Fin (17 / 50)). change (s_theta_e ex_soil) with (Fin (2 / 5)).
  rewrite eqb_f by lra. cbn [andb].
  change (aget (e_frozen (fo_env a)) (f_layer un_front)) with (Ok (Fin a)). cbn [bind].
  change (e_cum (fo_env a)) with [Fin 0; Fin 100]. rewrite un_mass. cbn [bind]. change (max_storage (fo_env a)) with (max_storage ex_env). rewrite ex_storage. cbn [bind].
  replace (dfmax (Fin (301 / 100) - Fin (201 / 100) * Fin 1)%d (Fin 0)) with (Fin 1)
    by (cbn; unfold Rltb; destruct (Rlt_dec _ _); [lra|f_equal; lra]).
  change (s_Ksat ex_soil) with (Fin 1). change (f_depth un_front) with (Fin 100). change (lit 1) with (Fin 1).
  replace (Fin 0 + Fin 1)%d with (Fin 1) by (cbn; f_equal; ring). rewrite div_fin by lra.
  replace ((Fin 40 - Fin 34) / Fin 1)%d with (Fin 6) by (cbn; destruct (Req_EM_T _ _); [lra|f_equal; field; lra]).
  replace (Fin 1 * Fin a * (Fin 1 + Fin (1 / 100)))%d with (Fin (101 / 100 * a)) by (cbn; f_equal; lra).
  unfold dgtb. rewrite ltb_f by lra. reflexivity.
Qed.
Lemma fo_tie : exists q1 o1 i1 q2 o2 i2,
  lgar_insert_water (fo_env (1 / 2)) true 120 (Fin 1) (Fin 0) (Fin (301 / 100)) (Fin 0) (Fin (201 / 100)) 1 (Fin 2) [un_front] = Ok (Fin q1, Fin o1, Fin i1) /\
  lgar_insert_water (fo_env 1) true 120 (Fin 1) (Fin 0) (Fin (301 / 100)) (Fin 0) (Fin (201 / 100)) 1 (Fin 2) [un_front] = Ok (Fin q2, Fin o2, Fin i2) /\
  i1 = 101 / 200 /\ i2 = 0 /\ o1 = 2 /\ o2 = 301 / 100.
Proof.
  exists (101 / 200), 2, (101 / 200), 0, (301 / 100), 0. split; [|split; [|lra]].
  - unfold lgar_insert_water. rewrite fo_capacity by lra. cbn [bind]. unfold surface_partition. replace (101 / 100 * (1 / 2)) with (101 / 200) by lra.
    replace (dfmax (Fin (301 / 100) - Fin (101 / 200) * Fin 1 - Fin 0 * Fin 0)%d (Fin 0)) with (Fin (501 / 200)) by (cbn; unfold Rltb; destruct (Rlt_dec _ _); [lra|f_equal; lra]).
    unfold dgtb. rewrite (ltb_t 0 2), (ltb_f (501 / 200) 2), (ltb_t 2 (501 / 200)) by lra. rewrite div_fin by lra.
    replace (Fin (501 / 200) - Fin 2)%d with (Fin (101 / 200)) by (cbn; f_equal; lra). replace (Fin (101 / 200) * Fin 1 + Fin (0 / 1))%d with (Fin (101 / 200)) by (cbn; f_equal; lra). reflexivity.
  - unfold lgar_insert_water. rewrite fo_capacity by lra. cbn [bind]. replace (101 / 100 * 1) with (101 / 100) by lra. rewrite un_partition. reflexivity.
Qed.
End Run.
