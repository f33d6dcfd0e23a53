(** Worked example for the number of fronts: rain sets in on a column with one unsaturated front, and a second one appears. *)

From Coq Require Import Reals Lra ZArith List Bool Lia.
From RecordUpdate Require Import RecordSet.
From Verif Require Import Outcome Dbl Exact Types ListOps Soil Giuh Fronts Infil Move State Update Lib Spec_Common Spec_Soil Spec_Update Spec_Profile Spec_Storage Spec_Velocity Spec_Single Spec_SubSingle Spec_Growth
  Pf_Dbl Pf_Pow Pf_Update Pf_Clock Pf_Structure Pf_Profile Pf_SafeMove Pf_Single Pf_SingleMerge Pf_SubSingle Pf_Growth Ex_Saturated Ex_Unsaturated Ex_Single Ex_SubSingle.
Import ListNotations.
Import RecordSetNotations.
Open Scope R_scope.

(** One hour of rain, 10 mm/h, after a dry hour. *)
Definition gw_mb : massbal := mkMB (Fin 0) (Fin 34) (Fin 34) (Fin 0) (Fin 0) (Fin 0) (Fin 0) (Fin 0) (Fin 0) (Fin 0) (Fin 0) (Fin 0) (Fin 0) None.
Definition gw_start : state :=
  mkState [un_front] [un_front] [None; Some ex_soil] (ex_params 1 1 2 7200 0 0 0 1 1 [Fin (17 / 50)] [Fin 1]) gw_mb (Fin 10) (Fin 0) ex_cal None 1 [Fin 1] [Fin 0; Fin 0].

Section Run.
Local Existing Instance exact.
Context {cfg : Cfg}.

Lemma gw_graded : graded ex_env (2 / 5 - 1 / 1000000000000000) 100 [un_front].
Proof.
  constructor.
  - apply profile_scan; [discriminate|]. split.
    + intros i f E. destruct i as [|i]; [injection E as <-; reflexivity|]. destruct i; discriminate.
    + cbn -[Z.le]. repeat split; try reflexivity; lia.
  - intros f E. injection E as <-. reflexivity.
  - repeat constructor; cbn; eexists; reflexivity.
  - repeat constructor. exists ex_soil, (1 / 10), (2 / 5). eexists. repeat (split; [reflexivity|]). lra.
  - exact Logic.I.
  - constructor.
  - constructor.
  - intros f E. injection E as <-. left. cbn. lra.
  - repeat constructor; cbn; try (eexists; split; [reflexivity|lra]); right; (eexists; split; [reflexivity|lra]).
Qed.

Lemma gw_two : forall pond d th l pd v, d <= 100 -> lgar_create_surficial_front ex_env pond (Fin d) th [un_front] = Ok (l, pd, v) -> length l = 2%nat.
Proof.
  intros pond d th l pd v Hd H. unfold lgar_create_surficial_front in H. cbv zeta in H. bind_inv H s Es. bind_inv H x Ex. bind_inv H ff Ef. bind_inv H l1 El.
  apply Ok_inj in H. injection H as <- _ _. unfold listInsertFirst in El. cbn [bump map] in El.
  match type of El with (if ?q then _ else _) = _ => replace q with false in El by (symmetry; apply ltb_f; lra) end. apply Ok_inj in El. subst. reflexivity.
Qed.

Lemma gw_hydro : exists b ro on pd, sub_hydro ss_u (Fin 0) (Fin 1) (Fin 0) (Fin 1) (Fin 0) (Fin 1) (Fin 34) [un_front] [un_front] = Ok b /\
  length (b_head b) = 2%nat /\ graded ex_env (2 / 5 - 1 / 1000000000000000) 100 (b_head b) /\ below_surface (b_head b) /\
  b_aet b = Fin 0 /\ b_rech b = Fin 0 /\ b_runoff b = Fin ro /\ b_on b = Fin on /\ b_ponded b = Fin pd /\ storage (b_head b) + ro + on = 35.
Proof.
  pose proof ss_plain as HP. pose proof (pl_single _ _ _ _ _ _ HP) as HS. unfold sub_hydro. cbn [u_env ss_u ex_upar]. unfold dgtb at 1. rewrite ltb_f by lra. cbn [bind].
  change (wetting_front_free_drainage [un_front]) with 1%Z. unfold create_decision. cbn [lget nth_error bind]. change (soil_of ex_env (f_layer un_front)) with (Ok ex_soil). cbn [bind].
  change (f_theta un_front + lit (1 / 1000000000000))%d with (Fin (17 / 50 + 1 / 1000000000000)). change (s_theta_e ex_soil) with (Fin (2 / 5)).
  replace (Fin (17 / 50 + 1 / 1000000000000) >=? Fin (2 / 5))%d with false by (symmetry; unfold dgeb, dleb; apply Rleb_false; lra).
  replace (Fin 0 >? Fin 0)%d with false by (symmetry; apply ltb_f; lra). replace (Fin 1 >? Fin 0)%d with true by (symmetry; apply ltb_t; lra). rewrite eqb_t by reflexivity. cbn [orb andb bind].
  unfold sub_create at 1. cbn [u_env u_dt ss_u ex_upar]. rewrite un_move. cbn [bind].
  assert (Eq : (if Fin 0 <>? Fin 0 then Fin 0 else Fin 0)%d = Fin 0) by (destruct (_ <>? _)%d; reflexivity). rewrite Eq.
  pose proof (dry_ends ss_u _ _ _ _ _ [un_front] un_front (17 / 50) [] HP eq_refl eq_refl eq_refl ltac:(lra) ltac:(lra)) as DE.
  change (u_closed ss_u) with true in *. change (u_nint ss_u) with 120%Z in *. change (u_dt ss_u) with (Fin 1) in *. change (u_env ss_u) with ex_env in *.
  destruct (lgar_calc_dry_depth ex_env true 120 (Fin 1) [un_front]) as [x|w]; [|destruct DE as [_ Q]; discriminate Q]. destruct DE as (d & y & -> & Hd). cbn [bind lget nth_error].
  assert (BS : below_surface [un_front]) by (repeat constructor; cbn; lra).
  destruct (create_single ex_env _ _ _ _ _ un_front [] 1 d HS gw_graded BS ltac:(cbn; lra) ltac:(cbn; lra) Hd ltac:(lra)) as (l2 & pd & vin & EC & G3 & B3 & S3 & Ep & Hpd & _).
  change (f_theta un_front) with (Fin (17 / 50)) in *. rewrite EC. cbn [bind b_ponded negb]. rewrite andb_false_r.
  destruct (surface_rest _ _ _ _ _ _ (mkSub l2 (listCopy l2) (Fin 0) (Fin pd) (Fin vin) (Fin 0) (Fin 0) (Fin 0)) pd HP eq_refl Hpd) as (ro & on & pd' & EN & F1 & F2 & F3). rewrite EN.
  cbn [bind b_ponded b_head b_prev b_aet b_volin b_runoff b_on b_rech].
  pose proof (speeds_single ex_env _ _ _ _ _ true 120 pd' l2 HS (pl_capillary _ _ _ _ _ _ HP) F3 G3) as SP.
  destruct (lgar_dzdt_calc ex_env true 120 (Fin pd') l2) as [l3|w] eqn:EZ; [|destruct SP as [_ Q]; discriminate Q]. destruct SP as (G4 & S4 & B4 & _). cbn [bind].
  exists (mkSub l3 (listCopy l2) (Fin 0) (Fin pd') (Fin vin) (Fin ro) (Fin on) (Fin 0)), ro, on, pd'. cbn [b_head b_aet b_rech b_runoff b_on b_ponded].
  split; [reflexivity|]. split; [rewrite (dzdt_length _ _ _ _ _ _ EZ); exact (gw_two _ _ _ _ _ _ (proj2 Hd) EC)|]. split; [exact G4|]. split; [apply B4; exact B3|].
  repeat (split; [reflexivity|]). rewrite S4, S3. cbn. cbn in S3. lra.
Qed.

Lemma gw_substep : exists s' a', substep ss_u gw_start (acc0 (Fin 34) (Fin 0)) = Ok (s', a') /\ length (st_head s') = 2%nat /\ (exists m, mb_local (st_mb s') = Some m) /\
  g_N s' = 1%Z /\ g_ord s' = [Fin 1] /\ g_queue s' = [Fin 0; Fin 0].
Proof.
  destruct gw_hydro as (b & ro & on & pd & E & L & G & B & Ea & Er & Ero & Eon & Epd & S). pose proof (pl_single _ _ _ _ _ _ ss_plain) as HS. change (u_env ss_u) with ex_env in HS.
  unfold substep, acc0. cbn [a_on a_end]. change (u_dt ss_u) with (Fin 1).
  replace (dfmax (st_precip gw_start) (Fin 0)) with (Fin 10) by (change (st_precip gw_start) with (Fin 10); rewrite fmax_fin, Rmax_left by lra; reflexivity).
  replace (dfmax (st_pet gw_start) (Fin 0)) with (Fin 0) by (change (st_pet gw_start) with (Fin 0); rewrite fmax_fin, Rmax_left by lra; reflexivity).
  change mm_to_cm with (Fin (1 / 10)). replace (Fin 0 * Fin (1 / 10))%d with (Fin 0) by (cbn; f_equal; ring). replace (Fin 10 * Fin (1 / 10))%d with (Fin 1) by (cbn; f_equal; lra).
  replace (Fin 1 * Fin 1)%d with (Fin 1) by (cbn; f_equal; lra). replace (Fin 1 + Fin 0)%d with (Fin 1) by (cbn; f_equal; lra).
  match goal with |- context [p_cum ?q] => change (p_cum q) with [Fin 0; Fin 100]; change (p_precip_prev q) with (Fin 0) end.
  change (st_head gw_start) with [un_front]. rewrite un_mass. cbn [bind]. unfold listCopy.
  replace (clean_volon (Fin 0)) with (Fin 0). 2: { unfold clean_volon. rewrite fmax_fin, Rmax_left by lra. cbv zeta. change (lit (1 / 1000000000000)) with (Fin (1 / 1000000000000)). unfold dgtb. rewrite ltb_f by lra. reflexivity. }
  rewrite E. cbn [bind]. pose proof (graded_str _ _ _ _ _ _ _ HS G) as H. change [Fin 0; Fin 100] with (e_cum ex_env). rewrite (single_mass _ _ _ _ _ _ HS H (gr_measured _ _ _ _ G)). cbn [bind].
  rewrite Ea, Er, Ero, Eon. unfold local_balance. set (m := (34 + 1 + 0 - ro - 0 - on - 0 - storage (b_head b))). assert (Hm : m = 0) by (unfold m; lra).
  match goal with |- context [dabs ?x] => change x with (Fin m) end. change (dabs (Fin m)) with (Fin (Rabs m)). change (lit (1 / 10000)) with (Fin (1 / 10000)). unfold dgtb at 1. rewrite ltb_f by (rewrite Hm, Rabs_R0; lra).
  pose proof (gr_measured _ _ _ _ G) as ME. destruct (b_head b) as [|f0 bb] eqn:EB; [discriminate L|]. cbn [lget nth_error bind].
  inversion ME as [|q1 q2 [(d0 & Ed0) _] _]; subst q1 q2. inversion B as [|q1 q2 B1 _]; subst q1 q2. rewrite Ed0 in B1 |- *. cbn [val] in B1. unfold dgtb. rewrite ltb_t by assumption. cbn [cassert bind].
  eexists _, _. split; [reflexivity|]. split; [exact L|]. split; [eexists; reflexivity|]. repeat split; reflexivity.
Qed.

Lemma gw_update : exists s', Update gw_start = Ok s' /\ length (st_head gw_start) = 1%nat /\ length (st_head s') = 2%nat.
Proof.
  destruct gw_substep as (s1 & a1 & E & L & (m & Em) & E1 & E2 & E3).
  unfold Update. change (p_invalid (st_p gw_start)) with false. cbv iota. change (update_prologue gw_start) with (Ok (gw_start, Fin 0)). cbn [bind].
  change (lgar_calc_mass_bal (p_cum (st_p gw_start)) (st_head gw_start)) with (lgar_calc_mass_bal [Fin 0; Fin 100] [un_front]). rewrite un_mass. cbn [bind].
  change (st_precip gw_start) with (Fin 10). change (st_pet gw_start) with (Fin 0). unfold dgeb at 1 2. rewrite !leb_t by lra. cbn [cassert bind].
  assert (ST : update_steps gw_start = Ok (gw_start, Fin 1, 1%Z)).
  { unfold update_steps. change (p_adaptive (st_p gw_start)) with false. cbv iota zeta.
    match goal with |- context [d2i ?x] => change x with (Fin 1 / Fin 1 + lit (1 / 100000000))%d end.
    replace (d2i (Fin 1 / Fin 1 + lit (1 / 100000000))%d) with (Ok 1%Z); [reflexivity|].
    rewrite div_fin by lra. change (lit (1 / 100000000)) with (Fin (1 / 100000000)). cbn [dadd rnd exact d2i].
    replace (trunc (1 / 1 + 1 / 100000000)) with 1%Z; [reflexivity|]. symmetry. apply trunc_nat; [lia|]. lra. }
  rewrite ST. cbn [bind]. change (Z.to_nat 1) with 1%nat. cbn [subcycle_loop].
  match goal with |- context [substep ?u ?s ?a] => change (substep u s a) with (substep ss_u gw_start (acc0 (Fin 34) (Fin 0))) end. rewrite E. cbn [bind].
  match goal with |- context [if ?c then Ok ?x else Ok ?x] => replace (if c then Ok x else Ok x) with (Ok x) by (destruct c; reflexivity) end. cbn [bind].
  unfold finish_update. rewrite E1, E2, E3, Em.
  destruct (giuh_convolution_integral (a_runoff a1) 1 [Fin 1] [Fin 0; Fin 0]) as [[g q]|w] eqn:EG; [|discriminate EG]. cbn [bind]. cbv zeta.
  eexists. split; [reflexivity|]. split; [reflexivity|exact L].
Qed.
End Run.
