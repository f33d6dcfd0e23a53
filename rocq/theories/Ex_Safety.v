(** Worked examples for the structure of the profile: a column that loses its order, and a column whose Update uses a deleted front. *)

From Coq Require Import Reals Lra ZArith List Bool Lia.
From RecordUpdate Require Import RecordSet.
From Verif Require Import Outcome Dbl Exact Types ListOps Soil Giuh Fronts Infil Move State Update Lib Spec_Common Spec_List Spec_Update Spec_Profile
  Pf_Dbl Pf_Pow Pf_Update Pf_Clock Pf_Profile Pf_Structure Ex_Saturated Ex_Unsaturated Ex_NaN.
Import ListNotations.
Import RecordSetNotations.
Open Scope R_scope.

(** A column of the soil of Ex_Saturated before its first Update: one hour of forcing in one sub-step, no rain, [pet] mm/h, nothing on the surface. *)
Definition sf_params (nl : Z) (thick cum : list dbl) (stype : list (option Z)) (frozen : list dbl) (wp : R) (nf : Z) : params :=
  mkParams nl thick cum stype frozen nf 0 [] [] [] []
    (Fin 1) (Fin 1) (Fin 1) 1 (Fin wp) (Fin wp) true false (Fin 0) (Fin 0) 120 (Fin 0) (Fin 7200) 0 false false false.
Definition sf_state (nl : Z) (thick cum : list dbl) (stype : list (option Z)) (frozen : list dbl) (wp pet v : R) (head : list front) : state :=
  mkState head head [None; Some ex_soil] (sf_params nl thick cum stype frozen wp (listLength head))
    (ex_mb0 <| mb_start := Fin v |>) (Fin 0) (Fin pet) ex_cal None 1 [Fin 1] [Fin 0; Fin 0].

(** Two layers of 25 and 75 cm.  The upper one holds two fronts besides its bottom front: in one hour the first moves from 20 to 30 cm, the second
    from 24 to exactly 25 cm. *)
Definition ti_front (d dz : R) (lay num : Z) (b : bool) : front := mkF (Fin d) (Fin (17 / 50)) (Fin 75) (Fin (1 / 10)) lay num b (Fin dz).
Definition ti_head : list front :=
  [mkF (Fin 20) (Fin (2 / 5)) (Fin 0) (Fin 1) 1 1 false (Fin 10); ti_front 24 1 1 2 false; ti_front 25 0 1 3 true; ti_front 100 0 2 4 true].
Definition ti_env : env := mkEnv 2 [Fin 0; Fin 25; Fin 100] [None; Some 1%Z; Some 1%Z] [None; Some ex_soil] [Fin 1; Fin 1; Fin 1].
Definition ti_start : state :=
  sf_state 2 [Fin 0; Fin 25; Fin 75] [Fin 0; Fin 25; Fin 100] [None; Some 1%Z; Some 1%Z] [Fin 1; Fin 1; Fin 1] 75 0 (176 / 5) ti_head.

(** One layer of 100 cm with a saturated front at 1 cm; 4 mm of evapotranspiration in one hour. *)
Definition uf_head : list front :=
  [mkF (Fin 1) (Fin (2 / 5)) (Fin 0) (Fin 1) 1 1 false (Fin (1 / 10)); mkF (Fin 100) (Fin (17 / 50)) (Fin 75) (Fin (1 / 10)) 1 2 true (Fin 0)].
Definition uf_start : state :=
  sf_state 1 [Fin 0; Fin 100] [Fin 0; Fin 100] [None; Some 1%Z] [Fin 1; Fin 1] 75 4 (1703 / 50) uf_head.

Section Run.
Local Existing Instance exact.
Context {cfg : Cfg}.

Lemma sf_steps : forall nl thick cum stype frozen wp pet v head,
  update_steps (sf_state nl thick cum stype frozen wp pet v head) = Ok (sf_state nl thick cum stype frozen wp pet v head, Fin 1, 1%Z).
Proof.
  intros. unfold update_steps. match goal with |- context [p_adaptive ?p] => change (p_adaptive p) with false end. cbv iota zeta.
  match goal with |- context [d2i ?x] => change x with (Fin 1 / Fin 1 + lit (1 / 100000000))%d end.
  replace (d2i (Fin 1 / Fin 1 + lit (1 / 100000000))%d) with (Ok 1%Z); [reflexivity|].
  rewrite div_fin by lra. change (lit (1 / 100000000)) with (Fin (1 / 100000000)). cbn [dadd rnd exact d2i].
  replace (trunc (1 / 1 + 1 / 100000000)) with 1%Z; [reflexivity|]. symmetry. apply trunc_nat; [lia|]. lra.
Qed.

(** When the motion of the fronts stops, so does the Update. *)
Lemma sf_stop : forall nl thick cum stype frozen wp pet v w c r aet why, 0 <= pet ->
  let head := c :: r in
  let e := mkEnv nl cum stype [None; Some ex_soil] frozen in
  lgar_calc_mass_bal cum head = Ok (Fin w) -> soil_of e (f_layer c) = Ok ex_soil ->
  (if (Fin (pet * (1 / 10)) >? Fin 0)%d then calc_aet e (Fin (pet * (1 / 10))) (Fin 1) (Fin wp) (Fin wp) head else Ok (Fin 0)) = Ok aet ->
  lgar_move_wetting_fronts e (Fin 1) (Fin 0) (wetting_front_free_drainage head) (Fin w) aet head head = Stop why ->
  Update (sf_state nl thick cum stype frozen wp pet v head) = Stop why.
Proof.
  intros nl thick cum stype frozen wp pet v w c r aet why Hp head e EM ES EA EV. unfold Update. set (s := sf_state nl thick cum stype frozen wp pet v head).
  change (p_invalid (st_p s)) with false. cbv iota.
  change (update_prologue s) with (Ok (s, Fin 0)). cbn [bind].
  change (lgar_calc_mass_bal (p_cum (st_p s)) (st_head s)) with (lgar_calc_mass_bal cum head). rewrite EM. cbn [bind].
  change (st_precip s) with (Fin 0). change (st_pet s) with (Fin pet). unfold dgeb. rewrite !leb_t by lra. cbn [cassert bind].
  unfold s at 1. rewrite sf_steps. fold s. cbn [bind]. change (Z.to_nat 1) with 1%nat. cbn [subcycle_loop].
  unfold substep, acc0. cbn [u_dt a_on a_end].
  change (st_precip s) with (Fin 0). change (st_pet s) with (Fin pet). change (mb_on_ts (st_mb s)) with (Fin 0).
  replace (dfmax (Fin 0) (Fin 0)) with (Fin 0) by (cbn; unfold Rltb; destruct (Rlt_dec _ _); reflexivity).
  replace (dfmax (Fin pet) (Fin 0)) with (Fin pet) by (cbn; unfold Rltb; destruct (Rlt_dec _ _); [lra|reflexivity]).
  change mm_to_cm with (Fin (1 / 10)).
  replace (Fin 0 * Fin (1 / 10))%d with (Fin 0) by (cbn; f_equal; ring).
  change (Fin pet * Fin (1 / 10))%d with (Fin (pet * (1 / 10))).
  replace (Fin 0 * Fin 1)%d with (Fin 0) by (cbn; f_equal; lra).
  replace (Fin 0 + Fin 0)%d with (Fin 0) by (cbn; f_equal; lra).
  rewrite ex_clean by lra.
  match goal with |- context [lgar_calc_mass_bal ?a ?b] => change (lgar_calc_mass_bal a b) with (lgar_calc_mass_bal cum head) end.
  rewrite EM. cbn [bind].
  change (st_head s) with head. change (listCopy head) with head.
  assert (H : sub_hydro (mkU (env_of s) (Fin 1) (p_nint (st_p s)) (p_closed (st_p s)) (p_wilting (st_p s)) (p_fc (st_p s)) (p_pmax (st_p s)))
    (Fin 0) (Fin 0) (Fin (pet * (1 / 10))) (Fin 0) (Fin 0) (Fin 0) (Fin w) head head = Stop why).
  { unfold sub_hydro. cbn [u_env u_dt u_wilting u_fc u_closed u_nint u_pmax].
    change (p_wilting (st_p s)) with (Fin wp). change (p_fc (st_p s)) with (Fin wp). change (env_of s) with e. rewrite EA. cbn [bind].
    unfold create_decision. change (lget head 0) with (Ok c). cbn [bind]. rewrite ES. cbn [bind].
    match goal with |- context [if ?a then false else ?b] => replace (if a then false else b) with false end.
    2: { unfold dgtb. rewrite !ltb_f by lra. rewrite andb_false_r. destruct (_ || _)%bool; reflexivity. }
    cbn [bind b_ponded]. unfold dgtb at 1. rewrite ltb_f by lra. cbn [andb bind].
    unfold sub_no_insert. cbn [b_ponded u_pmax b_head b_prev b_aet b_volin b_rech bind]. change (p_pmax (st_p s)) with (Fin 0). rewrite ltb_f by lra.
    unfold sub_move. cbn [u_env u_dt b_volin b_aet b_head b_prev b_ponded b_runoff b_on b_rech bind]. rewrite EV. reflexivity. }
  match goal with |- context [sub_hydro ?a ?b ?c0 ?d ?ee ?g ?h ?i ?j ?k] => change (sub_hydro a b c0 d ee g h i j k) with
    (sub_hydro (mkU (env_of s) (Fin 1) (p_nint (st_p s)) (p_closed (st_p s)) (p_wilting (st_p s)) (p_fc (st_p s)) (p_pmax (st_p s)))
      (Fin 0) (Fin 0) (Fin (pet * (1 / 10))) (Fin 0) (Fin 0) (Fin 0) (Fin w) head head) end.
  rewrite H. reflexivity.
Qed.

Lemma sf_ready : forall nl thick cum stype frozen wp pet v head, ready (sf_state nl thick cum stype frozen wp pet v head).
Proof.
  intros. constructor.
  - do 3 eexists. split; [apply sf_steps|lia].
  - discriminate.
  - discriminate.
Qed.

(** ** A tie *)

Lemma ti_sound : sound_state ti_start.
Proof.
  assert (K : forall k, (1 <= k <= 2)%Z -> k = 1%Z \/ k = 2%Z) by lia.
  constructor.
  - constructor; change (e_nlayers (env_of ti_start)) with 2%Z.
    + lia.
    + intros k Hk. assert (k = 0 \/ k = 1 \/ k = 2)%Z as [->|[->| ->]] by lia; eexists; (split; [reflexivity|reflexivity]).
    + intros k z z' Hk E1 E2. assert (k = 0 \/ k = 1)%Z as [->| ->] by lia; apply Ok_inj in E1, E2; injection E1 as <-; injection E2 as <-; lra.
    + intros k Hk. destruct (K k Hk) as [->| ->]; eexists; reflexivity.
    + intros k Hk. destruct (K k Hk) as [->| ->]; eexists; reflexivity.
  - apply profile_scan; [discriminate|]. split.
    + intros i f E. do 4 (destruct i as [|i]; [injection E as <-; reflexivity|]). destruct i; discriminate.
    + cbn -[Z.le]. repeat split; try reflexivity; lia.
  - intros f E. injection E as <-. reflexivity.
  - split; [eexists; reflexivity|]. split; [eexists; reflexivity|]. split; [|eexists; reflexivity]. cbn. apply Rltb_false. lra.
  - cbn. lia.
Qed.

Lemma ti_mass : lgar_calc_mass_bal [Fin 0; Fin 25; Fin 100] ti_head = Ok (Fin (176 / 5)).
Proof. reval. feq. Qed.

(** The fronts after their motion; psi and theta of the first one do not matter. *)
Lemma ti_move_loop : exists th psi,
  move_loop 4 ti_env (Fin 1) (Fin 0) 1 ti_head 4 ti_head (Fin 0)
  = Ok ([mkF (Fin 30) th psi (Fin 1) 1 1 false (Fin 10); ti_front 25 1 1 2 false; ti_front 25 0 1 3 true; ti_front 100 0 2 4 true], Fin 0).
Proof.
  cbn [move_loop].
  assert (M4 : move_one ti_env (Fin 1) (Fin 0) 1 ti_head 4 (Z.of_nat 4) ti_head (Fin 0) = Ok (ti_head, Fin 0)) by reflexivity.
  rewrite M4. cbn [bind].
  assert (M3 : move_one ti_env (Fin 1) (Fin 0) 1 ti_head 4 (Z.of_nat 3) ti_head (Fin 0) = Ok (ti_head, Fin 0)).
  { change (move_one ti_env (Fin 1) (Fin 0) 1 ti_head 4 (Z.of_nat 3) ti_head (Fin 0)) with
      (Ok (lset ti_head 2 (set_psi (set_theta (ti_front 25 0 1 3 true) (theta_of_h ex_soil (Fin 75))) (Fin 75)), Fin 0)).
    rewrite un_theta. reflexivity. }
  rewrite M3. cbn [bind].
  set (l2 := lset ti_head 1 (ti_front 25 1 1 2 false)).
  assert (M2 : move_one ti_env (Fin 1) (Fin 0) 1 ti_head 4 (Z.of_nat 2) ti_head (Fin 0) = Ok (l2, Fin 0)).
  { unfold move_one. change (Z.of_nat 2) with 2%Z.
    change (findFrontOld 2 ti_head ti_head) with (ti_head, Some 1%nat). change (findFrontOld (2 + 1) ti_head ti_head) with (ti_head, Some 2%nat).
    change (findFront 2 ti_head) with (Some 1%nat). change (findFront (2 - 1) ti_head) with (Some 0%nat). change (findFront (2 + 1) ti_head) with (Some 2%nat).
    cbv iota. change (lget ti_head 1) with (Ok (ti_front 24 1 1 2 false)). cbn [bind f_layer ti_front].
    change (soil_of ti_env 1) with (Ok ex_soil). cbn [bind]. change (if (2 =? 1)%Z then Ok (ti_front 24 1 1 2 false) else pget ti_head (Some 0%nat)) with
      (pget ti_head (Some 0%nat)). change (pget ti_head (Some 0%nat)) with (Ok (mkF (Fin 20) (Fin (2 / 5)) (Fin 0) (Fin 1) 1 1 false (Fin 10))). cbn [bind].
    change ((2 =? 4)%Z) with false. change ((2 =? 1)%Z || (2 <? 4)%Z)%bool with true. cbv iota.
    change (pget ti_head (Some 2%nat)) with (Ok (ti_front 25 0 1 3 true)). cbn [bind f_layer ti_front].
    change ((2 <? 4)%Z && negb (1 =? 1)%Z)%bool with false. change (false && negb (1 =? 1)%Z && (4 =? e_nlayers ti_env)%Z)%bool with false.
    change ((2 <? 4)%Z && (1 =? 1)%Z)%bool with true. change (1 =? 1)%Z with true. cbv iota.
    change (pget ti_head (Some 1%nat)) with (Ok (ti_front 24 1 1 2 false)). cbn [bind].
    change (aget (e_cum ti_env) (e_nlayers ti_env)) with (Ok (Fin 100)). cbn [bind].
    cbn [f_depth f_dzdt f_theta ti_front set_depth f_bottom f_num]. change (water_added 1 2 (Fin 0) (Fin 0)) with (Fin 0).
    replace (dfmin (Fin 24 + Fin 1 * Fin 1)%d (Fin 100)) with (Fin 25)
      by (cbn; unfold Rltb; destruct (Rlt_dec _ _); [f_equal; lra|lra]).
    rewrite eqb_f by lra. cbn [andb].
    replace ((Fin 24 * (Fin (17 / 50) - Fin (17 / 50)) + Fin 0) / Fin 25 + Fin (17 / 50))%d with (Fin (17 / 50))
      by (cbn; destruct (Req_EM_T _ _); [lra|cbn; f_equal; lra]).
    change (s_theta_r ex_soil) with (Fin (1 / 10)). rewrite ltb_f by lra.
    change (dfmax (Fin (1 / 10)) (dfmin (s_theta_e ex_soil) (Fin (17 / 50)))) with (dfmax (Fin (1 / 10)) (dfmin (Fin (2 / 5)) (Fin (17 / 50)))).
    replace (dfmax (Fin (1 / 10)) (dfmin (Fin (2 / 5)) (Fin (17 / 50)))) with (Fin (17 / 50)).
    2: { cbn. unfold Rltb. destruct (Rlt_dec _ _); [lra|]. cbn. unfold Rltb. destruct (Rlt_dec _ _); [reflexivity|lra]. }
    rewrite un_psi. reflexivity. }
  rewrite M2. cbn [bind].
  unfold move_one. change (Z.of_nat 1) with 1%Z.
  change (findFrontOld 1 l2 ti_head) with (ti_head, Some 0%nat). change (findFrontOld (1 + 1) l2 ti_head) with (ti_head, Some 1%nat).
  change (findFront 1 l2) with (Some 0%nat). change (findFront (1 + 1) l2) with (Some 1%nat). cbv iota.
  set (c := mkF (Fin 20) (Fin (2 / 5)) (Fin 0) (Fin 1) 1 1 false (Fin 10)).
  change (lget l2 0) with (Ok c). cbn [bind]. change (f_layer c) with 1%Z.
  change (soil_of ti_env 1) with (Ok ex_soil). cbn [bind]. change (1 =? 1)%Z with true. change ((1 =? 4)%Z) with false. cbv iota. cbn [bind orb].
  change (pget l2 (Some 1%nat)) with (Ok (ti_front 25 1 1 2 false)). cbn [bind f_layer ti_front].
  change ((1 <? 4)%Z && negb (1 =? 1)%Z)%bool with false. change (false && negb (1 =? 1)%Z && (4 =? e_nlayers ti_env)%Z)%bool with false.
  change ((1 <? 4)%Z && (1 =? 1)%Z)%bool with true. cbv iota.
  change (pget ti_head (Some 0%nat)) with (Ok c). change (pget ti_head (Some 1%nat)) with (Ok (ti_front 24 1 1 2 false)). cbn [bind].
  change (aget (e_cum ti_env) (e_nlayers ti_env)) with (Ok (Fin 100)). cbn [bind].
  change (f_depth c) with (Fin 20). change (f_dzdt c) with (Fin 10). change (f_theta c) with (Fin (2 / 5)).
  replace (dfmin (Fin 20 + Fin 10 * Fin 1)%d (Fin 100)) with (Fin 30)
    by (cbn; unfold Rltb; destruct (Rlt_dec _ _); [f_equal; lra|lra]).
  change (f_dzdt (set_depth c (Fin 30))) with (Fin 10). rewrite eqb_f by lra. cbn [andb].
  cbn [f_theta ti_front]. change (water_added 1 1 (Fin 0) (Fin 0)) with (Fin 0 - (Fin 0 + Fin 0))%d.
  match goal with |- context [(?x <? s_theta_r ex_soil)%d] => replace x with (Fin (19 / 50))
    by (cbn; destruct (Req_EM_T _ _); [lra|cbn; f_equal; lra]) end.
  change (s_theta_r ex_soil) with (Fin (1 / 10)). rewrite ltb_f by lra.
  eexists. eexists. reflexivity.
Qed.

Lemma ti_cross : forall th psi, exists th' psi' d' psi2 K th2,
  lgar_wetting_fronts_cross_layer_boundary ti_env
    [mkF (Fin 30) th psi (Fin 1) 1 1 false (Fin 10); ti_front 25 1 1 2 false; ti_front 25 0 1 3 true; ti_front 100 0 2 4 true]
  = Ok [mkF (Fin 25) th' psi' K 1 1 true (Fin 0); mkF d' th2 psi2 (Fin (1 / 10)) 2 2 false (Fin 10); ti_front 25 0 1 3 true; ti_front 100 0 2 4 true].
Proof.
  intros th psi. unfold lgar_wetting_fronts_cross_layer_boundary.
  set (c := mkF (Fin 30) th psi (Fin 1) 1 1 false (Fin 10)). set (r := [ti_front 25 0 1 3 true; ti_front 100 0 2 4 true]).
  cbn [length r cross_loop]. change (Z.of_nat 1 =? listLength (c :: ti_front 25 1 1 2 false :: r))%Z with false. cbv iota.
  unfold cross_step at 1. cbn [lget nth_error bind]. change (f_layer c) with 1%Z. change (soil_of ti_env 1) with (Ok ex_soil). cbn [bind].
  change (aget (e_frozen ti_env) 1) with (Ok (Fin 1)). cbn [bind lget nth_error]. change (aget (e_cum ti_env) 1) with (Ok (Fin 25)). cbn [bind].
  change (f_depth c) with (Fin 30). change (f_depth (ti_front 25 1 1 2 false)) with (Fin 25). unfold dgtb. rewrite ltb_t, eqb_t by lra.
  change (1 =? e_nlayers ti_env)%Z with false. cbn [andb negb]. change (soil_of ti_env (1 + 1)) with (Ok ex_soil). cbn [bind lget nth_error r].
  change (aget (e_cum ti_env) (1 + 1)) with (Ok (Fin 100)). cbn [bind lset].
  match goal with |- context [mkF (Fin 25 + ?z)%d ?t ?p ?k (1 + 1)%Z ?n false ?dz] => set (f2 := mkF (Fin 25 + z)%d t p k (1 + 1)%Z n false dz) end.
  match goal with |- context [?g1 :: f2 :: _] => set (f1 := g1) end.
  change (Z.of_nat 2 =? listLength (f1 :: f2 :: r))%Z with false. cbv iota.
  assert (S1 : cross_step ti_env 1 (f1 :: f2 :: r) = Ok (f1 :: f2 :: r)).
  { unfold cross_step. cbn [lget nth_error bind]. change (f_layer f2) with 2%Z. change (soil_of ti_env 2) with (Ok ex_soil). cbn [bind].
    change (aget (e_frozen ti_env) 2) with (Ok (Fin 1)). cbn [bind lget nth_error r]. change (aget (e_cum ti_env) 2) with (Ok (Fin 100)). cbn [bind].
    change (2 =? e_nlayers ti_env)%Z with true. cbn [negb]. rewrite andb_false_r. reflexivity. }
  fold r. rewrite S1. cbn [bind]. change (Z.of_nat 3 =? listLength (f1 :: f2 :: r))%Z with false. cbv iota.
  assert (S2 : cross_step ti_env 2 (f1 :: f2 :: r) = Ok (f1 :: f2 :: r)).
  { unfold cross_step. cbn [lget nth_error bind r ti_front f_layer]. change (soil_of ti_env 1) with (Ok ex_soil). cbn [bind].
    change (aget (e_frozen ti_env) 1) with (Ok (Fin 1)). cbn [bind lget nth_error]. change (aget (e_cum ti_env) 1) with (Ok (Fin 25)). cbn [bind f_depth].
    match goal with |- context [(?a >? ?b)%d] => change (a >? b)%d with (Fin 25 <? Fin 25)%d end. rewrite ltb_f by lra. reflexivity. }
  rewrite S2. cbn [bind]. change (Z.of_nat 4 =? listLength (f1 :: f2 :: r))%Z with true. cbv iota.
  do 6 eexists. unfold f1, f2, r. reflexivity.
Qed.

(** The order of the layers is lost. *)
Lemma ti_disorder : exists l l', profile 2 [Fin 0; Fin 25; Fin 100] l /\ lgar_wetting_fronts_cross_layer_boundary ti_env l = Ok l' /\
  map f_layer l' = [1; 2; 1; 2]%Z /\ ~ profile 2 [Fin 0; Fin 25; Fin 100] l'.
Proof.
  destruct (ti_cross (Fin (19 / 50)) (Fin 75)) as (th' & psi' & d' & psi2 & K & th2 & EC).
  do 2 eexists. split; [|split; [exact EC|split; [reflexivity|]]].
  - apply profile_scan; [discriminate|]. split.
    + intros i f E. do 4 (destruct i as [|i]; [injection E as <-; reflexivity|]). destruct i; discriminate.
    + cbn -[Z.le]. repeat split; try reflexivity; lia.
  - intros [_ _ S _]. specialize (S 1%nat 2%nat _ _ ltac:(lia) eq_refl eq_refl). cbn in S. lia.
Qed.

(** soil_type[4] is read in a column of two layers. *)
Lemma ti_move : lgar_move_wetting_fronts ti_env (Fin 1) (Fin 0) 1 (Fin (176 / 5)) (Fin 0) ti_head ti_head = Stop (UB OutOfBounds).
Proof.
  unfold lgar_move_wetting_fronts. change (aget (e_cum ti_env) (e_nlayers ti_env)) with (Ok (Fin 100)). cbn [bind].
  change (listLength ti_head) with 4%Z. change (length ti_head) with 4%nat.
  destruct ti_move_loop as (th & psi & E). rewrite E. cbn [bind ti_head]. unfold closure.
  destruct (ti_cross th psi) as (th' & psi' & d' & psi2 & K & th2 & EC). rewrite EC. reflexivity.
Qed.

Theorem ti_update : Update ti_start = Stop (UB OutOfBounds).
Proof.
  apply sf_stop with (w := 176 / 5) (aet := Fin 0).
  - lra.
  - exact ti_mass.
  - reflexivity.
  - unfold dgtb. rewrite ltb_f by lra. reflexivity.
  - exact ti_move.
Qed.

(** ** A front that dries out below the residual water content *)

Lemma uf_sound : sound_state uf_start.
Proof.
  constructor.
  - constructor; change (e_nlayers (env_of uf_start)) with 1%Z.
    + lia.
    + intros k Hk. assert (k = 0 \/ k = 1)%Z as [->| ->] by lia; eexists; (split; [reflexivity|reflexivity]).
    + intros k z z' Hk E1 E2. assert (k = 0)%Z as -> by lia; apply Ok_inj in E1, E2; injection E1 as <-; injection E2 as <-; lra.
    + intros k Hk. assert (k = 1)%Z as -> by lia. eexists; reflexivity.
    + intros k Hk. assert (k = 1)%Z as -> by lia. eexists; reflexivity.
  - apply profile_scan; [discriminate|]. split.
    + intros i f E. do 2 (destruct i as [|i]; [injection E as <-; reflexivity|]). destruct i; discriminate.
    + cbn -[Z.le]. repeat split; try reflexivity; lia.
  - intros f E. injection E as <-. reflexivity.
  - split; [eexists; reflexivity|]. split; [eexists; reflexivity|]. split; [|eexists; reflexivity]. cbn. apply Rltb_false. lra.
  - cbn. lia.
Qed.

Lemma uf_aet : calc_aet ex_env (Fin (4 * (1 / 10))) (Fin 1) (Fin 75) (Fin 75) uf_head = Ok (Fin (2 / 5)).
Proof.
  unfold calc_aet. cbn [uf_head lget nth_error bind f_layer]. change (soil_of ex_env 1) with (Ok ex_soil). cbn [bind]. rewrite un_theta.
  change (lit 1) with (Fin 1). change (lit 2) with (Fin 2). change (lit 3) with (Fin 3).
  replace ((Fin (17 / 50) - Fin (17 / 50)) * Fin 1 / Fin 2 + Fin (17 / 50))%d with (Fin (17 / 50))
    by (cbn; destruct (Req_EM_T _ _); [lra|cbn; f_equal; lra]).
  rewrite un_psi. cbn [f_psi]. rewrite (div_fin 0 75) by lra. replace (0 / 75) with 0 by lra. rewrite pow_zero by lra.
  replace (Fin 1 + Fin 0)%d with (Fin 1) by (cbn; f_equal; lra). rewrite div_fin by lra.
  replace (Fin (4 * (1 / 10)) * Fin (1 / 1) * Fin 1)%d with (Fin (2 / 5)) by (cbn; f_equal; lra).
  replace (Fin (4 * (1 / 10)) * Fin 1)%d with (Fin (2 / 5)) by (cbn; f_equal; lra).
  unfold dgtb. rewrite !ltb_f by lra. reflexivity.
Qed.

Lemma uf_mass : lgar_calc_mass_bal [Fin 0; Fin 100] uf_head = Ok (Fin (1703 / 50)).
Proof. cbn. f_equal. f_equal. lra. Qed.

Lemma uf_move : lgar_move_wetting_fronts ex_env (Fin 1) (Fin 0) 1 (Fin (1703 / 50)) (Fin (2 / 5)) uf_head uf_head = Stop (UB UseAfterFree).
Proof.
  unfold lgar_move_wetting_fronts. change (aget (e_cum ex_env) (e_nlayers ex_env)) with (Ok (Fin 100)). cbn [bind].
  change (listLength uf_head) with 2%Z. change (length uf_head) with 2%nat. cbn [move_loop].
  change (move_one ex_env (Fin 1) (Fin 0) 1 uf_head 2 (Z.of_nat 2) uf_head (Fin (2 / 5))) with (Ok (uf_head, Fin (2 / 5))). cbn [bind].
  unfold move_one. change (Z.of_nat 1) with 1%Z.
  change (findFrontOld 1 uf_head uf_head) with (uf_head, Some 0%nat). change (findFrontOld (1 + 1) uf_head uf_head) with (uf_head, Some 1%nat).
  change (findFront 1 uf_head) with (Some 0%nat). change (findFront (1 + 1) uf_head) with (Some 1%nat). cbv iota.
  set (c := mkF (Fin 1) (Fin (2 / 5)) (Fin 0) (Fin 1) 1 1 false (Fin (1 / 10))).
  set (n := mkF (Fin 100) (Fin (17 / 50)) (Fin 75) (Fin (1 / 10)) 1 2 true (Fin 0)).
  change (lget uf_head 0) with (Ok c). cbn [bind]. change (f_layer c) with 1%Z.
  change (soil_of ex_env 1) with (Ok ex_soil). cbn [bind]. change (1 =? 1)%Z with true. change ((1 =? 2)%Z) with false. cbv iota. cbn [bind orb].
  change (pget uf_head (Some 1%nat)) with (Ok n). cbn [bind]. change (f_layer n) with 1%Z.
  change ((1 <? 2)%Z && negb (1 =? 1)%Z)%bool with false. change (false && negb (1 =? 1)%Z && (2 =? e_nlayers ex_env)%Z)%bool with false.
  change ((1 <? 2)%Z && (1 =? 1)%Z)%bool with true. cbv iota.
  change (pget uf_head (Some 0%nat)) with (Ok c). cbn [bind].
  change (aget (e_cum ex_env) (e_nlayers ex_env)) with (Ok (Fin 100)). cbn [bind].
  change (f_depth c) with (Fin 1). change (f_dzdt c) with (Fin (1 / 10)). change (f_theta c) with (Fin (2 / 5)). change (f_theta n) with (Fin (17 / 50)).
  replace (dfmin (Fin 1 + Fin (1 / 10) * Fin 1)%d (Fin 100)) with (Fin (11 / 10))
    by (cbn; unfold Rltb; destruct (Rlt_dec _ _); [f_equal; lra|lra]).
  change (f_dzdt (set_depth c (Fin (11 / 10)))) with (Fin (1 / 10)). rewrite eqb_f by lra. cbn [andb].
  change (water_added 1 1 (Fin 0) (Fin (2 / 5))) with (Fin 0 - (Fin 0 + Fin (2 / 5)))%d.
  change (s_theta_r ex_soil) with (Fin (1 / 10)).
  replace ((Fin 1 * (Fin (2 / 5) - Fin (17 / 50)) + (Fin 0 - (Fin 0 + Fin (2 / 5)))) / Fin (11 / 10) + Fin (17 / 50))%d with (Fin (17 / 550))
    by (cbn; destruct (Req_EM_T _ _); [lra|cbn; f_equal; lra]).
  rewrite ltb_t by lra. reflexivity.
Qed.

Theorem uf_update : Update uf_start = Stop (UB UseAfterFree).
Proof.
  apply sf_stop with (w := 1703 / 50) (aet := Fin (2 / 5)).
  - lra.
  - exact uf_mass.
  - reflexivity.
  - unfold dgtb. rewrite ltb_t by lra. exact uf_aet.
  - exact uf_move.
Qed.

Lemma ti_refutes : exists s, sound_state s /\ ready s /\ Update s = Stop (UB OutOfBounds).
Proof. exists ti_start. split; [exact ti_sound|]. split; [apply sf_ready|exact ti_update]. Qed.
Lemma uf_refutes : exists s, sound_state s /\ ready s /\ p_nlayers (st_p s) = 1%Z /\ Update s = Stop (UB UseAfterFree).
Proof. exists uf_start. split; [exact uf_sound|]. split; [apply sf_ready|]. split; [reflexivity|exact uf_update]. Qed.
End Run.
