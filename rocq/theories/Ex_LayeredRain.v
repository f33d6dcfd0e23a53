(** A column of two layers with a moving front and rain: one Update of one sub-step of four hours. *)

From Coq Require Import Reals Lra ZArith List Lia Bool.
From RecordUpdate Require Import RecordSet.
From Verif Require Import Outcome Dbl Exact Types ListOps Soil Giuh Fronts Infil Move State Update Lib Spec_Common Spec_Soil Spec_List Spec_Profile Spec_Storage Spec_Update Spec_Velocity Spec_Column
  Spec_Advance Spec_Balance Spec_Shares Spec_Physical Spec_Motion Spec_Upright Spec_Layered Pf_Dbl Pf_Pow Pf_Update Pf_Clock Pf_Profile Pf_Soil Pf_Structure Pf_Physical Pf_Level Pf_Motion Pf_Motion2 Pf_Drier Pf_Drier2
  Ex_Saturated Ex_Unsaturated Ex_Safety Ex_Physical Ex_Velocity Ex_Advance Ex_Books Ex_Motion Ex_Layered.
Import ListNotations.
Import RecordSetNotations.
Open Scope R_scope.
Local Existing Instance exact.

(** 0.6 mm of rain per hour, 35.2 cm of water in the column. *)
Definition ra_params : params :=
  mkParams 2 [Fin 0; Fin 25; Fin 75] [Fin 0; Fin 25; Fin 100] [None; Some 1%Z; Some 1%Z] [Fin 1; Fin 1; Fin 1] 3 0 [] [] [] []
    (Fin 4) (Fin 4) (Fin 4) 1 (Fin 15495) (Fin 15495) true false (Fin 0) (Fin 0) 120 (Fin 0) (Fin 72000) 0 false false false.
Definition ra_start : state :=
  mkState bk_head bk_head [None; Some ex_soil] ra_params (ex_mb0 <| mb_start := Fin (176 / 5) |>) (Fin (3 / 5)) (Fin 0) ex_cal None 1 [Fin 1] [Fin 0; Fin 0].
Definition ra_upar : upar := mkU ti_env (Fin 4) 120 true (Fin 15495) (Fin 15495) (Fin 0).
Definition ra_acc : acc := acc0 (Fin (storage bk_head)) (Fin 0).
Definition ra_top : front := mkF (Fin 20) (Fin (2 / 5)) (Fin 0) (Fin 1) 1 1 false (Fin 1).

Lemma ra_storage : storage bk_head = 176 / 5.
Proof. unfold storage, slabs. cbn. lra. Qed.
Lemma bk_str : Str ti_env bk_head.
Proof. apply Str_iff; [cbn; lia|]. split; [exact bk_profile|]. intros f E. injection E as <-. reflexivity. Qed.
Lemma bk_measured : measured bk_head.
Proof. repeat (apply Forall_cons || apply Forall_nil); split; eexists; reflexivity. Qed.

Lemma bk_orderly : orderly 1 ti_env bk_head.
Proof.
  constructor.
  - exact bk_profile.
  - intros f E. injection E as <-. reflexivity.
  - exact bk_physical.
  - repeat (apply Forall_cons || apply Forall_nil); (split; [eexists; reflexivity|]); [exists 0|exists 0|exists 25]; (split; [reflexivity|cbn; lra]).
  - repeat (apply Forall_cons || apply Forall_nil); [exists 20, 1|exists 25, 0|exists 100, 0]; (split; [reflexivity|]; split; [reflexivity|]; split; [lra|]); [intros; lra|discriminate|discriminate].
  - exact bk_drier.
  - exact bk_meet.
Qed.

Lemma ra_layered : layered 1 bk_column ra_start /\ fresh ra_start.
Proof.
  split.
  - constructor; try reflexivity.
    + exact ti_layers.
    + exact bk_orderly.
    + exact ve_capillary.
    + exists 0. split; [reflexivity|lra].
    + exists 4, 4, 4. repeat split; lra.
    + exists 0. split; [reflexivity|lra].
    + eexists. reflexivity.
  - split; [exists (176 / 5); split; [|reflexivity]|repeat split].
    change (lgar_calc_mass_bal (e_cum ti_env) bk_head = Ok (Fin (176 / 5))). rewrite (mass_of ti_env ti_env_sound eq_refl bk_head bk_str bk_measured), ra_storage. reflexivity.
Qed.

Section Run.
Context {cfg : Cfg}.

Lemma ra_create : forall pp pc w, create_decision ti_env bk_head pp pc w = Ok false.
Proof.
  intros pp pc w. unfold create_decision. change (lget bk_head 0) with (Ok ra_top). cbn [bind]. change (soil_of ti_env (f_layer ra_top)) with (Ok ex_soil). cbn [bind].
  change (f_theta ra_top) with (Fin (2 / 5)). change (s_theta_e ex_soil) with (Fin (2 / 5)).
  replace ((Fin (2 / 5) + lit (1 / 1000000000000) >=? Fin (2 / 5))%d) with true; [reflexivity|]. symmetry. cbn. unfold dgeb. apply leb_t. lra.
Qed.

(** All the rain can enter. *)
Lemma ra_capacity : exists f, infiltration_capacity ti_env true 120 (Fin 4) (Fin 0) (Fin (6 / 25)) (Fin (3 / 50)) 1 bk_head = Ok (Fin f) /\ 1 <= f.
Proof.
  destruct (ve_geff cfg) as (G & EG & HG0 & _). unfold infiltration_capacity.
  replace (dfmax (Fin (6 / 25) - Fin (3 / 50) * Fin 4)%d (Fin 0)) with (Fin 0) by (cbn; unfold Rltb; destruct (Rlt_dec _ _); [reflexivity|f_equal; lra]).
  change (pget bk_head (findFront 1 bk_head)) with (Ok ra_top). cbn [bind]. change (f_layer ra_top) with 1%Z.
  change (soil_of ti_env 1) with (Ok ex_soil). cbn [bind]. change (lget bk_head 0) with (Ok ra_top). cbn [bind].
  change (aget (e_frozen ti_env) (f_layer ra_top)) with (Ok (Fin 1)). cbn [bind]. change (s_Ksat ex_soil * Fin 1)%d with (Fin (1 * 1)).
  change (listLength bk_head =? e_nlayers ti_env)%Z with false. cbv iota. change (pget bk_head (findFront (1 + 1) bk_head)) with (Ok (ti_front 25 0 1 2 true)). cbn [bind].
  change (s_theta_e ex_soil) with (Fin (2 / 5)). change (f_theta (ti_front 25 0 1 2 true)) with (Fin (17 / 50)). rewrite EG. cbn [bind].
  change (1 =? 1)%Z with true. cbv iota. cbn [bind]. change (soil_of ti_env (f_layer ra_top)) with (Ok ex_soil). cbn [bind].
  change (1 =? e_nlayers ti_env)%Z with false. cbn [andb].
  rewrite (mass_of ti_env ti_env_sound eq_refl bk_head bk_str bk_measured), ra_storage. cbn [bind].
  replace (max_storage ti_env) with (@Ok dbl (Fin 40)) by (symmetry; reval; feq). cbn [bind].
  change (f_depth ra_top) with (Fin 20). change (lit 1) with (Fin 1). cbn [dadd dsub rnd exact]. rewrite !div_fin by lra. cbn [dadd dmul rnd exact].
  destruct (_ >? _)%d.
  - eexists. split; [reflexivity|]. lra.
  - eexists. split; [reflexivity|]. lra.
Qed.

Definition ra_begin : sub := mkSub bk_head bk_head (Fin 0) (Fin (6 / 25)) (Fin 0) (Fin 0) (Fin 0) (Fin 0).
Definition ra_entered : sub := mkSub bk_head bk_head (Fin 0) (Fin 0) (Fin (6 / 25)) (Fin 0) (Fin 0) (Fin 0).

Lemma ra_insert : sub_insert ra_upar 1 (Fin (3 / 50)) ra_begin = Ok ra_entered.
Proof.
  unfold sub_insert, ra_upar, ra_begin. cbn [u_env u_closed u_nint u_dt u_pmax b_aet b_ponded b_volin b_head b_prev b_rech]. unfold lgar_insert_water.
  destruct ra_capacity as (f & E & Hf). rewrite E. cbn [bind]. unfold surface_partition. unfold dgtb at 1. rewrite ltb_f by lra. rewrite div_fin by lra. cbn [dmul dadd rnd exact].
  rewrite ltb_t by (unfold Rdiv; lra).
  replace (dfmin (Fin (6 / 25)) (Fin (f * 4 + 0 / 4))) with (Fin (6 / 25)) by (cbn; unfold Rltb; destruct (Rlt_dec _ _); first [reflexivity|f_equal; unfold Rdiv in *; lra]).
  rewrite ltb_f by lra. reflexivity.
Qed.

(** The fronts after the motion. *)
Definition ra_K : dbl := K_of_Se ex_soil (Se_of_theta ex_soil (Fin (17 / 50))) (Fin 1 * Fin 1)%d.
Definition ra_moved : list front :=
  [mkF (Fin 24) (Fin (2 / 5)) (Fin 0) (Fin 1) 1 1 false (Fin 1); mkF (Fin 25) (Fin (17 / 50)) (Fin 75) ra_K 1 2 true (Fin 0); ti_front 100 0 2 3 true].

Lemma ra_K_pos : exists k, ra_K = Fin k /\ 0 <= k.
Proof.
  assert (S : Se_of_theta ex_soil (Fin (17 / 50)) = Fin (4 / 5)) by (cbn; destruct (Req_EM_T _ _); [lra|cbn; f_equal; field]).
  unfold ra_K, K_of_Se. rewrite S. change (Fin 1 * Fin 1)%d with (Fin (1 * 1)). change (s_m ex_soil) with (Fin (1 / 2)). rewrite K_of_Se_is by lra.
  eexists. split; [reflexivity|]. apply vg_K_range; lra.
Qed.

Lemma ra_refreshed : refresh_psi ti_env wt_after = Ok ra_moved.
Proof.
  unfold wt_after. cbn [refresh_psi]. cbn [f_psi ti_front]. rewrite ex_psi. unfold dgtb. change (lit 1) with (Fin 1). rewrite ltb_f by lra. cbn [bind]. rewrite ltb_t by lra.
  change (soil_of ti_env _) with (Ok ex_soil). cbn [bind]. change (aget (e_frozen ti_env) _) with (Ok (Fin 1)). cbn [bind f_theta ti_front]. rewrite un_psi. reflexivity.
Qed.

Lemma ra_velocity : exists v, lgar_dzdt_calc ti_env true 120 (Fin 0) ra_moved =
  Ok [mkF (Fin 24) (Fin (2 / 5)) (Fin 0) (Fin 1) 1 1 false v; mkF (Fin 25) (Fin (17 / 50)) (Fin 75) ra_K 1 2 true (Fin 0); ti_front 100 0 2 3 true].
Proof.
  destruct (ve_geff cfg) as (G & EG & _). destruct ra_K_pos as (k & EK & HK). unfold lgar_dzdt_calc, ra_moved. cbn [dzdt_loop f_K ti_front]. rewrite EK. rewrite !ltb_f by lra.
  change (soil_of ti_env _) with (Ok ex_soil). cbn [bind]. change (aget (e_frozen ti_env) _) with (Ok (Fin 1)). cbn [bind f_bottom f_layer].
  unfold dzdt_front. cbn [f_layer f_theta f_depth f_K f_psi f_bottom].
  change (soil_of ti_env _) with (Ok ex_soil). cbn [bind]. change (aget (e_frozen ti_env) _) with (Ok (Fin 1)). cbn [bind].
  change (1 >? 1)%Z with false. cbv iota. cbn [bind]. unfold dgtb at 1. rewrite ltb_f by lra. change (s_Ksat ex_soil * Fin 1)%d with (Fin (1 * 1)). rewrite EG. cbn [bind].
  change (1 =? 1)%Z with true. cbv iota. cbn [bind]. eexists. reflexivity.
Qed.

Lemma ra_hydro : forall pp, exists v, sub_hydro ra_upar pp (Fin (3 / 50)) (Fin 0) (Fin (6 / 25)) (Fin 0) (Fin (6 / 25)) (Fin (storage bk_head)) bk_head bk_head =
  Ok (mkSub (mkF (Fin 24) (Fin (2 / 5)) (Fin 0) (Fin 1) 1 1 false v :: tl ra_moved) bk_head (Fin 0) (Fin 0) (Fin (6 / 25)) (Fin 0) (Fin 0) (Fin 0)).
Proof.
  intro pp. destruct ra_velocity as (v & EV). exists v. unfold sub_hydro. change (u_env ra_upar) with ti_env. change (u_dt ra_upar) with (Fin 4). change (u_closed ra_upar) with true. change (u_nint ra_upar) with 120%Z.
  unfold dgtb at 1. rewrite ltb_f by lra. cbn [bind]. rewrite ra_create. cbn [bind b_ponded]. unfold dgtb at 1. rewrite ltb_t by lra. cbn [andb negb].
  change (wetting_front_free_drainage bk_head) with 1%Z. fold ra_begin. rewrite ra_insert. cbn [bind]. unfold sub_move, ra_entered.
  change (u_env ra_upar) with ti_env. change (u_dt ra_upar) with (Fin 4). cbn [b_volin b_aet b_head b_prev b_ponded b_runoff b_on].
  destruct (@wt_still cfg) as (_ & _ & _ & l' & ME & _ & RE). rewrite ra_refreshed in RE. apply Ok_inj in RE. subst l'. cbv zeta in ME. rewrite ME. cbn [bind b_ponded b_head b_prev b_aet b_volin b_runoff b_on b_rech].
  rewrite EV. reflexivity.
Qed.

Lemma ra_at : forall (A : Type) (P : upar -> dbl -> dbl -> dbl -> dbl -> dbl -> dbl -> dbl -> list front -> list front -> A),
  at_step P ra_upar ra_start ra_acc = P ra_upar (Fin 0) (Fin (3 / 50)) (Fin 0) (Fin (6 / 25)) (Fin 0) (Fin (6 / 25)) (Fin (storage bk_head)) bk_head bk_head.
Proof.
  intros A P. unfold at_step. change (u_dt ra_upar) with (Fin 4). change (a_on ra_acc) with (Fin 0). change (a_end ra_acc) with (Fin (storage bk_head)).
  replace (dfmax (st_precip ra_start) (Fin 0)) with (Fin (3 / 5)) by (cbn; unfold Rltb; destruct (Rlt_dec _ _); [lra|reflexivity]).
  replace (dfmax (st_pet ra_start) (Fin 0)) with (Fin 0) by (cbn; unfold Rltb; destruct (Rlt_dec _ _); reflexivity).
  change mm_to_cm with (Fin (1 / 10)). replace (Fin 0 * Fin (1 / 10))%d with (Fin 0) by (cbn; f_equal; ring). replace (Fin (3 / 5) * Fin (1 / 10))%d with (Fin (3 / 50)) by (cbn; f_equal; field).
  replace (Fin (3 / 50) * Fin 4)%d with (Fin (6 / 25)) by (cbn; f_equal; field). replace (Fin (6 / 25) + Fin 0)%d with (Fin (6 / 25)) by (cbn; f_equal; ring).
  rewrite ex_clean by lra. reflexivity.
Qed.

Lemma ra_motion : forall vin aet, hydro_motion ra_upar (Fin 0) (Fin (3 / 50)) (Fin 0) (Fin (6 / 25)) (Fin 0) (Fin (6 / 25)) bk_head bk_head vin aet <-> vin = Fin (6 / 25) /\ aet = Fin 0.
Proof.
  intros vin aet. unfold hydro_motion. change (u_env ra_upar) with ti_env. unfold dgtb. rewrite ltb_f, ltb_t by lra. rewrite ra_create.
  change (wetting_front_free_drainage bk_head) with 1%Z. fold ra_begin. split.
  - intros (aet0 & create & EA & EC & HB). apply Ok_inj in EA, EC. subst aet0 create. destruct HB as (b & EB & -> & ->). fold ra_begin in EB. rewrite ra_insert in EB. apply Ok_inj in EB. subst b. auto.
  - intros [-> ->]. exists (Fin 0), false. do 2 (split; [reflexivity|]). exists ra_entered. split; [exact ra_insert|]. auto.
Qed.

Lemma ra_tie : ~ step_tie ra_upar ra_start ra_acc.
Proof.
  change (~ at_step hydro_tie ra_upar ra_start ra_acc). rewrite ra_at. intros (aet & create & EA & EC & HT). change (u_env ra_upar) with ti_env in *. unfold dgtb in EA. rewrite ltb_f in EA by lra. apply Ok_inj in EA. subst aet.
  rewrite ra_create in EC. apply Ok_inj in EC. subst create. destruct HT as (b & EB & HT). unfold dgtb in EB. rewrite ltb_t in EB by lra.
  change (wetting_front_free_drainage bk_head) with 1%Z in *. fold ra_begin in EB. rewrite ra_insert in EB. apply Ok_inj in EB. subst b. exact (proj1 (@wt_still cfg) HT).
Qed.

Lemma ra_upright : step_upright ra_upar ra_start ra_acc.
Proof.
  unfold step_upright. rewrite ra_at. split.
  - intros vin aet H. apply ra_motion in H as [-> ->]. intros l a Q. change (u_env ra_upar) with ti_env in Q. change (u_dt ra_upar) with (Fin 4) in Q. change (wetting_front_free_drainage bk_head) with 1%Z in Q.
    change (length bk_head) with 3%nat in Q. change (listLength bk_head) with 3%Z in Q. rewrite wt_wets in Q. apply Ok_inj in Q. apply pair_equal_spec in Q as [<- _]. exact wt_after_order.
  - intros aet l aet' pd dry d h s0 ff _ EC. change (u_env ra_upar) with ti_env in EC. rewrite ra_create in EC. discriminate.
Qed.

(** How far it may be off, by its gap and by the tolerance for its three fronts. *)
Definition ra_off : R := Rmax (Rabs 0) (2 / 10000000000).
Definition ra_off_wet : R := Rmax (3 * tol + (0 - 0)) (2 / 10000000000).
Lemma ra_gap : off_by ra_upar ra_start ra_acc ra_off.
Proof.
  apply off_gap. unfold step_gap. rewrite ra_at. exists (6 / 25), (Fin 0), wt_after, 0. split; [apply ra_motion; auto|]. split; [exact wt_wets|]. rewrite wt_storage. cbn [val]. ring.
Qed.
Lemma ra_wet : off_by ra_upar ra_start ra_acc ra_off_wet.
Proof.
  unfold ra_off_wet. replace 3 with (INR (length (st_head ra_start))) by (cbn; lra). apply (off_wet _ _ _ ra_top (tl bk_head) (6 / 25) 0 0); [reflexivity|reflexivity| |].
  - exists 100. split; [reflexivity|]. repeat (apply Forall_cons || apply Forall_nil); cbn; lra.
  - unfold step_met. rewrite ra_at. split; [apply ra_motion; auto|]. exists wt_after. exact wt_wets.
Qed.

(** The state and the totals after it; [v] is the new velocity. *)
Definition ra_head (v : dbl) : list front := mkF (Fin 24) (Fin (2 / 5)) (Fin 0) (Fin 1) 1 1 false v :: tl ra_moved.
Definition ra_next (v : dbl) : state :=
  ra_start <| st_head := ra_head v |> <| st_p := ra_params <| p_time := Fin 14400 |> <| p_timesteps := 1%Z |> <| p_precip_prev := Fin (6 / 25) |> |>
           <| st_mb := (st_mb ra_start) <| mb_local := Some (Fin 0) |> |>.
Definition ra_acc' : acc := mkAcc (Fin (6 / 25)) (Fin 0) (Fin 0) (Fin (886 / 25)) (Fin (6 / 25)) (Fin 0) (Fin 0) (Fin 0).

Lemma ra_mass : forall v, lgar_calc_mass_bal [Fin 0; Fin 25; Fin 100] (ra_head v) = Ok (Fin (886 / 25)).
Proof. intro v. reval. feq. Qed.

Lemma ra_substep : exists v, substep ra_upar ra_start ra_acc = Ok (ra_next v, ra_acc').
Proof.
  destruct (ra_hydro (Fin 0)) as (v & EH). exists v. unfold substep. change (u_dt ra_upar) with (Fin 4). change (a_on ra_acc) with (Fin 0). change (a_end ra_acc) with (Fin (storage bk_head)).
  replace (dfmax (st_precip ra_start) (Fin 0)) with (Fin (3 / 5)) by (cbn; unfold Rltb; destruct (Rlt_dec _ _); [lra|reflexivity]).
  replace (dfmax (st_pet ra_start) (Fin 0)) with (Fin 0) by (cbn; unfold Rltb; destruct (Rlt_dec _ _); reflexivity).
  change mm_to_cm with (Fin (1 / 10)). replace (Fin 0 * Fin (1 / 10))%d with (Fin 0) by (cbn; f_equal; ring). replace (Fin (3 / 5) * Fin (1 / 10))%d with (Fin (3 / 50)) by (cbn; f_equal; field).
  replace (Fin (3 / 50) * Fin 4)%d with (Fin (6 / 25)) by (cbn; f_equal; field). replace (Fin (6 / 25) + Fin 0)%d with (Fin (6 / 25)) by (cbn; f_equal; ring).
  replace (Fin 0 * Fin 4)%d with (Fin 0) by (cbn; f_equal; ring). rewrite ex_clean by lra.
  match goal with |- context [lgar_calc_mass_bal ?a ?b] => change (lgar_calc_mass_bal a b) with (lgar_calc_mass_bal (e_cum ti_env) bk_head) end.
  rewrite (mass_of ti_env ti_env_sound eq_refl bk_head bk_str bk_measured). cbn [bind].
  change (st_head ra_start) with bk_head. change (listCopy bk_head) with bk_head.
  match goal with |- context [sub_hydro ?a ?b ?c0 ?d ?ee ?g ?h ?i ?j ?k] => change (sub_hydro a b c0 d ee g h i j k) with
    (sub_hydro ra_upar (Fin 0) (Fin (3 / 50)) (Fin 0) (Fin (6 / 25)) (Fin 0) (Fin (6 / 25)) (Fin (storage bk_head)) bk_head bk_head) end.
  rewrite EH. cbn [bind b_head b_prev b_runoff b_aet b_on b_rech b_volin]. fold (ra_head v).
  match goal with |- context [lgar_calc_mass_bal ?a ?b] => change (lgar_calc_mass_bal a b) with (lgar_calc_mass_bal [Fin 0; Fin 25; Fin 100] (ra_head v)) end.
  rewrite ra_mass. cbn [bind].
  match goal with |- context [local_balance ?a ?b ?c ?dd ?e ?g ?h ?i] => replace (local_balance a b c dd e g h i) with (Fin 0) by (rewrite ra_storage; cbn; f_equal; lra) end.
  replace (dabs (Fin 0) >? lit (1 / 10000))%d with false by (symmetry; cbn; rewrite Rabs_R0; apply Rltb_false; lra).
  change (lget (ra_head v) 0) with (Ok (mkF (Fin 24) (Fin (2 / 5)) (Fin 0) (Fin 1) 1 1 false v)). cbn [bind f_depth]. unfold dgtb. rewrite ltb_t by lra. cbn [cassert bind].
  replace (dfmax (Fin 0) (Fin 0)) with (Fin 0) by (cbn; unfold Rltb; destruct (Rlt_dec _ _); reflexivity).
  unfold ra_acc, acc0. cbn [a_precip a_pet a_aet a_in a_runoff a_rech].
  replace (Fin 0 + Fin 0)%d with (Fin 0) by (cbn; f_equal; lra). replace (Fin 0 + Fin (6 / 25))%d with (Fin (6 / 25)) by (cbn; f_equal; lra).
  unfold ra_next. apply f_equal. apply f_equal2; [|reflexivity].
  replace (p_time (st_p ra_start) + Fin 4 * hr_to_sec)%d with (Fin 14400) by (cbn; f_equal; lra). reflexivity.
Qed.

Lemma ra_steps : update_steps ra_start = Ok (ra_start, Fin 4, 1%Z).
Proof.
  unfold update_steps. change (p_adaptive (st_p ra_start)) with false. cbv iota zeta.
  match goal with |- context [d2i ?x] => change x with (Fin 4 / Fin 4 + lit (1 / 100000000))%d end.
  replace (d2i (Fin 4 / Fin 4 + lit (1 / 100000000))%d) with (Ok 1%Z); [reflexivity|].
  rewrite div_fin by lra. change (lit (1 / 100000000)) with (Fin (1 / 100000000)). cbn [dadd rnd exact d2i].
  replace (trunc (4 / 4 + 1 / 100000000)) with 1%Z; [reflexivity|]. symmetry. apply trunc_nat; [lia|]. lra.
Qed.

Definition ra_x (v : dbl) : step := mkStep ra_start ra_acc (ra_next v) ra_acc'.

Lemma ra_update : exists v s', substep ra_upar ra_start ra_acc = Ok (ra_next v, ra_acc') /\ executed ra_start ra_upar [ra_x v] s'.
Proof.
  destruct ra_substep as (v & SB). exists v.
  assert (R : exists s', finish_update (ra_next v) ra_acc' (Fin 0) = Ok s').
  { unfold finish_update.
    match goal with |- context [giuh_convolution_integral ?a ?b ?c ?dd] => replace (giuh_convolution_integral a b c dd) with (@Ok (dbl * list dbl) (Fin 0, [Fin 0; Fin 0])) end.
    2: { symmetry. reval. feq. }
    cbn [bind]. match goal with |- context [mb_local ?x] => change (mb_local x) with (Some (Fin 0)) end. cbv iota zeta. eexists. reflexivity. }
  destruct R as (s' & R). exists s'. split; [exact SB|].
  assert (M : lgar_calc_mass_bal (p_cum (st_p ra_start)) (st_head ra_start) = Ok (Fin (storage bk_head))) by exact (mass_of ti_env ti_env_sound eq_refl bk_head bk_str bk_measured).
  split.
  - unfold Update. change (p_invalid (st_p ra_start)) with false. cbv iota.
    change (update_prologue ra_start) with (Ok (ra_start, Fin 0)). cbn [bind]. rewrite M. cbn [bind].
    change (st_precip ra_start) with (Fin (3 / 5)). change (st_pet ra_start) with (Fin 0). unfold dgeb. rewrite !leb_t by lra. cbn [cassert bind].
    rewrite ra_steps. cbn [bind]. change (Z.to_nat 1) with 1%nat. cbn [subcycle_loop].
    match goal with |- context [substep ?u ?s ?a] => change (substep u s a) with (substep ra_upar ra_start ra_acc) end.
    rewrite SB. cbn [bind].
    match goal with |- context [if ?c then Ok ?x else Ok ?x] => replace (if c then Ok x else Ok x) with (Ok x) by (destruct c; reflexivity) end.
    cbn [bind]. exact R.
  - change (p_invalid (st_p ra_start)) with false. cbv iota.
    exists ra_start, (Fin 0), (Fin (storage bk_head)), ra_start, 1%Z, (ra_next v), ra_acc'.
    split; [reflexivity|]. split; [exact M|]. split; [apply ra_steps|]. split; [reflexivity|].
    split; [econstructor; [exact SB|constructor]|]. split; [|exact R]. cbn. auto.
Qed.

Lemma ra_undisturbed : forall v, undisturbed ra_upar (ra_x v).
Proof.
  intro v. split; [exact ra_tie|]. split; [exact ra_upright|]. change (st_head (x_s' (ra_x v))) with (ra_head v). change (u_env ra_upar) with ti_env.
  repeat (apply Forall_cons || apply Forall_nil); (split; [eexists; reflexivity|]); [exists 0|exists 0|exists 25]; (split; [reflexivity|cbn; lra]).
Qed.
End Run.
