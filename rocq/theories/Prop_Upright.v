(** C82: a motion whose pass leaves the fronts of each layer drier downwards. *)

From Coq Require Import Reals Lra ZArith List Lia Bool.
From Verif Require Import Outcome Dbl Exact Types ListOps Soil Fronts Infil Move State Update Lib Spec_Common Spec_Soil Spec_List Spec_Profile Spec_Storage Spec_Update Spec_Column
  Spec_Advance Spec_Balance Spec_Shares Spec_Physical Spec_Motion Spec_Upright Pf_Profile Pf_Structure Pf_Physical Pf_Level Pf_Motion Pf_Motion2 Pf_Drier Pf_Drier2 Prop_Motion
  Ex_Saturated Ex_Safety Ex_TwoLayers Ex_Physical Ex_Advance Ex_Books Ex_Motion.
Import ListNotations.
Open Scope R_scope.

(** ** C82 *)

(** Nothing that vanishes is divided by, and none of the three repairs finds a front that is not wetter than the one below it. *)
Theorem C82_nothing_vanishes :
  forall (cfg : Cfg) (M : R) (e : env) (dt : R) (vin old aet : dbl) (wfd : Z) (head prev : list front),
    sound_column M e -> profile (e_nlayers e) (e_cum e) head -> deepest_rests head -> Forall (physical_front M e) head -> Forall moving head -> numbered prev -> length prev = length head ->
    ~ @move_tie exact cfg e (Fin dt) vin wfd old aet head prev -> @pass_upright exact cfg e (Fin dt) vin wfd aet head prev ->
    ~ @move_degenerate exact cfg e (Fin dt) vin wfd old aet head prev /\ ~ @move_inverted exact cfg e (Fin dt) vin wfd old aet head prev.
Proof.
  intros cfg M e dt vin old aet wfd head prev (HE & HV & HM & HF & H0) HP HR P N HN HL HT HU. assert (HS := to_str e head HE HP HR). apply to_phys in P; [|assumption].
  exact (move_calm e M HV HM HF HE (Fin dt) vin wfd old aet head prev HS P N HN HL ltac:(exists dt; reflexivity) HT HU).
Qed.
Print Assumptions C82_nothing_vanishes.

(** The ledger of the motion is then exact after the closure of the balance: merging, layer crossing and the repairs change no storage, and only the flux [q3] leaves the column.
    The fronts that result are drier downwards again, and their heads meet at the layer boundaries. *)
Theorem C82_upright_motion :
  forall (cfg : Cfg) (M : R) (e : env) (dt vin old a1 : R) (wfd : Z) (aet a' q : dbl) (head prev l1 l' : list front),
    sound_column M e -> profile (e_nlayers e) (e_cum e) head -> deepest_rests head -> Forall (physical_front M e) head -> Forall moving head -> numbered prev -> length prev = length head ->
    ~ @move_tie exact cfg e (Fin dt) (Fin vin) wfd (Fin old) aet head prev ->
    @move_loop exact cfg (length head) e (Fin dt) (Fin vin) wfd prev (listLength head) head aet = Ok (l1, Fin a1) -> drier_downwards l1 ->
    @lgar_move_wetting_fronts exact cfg e (Fin dt) (Fin vin) wfd (Fin old) aet head prev = Ok (l', a', q) ->
    exists s2 a2 q2 q3 : R,
      balance_closed (old + vin - a1) (storage l1) a1 s2 a2 q2 /\ q = Fin (q2 + q3) /\ a' = Fin a2 /\ storage l' = s2 - q3 /\
      Rabs (storage l' - (old + vin - val a' - val q)) <= Rmax (Rabs (storage l1 - (old + vin - a1))) (2 / 10000000000) /\
      drier_downwards l' /\ @heads_meet exact e l' /\ profile (e_nlayers e) (e_cum e) l' /\ deepest_rests l' /\ Forall (physical_front M e) l'.
Proof.
  intros cfg M e dt vin old a1 wfd aet a' q head prev l1 l' (HE & HV & HM & HF & H0) HP HR P N HN HL HT Q1 HD E. assert (HS := to_str e head HE HP HR). apply to_phys in P; [|assumption].
  assert (Fdt : finite (Fin dt)) by (exists dt; reflexivity).
  assert (M1 : measured l1) by exact (pass_measured e M HV HE _ _ _ _ _ _ _ _ HS P N HN HL Fdt Q1).
  assert (NI : ~ inverted l1) by (apply (upright l1 M1), dn_iff; exact HD).
  destruct (upright_motion e M HV HM HF HE H0 (Fin dt) vin wfd old aet head prev l1 a1 l' a' q HS P N HN HL Fdt HT Q1 NI E) as (s2 & a2 & q2 & q3 & A & B & C & D & S' & P' & M' & L' & D').
  exists s2, a2, q2, q3. do 4 (split; [assumption|]). destruct (profile_of e HE l' S') as [HP' HR'].
  split. { rewrite B, C, D. cbn [val]. pose proof (Rmax_l (Rabs (storage l1 - (old + vin - a1))) (2 / 10000000000)). pose proof (Rmax_r (Rabs (storage l1 - (old + vin - a1))) (2 / 10000000000)).
    destruct A as [(-> & -> & ->)|[(A1 & -> & ->)|(-> & ->)]].
    - replace (storage l1 - q3 - (old + vin - a1 - (0 + q3))) with (storage l1 - (old + vin - a1)) by ring. lra.
    - replace (s2 - q3 - (old + vin - a1 - (0 + q3))) with (s2 - (old + vin - a1)) by ring. lra.
    - match goal with |- Rabs ?z <= _ => replace z with 0 by ring end. rewrite Rabs_R0. pose proof (Rabs_pos (storage l1 - (old + vin - a1))). lra. }
  split; [apply dn_iff; exact D'|]. split; [apply (level_meet e M); assumption|]. split; [exact HP'|]. split; [exact HR'|]. apply of_phys; assumption.
Qed.
Print Assumptions C82_upright_motion.

(** The front that is created at the surface is wetter than the first front as long as that one is not saturated, there is water and the dry depth is positive. *)
Theorem C82_created_front_is_wetter :
  forall (s : soil) (ff : dbl) (ponded dry t te : R), s_theta_e s = Fin te -> t < te -> 0 < ponded -> 0 < dry ->
    t < val (f_theta (@surficial exact s ff (Fin ponded) (Fin dry) (Fin t))).
Proof. intros s ff ponded dry t te Ee Ht Hp Hd. exact (surficial_wetter s ff ponded dry t te Ee Ht Hp Hd). Qed.
Print Assumptions C82_created_front_is_wetter.

(** A sub-step as in C79 whose pass leaves the fronts drier downwards: nothing is said about divisions by zero. *)
Definition upright_step (cfg : Cfg) (M : R) (u : upar) (s : state) (a : acc) (p on dt r : R) : Prop :=
  sound_column M (env_of s) /\ profile (p_nlayers (st_p s)) (p_cum (st_p s)) (st_head s) /\ deepest_rests (st_head s) /\ u_env u = env_of s /\ finite (u_pmax u) /\ u_dt u = Fin dt /\ 0 <= dt /\
  Forall (physical_front M (env_of s)) (st_head s) /\ Forall moving (st_head s) /\ st_precip s = Fin p /\ a_on a = Fin on /\ 0 <= on /\ a_end a = Fin (storage (st_head s)) /\
  ~ @step_tie exact cfg u s a /\ @step_upright exact cfg u s a /\ @step_gap exact cfg u s a r.

Lemma to_calm : forall cfg M u s a p on dt r, upright_step cfg M u s a p on dt r -> @calm cfg (env_of s) M u s a p on dt r.
Proof.
  intros cfg M u s a p on dt r ((HE & HV & HM & HF & H0) & HP & HR & A1 & A2 & A3 & A4 & P & N & A5 & A6 & A7 & A8 & A9 & A10 & A11).
  repeat (split; [solve [assumption|reflexivity|exact (to_str _ _ HE HP HR)|exact (to_phys _ _ _ HV P)]|]). exact A11.
Qed.

(** The ledger of the sub-step, whether or not a front is created: up to the gap of the pass and the tolerance of the closure the storage changes by what is booked. *)
Theorem C82_upright_substep :
  forall (cfg : Cfg) (M : R) (u : upar) (s s' : state) (a a' : acc) (p on dt r : R), upright_step cfg M u s a p on dt r -> @substep exact cfg u s a = Ok (s', a') ->
    let rain := Rmax p 0 / 10 * dt in let bound := Rmax (Rabs r) (2 / 10000000000) in
    ~ @step_degenerate exact cfg u s a /\ ~ @step_inverted exact cfg u s a /\ drier_downwards (st_head s') /\ @heads_meet exact (env_of s) (st_head s') /\
    exists vin ro on' av q m : R,
      a_precip a' = @dadd exact (a_precip a) (Fin rain) /\ a_in a' = @dadd exact (a_in a) (Fin vin) /\ a_runoff a' = @dadd exact (a_runoff a) (Fin ro) /\
      a_aet a' = @dadd exact (a_aet a) (Fin av) /\ a_rech a' = @dadd exact (a_rech a) (Fin q) /\ a_on a' = Fin on' /\ a_end a' = Fin (storage (st_head s')) /\
      rain + on = vin + ro + on' /\ Rabs (storage (st_head s') - (storage (st_head s) + rain + on - ro - on' - av - q)) <= bound /\
      mb_local (st_mb s') = Some (Fin m) /\ Rabs m <= bound + 1 / 1000000000000.
Proof.
  intros cfg M u s s' a a' p on dt r HY E rain bound. assert (HC := to_calm _ _ _ _ _ _ _ _ _ HY). destruct HY as ((HE & HV & HM & HF & H0) & _).
  destruct (calm_steady (env_of s) M HV HM HF HE u s a p on dt r HC) as [HT HI]. pose proof HT as (_ & _ & _ & _ & _ & _ & _ & _ & _ & _ & _ & _ & _ & HD & _).
  destruct (substep_ledger (env_of s) M HV HM HF HE H0 u s a p on dt r s' a' HT E) as (vin & ro & on' & av & q & x & m & A1 & A2 & A3 & A4 & A5 & A6 & A7 & A8 & A9 & A10 & A11 & A12 & A13).
  specialize (A13 HI). subst x.
  assert (K : exists b, @at_step exact _ (@sub_hydro exact cfg) u s a = Ok b /\ st_head s' = b_head b).
  { destruct (Pf_Update.substep_inv _ _ _ _ _ E) as (vs & b & ve & mbl & precip & pet & prate & petr & K1 & K2 & K3 & K4 & K5 & Eh & K6 & K7 & _ & G1 & G2).
    exists b. split; [unfold at_step; cbv zeta; rewrite <- K1, <- K2, <- K3; exact Eh|]. rewrite G1. reflexivity. }
  destruct K as (b & Eb & Hb). destruct (calm_stays (env_of s) M HV HM HF HE u s a p on dt r b HC Eb) as [D' L'].
  split; [exact HD|]. split; [exact HI|]. rewrite Hb. split; [exact D'|].
  split; [exact L'|].
  rewrite <- Hb. exists vin, ro, on', av, q, m. do 8 (split; [assumption|]). split; [unfold bound, rain; lra|]. split; [assumption|]. unfold bound; lra.
Qed.
Print Assumptions C82_upright_substep.

(** Hence such a sub-step with a gap below 1e-4 cm is not aborted by the check of the local balance. *)
Theorem C82_balance_check_passes :
  forall (cfg : Cfg) (M : R) (u : upar) (s : state) (a : acc) (p on dt r : R) (b : sub), upright_step cfg M u s a p on dt r ->
    Rabs r <= 1 / 10000 - 1 / 1000000000000 -> @at_step exact _ (@sub_hydro exact cfg) u s a = Ok b ->
    ends (fun why => why = AssertFail) (fun _ => True) (@substep exact cfg u s a).
Proof.
  intros cfg M u s a p on dt r b HY Hr E. assert (HC := to_calm _ _ _ _ _ _ _ _ _ HY). destruct HY as ((HE & HV & HM & HF & H0) & _).
  destruct (calm_steady (env_of s) M HV HM HF HE u s a p on dt r HC) as [HT HI].
  refine (substep_checked (env_of s) M HV HM HF HE H0 u s a p on dt r b HT HI _ E). unfold Rmax. destruct (Rle_dec _ _); lra.
Qed.
Print Assumptions C82_balance_check_passes.

(** The motions of C79: a front at 20 cm above a dry one, in dry weather and in rain. *)
Example C82_concrete_motions : forall cfg : Cfg, let old := storage bk_head in
  sound_column 1 ti_env /\ profile (e_nlayers ti_env) (e_cum ti_env) bk_head /\ deepest_rests bk_head /\ Forall (physical_front 1 ti_env) bk_head /\ Forall moving bk_head /\ numbered bk_head /\
  ~ @move_tie exact cfg ti_env (Fin 4) (Fin (1 / 10)) 1 (Fin old) (Fin 1) bk_head bk_head /\ ~ @move_tie exact cfg ti_env (Fin 4) (Fin (6 / 25)) 1 (Fin old) (Fin 0) bk_head bk_head /\
  @move_loop exact cfg (length bk_head) ti_env (Fin 4) (Fin (1 / 10)) 1 bk_head (listLength bk_head) bk_head (Fin 1) = Ok (bk_after, Fin 1) /\ drier_downwards bk_after /\
  @move_loop exact cfg (length bk_head) ti_env (Fin 4) (Fin (6 / 25)) 1 bk_head (listLength bk_head) bk_head (Fin 0) = Ok (wt_after, Fin 0) /\ drier_downwards wt_after.
Proof.
  intros cfg old. destruct (C79_concrete_motion cfg) as (A1 & _ & A2 & A3 & _ & A4 & _ & _ & _ & _ & A5 & A6 & _ & A7 & _ & _ & A8 & _).
  destruct (C79_concrete_rain cfg) as (_ & _ & _ & _ & _ & _ & _ & _ & _ & _ & _ & _ & B1 & _ & _ & B2 & _).
  do 9 (split; [assumption|]).
  split; [|split; [assumption|]]; (apply dn_iff; intros i u l E1 E2 L; destruct i as [|[|i]]; [injection E1 as <-; injection E2 as <-|injection E1 as <-; injection E2 as <-; discriminate|destruct i; discriminate]); cbn; lra.
Qed.

(** The sub-step of the saturated column of two layers. *)
Example C82_concrete_substep : forall cfg : Cfg, upright_step cfg 1 tw_upar tw_start tw_acc0 0 0 1 0 /\ @substep exact cfg tw_upar tw_start tw_acc0 = Ok (tw_next, tw_acc0).
Proof.
  intro cfg. destruct (C79_concrete_substep cfg) as ((A1 & A2 & A3 & A4 & A5 & A6 & A7 & A8 & A9 & A10 & A11 & A12 & A13 & A14 & _ & A16) & _ & _ & E). split; [|exact E].
  do 14 (split; [assumption|]). split; [|exact A16]. unfold step_upright. rewrite tw_at. split.
  - intros vin aet H. apply tw_motion in H as [-> ->]. intros l a Q. change (u_env tw_upar) with ti_env in Q. change (u_dt tw_upar) with (Fin 1) in Q. change (wetting_front_free_drainage tw_head) with 2%Z in Q.
    rewrite tw_move_loop in Q. apply Ok_inj in Q. apply pair_equal_spec in Q as [<- _]. exact tw_order.
  - intros aet l aet' pd dry d h s0 ff _ EC. cbn [u_env tw_upar] in EC. rewrite tw_create in EC. discriminate.
Qed.
