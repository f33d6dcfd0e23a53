(** C79: the water ledger of a motion of the fronts and of a sub-step in columns of any number of layers. *)

From Coq Require Import Reals Lra ZArith List Lia Bool.
From Verif Require Import Outcome Dbl Exact Types ListOps Soil Fronts Infil Move State Update Lib Spec_Common Spec_Soil Spec_List Spec_Profile Spec_Storage Spec_Update Spec_Column
  Spec_Advance Spec_Balance Spec_Shares Spec_Physical Spec_Motion Pf_Profile Pf_Structure Pf_Physical Pf_Motion Pf_Motion2 Pf_Motion3 Ex_Saturated Ex_Safety Ex_TwoLayers Ex_Physical Ex_Advance Ex_Books Ex_Motion.
Import ListNotations.
Open Scope R_scope.

(** A column with physical soils whose boundaries start at the surface. *)
Definition sound_column (M : R) (e : env) : Prop :=
  @sound_env exact e /\ vg_column e /\ conducts_at_most M e /\ frozen_in_range e /\ aget (e_cum e) 0 = Ok (Fin 0).

Lemma to_phys : forall M e l, vg_column e -> Forall (physical_front M e) l -> Forall (phys e M) l.
Proof. intros M e l HV H. eapply Forall_impl; [|exact H]. intros f Hf. apply phys_iff; assumption. Qed.
Lemma of_phys : forall M e l, vg_column e -> Forall (phys e M) l -> Forall (physical_front M e) l.
Proof. intros M e l HV H. eapply Forall_impl; [|exact H]. intros f Hf. apply phys_iff; assumption. Qed.
Lemma to_str : forall e l, @sound_env exact e -> profile (e_nlayers e) (e_cum e) l -> deepest_rests l -> Str e l.
Proof. intros e l HE HP HR. apply Str_iff; [apply HE|auto]. Qed.

(** ** C79 *)

(** One motion of the fronts.  [l1] and [a1] are the fronts and the demand after the pass.  The closure of the balance brings the storage to [s2]; the repairs of inverted fronts
    change it by at most [x], and not at all if no front is inverted; merging and layer crossing do not change it; and what leaves through the bottom is [q3].  The reported demand and flux
    account for the closure and for the repairs. *)
Theorem C79_motion_ledger :
  forall (cfg : Cfg) (M : R) (e : env) (dt vin old a1 : R) (wfd : Z) (aet a' q : dbl) (head prev l1 l' : list front),
    sound_column M e -> profile (e_nlayers e) (e_cum e) head -> deepest_rests head -> Forall (physical_front M e) head -> Forall moving head -> numbered prev -> length prev = length head ->
    ~ @move_tie exact cfg e (Fin dt) (Fin vin) wfd (Fin old) aet head prev -> ~ @move_degenerate exact cfg e (Fin dt) (Fin vin) wfd (Fin old) aet head prev ->
    @move_loop exact cfg (length head) e (Fin dt) (Fin vin) wfd prev (listLength head) head aet = Ok (l1, Fin a1) ->
    @lgar_move_wetting_fronts exact cfg e (Fin dt) (Fin vin) wfd (Fin old) aet head prev = Ok (l', a', q) ->
    exists s2 a2 q2 q3 x : R,
      balance_closed (old + vin - a1) (storage l1) a1 s2 a2 q2 /\ 0 <= x /\ q = Fin (q2 + q3) /\
      a' = Fin (if Rlt_dec (1 / 10000000) x then a2 - x else a2) /\ Rabs (storage l' - (s2 - q3)) <= x /\
      (~ @move_inverted exact cfg e (Fin dt) (Fin vin) wfd (Fin old) aet head prev -> x = 0) /\
      measured l' /\ Forall (physical_front M e) l'.
Proof.
  intros cfg M e dt vin old a1 wfd aet a' q head prev l1 l' (HE & HV & HM & HF & H0) HP HR P N HN HL HT HD Q1 E. assert (HS := to_str e head HE HP HR). apply to_phys in P; [|assumption].
  assert (Fdt : finite (Fin dt)) by (exists dt; reflexivity).
  assert (M1 : measured l1) by exact (pass_measured e M HV HE _ _ _ _ _ _ _ _ HS P N HN HL Fdt Q1).
  destruct (motion_ledger e M HV HM HF HE H0 _ _ _ _ _ _ _ _ _ _ _ _ HS P HN HL Fdt HT HD Q1 M1 E) as (s2 & a2 & q2 & q3 & x & A & B & C & D & F & G & _ & I & J & _).
  exists s2, a2, q2, q3, x. do 5 (split; [assumption|]). split; [exact J|]. split; [exact G|]. apply of_phys; assumption.
Qed.
Print Assumptions C79_motion_ledger.

(** Hence the storage after the motion is the old one plus the water put in, less the reported evapotranspiration and flux: up to the gap of the pass, the tolerance of the closure
    and twice what the repairs change. *)
Theorem C79_motion_balance :
  forall (cfg : Cfg) (M : R) (e : env) (dt vin old a1 : R) (wfd : Z) (aet a' q : dbl) (head prev l1 l' : list front),
    sound_column M e -> profile (e_nlayers e) (e_cum e) head -> deepest_rests head -> Forall (physical_front M e) head -> Forall moving head -> numbered prev -> length prev = length head ->
    ~ @move_tie exact cfg e (Fin dt) (Fin vin) wfd (Fin old) aet head prev -> ~ @move_degenerate exact cfg e (Fin dt) (Fin vin) wfd (Fin old) aet head prev ->
    @move_loop exact cfg (length head) e (Fin dt) (Fin vin) wfd prev (listLength head) head aet = Ok (l1, Fin a1) ->
    @lgar_move_wetting_fronts exact cfg e (Fin dt) (Fin vin) wfd (Fin old) aet head prev = Ok (l', a', q) ->
    exists a2 q2 x : R, a' = Fin a2 /\ q = Fin q2 /\ 0 <= x /\
      Rabs (storage l' - (old + vin - a2 - q2)) <= Rmax (Rabs (storage l1 - (old + vin - a1))) (2 / 10000000000) + 2 * x /\
      (~ @move_inverted exact cfg e (Fin dt) (Fin vin) wfd (Fin old) aet head prev -> x = 0).
Proof.
  intros cfg M e dt vin old a1 wfd aet a' q head prev l1 l' (HE & HV & HM & HF & H0) HP HR P N HN HL HT HD Q1 E. assert (HS := to_str e head HE HP HR). apply to_phys in P; [|assumption].
  assert (Fdt : finite (Fin dt)) by (exists dt; reflexivity).
  destruct (motion_balance e M HV HM HF HE H0 _ _ _ _ _ _ _ _ _ _ _ _ HS P N HN HL Fdt HT HD Q1 E) as (a2 & q2 & x & A & B & C & D & _ & _ & _ & F).
  exists a2, q2, x. auto.
Qed.
Print Assumptions C79_motion_balance.

(** When the demand that the pass meets exceeds the rain, the gap of the pass is the tolerance of its iteration for each front and three times the part of the demand that is not met. *)
Theorem C79_dry_motion :
  forall (cfg : Cfg) (M : R) (e : env) (qs : list part) (dt precip aet aet1 : R) (a' q : dbl) (head l1 l' : list front),
    sound_column M e -> strata e qs -> profile (e_nlayers e) (e_cum e) head -> deepest_rests head -> @heads_meet exact e head -> Forall (physical_front M e) head ->
    Forall (on_curve qs) head -> Forall (moves_down qs) head -> drier_downwards head ->
    Forall (fun f => val (f_depth f) <= top_of qs (e_nlayers e + 1)) head -> 0 <= dt -> 0 <= precip ->
    let wfd := wetting_front_free_drainage head in
    ~ @move_tie exact cfg e (Fin dt) (Fin precip) wfd (Fin (storage head)) (Fin aet) head head -> ~ @move_degenerate exact cfg e (Fin dt) (Fin precip) wfd (Fin (storage head)) (Fin aet) head head ->
    @move_loop exact cfg (length head) e (Fin dt) (Fin precip) wfd head (listLength head) head (Fin aet) = Ok (l1, Fin aet1) -> precip < aet1 ->
    @lgar_move_wetting_fronts exact cfg e (Fin dt) (Fin precip) wfd (Fin (storage head)) (Fin aet) head head = Ok (l', a', q) ->
    exists a2 q2 x : R, 0 <= x /\ a' = Fin a2 /\ q = Fin q2 /\
      Rabs (storage l' - (storage head + precip - a2 - q2)) <= Rmax (INR (length head) * tol + 3 * (aet - aet1)) (2 / 10000000000) + 2 * x /\
      (~ @move_inverted exact cfg e (Fin dt) (Fin precip) wfd (Fin (storage head)) (Fin aet) head head -> x = 0).
Proof.
  intros cfg M e qs dt precip aet aet1 a' q head l1 l' (HE & HV & HM & HF & H0) HQ HP HR HMe P OC MD DD IN Hdt Hp wfd HT HD Q1 Ha E. assert (HS := to_str e head HE HP HR). apply to_phys in P; [|assumption].
  exact (dry_motion e M HV HM HF HE H0 qs dt precip aet head l' a' q aet1 l1 HQ HS HMe P OC MD DD IN Hdt Hp HT HD Q1 Ha E).
Qed.
Print Assumptions C79_dry_motion.

(** Rain or not: when the first front lies inside the first layer, what a saturated front could not take is made up by the closure of the balance, and the rest of the gap is the tolerance of the iteration
    for each front and the part of the demand that is not met. *)
Theorem C79_wet_motion :
  forall (cfg : Cfg) (M : R) (e : env) (qs : list part) (dt precip aet aet1 : R) (a' q : dbl) (f : front) (r l1 l' : list front), let head := f :: r in
    sound_column M e -> strata e qs -> profile (e_nlayers e) (e_cum e) head -> deepest_rests head -> @heads_meet exact e head -> f_bottom f = false -> Forall (physical_front M e) head ->
    Forall (on_curve qs) head -> Forall (moves_down qs) head -> drier_downwards head ->
    Forall (fun f => val (f_depth f) <= top_of qs (e_nlayers e + 1)) head -> 0 <= dt ->
    let wfd := wetting_front_free_drainage head in
    ~ @move_tie exact cfg e (Fin dt) (Fin precip) wfd (Fin (storage head)) (Fin aet) head head -> ~ @move_degenerate exact cfg e (Fin dt) (Fin precip) wfd (Fin (storage head)) (Fin aet) head head ->
    @move_loop exact cfg (length head) e (Fin dt) (Fin precip) wfd head (listLength head) head (Fin aet) = Ok (l1, Fin aet1) ->
    @lgar_move_wetting_fronts exact cfg e (Fin dt) (Fin precip) wfd (Fin (storage head)) (Fin aet) head head = Ok (l', a', q) ->
    aet1 <= aet /\
    exists a2 q2 x : R, 0 <= x /\ a' = Fin a2 /\ q = Fin q2 /\
      Rabs (storage l' - (storage head + precip - a2 - q2)) <= Rmax (INR (length head) * tol + (aet - aet1)) (2 / 10000000000) + 2 * x /\
      (~ @move_inverted exact cfg e (Fin dt) (Fin precip) wfd (Fin (storage head)) (Fin aet) head head -> x = 0).
Proof.
  intros cfg M e qs dt precip aet aet1 a' q f r l1 l' head (HE & HV & HM & HF & H0) HQ HP HR HMe Bf P OC MD DD IN Hdt wfd HT HD Q1 E. assert (HS := to_str e head HE HP HR). apply to_phys in P; [|assumption].
  exact (wet_motion e M HV HM HF HE H0 qs dt precip aet head l' a' q aet1 l1 f r HQ HS HMe eq_refl Bf P OC MD DD IN Hdt HT HD Q1 E).
Qed.
Print Assumptions C79_wet_motion.

(** A sub-step that starts with physical fronts of finite speed, the old storage and an amount [on] of ponded water: [r] is the gap of its pass. *)
Definition steady_step (cfg : Cfg) (M : R) (u : upar) (s : state) (a : acc) (p on dt r : R) : Prop :=
  sound_column M (env_of s) /\ profile (p_nlayers (st_p s)) (p_cum (st_p s)) (st_head s) /\ deepest_rests (st_head s) /\ u_env u = env_of s /\ finite (u_pmax u) /\ u_dt u = Fin dt /\ 0 <= dt /\
  Forall (physical_front M (env_of s)) (st_head s) /\ Forall moving (st_head s) /\ st_precip s = Fin p /\ a_on a = Fin on /\ 0 <= on /\ a_end a = Fin (storage (st_head s)) /\
  ~ @step_tie exact cfg u s a /\ ~ @step_degenerate exact cfg u s a /\ @step_gap exact cfg u s a r.

Lemma to_steady : forall cfg M u s a p on dt r, steady_step cfg M u s a p on dt r -> @steady cfg (env_of s) M u s a p on dt r.
Proof.
  intros cfg M u s a p on dt r ((HE & HV & HM & HF & H0) & HP & HR & A1 & A2 & A3 & A4 & P & N & A5 & A6 & A7 & A8 & A9 & A10 & A11).
  repeat (split; [solve [assumption|reflexivity|exact (to_str _ _ HE HP HR)|exact (to_phys _ _ _ HV P)]|]). exact A11.
Qed.

(** The ledger of a sub-step: the rain and the ponded water are infiltrated, run off or stay on the surface; the storage changes by what the sums of the Update are increased by,
    up to the bound above; and the local balance that is reported keeps within it, plus the 1e-12 below which ponded water is neglected. *)
Theorem C79_substep_ledger :
  forall (cfg : Cfg) (M : R) (u : upar) (s s' : state) (a a' : acc) (p on dt r : R), steady_step cfg M u s a p on dt r -> @substep exact cfg u s a = Ok (s', a') ->
    let rain := Rmax p 0 / 10 * dt in
    exists vin ro on' av q x m : R,
      a_precip a' = @dadd exact (a_precip a) (Fin rain) /\ a_in a' = @dadd exact (a_in a) (Fin vin) /\ a_runoff a' = @dadd exact (a_runoff a) (Fin ro) /\
      a_aet a' = @dadd exact (a_aet a) (Fin av) /\ a_rech a' = @dadd exact (a_rech a) (Fin q) /\ a_on a' = Fin on' /\ a_end a' = Fin (storage (st_head s')) /\
      rain + on = vin + ro + on' /\ 0 <= x /\
      Rabs (storage (st_head s') - (storage (st_head s) + rain + on - ro - on' - av - q)) <= Rmax (Rabs r) (2 / 10000000000) + 2 * x /\
      mb_local (st_mb s') = Some (Fin m) /\ Rabs m <= Rmax (Rabs r) (2 / 10000000000) + 2 * x + 1 / 1000000000000 /\
      (~ @step_inverted exact cfg u s a -> x = 0).
Proof.
  intros cfg M u s s' a a' p on dt r HY E. assert (HY' := to_steady _ _ _ _ _ _ _ _ _ HY). destruct HY as ((HE & HV & HM & HF & H0) & _).
  exact (substep_ledger (env_of s) M HV HM HF HE H0 u s a p on dt r s' a' HY' E).
Qed.
Print Assumptions C79_substep_ledger.

(** Without an inversion and with a gap below 1e-4 cm the check of the local balance does not abort the program: once the hydrological part has returned, only the assertion on the
    depth of the first front can stop the sub-step. *)
Theorem C79_balance_check_passes :
  forall (cfg : Cfg) (M : R) (u : upar) (s : state) (a : acc) (p on dt r : R) (b : sub), steady_step cfg M u s a p on dt r -> ~ @step_inverted exact cfg u s a ->
    Rabs r <= 1 / 10000 - 1 / 1000000000000 -> @at_step exact _ (@sub_hydro exact cfg) u s a = Ok b ->
    ends (fun why => why = AssertFail) (fun _ => True) (@substep exact cfg u s a).
Proof.
  intros cfg M u s a p on dt r b HY HI Hr E. assert (HY' := to_steady _ _ _ _ _ _ _ _ _ HY). destruct HY as ((HE & HV & HM & HF & H0) & _).
  refine (substep_checked (env_of s) M HV HM HF HE H0 u s a p on dt r b HY' HI _ E). unfold Rmax. destruct (Rle_dec _ _); lra.
Qed.
Print Assumptions C79_balance_check_passes.

(** A front at 20 cm in the first of two layers; 1 mm of rain and 1 cm of evapotranspiration: the motion ends with 0.9 cm less water and reports 1 cm and no flux. *)
Example C79_concrete_motion : forall cfg : Cfg, let old := storage bk_head in
  sound_column 1 ti_env /\ strata ti_env bk_column /\ profile (e_nlayers ti_env) (e_cum ti_env) bk_head /\ deepest_rests bk_head /\ @heads_meet exact ti_env bk_head /\ Forall (physical_front 1 ti_env) bk_head /\
  Forall (on_curve bk_column) bk_head /\ Forall (moves_down bk_column) bk_head /\ drier_downwards bk_head /\ Forall (fun f => val (f_depth f) <= top_of bk_column (e_nlayers ti_env + 1)) bk_head /\
  Forall moving bk_head /\ numbered bk_head /\ wetting_front_free_drainage bk_head = 1%Z /\
  ~ @move_tie exact cfg ti_env (Fin 4) (Fin (1 / 10)) 1 (Fin old) (Fin 1) bk_head bk_head /\ ~ @move_degenerate exact cfg ti_env (Fin 4) (Fin (1 / 10)) 1 (Fin old) (Fin 1) bk_head bk_head /\
  ~ @move_inverted exact cfg ti_env (Fin 4) (Fin (1 / 10)) 1 (Fin old) (Fin 1) bk_head bk_head /\
  @move_loop exact cfg (length bk_head) ti_env (Fin 4) (Fin (1 / 10)) 1 bk_head (listLength bk_head) bk_head (Fin 1) = Ok (bk_after, Fin 1) /\
  exists l', @lgar_move_wetting_fronts exact cfg ti_env (Fin 4) (Fin (1 / 10)) 1 (Fin old) (Fin 1) bk_head bk_head = Ok (l', Fin 1, Fin 0) /\ storage l' = storage bk_head + 1 / 10 - 1.
Proof.
  intros cfg old. split; [split; [exact ti_env_sound|]; split; [exact ti_vg|]; split; [exact ti_conducts|]; split; [exact ti_frozen|reflexivity]|].
  split; [exact bk_strata|]. split; [exact bk_profile|]. split; [intros f E; injection E as <-; reflexivity|]. split; [exact bk_meet|]. split; [exact bk_physical|].
  split; [exact bk_on_curve|]. split; [exact bk_moves_down|]. split; [exact bk_drier|]. split; [exact bk_inside|]. split; [repeat (apply Forall_cons || apply Forall_nil); split; eexists; reflexivity|].
  split; [apply (st_num ti_env); apply to_str; [exact ti_env_sound|exact bk_profile|intros f E; injection E as <-; reflexivity]|]. split; [reflexivity|].
  destruct (@bk_still cfg) as (A & B & C & D). do 3 (split; [assumption|]). split; [exact (bk_dries cfg)|exact D].
Qed.

(** The same front with 2.4 mm of rain and no evapotranspiration is still saturated after the motion, and the closure of the balance runs. *)
Example C79_concrete_rain : forall cfg : Cfg, let old := storage bk_head in
  sound_column 1 ti_env /\ strata ti_env bk_column /\ profile (e_nlayers ti_env) (e_cum ti_env) bk_head /\ deepest_rests bk_head /\ @heads_meet exact ti_env bk_head /\ Forall (physical_front 1 ti_env) bk_head /\
  Forall (on_curve bk_column) bk_head /\ Forall (moves_down bk_column) bk_head /\ drier_downwards bk_head /\ Forall (fun f => val (f_depth f) <= top_of bk_column (e_nlayers ti_env + 1)) bk_head /\
  (exists f r, bk_head = f :: r /\ f_bottom f = false) /\ wetting_front_free_drainage bk_head = 1%Z /\
  ~ @move_tie exact cfg ti_env (Fin 4) (Fin (6 / 25)) 1 (Fin old) (Fin 0) bk_head bk_head /\ ~ @move_degenerate exact cfg ti_env (Fin 4) (Fin (6 / 25)) 1 (Fin old) (Fin 0) bk_head bk_head /\
  ~ @move_inverted exact cfg ti_env (Fin 4) (Fin (6 / 25)) 1 (Fin old) (Fin 0) bk_head bk_head /\
  @move_loop exact cfg (length bk_head) ti_env (Fin 4) (Fin (6 / 25)) 1 bk_head (listLength bk_head) bk_head (Fin 0) = Ok (wt_after, Fin 0) /\ saturated_top ti_env wt_after /\
  exists l', @lgar_move_wetting_fronts exact cfg ti_env (Fin 4) (Fin (6 / 25)) 1 (Fin old) (Fin 0) bk_head bk_head = Ok (l', Fin 0, Fin 0) /\ storage l' = storage bk_head + 6 / 25.
Proof.
  intros cfg old. split; [split; [exact ti_env_sound|]; split; [exact ti_vg|]; split; [exact ti_conducts|]; split; [exact ti_frozen|reflexivity]|].
  split; [exact bk_strata|]. split; [exact bk_profile|]. split; [intros f E; injection E as <-; reflexivity|]. split; [exact bk_meet|]. split; [exact bk_physical|].
  split; [exact bk_on_curve|]. split; [exact bk_moves_down|]. split; [exact bk_drier|]. split; [exact bk_inside|]. split; [do 2 eexists; split; reflexivity|]. split; [reflexivity|].
  destruct (@wt_still cfg) as (A & B & C & l' & D & D' & _). do 3 (split; [assumption|]). split; [exact (@wt_wets cfg)|]. split; [|exists l'; exact (conj D D')]. do 3 eexists. split; [reflexivity|]. split; [reflexivity|]. split; reflexivity.
Qed.

(** The sub-step of the Update of a saturated column of two layers. *)
Example C79_concrete_substep : forall cfg : Cfg, steady_step cfg 1 tw_upar tw_start tw_acc0 0 0 1 0 /\ ~ @step_inverted exact cfg tw_upar tw_start tw_acc0 /\
  (exists b, @at_step exact _ (@sub_hydro exact cfg) tw_upar tw_start tw_acc0 = Ok b) /\ @substep exact cfg tw_upar tw_start tw_acc0 = Ok (tw_next, tw_acc0).
Proof.
  intro cfg. destruct (@tw_step cfg) as (D & I & G). split; [|split; [exact I|split; [eexists; rewrite tw_at; apply tw_hydro|exact tw_substep]]].
  split; [split; [exact (ss_env _ tw_sound)|]; split; [exact ti_vg|]; split; [exact ti_conducts|]; split; [exact ti_frozen|reflexivity]|].
  split; [exact (ss_profile _ tw_sound)|]. split; [exact (ss_rest _ tw_sound)|]. split; [reflexivity|]. split; [eexists; reflexivity|]. split; [reflexivity|]. split; [lra|].
  split; [exact (py_fronts _ _ tw_physical)|]. split; [exact tw_moving|]. split; [reflexivity|]. split; [reflexivity|]. split; [lra|].
  split; [change (st_head tw_start) with tw_head; rewrite tw_storage; reflexivity|]. split; [apply tw_step_tie; reflexivity|]. split; [exact D|exact G].
Qed.
