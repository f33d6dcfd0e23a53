(** C85: rain on columns of several layers. *)

From Coq Require Import Reals Lra ZArith List Lia Bool.
From Verif Require Import Outcome Dbl Exact Types ListOps Soil Fronts Infil Move State Update Spec_Common Spec_Soil Spec_List Spec_Profile Spec_Storage Spec_Update
  Spec_Velocity Spec_Advance Spec_Balance Spec_Shares Spec_Physical Spec_Motion Spec_Upright Spec_Layered Spec_Rest Spec_Storm Pf_Layered Pf_Layered2 Pf_Storm3 Pf_Storm4 Pf_Storm5 Pf_Storm6
  Ex_Saturated Ex_Safety Ex_TwoLayers Ex_Advance Ex_Books Ex_Motion Ex_Layered Ex_LayeredRain.
Import ListNotations.
Open Scope R_scope.
Local Existing Instance exact.

(** ** C85 *)

(** The pass over the fronts of a sub-step whose wetting fronts lie in the first layer and are supplied: it meets the whole demand when the first front lies inside the layer, and it leaves no
    front as dry as the one below it.  When the demand exceeds the water put in, the surface gets no wetter. *)
Theorem C85_pass :
  forall (cfg : Cfg) (e : env) (M : R) (qs : list part) (dt v D : R) (l : list front) (f : front) (r l1 : list front) (a1 : dbl),
    layers M qs e -> orderly M e l -> shallow e l -> l = f :: r -> 0 <= dt -> covered l v D ->
    @move_loop exact cfg (length l) e (Fin dt) (Fin v) (wetting_front_free_drainage l) l (listLength l) l (Fin D) = Ok (l1, a1) ->
    exists av, a1 = Fin av /\ av <= D /\ ~ inverted l1 /\ (v <= D -> forall f1, nth_error l1 0 = Some f1 -> val (f_theta f1) <= val (f_theta f)) /\
      (f_bottom f = false -> av = D) /\ (f_bottom f = true -> Rabs (storage l1 - (storage l + v - av)) <= tol + 2 * (D - av)).
Proof. intros cfg e M qs dt v D l f r l1 a1 HL. exact (pass_any e M qs HL dt v D l f r l1 a1). Qed.
Print Assumptions C85_pass.

(** Such a sub-step is undisturbed, its water is accounted for up to [B], and it hands over a sub-step with its fronts in order. *)
Theorem C85_substep :
  forall (cfg : Cfg) (M : R) (qs : list part) (u : upar) (s : state) (a : acc) (s' : state) (a' : acc),
    set_out M qs u s a -> @substep exact cfg u s a = Ok (s', a') -> @stormy cfg u (mkStep s a s' a') ->
    exists B, @undisturbed cfg u (mkStep s a s' a') /\ balanced_step M u (mkStep s a s' a') B /\ @storm_step cfg u (mkStep s a s' a') B /\ set_out M qs u s' a'.
Proof.
  intros cfg M qs u s a s' a' (HL & EE & HO & HC & (dt & Ed & Hd) & (pm & Em & Hm) & (p & Ep) & (on & Eo & Ho) & Ee) X (S1 & S2 & S3 & S4). cbn [x_s x_a x_s'] in *.
  assert (P : placed (u_env u) M u s a p on dt pm) by (split; [reflexivity|]; auto 20).
  destruct (storm_substep (u_env u) M qs HL u s a p on dt pm P S1 S2 S3 s' a' X S4) as (B & UD & OB & ST). exists B. split; [exact UD|].
  destruct (placed_step (u_env u) M qs HL u s a p on dt pm B s' a' P X UD OB) as (Q & on' & _ & P2 & P3 & P4 & P5 & P6 & P7 & P8 & P9 & P10 & P11 & P12). split; [exact Q|]. split; [exact ST|].
  split; [exact HL|]. split; [exact P2|]. split; [exact P8|]. split; [exact P7|]. split; [eauto|]. split; [eauto|]. split; [eexists; exact P9|]. split; [eauto|exact P12].
Qed.
Print Assumptions C85_substep.

(** With a wetting front in the first layer and at most ten million fronts, a sub-step whose water movements complete is stopped by no failing balance. *)
Theorem C85_balance_check_passes :
  forall (cfg : Cfg) (M : R) (qs : list part) (u : upar) (s : state) (a : acc) (b : sub) (f : front) (r : list front),
    set_out M qs u s a -> shallow (u_env u) (st_head s) -> @supplied cfg u s a -> ~ @step_tie exact cfg u s a -> st_head s = f :: r -> f_bottom f = false -> INR (length (st_head s)) <= 10000000 ->
    at_step (@sub_hydro exact cfg) u s a = Ok b -> exists x, @substep exact cfg u s a = x /\ match x with Ok _ => True | Stop why => why = AssertFail end.
Proof. exact @storm_checked. Qed.
Print Assumptions C85_balance_check_passes.

(** The motion is supplied when the evaporative demand is below what the first front holds above the second.  Without a wetting front it is enough that the surface is dry or that a
    front is created. *)
Theorem C85_weather :
  forall (cfg : Cfg) (M : R) (qs : list part) (u : upar) (s : state) (a : acc),
    set_out M qs u s a -> shallow (u_env u) (st_head s) -> rooting (u_wilting u) (u_fc u) -> met u s a -> @supplied cfg u s a.
Proof.
  intros cfg M qs u s a (HL & EE & HO & HC & (dt & Ed & Hd) & (pm & Em & Hm) & (p & Ep) & (on & Eo & Ho) & Ee).
  assert (P : placed (u_env u) M u s a p on dt pm) by (split; [reflexivity|]; auto 20). exact (met_supplied (u_env u) M qs HL u s a p on dt pm P).
Qed.
Print Assumptions C85_weather.

(** No column in order holds more water than its pores, and the infiltration capacity above a wetting front is not negative. *)
Theorem C85_capacity :
  forall (cfg : Cfg) (M : R) (qs : list part) (e : env) (l : list front), layers M qs e -> orderly M e l -> shallow e l ->
    storage l <= Rsum (map (fun q => pt_e q * pt_z q) qs) /\
    forall closed nint dt aet w prate f r x, capillary closed nint e -> 0 < dt -> l = f :: r -> f_bottom f = false ->
      @infiltration_capacity exact cfg e closed nint (Fin dt) aet (Fin w) (Fin prate) (wetting_front_free_drainage l) l = Ok x -> exists v, x = Fin v /\ 0 <= v.
Proof.
  intros cfg M qs e l HL O SH. split.
  - exact (below_capacity e M qs HL l O (shallow_inside e l (orderly_str e M qs HL l O) (orderly_measured e M qs HL l O) SH)).
  - intros closed nint dt aet w prate f r x HC Hd El Bf. exact (capacity_positive e M qs HL closed nint dt aet w prate l f r x HC Hd O SH El Bf).
Qed.
Print Assumptions C85_capacity.

(** A simulation all sub-steps of which belong to a storm: the model stays in order, every sub-step accounts for its water. *)
Theorem C85_simulation :
  forall (cfg : Cfg) (M : R) (qs : list part) (s0 : state) (xs : list step) (s : state), layered M qs s0 -> @storm cfg s0 xs s ->
    layered M qs s /\ exists ys, map fst ys = xs /\ @journey cfg s0 ys s /\ Forall (fun y => exists u, @storm_step cfg u (fst y) (snd y)) ys /\ Forall (fun y => exists u, balanced_step M u (fst y) (snd y)) ys.
Proof.
  intros cfg M qs s0 xs s H0 H. destruct (storm_journey M qs s0 xs s H0 H) as (ys & I1 & I2 & I3 & I4). split; [exact I4|]. exists ys. split; [exact I1|]. split; [exact I2|]. split; [exact I3|].
  exact (proj1 (proj2 (journey_layered M qs s0 ys s H0 I2))).
Qed.
Print Assumptions C85_simulation.

(** When there is always a wetting front in the first layer and never more than 200 fronts, the global balance printed after the last Update is off by at most 2.02e-10 cm per sub-step. *)
Theorem C85_global_balance :
  forall (cfg : Cfg) (M : R) (qs : list part) (s0 : state) (xs : list step) (s : state) (u : upar) (zs : list step) (s' : state),
    layered M qs s0 -> fresh s0 -> @storm cfg s0 xs s -> @executed exact cfg s u zs s' -> Forall (@stormy cfg u) zs ->
    Forall (fun x => (exists f r, st_head (x_s x) = f :: r /\ f_bottom f = false) /\ (length (st_head (x_s x)) <= 200)%nat) (xs ++ zs) ->
    exists g, global_error (st_mb s') = Fin g /\ Rabs g <= INR (length (xs ++ zs)) * (202 / 1000000000000).
Proof. exact @storm_global. Qed.
Print Assumptions C85_global_balance.

(** The column of two layers in which a wetting front moves from 20 to 24 cm, with 2.4 mm of rain. *)
Example C85_concrete : forall cfg : Cfg, layered 1 bk_column ra_start /\ fresh ra_start /\ set_out 1 bk_column ra_upar ra_start ra_acc /\ shallow ti_env bk_head /\ met ra_upar ra_start ra_acc /\
  rooting (u_wilting ra_upar) (u_fc ra_upar) /\ (exists b, at_step (@sub_hydro exact cfg) ra_upar ra_start ra_acc = Ok b) /\
  exists v s, @substep exact cfg ra_upar ra_start ra_acc = Ok (ra_next v, ra_acc') /\ @stormy cfg ra_upar (ra_x v) /\ @executed exact cfg ra_start ra_upar [ra_x v] s /\ @storm cfg ra_start [ra_x v] s.
Proof.
  intro cfg. destruct ra_layered as [A B]. split; [exact A|]. split; [exact B|].
  assert (SO : set_out 1 bk_column ra_upar ra_start ra_acc).
  { split; [exact ti_layers|]. split; [reflexivity|]. split; [exact bk_orderly|]. split; [exact (ly_capillary _ _ _ A)|]. split; [exists 4; split; [reflexivity|lra]|].
    split; [exists 0; split; [reflexivity|lra]|]. split; [eexists; reflexivity|]. split; [exists 0; split; [reflexivity|lra]|]. reflexivity. }
  assert (SH : shallow ti_env bk_head).
  { repeat (apply Forall_cons || apply Forall_nil); cbn; try reflexivity. split; [reflexivity|]. exists 25. split; [reflexivity|cbn; lra]. }
  assert (MT : met ra_upar ra_start ra_acc). { exists 0, 4. split; [reflexivity|]. split; [reflexivity|]. cbn. rewrite Rmax_left by lra. lra. }
  assert (RT : rooting (u_wilting ra_upar) (u_fc ra_upar)) by (exists 15495, 15495; repeat split; cbn; lra).
  split; [exact SO|]. split; [exact SH|]. split; [exact MT|]. split; [exact RT|]. split.
  { rewrite ra_at. destruct (@ra_hydro cfg (Fin 0)) as (v & E). eexists. exact E. }
  destruct (@ra_update cfg) as (v & s & E & X). exists v, s. split; [exact E|].
  assert (ST : @stormy cfg ra_upar (ra_x v)). { destruct (@ra_undisturbed cfg v) as (T & _ & SE). split; [exact SH|]. split; [exact (C85_weather cfg 1 bk_column ra_upar ra_start ra_acc SO SH RT MT)|]. split; [exact T|exact SE]. }
  split; [exact ST|]. split; [exact X|]. change [ra_x v] with ([] ++ [ra_x v]). apply (sm_update ra_start [] ra_start ra_upar [ra_x v] s); [apply sm_start|exact X|]. apply Forall_cons; [exact ST|apply Forall_nil].
Qed.
