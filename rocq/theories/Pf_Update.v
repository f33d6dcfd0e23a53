(** Structure of an Update. *)

From Coq Require Import Reals Lra ZArith List Bool Lia.
From RecordUpdate Require Import RecordSet.
From Verif Require Import Outcome Dbl Types ListOps Soil Giuh Fronts Infil Move State Update Exact Lib Spec_Common Pf_Dbl Spec_Update.
Import ListNotations.
Import RecordSetNotations.
Open Scope R_scope.

Section Any.
Context {fp : Fp} {cfg : Cfg}.

(** What a sub-step does to the state and to the totals. *)
Lemma substep_inv : forall u s a s' a',
  substep u s a = Ok (s', a') ->
  exists volstart b volend mbl precip pet prate petr,
    prate = (dfmax (st_precip s) (Fin 0) * mm_to_cm)%d /\ petr = (dfmax (st_pet s) (Fin 0) * mm_to_cm)%d /\
    precip = (prate * u_dt u)%d /\ pet = (petr * u_dt u)%d /\
    lgar_calc_mass_bal (p_cum (st_p s)) (st_head s) = Ok volstart /\
    sub_hydro u (p_precip_prev (st_p s)) prate petr precip (clean_volon (a_on a)) (precip + a_on a) (a_end a) (st_head s) (listCopy (st_head s)) = Ok b /\
    lgar_calc_mass_bal (p_cum (st_p s)) (b_head b) = Ok volend /\
    mbl = local_balance volstart precip (clean_volon (a_on a)) (b_runoff b) (b_aet b) (b_on b) (b_rech b) volend /\
    dgtb (dabs mbl) (lit (1 / 10000)) = false /\
    s' = s <| st_head := b_head b |> <| st_prev := b_prev b |>
          <| st_precip := dfmax (st_precip s) (Fin 0) |> <| st_pet := dfmax (st_pet s) (Fin 0) |>
          <| st_p := (st_p s) <| p_time := (p_time (st_p s) + u_dt u * hr_to_sec)%d |> <| p_timesteps := (p_timesteps (st_p s) + 1)%Z |>
                              <| p_precip_prev := precip |> |>
          <| st_mb := (st_mb s) <| mb_local := Some mbl |> |> /\
    a' = mkAcc (a_precip a + precip) (a_pet a + dfmax pet (Fin 0)) (a_aet a + b_aet b) volend (a_in a + b_volin b)
              (b_on b) (a_runoff a + b_runoff b) (a_rech a + b_rech b).
Proof.
  intros u s a s' a' H. unfold substep in H. cbv zeta in H.
  bind_inv H volstart Evs. bind_inv H b Eb. bind_inv H volend Eve.
  destruct (dabs _ >? lit (1 / 10000))%d eqn:C; [discriminate|].
  bind_inv H h Eh. bind_inv H t Et.
  apply f_equal with (f := fun o => match o with Ok x => x | Stop _ => (s, a) end) in H.
  apply pair_equal_spec in H as [<- <-].
  exists volstart, b, volend. do 5 eexists. repeat (split; [reflexivity||assumption|]). split; reflexivity.
Qed.

Lemma loop_runs : forall k u s a s' a',
  subcycle_loop k u s a = Ok (s', a') -> exists xs, runs u s a xs s' a' /\
    (length xs = k \/ (ngen = false /\ (0 < length xs < k)%nat /\ dgeb (p_time (st_p s')) (p_endtime (st_p s')) = true)).
Proof.
  induction k as [|k IH]; intros u s a s' a' H; cbn in H.
  - injection H as <- <-. exists []. split; [constructor|auto].
  - bind_inv H x Ex. destruct x as [s1 a1]. destruct (_ && _)%bool eqn:C.
    + injection H as <- <-. exists [mkStep s a s1 a1]. split; [econstructor; [eassumption|constructor]|].
      apply andb_prop in C as [C1 C2]. cbn [length]. destruct k; [auto|]. right. split; [destruct ngen; [discriminate|reflexivity]|].
      split; [lia|assumption].
    + destruct (IH _ _ _ _ _ H) as (xs & Hr & Hl). exists (mkStep s a s1 a1 :: xs). split; [econstructor; eassumption|].
      cbn [length]. destruct Hl as [Hl|(H1 & H2 & H3)]; [left; lia|right; repeat split; auto; lia].
Qed.

Lemma Update_inv : forall s s', p_invalid (st_p s) = false -> Update s = Ok s' ->
  exists s1 vcal volend s2 dt n s3 a,
    update_prologue s = Ok (s1, vcal) /\
    lgar_calc_mass_bal (p_cum (st_p s1)) (st_head s1) = Ok volend /\
    dgeb (st_precip s1) (Fin 0) = true /\ dgeb (st_pet s1) (Fin 0) = true /\
    update_steps s1 = Ok (s2, dt, n) /\
    subcycle_loop (Z.to_nat n) (mkU (env_of s2) dt (p_nint (st_p s2)) (p_closed (st_p s2)) (p_wilting (st_p s2)) (p_fc (st_p s2)) (p_pmax (st_p s2)))
      s2 (acc0 volend (mb_on_ts (st_mb s2))) = Ok (s3, a) /\
    finish_update s3 a vcal = Ok s'.
Proof.
  intros s s' Hv H. unfold Update in H. rewrite Hv in H.
  bind_inv H x Ex. destruct x as [s1 vcal]. bind_inv H volend Evol. bind_inv H t1 Et1. bind_inv H t2 Et2.
  bind_inv H y Ey. destruct y as [[s2 dt] n]. bind_inv H z Ez. destruct z as [s3 a].
  apply cassert_Ok in Et1. apply cassert_Ok in Et2.
  exists s1, vcal, volend, s2, dt, n, s3, a. auto 10.
Qed.

(** Every Update that returns is made of executed sub-steps. *)
Lemma executed_exists : forall s s', Update s = Ok s' -> exists u xs, executed s u xs s'.
Proof.
  intros s s' H. unfold executed. destruct (p_invalid (st_p s)) eqn:Hv.
  - exists (mkU (env_of s) NaN 0 false NaN NaN NaN), []. auto.
  - destruct (Update_inv _ _ Hv H) as (s1 & vcal & volend & s2 & dt & n & s3 & a & E1 & E2 & E3 & E4 & E5 & E6 & E7).
    destruct (loop_runs _ _ _ _ _ _ E6) as (xs & Hr & Hl).
    match type of Hr with runs ?u _ _ _ _ _ => exists u, xs end. split; [assumption|].
    exists s1, vcal, volend, s2, n, s3, a. split; [assumption|]. split; [assumption|]. split; [cbn; exact E5|].
    split; [reflexivity|]. split; [exact Hr|]. split; [exact Hl|assumption].
Qed.

(** An invariant of the sub-steps holds at the end of them. *)
Lemma runs_ind_inv : forall (I : state -> acc -> Prop) u,
  (forall s a s' a', I s a -> substep u s a = Ok (s', a') -> I s' a') ->
  forall s a xs s' a', runs u s a xs s' a' -> I s a -> I s' a'.
Proof. intros I u HI s a xs s' a' H. induction H; intros; eauto. Qed.

(** The prologue: frozen factor and calibration only touch the profile and the parameters. *)
Lemma prologue_inv : forall s s1 vcal, update_prologue s = Ok (s1, vcal) ->
  st_mb s1 = st_mb s /\ st_precip s1 = st_precip s /\ st_pet s1 = st_pet s /\ st_cal s1 = st_cal s /\ st_out s1 = st_out s /\
  g_N s1 = g_N s /\ g_ord s1 = g_ord s /\ g_queue s1 = g_queue s /\ st_prev s1 = st_prev s /\
  p_cum (st_p s1) = p_cum (st_p s) /\ p_timestep (st_p s1) = p_timestep (st_p s) /\ p_mints (st_p s1) = p_mints (st_p s) /\
  p_fres (st_p s1) = p_fres (st_p s) /\ p_adaptive (st_p s1) = p_adaptive (st_p s) /\ p_time (st_p s1) = p_time (st_p s) /\
  p_endtime (st_p s1) = p_endtime (st_p s) /\ p_timesteps (st_p s1) = p_timesteps (st_p s) /\ p_invalid (st_p s1) = p_invalid (st_p s) /\
  p_precip_prev (st_p s1) = p_precip_prev (st_p s) /\
  (p_pmax (st_p s1) = p_pmax (st_p s) \/ p_pmax (st_p s1) = c_pmax (st_cal s)) /\
  (if p_calib (st_p s)
   then exists before after, lgar_calc_mass_bal (p_cum (st_p s)) (st_head s) = Ok before /\
                             lgar_calc_mass_bal (p_cum (st_p s)) (st_head s1) = Ok after /\ vcal = (after - before)%d
   else st_head s1 = st_head s /\ vcal = Fin 0).
Proof.
  intros s s1 vcal H. unfold update_prologue in H. bind_inv H p Ep.
  assert (Hp : p = st_p s \/ exists fr, p = (st_p s) <| p_frozen := fr |>).
  { destruct (p_sft (st_p s)); [bind_inv Ep fr Efr|]; injection Ep as <-; eauto. }
  assert (Hc : p_calib p = p_calib (st_p s)) by (destruct Hp as [-> | (fr & ->)]; reflexivity).
  cbn zeta in H. destruct (p_calib p) eqn:C.
  - rewrite <- Hc. bind_inv H x Ex. destruct x as [s' v]. injection H as <- <-.
    unfold update_calibratable_parameters in Ex. cbv zeta in Ex. bind_inv Ex before Eb. bind_inv Ex y Ey. destruct y as [l soils].
    bind_inv Ex after Ea. injection Ex as <- <-.
    destruct Hp as [-> | (fr & ->)]; cbn in *; repeat (split; [auto; fail|]); exists before, after; auto.
  - rewrite <- Hc. injection H as <- <-. destruct Hp as [-> | (fr & ->)]; cbn in *; repeat (split; [auto; fail|]); auto.
Qed.

Lemma steps_inv : forall s s2 dt n, update_steps s = Ok (s2, dt, n) ->
  dt = (if p_adaptive (st_p s) then adaptive_step (st_p s) (st_precip s) (mb_on_ts (st_mb s)) else p_timestep (st_p s)) /\
  d2i (p_fres (st_p s) / dt + lit (1 / 100000000)) = Ok n /\
  s2 = s <| st_p := (st_p s) <| p_timestep := dt |> <| p_finterval := n |> |>.
Proof.
  intros s s2 dt n H. unfold update_steps in H. cbv zeta in H. bind_inv H m Em. injection H as <- <- <-. auto.
Qed.

Lemma finish_inv : forall s a vcal s', finish_update s a vcal = Ok s' ->
  exists giuh q mbl, giuh_convolution_integral (a_runoff a) (g_N s) (g_ord s) (g_queue s) = Ok (giuh, q) /\
    mb_local (st_mb s) = Some mbl /\
    s' = s <| st_p := (st_p s) <| p_nfronts := listLength (st_head s) |> <| p_theta_wf := map f_theta (st_head s) |>
                      <| p_depth_wf := map (fun f => f_depth f * cm_to_m)%d (st_head s) |> |>
           <| st_mb := mkMB (a_on a) (mb_start (st_mb s)) (a_end a) (mb_precip (st_mb s) + a_precip a) (mb_in (st_mb s) + a_in a) (a_on a)
                    (mb_runoff (st_mb s) + a_runoff a) (mb_aet (st_mb s) + a_aet a) (mb_pet (st_mb s) + a_pet a) (mb_rech (st_mb s) + a_rech a)
                    (mb_giuh (st_mb s) + giuh) (mb_Q (st_mb s) + giuh) (mb_calib (st_mb s) + vcal) (mb_local (st_mb s)) |>
           <| st_out := Some (mkOut (a_precip a * cm_to_m) (a_in a * cm_to_m) (a_end a * cm_to_m) (a_aet a * cm_to_m) (a_rech a * cm_to_m)
                     (a_runoff a * cm_to_m) (giuh * cm_to_m) (giuh * cm_to_m) (Fin 0 * cm_to_m) (a_pet a * cm_to_m)
                     (mbl * cm_to_m)) |>
           <| g_queue := q |>.
Proof.
  intros s a vcal s' H. unfold finish_update in H. bind_inv H x Ex. destruct x as [giuh q].
  destruct (mb_local (st_mb s)) as [mbl|] eqn:E; [|discriminate]. cbv zeta in H. injection H as <-.
  exists giuh, q, mbl. auto.
Qed.
End Any.
