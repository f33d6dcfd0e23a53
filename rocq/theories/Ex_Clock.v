(** Proofs of the examples beside the clock theorems. *)

From Coq Require Import Reals Lra ZArith List Bool Lia.
From RecordUpdate Require Import RecordSet.
From Verif Require Import Outcome Dbl Exact Types Giuh Fronts State Update Lib Spec_Common Spec_Update
  Pf_Dbl Pf_Pow Pf_Update Pf_Clock Ex_Saturated Ex_Steps Ex_Ledger.
Import ListNotations.
Import RecordSetNotations.
Open Scope R_scope.

(** The saturated column with the adaptive option. *)
Definition ad_start : state := ex_start <| st_p := (st_p ex_start) <| p_adaptive := true |> |>.
(** The same column with an invalid soil type. *)
Definition bad_start : state := ex_start <| st_p := (st_p ex_start) <| p_invalid := true |> |>.
(** Forcing as Initialize leaves it. *)
Definition unset_start : state := ex_start <| st_precip := Fin (-1) |> <| st_pet := Fin (-1) |>.

Section Any.
Context {fp : Fp} {cfg : Cfg}.
Lemma fixed_dt : forall s u xs s', p_invalid (st_p s) = false -> executed s u xs s' -> p_adaptive (st_p s) = false -> u_dt u = p_timestep (st_p s).
Proof.
  intros s u xs s' Hv He Ha.
  destruct (executed_valid _ _ _ _ Hv He) as (s1 & vcal & volend & s2 & n & s3 & a & E1 & E2 & E3 & E4 & E5 & E6 & E7).
  destruct (prologue_inv _ _ _ E1) as (Emb & Epr & _ & _ & _ & _ & _ & _ & _ & _ & Et & Emt & Efr & Ead & _).
  destruct (steps_inv _ _ _ _ E3) as (Edt & _). rewrite Edt, Ead, Ha. assumption.
Qed.
End Any.

Section Run.
Local Existing Instance exact.

Lemma fmin_Rmin : forall x y, dfmin (Fin x) (Fin y) = Fin (Rmin x y).
Proof. intros x y. unfold Rmin. cbn. unfold Rltb. rcases; try reflexivity; f_equal; lra. Qed.

Lemma adaptive_cases : forall (cfg : Cfg) (s : state) (u : upar) (xs : list step) (s' : state) (m f r w : R),
    p_invalid (st_p s) = false -> executed s u xs s' -> p_adaptive (st_p s) = true ->
    p_mints (st_p s) = Fin m -> p_fres (st_p s) = Fin f -> st_precip s = Fin r -> mb_on_ts (st_mb s) = Fin w ->
    (10 < r \/ 0 < w -> u_dt u = Fin (Rmin m f)) /\
    (r <= 10 -> w <= 0 -> 0 < r -> u_dt u = Fin (Rmin (2 * m) f)) /\
    (r <= 0 -> w <= 0 -> u_dt u = Fin f).
Proof.
  intros cfg s u xs s' m f r w Hv He Ha Hm Hf Hr Hw. rewrite (update_dt _ _ _ _ Hv He), Ha. unfold adaptive_step. rewrite Hm, Hf, Hr, Hw.
  change (lit 10) with (Fin 10). change (lit 2) with (Fin 2). unfold dgtb.
  split; [|split].
  - intros [H|H].
    + rewrite (ltb_t 10 r H). cbn [orb]. apply fmin_Rmin.
    + rewrite (ltb_t 0 w H), orb_true_r. apply fmin_Rmin.
  - intros H1 H2 H3. rewrite (ltb_f 10 r H1), (ltb_f 0 w H2), (ltb_t 0 r H3). cbn [orb].
    replace (Fin m * Fin 2)%d with (Fin (2 * m)) by (cbn; f_equal; ring). apply fmin_Rmin.
  - intros H1 H2. rewrite (ltb_f 10 r) by lra. rewrite (ltb_f 0 w H2), (ltb_f 0 r H1). cbn [orb]. rewrite fmin_Rmin. f_equal. apply Rmin_left. lra.
Qed.

Lemma clock_refuted : forall cfg : Cfg, exists s1 s1' s2 s2' : state,
    p_invalid (st_p s1) = false /\ p_time (st_p s1) = Fin 0 /\ p_fres (st_p s1) = Fin 1 /\ Update s1 = Ok s1' /\ p_time (st_p s1') = Fin 2880 /\
    p_invalid (st_p s2) = false /\ p_time (st_p s2) = Fin 0 /\ p_fres (st_p s2) = Fin 1 /\ Update s2 = Ok s2' /\ p_time (st_p s2') = Fin 0.
Proof.
  intros cfg.
  destruct (dry_time (2 / 5) 2) as (s1' & A1 & A2); try lra; try lia.
  destruct (dry_time 2 0) as (s2' & B1 & B2); try lra; try lia.
  exists (dry_state (2 / 5) 1), s1', (dry_state 2 1), s2'.
  repeat (split; [first [reflexivity | assumption | rewrite A2; f_equal; lra]|]). rewrite B2. f_equal. lra.
Qed.

Lemma ex_clock : forall cfg : Cfg,
  executed ex_start (ex_upar (1 / 2) (3 / 2)) ex_xs ex_end /\ p_invalid (st_p ex_start) = false /\
  p_time (st_p ex_start) = Fin 0 /\ p_fres (st_p ex_start) = Fin 1 /\ p_endtime (st_p ex_start) = Fin 7200 /\ 1 = INR 2 * (1 / 2) /\ 0 + 1 * 3600 <= 7200 /\
  p_time (st_p ex_end) = Fin 3600.
Proof. intros cfg. split; [apply ex_executed|]. repeat (split; [reflexivity|]). split; [cbn; lra|]. split; [lra|reflexivity]. Qed.

Lemma ex_forcing : forall cfg : Cfg, exists o,
  p_invalid (st_p ex_start) = false /\ executed ex_start (ex_upar (1 / 2) (3 / 2)) ex_xs ex_end /\
  st_precip ex_start = Fin 20 /\ st_pet ex_start = Fin 0 /\ u_dt (ex_upar (1 / 2) (3 / 2)) = Fin (1 / 2) /\ st_out ex_end = Some o /\ o_precip o = Fin (2 / 100).
Proof. intros cfg. eexists. split; [reflexivity|]. split; [apply ex_executed|]. repeat split; reflexivity. Qed.

Lemma ex_outputs : forall cfg : Cfg,
  executed ex_start (ex_upar (1 / 2) (3 / 2)) ex_xs ex_end /\ p_invalid (st_p ex_start) = false /\
  p_nfronts (st_p ex_end) = 1%Z /\ p_theta_wf (st_p ex_end) = [Fin (2 / 5)] /\ p_depth_wf (st_p ex_end) = [Fin 1].
Proof. intros cfg. split; [apply ex_executed|]. repeat split; reflexivity. Qed.

Lemma bad_run : forall cfg : Cfg, exists s' o,
  p_invalid (st_p bad_start) = true /\ fresh bad_start /\ Update bad_start = Ok s' /\ mb_precip (st_mb s') = Fin 2 /\
  st_out s' = Some o /\ o_precip o = Fin (2 / 100) /\ o_Q o = Fin (2 / 100).
Proof.
  intros cfg. eexists. eexists. split; [reflexivity|]. split.
  - split; [exists 40; split; [apply ex_mass|reflexivity]|]. repeat split; reflexivity.
  - split; [reflexivity|]. split; [cbn; f_equal; lra|]. split; [reflexivity|]. split; cbn; f_equal; lra.
Qed.

Lemma unset_run : forall cfg : Cfg,
  p_invalid (st_p unset_start) = false /\ st_precip unset_start = Fin (-1) /\ dgeb (st_precip unset_start) (Fin 0) = false /\
  Update unset_start = Stop AssertFail.
Proof.
  intros cfg. assert (H : dgeb (st_precip unset_start) (Fin 0) = false) by (change (dgeb (Fin (-1)) (Fin 0) = false); unfold dgeb; apply leb_f; lra).
  repeat (split; [first [reflexivity|assumption]|]).
  destruct (update_needs_forcing unset_start eq_refl (or_introl H)) as (r & E & K). rewrite E. f_equal.
  apply (K unset_start (Fin 0) (Fin 40)); [reflexivity|apply ex_mass].
Qed.

Definition adaptive_on (s : state) : state := s <| st_p := (st_p s) <| p_adaptive := true |> |>.

(** Sub-steps do not look at the option. *)
Lemma substep_adaptive : forall (cfg : Cfg) u s a s' a', substep u s a = Ok (s', a') -> substep u (adaptive_on s) a = Ok (adaptive_on s', a').
Proof.
  intros cfg u s a s' a' H. unfold substep in *.
  cbv zeta in *.
  Local Ltac follow E := match type of E with ?X = _ => match goal with |- bind ?Y _ = _ => change Y with X end end; rewrite E; cbn [bind].
  bind_inv H m Em. follow Em. bind_inv H b Eb. follow Eb. bind_inv H v Ev. follow Ev.
  match type of H with (if ?c then _ else _) = _ => match goal with |- (if ?c' then _ else _) = _ => change c' with c end; destruct c end; [discriminate|].
  bind_inv H h Eh. follow Eh. bind_inv H c Ec. follow Ec.
  apply Ok_inj in H. inversion H. reflexivity.
Qed.

Lemma ad_run : forall cfg : Cfg, exists u xs s',
  p_invalid (st_p ad_start) = false /\ executed ad_start u xs s' /\ p_adaptive (st_p ad_start) = true /\
  p_mints (st_p ad_start) = Fin (1 / 2) /\ p_fres (st_p ad_start) = Fin 1 /\ st_precip ad_start = Fin 20 /\ mb_on_ts (st_mb ad_start) = Fin 0 /\
  length xs = 2%nat /\ u_dt u = Fin (1 / 2).
Proof.
  intros cfg.
  assert (S0 : update_steps ad_start = Ok (adaptive_on (ex_state (ex_params (1 / 2) 1 (3 / 2) 7200 0 0 0 2 1 [Fin (2 / 5)] [Fin 1]) ex_mb0 20 None [ex_front] 0), Fin (1 / 2), 2%Z)).
  { unfold update_steps. change (p_adaptive (st_p ad_start)) with true. cbv iota zeta.
    replace (adaptive_step (st_p ad_start) (st_precip ad_start) (mb_on_ts (st_mb ad_start))) with (Fin (1 / 2)).
    - match goal with |- context [d2i ?x] => change x with (Fin 1 / Fin (1 / 2) + lit (1 / 100000000))%d end. rewrite ex_count. reflexivity.
    - unfold adaptive_step. change (st_precip ad_start) with (Fin 20). change (lit 10) with (Fin 10). unfold dgtb. rewrite (ltb_t 10 20) by lra. cbn [orb].
      change (p_mints (st_p ad_start)) with (Fin (1 / 2)). change (p_fres (st_p ad_start)) with (Fin 1). rewrite fmin_Rmin. f_equal. symmetry. apply Rmin_left. lra. }
  pose proof ex_runs as RR. unfold ex_xs in RR. inversion RR as [|? ? ? ? ? ? ? S1 R1]; subst. inversion R1 as [|? ? ? ? ? ? ? S2 R2]; subst. clear RR R1 R2.
  apply substep_adaptive in S1. apply substep_adaptive in S2.
  assert (X : update_prologue ad_start = Ok (ad_start, Fin 0)) by reflexivity.
  assert (HU : exists s', Update ad_start = Ok s').
  { unfold Update. change (p_invalid (st_p ad_start)) with false. cbv iota. rewrite X. cbn [bind].
    change (lgar_calc_mass_bal (p_cum (st_p ad_start)) (st_head ad_start)) with (lgar_calc_mass_bal [Fin 0; Fin 100] [ex_front]).
    rewrite ex_mass. cbn [bind].
    change (st_precip ad_start) with (Fin 20). change (st_pet ad_start) with (Fin 0). unfold dgeb. rewrite !leb_t by lra. cbn [cassert bind].
    rewrite S0. cbn [bind]. change (Z.to_nat 2) with 2%nat. cbn [subcycle_loop].
    match goal with |- context [substep ?u ?s ?a] => match type of S1 with substep ?u' ?s' ?a' = _ => change (substep u s a) with (substep u' s' a') end end.
    rewrite S1. cbn [bind].
    match goal with |- context [(?a >=? ?b)%d] => replace (a >=? b)%d with false by (symmetry; cbn; apply Rleb_false; lra) end.
    cbn [andb].
    match goal with |- context [substep ?u ?s ?a] => match type of S2 with substep ?u' ?s' ?a' = _ => change (substep u s a) with (substep u' s' a') end end.
    rewrite S2. cbn [bind].
    match goal with |- context [if ?c then Ok ?x else Ok ?x] => replace (if c then Ok x else Ok x) with (Ok x) by (destruct c; reflexivity) end.
    cbn [bind]. unfold finish_update.
    match goal with |- context [giuh_convolution_integral ?a ?b ?c ?dd] => replace (giuh_convolution_integral a b c dd) with (@Ok (dbl * list dbl) (Fin (1 / 2), [Fin 0; Fin 0])) end.
    2: { symmetry. reval. feq. }
    cbn [bind].
    match goal with |- context [mb_local ?x] => change (mb_local x) with (Some (Fin 0)) end. cbv iota zeta.
    eexists. reflexivity. }
  destruct HU as [s' HU]. destruct (executed_exists _ _ HU) as (u & xs & He).
  exists u, xs, s'. split; [reflexivity|]. split; [assumption|]. repeat (split; [reflexivity|]).
  assert (V : p_invalid (st_p ad_start) = false) by reflexivity.
  assert (D : u_dt u = Fin (1 / 2)).
  { destruct (adaptive_cases _ _ _ _ _ (1 / 2) 1 20 0 V He eq_refl eq_refl eq_refl eq_refl eq_refl) as [K _]. rewrite K by (left; lra). f_equal. apply Rmin_left. lra. }
  split; [|assumption].
  apply (update_full_step ad_start u xs s' 0 (1 / 2) 1 7200 2); auto; try reflexivity; try lra.
  cbn. lra.
Qed.

Lemma until_refuted : forall cfg : Cfg, exists s s' : state,
    p_invalid (st_p s) = false /\ UpdateUntil (Fin 100000) s = Ok s' /\ p_time (st_p s') = Fin 3600.
Proof.
  intros cfg. exists ex_start, ex_end. split; [reflexivity|]. split; [|reflexivity]. rewrite UpdateUntil_spec, ltb_t by lra. apply ex_update.
Qed.
End Run.
