(** Lemmas on infiltration and ponding built on Pf_Surface and Pf_SurfaceAny. *)

From Coq Require Import Reals Lra ZArith List Bool Lia.
From RecordUpdate Require Import RecordSet.
From Verif Require Import Outcome Dbl Exact Types ListOps Soil Giuh Fronts Infil Move State Update Lib Spec_Common Spec_Column Spec_Update
  Pf_Dbl Pf_Pow Pf_Surface Pf_SurfaceAny Pf_Update Pf_Ledger Pf_Signs Pf_Clock Pf_Column.
Import ListNotations.
Import RecordSetNotations.
Open Scope R_scope.

Section Any.
Context {fp : Fp} {cfg : Cfg}.

Lemma runs_last : forall u s a xs s' a', runs u s a xs s' a' -> xs = [] /\ s' = s /\ a' = a \/ 
  exists x, In x xs /\ substep u (x_s x) (x_a x) = Ok (s', a').
Proof.
  intros u s a xs s' a' H. induction H as [s a|s a s1 a1 xs s2 a2 Hs Hr IH]; [auto|]. right.
  destruct IH as [(-> & -> & ->)|(x & Hi & Hx)].
  - exists (mkStep s a s1 a1). cbn. auto.
  - exists x. cbn. auto.
Qed.

Lemma update_max : forall s u xs s', p_invalid (st_p s) = false -> executed s u xs s' -> not_negative (p_pmax (st_p s')) ->
  (xs = [] /\ mb_on_ts (st_mb s') = mb_on_ts (st_mb s)) \/
  dltb (p_pmax (st_p s')) (mb_on_ts (st_mb s')) = false \/
  exists x aet f_p, In x xs /\
    infiltration_capacity (u_env u) (u_closed u) (u_nint u) (u_dt u) aet (surface_water u x) (rain_rate x)
      (wetting_front_free_drainage (st_head (x_s x))) (st_head (x_s x)) = Ok f_p /\
    deqb (dfmax (surface_water u x - f_p * u_dt u) (Fin 0)) (p_pmax (st_p s')) = true.
Proof.
  intros s u xs s' Hv He Hp.
  destruct (executed_valid _ _ _ _ Hv He) as (s1 & vcal & volend & s2 & n & s3 & a & E1 & E2 & E3 & E4 & E5 & E6 & E7).
  destruct (prologue_inv _ _ _ E1) as (Emb & _). destruct (steps_inv _ _ _ _ E3) as (_ & _ & Es2).
  destruct (finish_inv _ _ _ _ E7) as (giuh & q & mbl & _ & _ & Es').
  destruct (runs_frame _ _ _ _ _ _ _ E5) as (_ & _ & _ & _ & _ & _ & _ & _ & _ & _ & _ & _ & _ & _ & _ & _ & _ & Fp & _).
  assert (Pm : u_pmax u = p_pmax (st_p s')) by (rewrite E4; cbn; subst s'; cbn; congruence).
  destruct (runs_last _ _ _ _ _ _ E5) as [(-> & -> & ->)|(x & Hi & Hx)].
  - left. split; [reflexivity|]. subst s'. cbn. subst s2. cbn. congruence.
  - right. destruct (substep_inv _ _ _ _ _ Hx) as (volstart & b & ve & mb & precip & pet & prate & petr & P1 & P2 & P3 & P4 & _ & Eh & _ & _ & _ & _ & Ea).
    assert (On : mb_on_ts (st_mb s') = b_on b) by (subst s'; cbn; subst a; reflexivity).
    rewrite On, <- Pm in *.
    destruct (hydro_max _ _ _ _ _ _ _ _ _ _ _ Hp Eh) as [K|(aet & f_p & K1 & K2)]; [auto|]. right.
    exists x, aet, f_p. split; [assumption|]. unfold surface_water, rain_rate. subst precip prate. auto.
Qed.
End Any.

Section Exactly.
Local Existing Instance exact.
Context {cfg : Cfg}.

Lemma insert_bounds : forall e ts ss tes closed nint dt aet w precip wfd pmax head r on i m,
  column e ts ss -> Forall2 (fun s x => s_theta_e s = Fin x) ss tes ->
  0 <= w -> 0 < dt -> lgar_calc_mass_bal (e_cum e) head = Ok (Fin m) ->
  lgar_insert_water e closed nint (Fin dt) aet (Fin w) (Fin 0) precip wfd pmax head = Ok (r, on, Fin i) ->
  i <= w /\ (i <= Rmax 0 (column_capacity ts tes - m) \/
             infiltration_capacity e closed nint (Fin dt) aet (Fin w) precip wfd head = Ok NaN).
Proof.
  intros e ts ss tes closed nint dt aet w precip wfd pmax head r on i m C F Hw Hdt Hm H.
  unfold lgar_insert_water in H. bind_inv H fcap Ef. injection H as H.
  split; [eapply partition_supply; eassumption|].
  destruct fcap as [q| | |]; [| | |auto].
  - left. pose proof (partition_capacity _ _ _ _ _ _ _ Hdt H) as K.
    pose proof (capacity_room _ _ _ _ _ _ _ _ _ _ _ _ Hdt Ef Hm (max_storage_is _ _ _ _ C F)) as K2.
    eapply Rle_trans; [exact K|]. apply Rle_max_compat_l. assumption.
  - exfalso. unfold infiltration_capacity in Ef.
    repeat (let z := fresh "z" in let Hz := fresh "Hz" in apply bind_Ok in Ef; destruct Ef as [z [Hz Ef]]).
    match goal with K : lgar_calc_mass_bal _ _ = Ok ?z |- _ => is_var z; rewrite Hm in K; injection K as <- end.
    match goal with K : max_storage _ = Ok _ |- _ => rewrite (max_storage_is _ _ _ _ C F) in K; injection K as <- end.
    apply Ok_inj in Ef.
    replace ((Fin (column_capacity ts tes) - Fin m) / Fin dt)%d with (Fin ((column_capacity ts tes - m) / dt)) in Ef
      by (cbn; destruct (Req_EM_T dt 0); [lra|reflexivity]).
    match type of Ef with (if ?c then _ else ?x) = _ => destruct c eqn:Ec; [discriminate|rewrite Ef in Ec; discriminate] end.
  - left. assert (i <= 0); [|eapply Rle_trans; [eassumption|apply Rmax_l]].
    unfold surface_partition in H. cbn in H. unfold inf_sign in H. destruct (Rlt_dec 0 dt); [|lra].
    cbn in H. destruct pmax as [pm| | |]; cbn in H; unfold Rltb in *; repeat (match type of H with context [Rlt_dec ?a ?b] => destruct (Rlt_dec a b) | context [Req_EM_T ?a ?b] => destruct (Req_EM_T a b) end; cbn in H);
      try (injection H as ? ? ?); try discriminate; try lra.
Qed.

Lemma insert_all : forall e closed nint dt aet w precip wfd pmax head q,
  0 <= w -> 0 < dt -> infiltration_capacity e closed nint (Fin dt) aet (Fin w) precip wfd head = Ok (Fin q) -> w <= q * dt ->
  lgar_insert_water e closed nint (Fin dt) aet (Fin w) (Fin 0) precip wfd pmax head = Ok (Fin 0, Fin 0, Fin w).
Proof.
  intros e closed nint dt aet w precip wfd pmax head q Hw Hdt Hq Hl. unfold lgar_insert_water. rewrite Hq. cbn [bind].
  rewrite (partition_limited _ _ _ _ q) by auto. reflexivity.
Qed.

Lemma update_supply : forall s u xs s' o w0 p i r, p_invalid (st_p s) = false -> signs s -> executed s u xs s' ->
  mb_on_ts (st_mb s) = Fin w0 -> st_out s' = Some o -> o_precip o = Fin p -> o_in o = Fin i -> o_runoff o = Fin r -> i <= w0 / 100 + p.
Proof.
  intros s u xs s' o w0 p i r Hv Hs He Hw Ho Hp Hi Hr.
  destruct (update_surface _ _ _ _ _ _ _ Hv (proj1 He) Hw Ho Hp Hi Hr) as (w1 & W1 & E).
  destruct (update_signs _ _ _ _ Hs He) as (_ & N & W & _). destruct (N (or_introl Hv)) as (o' & Ho' & _ & _ & N1 & _).
  rewrite Ho in Ho'. injection Ho' as <-. rewrite Hr in N1. apply nn_Fin_inv in N1. rewrite W1 in W. apply nn_Fin_inv in W. lra.
Qed.
End Exactly.
