(** The split of the surface water inside a sub-step. *)

From Coq Require Import Reals Lra ZArith List Bool Lia.
From RecordUpdate Require Import RecordSet.
From Verif Require Import Outcome Dbl Types ListOps Soil Giuh Fronts Infil Move State Update Exact Lib Spec_Common Pf_Dbl.
Import ListNotations.
Import RecordSetNotations.
Open Scope R_scope.

Section Exactly.
Local Existing Instance exact.
Context {cfg : Cfg}.

Lemma partition_conserves : forall dt w pmax f_p r on i,
  surface_partition dt (Fin w) (Fin 0) pmax f_p = (Fin r, on, Fin i) ->
  exists o, on = Fin o /\ w = i + r + o.
Proof.
  intros dt w pmax f_p r on i. unfold surface_partition.
  generalize (f_p * dt)%d as q. intro q.
  intro H.
  destruct q as [q| | |], dt as [dt| | |], pmax as [pm| | |]; dcrush; dinv; subst; try discriminate;
  (eexists; split; [first [reflexivity|eassumption]|lra]).
Qed.

Lemma no_insert_conserves : forall u b w r,
  b_ponded b = Fin w -> b_runoff (sub_no_insert u b) = Fin r ->
  exists o, b_on (sub_no_insert u b) = Fin o /\ w = r + o.
Proof.
  intros u b w r Hw. unfold sub_no_insert. rewrite Hw. destruct (u_pmax u) as [pm| | |];
  dsimp; dcrush; cbn; intro H; try discriminate H; try injection H as H; eexists; (split; [reflexivity|subst; lra]).
Qed.

Lemma create_conserves : forall e w dry th head l ponded' volin,
  lgar_create_surficial_front e (Fin w) dry th head = Ok (l, ponded', volin) ->
  forall i, volin = Fin i -> exists p, ponded' = Fin p /\ w = i + p.
Proof.
  intros e w dry th head l ponded' volin H i Hi. unfold lgar_create_surficial_front in H.
  bind_inv H s Es. bind_inv H x Ex. bind_inv H ff Eff. bind_inv H l1 El1. injection H as <- <- <-.
  destruct (dry * (s_theta_e s - th))%d as [q| | |]; dsimp; dcrush; try discriminate; subst;
  (eexists; split; [reflexivity|lra]).
Qed.

(** The water balance of the surface in one sub-step. *)
Lemma hydro_surface : forall u pp prate petr precip volon w volend head prev b i r,
  sub_hydro u pp prate petr precip volon (Fin w) volend head prev = Ok b ->
  b_volin b = Fin i -> b_runoff b = Fin r ->
  exists o, b_on b = Fin o /\ w = i + r + o.
Proof.
  intros u pp prate petr precip volon w volend head prev b i r H Hi Hr. unfold sub_hydro in H.
  bind_inv H aet Eaet. bind_inv H cr Ecr. bind_inv H b1 Eb1. bind_inv H b2 Eb2. bind_inv H b3 Eb3.
  bind_inv H l El. injection H as <-. cbn in Hi, Hr |- *.
  assert (E3 : b_volin b3 = b_volin b2 /\ b_runoff b3 = b_runoff b2 /\ b_on b3 = b_on b2).
  { destruct cr; [injection Eb3 as <-; auto|]. unfold sub_move in Eb3. bind_inv Eb3 y Ey. destruct y as [[? ?] ?].
    injection Eb3 as <-. auto. }
  destruct E3 as (E31 & E32 & E33). rewrite E31 in Hi. rewrite E32 in Hr. rewrite E33. clear E31 E32 E33 Eb3.
  destruct ((b_ponded b1 >? Fin 0)%d && negb cr)%bool eqn:C.
  - apply andb_prop in C as [_ C]. destruct cr; [discriminate|]. injection Eb1 as <-.
    unfold sub_insert in Eb2. bind_inv Eb2 y Ey. destruct y as [[ro po] vo].
    destruct (ro <? Fin 0)%d; [discriminate|]. injection Eb2 as <-. cbn in *.
    unfold lgar_insert_water in Ey. bind_inv Ey fcap Ef. injection Ey as Ey. subst.
    eapply partition_conserves. eassumption.
  - injection Eb2 as <-.
    assert (E4 : b_volin (sub_no_insert u b1) = b_volin b1) by (unfold sub_no_insert; destruct (dltb _ _); reflexivity).
    rewrite E4 in Hi.
    assert (E5 : exists p, b_ponded b1 = Fin p /\ w = i + p).
    { destruct cr.
      - unfold sub_create in Eb1. bind_inv Eb1 y Ey. destruct y as [[l1 a1] pd]. bind_inv Eb1 z Ez. destruct z as [dry ?].
        bind_inv Eb1 h Eh. bind_inv Eb1 t Et. destruct t as [[l2 p2] v2]. injection Eb1 as <-. cbn in *.
        eapply create_conserves; eassumption.
      - injection Eb1 as <-. cbn in *. injection Hi as <-. eexists. split; [reflexivity|lra]. }
    destruct E5 as (p & Ep & ->).
    destruct (no_insert_conserves u b1 p r Ep Hr) as (o & Eo & ->). exists o. split; [assumption|lra].
Qed.

(** Bounds on the infiltrated volume. *)
Lemma partition_supply : forall dt w pmax f_p r on i,
  0 <= w -> surface_partition dt (Fin w) (Fin 0) pmax f_p = (r, on, Fin i) -> i <= w.
Proof.
  intros dt w pmax f_p r on i Hw. unfold surface_partition.
  generalize (f_p * dt)%d as q. intros q H.
  destruct q as [q| | |], dt as [dt| | |], pmax as [pm| | |]; dcrush; dinv; subst; try discriminate; lra.
Qed.

Lemma partition_limited : forall dt w pmax f_p q,
  0 <= w -> 0 < dt -> f_p = Fin q -> w <= q * dt ->
  surface_partition (Fin dt) (Fin w) (Fin 0) pmax f_p = (Fin 0, Fin 0, Fin w).
Proof.
  intros dt w pmax f_p q Hw Hd -> H. unfold surface_partition.
  destruct pmax as [pm| | |]; dsimp; replace (0 / dt) with 0 by (field; lra); dcrush;
  try (repeat f_equal; lra).
Qed.

Lemma partition_capacity : forall dt w pmax q r on i,
  0 < dt -> surface_partition (Fin dt) (Fin w) (Fin 0) pmax (Fin q) = (r, on, Fin i) -> i <= Rmax 0 (q * dt).
Proof.
  intros dt w pmax q r on i Hd H. unfold surface_partition in H.
  assert (E : 0 / dt = 0) by (field; lra). pose proof (Rmax_l 0 (q * dt)). pose proof (Rmax_r 0 (q * dt)).
  destruct pmax as [pm| | |]; dsimp; rewrite E in H; dcrush; dinv; subst; try discriminate; lra.
Qed.

Lemma capacity_room : forall e closed nint dt aet ponded precip wfd head q m M,
  0 < dt -> infiltration_capacity e closed nint (Fin dt) aet ponded precip wfd head = Ok (Fin q) ->
  lgar_calc_mass_bal (e_cum e) head = Ok (Fin m) -> max_storage e = Ok (Fin M) ->
  q * dt <= M - m.
Proof.
  intros e closed nint dt aet ponded precip wfd head q m M Hd H Hm HM. unfold infiltration_capacity in H.
  bind_inv H fd Hq1. bind_inv H s Hq2. bind_inv H cur Hq3. bind_inv H ff Hq4. bind_inv H Gq Hq5. bind_inv H fc6 Hq6. bind_inv H sq1 Hq7.
  rewrite Hm in H. cbn [bind] in H. rewrite HM in H. cbn [bind] in H. injection H as H.
  match type of H with (if ?c then _ else ?x) = _ => generalize dependent x end.
  intros x H. clear - H Hd. destruct (Req_EM_T dt 0) as [|Hn]; [lra|].
  assert (F : q <= (M - m) / dt).
  { destruct x as [x| | |]; dcrush; dinv; subst; try discriminate; lra. }
  apply Rmult_le_compat_r with (r := dt) in F; [|lra]. replace ((M - m) / dt * dt) with (M - m) in F by (field; assumption). assumption.
Qed.

(** With a capacity that is not a number everything infiltrates. *)
Lemma partition_nan : forall dt w pmax, 0 <= w -> dltb (Fin 0) pmax = true ->
  surface_partition (Fin dt) (Fin w) (Fin 0) pmax NaN = (Fin 0, Fin 0, Fin w).
Proof.
  intros dt w [pm| | |] Hw H; unfold surface_partition; dcrush; repeat f_equal; try lra; discriminate.
Qed.
End Exactly.

