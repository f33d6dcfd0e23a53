(** The velocities at the end of a sub-step: the ponded depth they belong to. *)

From Coq Require Import Reals Lra ZArith List Bool Lia.
From RecordUpdate Require Import RecordSet.
From Verif Require Import Outcome Dbl Types ListOps Soil Giuh Fronts Infil Move State Update Lib Spec_Common Spec_Ponding Pf_Update Pf_Ponding.
Import ListNotations.
Import RecordSetNotations.
Open Scope R_scope.

Section Any.
Context {fp : Fp} {cfg : Cfg}.

Lemma front_but : forall e closed nint h c c' n n', but_dzdt c c' -> but_dzdt n n' -> dzdt_front e closed nint h c n = dzdt_front e closed nint h c' n'.
Proof.
  intros e closed nint h [a b d f g i j k] [a' b' d' f' g' i' j' k'] [m o p q r s t v] [m' o' p' q' r' s' t' v'] (A1 & A2 & A3 & A4 & A5 & A6 & A7) (B1 & B2 & B3 & B4 & B5 & B6 & B7).
  cbn in *. subst. reflexivity.
Qed.

Lemma loop_again : forall e closed nint h l l', dzdt_loop e closed nint h l = Ok l' -> dzdt_loop e closed nint h l' = Ok l'.
Proof.
  intros e closed nint h l. induction l as [|c r IH]; intros l' H; [apply Ok_inj in H; subst; reflexivity|].
  pose proof H as H0. cbn [dzdt_loop] in H. destruct (f_K c <? Fin 0)%d eqn:EK; [discriminate|]. bind_inv H s Es. bind_inv H ff Ef. destruct r as [|n r]; [apply Ok_inj in H; subst l'; exact H0|].
  bind_inv H v Ev. bind_inv H r1 ER. apply Ok_inj in H. subst l'. pose proof (dzdt_loop_but _ _ _ _ _ _ ER) as B. specialize (IH _ ER).
  inversion B as [|q1 n1 q2 r2 BN BR]; subst. cbn [dzdt_loop] in IH |- *. change (f_K (set_dzdt c v)) with (f_K c). change (f_layer (set_dzdt c v)) with (f_layer c). change (f_bottom (set_dzdt c v)) with (f_bottom c). rewrite EK, Es. cbn [bind]. rewrite Ef. cbn [bind].
  assert (EV : (if f_bottom c then Ok (Fin 0) else dzdt_front e closed nint h (set_dzdt c v) n1) = Ok v).
  { destruct (f_bottom c); [exact Ev|]. rewrite <- Ev. apply front_but; [repeat split|]. destruct BN as (A1 & A2 & A3 & A4 & A5 & A6 & A7). repeat split; congruence. }
  rewrite EV. cbn [bind]. rewrite IH. reflexivity.
Qed.

Lemma calc_again : forall e closed nint h l l', lgar_dzdt_calc e closed nint h l = Ok l' -> lgar_dzdt_calc e closed nint h l' = Ok l'.
Proof. intros e closed nint h [|c r] l' H; [discriminate|]. pose proof (dzdt_but _ _ _ _ _ _ H) as B. inversion B; subst. exact (loop_again _ _ _ _ _ _ H). Qed.

Lemma hydro_speed : forall u pp prate petr precip volon w volend head prev b, sub_hydro u pp prate petr precip volon w volend head prev = Ok b ->
  (lgar_dzdt_calc (u_env u) (u_closed u) (u_nint u) (b_on b) (b_head b) = Ok (b_head b) \/ lgar_dzdt_calc (u_env u) (u_closed u) (u_nint u) (Fin 0) (b_head b) = Ok (b_head b)) /\
  ((pp =? Fin 0)%d = false \/ (volon >? Fin 0)%d = true -> (b_on b >? Fin 0)%d = true -> lgar_dzdt_calc (u_env u) (u_closed u) (u_nint u) (b_on b) (b_head b) = Ok (b_head b)).
Proof.
  intros u pp prate petr precip volon w volend head prev b H. unfold sub_hydro in H. cbv zeta in H. bind_inv H aet Ea. bind_inv H cr Ec. bind_inv H b1 EE1. bind_inv H b2 EE2. bind_inv H b3 EE3. bind_inv H l El. apply Ok_inj in H. subst b. cbn [b_on b_head].
  assert (P3 : b_ponded b3 = b_ponded b2 /\ b_on b3 = b_on b2).
  { destruct cr; [apply Ok_inj in EE3; subst; split; reflexivity|]. unfold sub_move in EE3. bind_inv EE3 y Ey. destruct y as [[l3 a3] r3]. apply Ok_inj in EE3. subst b3. split; reflexivity. }
  destruct P3 as [P3 O3]. rewrite P3 in El. rewrite O3. apply calc_again in El.
  assert (NC : (pp =? Fin 0)%d = false \/ (volon >? Fin 0)%d = true -> cr = false).
  { intro X. unfold create_decision in Ec. bind_inv Ec h0 Eh. bind_inv Ec s0 Es. apply Ok_inj in Ec. subst cr. destruct X as [->| ->]; [cbn [andb]; destruct (_ || _); reflexivity|]. rewrite orb_true_r. reflexivity. }
  destruct ((b_ponded b1 >? Fin 0)%d && negb cr) eqn:EI.
  - unfold sub_insert in EE2. bind_inv EE2 y Ey. destruct y as [[ro pd] vi]. destruct (ro <? Fin 0)%d; [discriminate|]. apply Ok_inj in EE2. subst b2. cbn [b_on b_ponded] in *. split; [left; exact El|intros _ _; exact El].
  - apply Ok_inj in EE2. subst b2. unfold sub_no_insert in *. destruct (b_ponded b1 <? u_pmax u)%d eqn:EP; cbn [b_on b_ponded] in *; [|split; [left; exact El|intros _ _; exact El]].
    split; [right; exact El|]. intros X Y. rewrite (NC X) in EI. rewrite Y in EI. discriminate EI.
Qed.

Lemma substep_speed : forall u s a t a', substep u s a = Ok (t, a') ->
  (lgar_dzdt_calc (u_env u) (u_closed u) (u_nint u) (a_on a') (st_head t) = Ok (st_head t) \/ lgar_dzdt_calc (u_env u) (u_closed u) (u_nint u) (Fin 0) (st_head t) = Ok (st_head t)) /\
  ((p_precip_prev (st_p s) =? Fin 0)%d = false -> (a_on a' >? Fin 0)%d = true -> lgar_dzdt_calc (u_env u) (u_closed u) (u_nint u) (a_on a') (st_head t) = Ok (st_head t)).
Proof.
  intros u s a t a' H. destruct (substep_inv _ _ _ _ _ H) as (vs & b & ve & mbl & p & pt & pr & ptr & _ & _ & _ & _ & _ & HY & _ & _ & _ & T & E). subst t a'. cbn [st_head a_on].
  destruct (hydro_speed _ _ _ _ _ _ _ _ _ _ _ HY) as [A B]. split; [exact A|]. intros X Y. apply B; [left; exact X|exact Y].
Qed.
End Any.
