(** The infiltration capacity is not negative unless the column holds more than its largest storage, for any rounding. *)

From Coq Require Import Reals Lra ZArith List Bool Lia.
From Verif Require Import Outcome Dbl Types ListOps Soil Fronts Infil Lib Spec_Common Spec_CapNum Pf_Dbl Pf_Soil Pf_SoilAny Pf_Geff Pf_SurfNum.
From Verif Require Pf_Signs.
Import ListNotations.
Open Scope R_scope.

Section Any.
Context {fp : Fp} {cfg : Cfg}.

Lemma pget_In : forall l p c, pget l p = Ok c -> In c l.
Proof. intros l [i|] c H; [|discriminate]. unfold pget, lget in H. destruct (nth_error l i) as [x|] eqn:E; [|discriminate]. injection H as <-. eapply nth_error_In. exact E. Qed.

Lemma above_nn : forall e lay x y, sound_column e -> not_negative x -> layers_above_sum e lay x = Ok y -> not_negative y.
Proof.
  intros e lay x y (K & F & C) X H. unfold layers_above_sum in H. eapply Pf_Signs.zfor_inv; [|exact X|exact H]. cbv beta. intros i s s' S B.
  bind_inv B so Eso. bind_inv B ff Eff. bind_inv B b1 Eb1. bind_inv B b0 Eb0. injection B as <-. apply nn_add; [exact S|]. apply nn_div; [|apply nn_mul; [exact (K _ _ Eso)|exact (F _ _ Eff)]].
  apply nn_sub. apply (C (lay - i)%Z); [exact Eb1|]. replace (lay - i - 1)%Z with (lay - (i + 1))%Z by lia. exact Eb0.
Qed.

Lemma capacity_nn : forall e closed nint dt aet w precip wfd head q cm ms, sound_column e -> Forall (sound_front e) head -> not_negative dt -> not_negative aet ->
  (closed = false \/ listLength head = e_nlayers e \/ forall k s c, soil_of e k = Ok s -> In c head -> closed_range s (f_theta c)) ->
  lgar_calc_mass_bal (e_cum e) head = Ok cm -> max_storage e = Ok ms -> dltb ms cm = false ->
  infiltration_capacity e closed nint dt aet w precip wfd head = Ok q -> not_negative q.
Proof.
  intros e closed nint dt aet w precip wfd head q cm ms SC SF Hdt Ha Hc Em Es Hs H. pose proof SC as (K & F & C). unfold infiltration_capacity in H. cbv zeta in H.
  bind_inv H fd Efd. bind_inv H s Eso. bind_inv H cur Ecur. bind_inv H ff Eff. bind_inv H g EG. bind_inv H p EP. bind_inv H s1 Es1. rewrite Em in H. cbn [bind] in H. rewrite Es in H. cbn [bind] in H. injection H as <-.
  pose proof (pget_In _ _ _ Efd) as Ifd. pose proof (proj1 (Forall_forall _ _) SF _ Ifd) as (D & T).
  assert (KS : not_negative (s_Ksat s * ff)%d) by (apply nn_mul; [exact (K _ _ Eso)|exact (F _ _ Eff)]).
  assert (G : not_negative g).
  { destruct (listLength head =? e_nlayers e)%Z eqn:N; [injection EG as <-; apply nn_zero|]. bind_inv EG nx Enx. destruct closed; [|exact (geff_integral_nn _ _ _ _ _ _ EG)].
    destruct Hc as [Hc|[Hc|Hc]]; [discriminate Hc|rewrite Hc, Z.eqb_refl in N; discriminate N|].
    destruct (Hc _ _ _ Eso (pget_In _ _ _ Enx)) as (r & te & x & lam & Er & Ee & El & Ex & Hl & Hb & Hre & P & Q & Hx). rewrite Ex, Ee in EG.
    apply (geff_closed_nn x te s (s_Ksat s * ff)%d nint r te lam (s_psib s) g); try assumption; try reflexivity; lra. }
  assert (GH : forall a, not_negative (g + dfmax a (Fin 0))%d) by (intro a; apply nn_add; [exact G|apply nn_fmax0]).
  assert (P : not_negative p).
  { destruct (f_layer fd =? 1)%Z; [injection EP as <-; apply nn_mul; [exact KS|]; apply nn_add; [apply nn_lit; lra|]; apply nn_div; [apply GH|exact D]|].
    bind_inv EP b0 Eb0. bind_inv EP bs Ebs. injection EP as <-. apply nn_add; [apply nn_div; [exact D|]; eapply above_nn; [exact SC| |exact Ebs]; apply nn_div; [apply nn_sub, T, Eb0|exact KS]|].
    apply nn_div; [apply nn_mul; [apply GH|exact KS]|exact D]. }
  assert (M : not_negative ((ms - cm) / dt)%d) by (apply nn_div; [apply nn_sub; exact Hs|exact Hdt]).
  assert (A : not_negative (dfmin p (aet / dt))%d) by (apply nn_fmin; [exact P|apply nn_div; assumption]).
  repeat match goal with |- not_negative (if ?b then _ else _) => destruct b end; assumption.
Qed.

Lemma insert_whole : forall e closed nint dt aet w precip wfd pm head q cm ms, sound_column e -> Forall (sound_front e) head -> 0 < dt -> not_negative aet -> rnd w = Fin w -> 0 <= w ->
  (closed = false \/ listLength head = e_nlayers e \/ forall k s c, soil_of e k = Ok s -> In c head -> closed_range s (f_theta c)) ->
  lgar_calc_mass_bal (e_cum e) head = Ok cm -> max_storage e = Ok ms -> dltb ms cm = false ->
  lgar_insert_water e closed nint (Fin dt) aet (Fin w) (Fin 0) precip wfd (Fin pm) head = Ok q ->
  exists r on i, q = (Fin r, Fin on, Fin i) /\ 0 <= r <= w /\ 0 <= on <= w /\ 0 <= i <= w.
Proof.
  intros e closed nint dt aet w precip wfd pm head q cm ms SC SF Hdt Ha Rw Hw Hc Em Es Hs H. destruct (infiltration_capacity e closed nint (Fin dt) aet (Fin w) precip wfd head) as [x|] eqn:E.
  - pose proof (capacity_nn _ _ _ _ _ _ _ _ _ _ _ _ SC SF (nn_Fin dt ltac:(lra)) Ha Hc Em Es Hs E) as N. destruct (insert_parts e closed nint dt aet w precip wfd pm head x Rw Hw Hdt E N) as (r & on & i & J & B).
    rewrite J in H. injection H as <-. exists r, on, i. auto.
  - unfold lgar_insert_water in H. rewrite E in H. discriminate H.
Qed.
End Any.
