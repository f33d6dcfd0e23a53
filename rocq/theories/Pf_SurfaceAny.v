(** The split of the surface water inside a sub-step: signs and bounds for every rounding. *)

From Coq Require Import Reals Lra ZArith List Bool Lia.
From RecordUpdate Require Import RecordSet.
From Verif Require Import Outcome Dbl Types ListOps Soil Giuh Fronts Infil Move State Update Exact Lib Spec_Common Pf_Dbl.
Import ListNotations.
Import RecordSetNotations.
Open Scope R_scope.
(** ** Every rounding *)
Section Any.
Context {fp : Fp} {cfg : Cfg}.

Definition rounded (d : dbl) : Prop := match d with Fin y => rnd y = Fin y | _ => True end.

Lemma rounded_rnd : forall x, rounded (rnd x).
Proof. intro x. exact (rnd_rnd x). Qed.
Lemma rounded_mul : forall a b, rounded (dmul a b).
Proof.
  intros [x| | |] [y| | |]; try exact I; try (apply rounded_rnd); unfold dmul, inf_sign; rcases; exact I.
Qed.
Lemma rounded_sub : forall a b, rounded (dsub a b).
Proof. intros [x| | |] [y| | |]; try exact I. apply rounded_rnd. Qed.

Lemma sub_zero : forall a, rounded a -> dsub a (Fin 0 * Fin 0) = a.
Proof.
  intros a H. assert (E : (Fin 0 * Fin 0)%d = Fin 0) by (cbn; rewrite Rmult_0_l; apply rnd_zero). rewrite E.
  destruct a as [x| | |]; cbn; auto. rewrite Rminus_0_r. exact H.
Qed.
Lemma add_zero : forall a, rounded a -> dadd a (Fin 0) = a.
Proof. intros [x| | |] H; cbn; auto. rewrite Rplus_0_r. exact H. Qed.
Lemma sub_self : forall x, @dsub fp (Fin x) (Fin x) = Fin 0.
Proof. intro x. cbn. rewrite Rminus_diag_eq by reflexivity. apply rnd_zero. Qed.

Lemma dlt_le_false : forall a b c, dltb a c = false -> dltb b c = true -> dltb b a = true \/ a = NaN.
Proof.
  intros [x| | |] [y| | |] [z| | |]; cbn; unfold Rltb; rcases; intros; try discriminate; auto; left; lra.
Qed.

Lemma triple_inj : forall A B C (a x : A) (b y : B) (c z : C), (a, b, c) = (x, y, z) -> a = x /\ b = y /\ c = z.
Proof. intros A B C a x b y c z H. inversion H. auto. Qed.

(** The ponded depth stays within the maximum unless the remaining depth hits it exactly. *)
Lemma partition_max : forall dt w v0 pmax f_p r on i,
  not_negative pmax ->
  surface_partition dt w v0 pmax f_p = (r, on, i) ->
  dltb pmax on = false \/ deqb (dfmax (w - f_p * dt) (Fin 0)) pmax = true.
Proof.
  intros dt w v0 pmax f_p r on i Hp. unfold surface_partition; cbv zeta.
  rewrite sub_zero by apply rounded_sub.
  pose proof (rounded_mul f_p dt) as Hq. revert Hq. generalize (f_p * dt)%d as q. intros q Hq.
  destruct (pmax >? Fin 0)%d eqn:C1.
  - destruct (dfmax (w - q) (Fin 0) <? pmax)%d eqn:C2.
    + intro H. apply triple_inj in H as (<- & <- & <-). left.
      assert (K : dsub w (dfmin w (q + Fin 0 / dt)) = NaN \/ dltb (dfmax (w - q) (Fin 0)) (dsub w (dfmin w (q + Fin 0 / dt))) = false).
      { assert (Z : (Fin 0 / dt)%d = NaN \/ (Fin 0 / dt)%d = Fin 0).
        { destruct dt as [t| | |]; cbn; auto. unfold inf_sign. rcases; auto; try (exfalso; lra).
          all: right; unfold Rdiv; rewrite Rmult_0_l; apply rnd_zero. }
        assert (W : dsub w w = NaN \/ dsub w w = Fin 0) by (destruct w; auto; right; apply sub_self).
        assert (M : dltb (dfmax (w - q) (Fin 0)) (Fin 0) = false) by apply nn_fmax0.
        destruct Z as [-> | ->].
        - assert (E : (q + NaN)%d = NaN) by (destruct q; reflexivity). rewrite E.
          assert (E2 : dfmin w NaN = w) by (destruct w; reflexivity). rewrite E2.
          destruct W as [-> | ->]; auto.
        - rewrite add_zero by assumption.
          assert (F : dfmin w q = w \/ dfmin w q = q) by (clear; unfold dfmin; destruct w, q; auto; destruct (dltb _ _); auto).
          destruct F as [-> | ->].
          + destruct W as [-> | ->]; auto.
          + right. generalize (w - q)%d. clear. intros [x| | |]; try reflexivity. unfold dfmax. cbn [dltb]. unfold Rltb. destruct (Rlt_dec x 0); cbn [dltb]; unfold Rltb; rcases; auto; lra. }
      destruct K as [-> | K]; [destruct pmax; reflexivity|].
      revert K C2. generalize (dfmax (w - q) (Fin 0))%d as t. generalize (dsub w (dfmin w (q + Fin 0 / dt))) as o.
      intros [o| | |] [t| | |] K C2; destruct pmax as [pm| | |]; cbn in *; unfold Rltb in *; rcases; auto; try discriminate; lra.
    + destruct (dfmax (w - q) (Fin 0) >? pmax)%d eqn:C3.
      * intro H. injection H as <- <- <-. left. apply dltb_irrefl.
      * intros _. right. revert C2 C3.
        assert (M : dfmax (w - q) (Fin 0) <> NaN).
        { destruct (w - q)%d; unfold dfmax; try destruct (dltb _ _); discriminate. }
        revert M. generalize (dfmax (w - q) (Fin 0))%d as t. intros [t| | |] M; try congruence;
        destruct pmax as [pm| | |]; dunfold; cbn in *; unfold Rltb, Reqb in *; rcases; intros; auto; try discriminate; lra.
  - intro H. injection H as <- <- <-. left. exact Hp.
Qed.

Lemma no_insert_max : forall u b, dltb (u_pmax u) (b_on (sub_no_insert u b)) = false.
Proof.
  intros u b. unfold sub_no_insert. destruct (b_ponded b <? u_pmax u)%d eqn:C; cbn.
  - destruct (b_ponded b), (u_pmax u); cbn in *; unfold Rltb in *; rcases; auto; try discriminate; lra.
  - apply dltb_irrefl.
Qed.

Lemma hydro_max : forall u pp prate petr precip volon ponded volend head prev b,
  not_negative (u_pmax u) ->
  sub_hydro u pp prate petr precip volon ponded volend head prev = Ok b ->
  dltb (u_pmax u) (b_on b) = false \/
  exists aet f_p, infiltration_capacity (u_env u) (u_closed u) (u_nint u) (u_dt u) aet ponded prate
                    (wetting_front_free_drainage head) head = Ok f_p /\
                  deqb (dfmax (ponded - f_p * u_dt u) (Fin 0)) (u_pmax u) = true.
Proof.
  intros u pp prate petr precip volon ponded volend head prev b Hp H. unfold sub_hydro in H.
  bind_inv H aet Eaet. bind_inv H cr Ecr. bind_inv H b1 Eb1. bind_inv H b2 Eb2. bind_inv H b3 Eb3.
  bind_inv H l El. injection H as <-. cbn.
  assert (E3 : b_on b3 = b_on b2).
  { destruct cr; [injection Eb3 as <-; auto|]. unfold sub_move in Eb3. bind_inv Eb3 y Ey. destruct y as [[? ?] ?].
    injection Eb3 as <-. auto. }
  rewrite E3. clear E3 Eb3.
  destruct ((b_ponded b1 >? Fin 0)%d && negb cr)%bool eqn:C.
  - apply andb_prop in C as [_ C]. destruct cr; [discriminate|]. injection Eb1 as <-.
    unfold sub_insert in Eb2. bind_inv Eb2 y Ey. destruct y as [[ro po] vo].
    destruct (ro <? Fin 0)%d; [discriminate|]. injection Eb2 as <-. cbn in *.
    unfold lgar_insert_water in Ey. bind_inv Ey fcap Ef. injection Ey as Ey.
    destruct (partition_max _ _ _ _ _ _ _ _ Hp Ey) as [K|K]; [auto|]. right. eauto.
  - injection Eb2 as <-. left. apply no_insert_max.
Qed.

(** Signs. *)
Lemma partition_nn : forall dt w v0 pmax f_p r on i,
  not_negative pmax -> not_negative w ->
  surface_partition dt w v0 pmax f_p = (r, on, i) -> not_negative on.
Proof.
  intros dt w v0 pmax f_p r on i Hp Hw. unfold surface_partition; cbv zeta.
  destruct (pmax >? Fin 0)%d; [destruct (_ <? pmax)%d; [|destruct (_ >? pmax)%d]|]; intro H; injection H as <- <- <-; auto.
  - apply nn_sub. apply fmin_le_l.
  - apply nn_zero.
Qed.

Lemma no_insert_nn : forall u b, not_negative (u_pmax u) -> not_negative (b_ponded b) ->
  not_negative (b_on (sub_no_insert u b)) /\ not_negative (b_runoff (sub_no_insert u b)).
Proof.
  intros u b Hp Hb. unfold sub_no_insert. destruct (b_ponded b <? u_pmax u)%d eqn:C; cbn; split; auto using nn_zero, nn_sub.
Qed.

Lemma create_nn : forall e w dry th head l ponded' volin,
  lgar_create_surficial_front e w dry th head = Ok (l, ponded', volin) -> not_negative ponded'.
Proof.
  intros e w dry th head l ponded' volin H. unfold lgar_create_surficial_front in H.
  bind_inv H s Es. bind_inv H x Ex. bind_inv H ff Eff. bind_inv H l1 El1. injection H as <- <- <-.
  destruct (_ >? w)%d eqn:C; [apply nn_zero|]. apply nn_sub. exact C.
Qed.

Lemma hydro_nn : forall u pp prate petr precip volon ponded volend head prev b,
  not_negative (u_pmax u) -> not_negative ponded ->
  sub_hydro u pp prate petr precip volon ponded volend head prev = Ok b ->
  not_negative (b_on b) /\ not_negative (b_runoff b).
Proof.
  intros u pp prate petr precip volon ponded volend head prev b Hp Hw H. unfold sub_hydro in H.
  bind_inv H aet Eaet. bind_inv H cr Ecr. bind_inv H b1 Eb1. bind_inv H b2 Eb2. bind_inv H b3 Eb3.
  bind_inv H l El. injection H as <-. cbn.
  assert (E3 : b_runoff b3 = b_runoff b2 /\ b_on b3 = b_on b2).
  { destruct cr; [injection Eb3 as <-; auto|]. unfold sub_move in Eb3. bind_inv Eb3 y Ey. destruct y as [[? ?] ?].
    injection Eb3 as <-. auto. }
  destruct E3 as [E31 E32]. rewrite E31, E32. clear E31 E32 Eb3.
  destruct ((b_ponded b1 >? Fin 0)%d && negb cr)%bool eqn:C.
  - apply andb_prop in C as [_ C]. destruct cr; [discriminate|]. injection Eb1 as <-.
    unfold sub_insert in Eb2. bind_inv Eb2 y Ey. destruct y as [[ro po] vo].
    destruct (ro <? Fin 0)%d eqn:CR; [discriminate|]. injection Eb2 as <-. cbn [b_on b_runoff b_ponded b_volin] in *.
    unfold lgar_insert_water in Ey. bind_inv Ey fcap Ef. injection Ey as Ey.
    split; [|exact CR]. exact (partition_nn _ _ _ _ _ _ _ _ Hp Hw Ey).
  - injection Eb2 as <-. apply no_insert_nn; auto.
    destruct cr.
    + unfold sub_create in Eb1. bind_inv Eb1 y Ey. destruct y as [[l1 a1] pd]. bind_inv Eb1 z Ez. destruct z as [dry ?].
      bind_inv Eb1 h Eh. bind_inv Eb1 t Et. destruct t as [[l2 p2] v2]. injection Eb1 as <-. cbn in *.
      eapply create_nn; eassumption.
    + injection Eb1 as <-. assumption.
Qed.
End Any.
