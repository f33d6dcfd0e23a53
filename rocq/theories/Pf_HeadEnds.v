(** The head iteration ends. *)

From Coq Require Import Reals Lra ZArith List Bool Lia.
From Verif Require Import Outcome Dbl Exact Types ListOps Soil Fronts Infil Lib Spec_Common Spec_Soil Spec_Balance Pf_Dbl Pf_Pow Pf_Soil Pf_Column Pf_Layers Pf_Balance Pf_Drying.
Import ListNotations.
Open Scope R_scope.

Section Exactly.
Local Existing Instance exact.

Variables (e : env) (lay : Z) (s : soil) (dth dz : list (option dbl)) (ps : list part) (p : part).
Hypothesis HP : layer_parts e dth dz lay ps p.
Hypothesis HS : soil_of e lay = Ok s.
Variable prior : R.
Notation M := (held (p :: ps)).
Notation step := (tmb_step e lay s (Fin prior) dth dz).
Notation loop := (fun k x => tmb_loop k e lay s (Fin prior) dth dz x).

Lemma mass_some : forall th psi, exists m, tmb_mass e lay th psi dth dz = Ok m.
Proof.
  intros th psi. destruct HP as (L & N & (s' & ks & _ & _ & Ez & Et)). unfold tmb_mass. rewrite Ez. cbn [bind]. rewrite Et. cbn [bind].
  replace (Z.to_nat (lay - 1)) with (length ps) by lia.
  assert (G : forall k i acc, (Z.of_nat k + i - 1 <= Z.of_nat (length ps))%Z -> (1 <= i)%Z -> exists m, zfor i k (fun k m => sk <- soil_of e k ;; zk <- uget dz k ;; tk <- uget dth k ;; Ok (m + zk * (theta_of_h sk psi - tk))%d) acc = Ok m).
  { induction k as [|k IH]; intros i acc Hi H1; [eexists; reflexivity|]. cbn [zfor].
    destruct (nth_error ps (Z.to_nat (i - 1))) as [q|] eqn:Eq; [|apply nth_error_None in Eq; lia]. destruct (N _ _ Eq) as (sj & kj & Ej & _ & Ezj & Etj).
    replace (Z.of_nat (Datatypes.S (Z.to_nat (i - 1)))) with i in * by lia. rewrite Ej. cbn [bind]. rewrite Ezj. cbn [bind]. rewrite Etj. cbn [bind]. apply IH; lia. }
  apply G; lia.
Qed.

(** ** Ending *)

Definition stops (x : tmb) : Prop := exists N y, forall k, (N <= k)%nat -> loop k x = Ok y.

Lemma stops_end : forall x, dgtb (t_delta x) tmb_tol = false -> stops x.
Proof. intros x H. exists 1%nat, x. intros [|k] Hk; [lia|]. cbn [tmb_loop]. rewrite H. reflexivity. Qed.
Lemma stops_break : forall x y, step x = Ok (y, true) -> stops x.
Proof.
  intros x y H. destruct (t_delta x >? tmb_tol)%d eqn:E; [|apply stops_end; assumption]. exists 1%nat, y. intros [|k] Hk; [lia|]. cbn [tmb_loop]. rewrite E, H. reflexivity.
Qed.
Lemma stops_next : forall x y, step x = Ok (y, false) -> stops y -> stops x.
Proof.
  intros x y H (N & z & HN). destruct (t_delta x >? tmb_tol)%d eqn:E; [|apply stops_end; assumption]. exists (Datatypes.S N), z. intros [|k] Hk; [lia|]. cbn [tmb_loop]. rewrite E, H. cbn [bind]. apply HN. lia.
Qed.
Lemma stops_step : forall x y b, step x = Ok (y, b) -> (b = false -> stops y) -> stops x.
Proof. intros x y [|] H K; [eapply stops_break|eapply stops_next]; eauto. Qed.

(** ** States *)

(** The head is a number that is not negative. *)
Definition wet (x : tmb) (psi f mv : R) : Prop :=
  t_psi x = Fin psi /\ t_factor x = Fin f /\ t_new x = Fin mv /\ (exists prev, t_prev x = Fin prev) /\ t_dprev x = Fin (Rabs (mv - prior)) /\ 0 <= psi /\ 0 < f /\ (0 <= t_count x <= 4)%Z.
(** The step before led below zero. *)
Definition under (x : tmb) (psi f : R) : Prop :=
  t_psi x = Fin psi /\ t_factor x = Fin f /\ t_prev x = Fin 0 /\ psi = - (1 / 10 * f) /\ 0 < f /\ (0 <= t_count x <= 4)%Z.
(** The factor can be divided by ten at most [j] times before a step is too small. *)
Definition room (x : tmb) (f : R) (j : nat) : Prop := f * (if t_aug x then 1 else 100) < 1 / 100000000000000 * 10 ^ j.

Lemma grown_pos : forall x f, 0 < f -> f <= grown x f.
Proof. intros x f H. unfold grown. destruct (aug_now x); lra. Qed.
Lemma room_grown : forall x f j, room x f j -> grown x f * (if (aug_now x || t_aug x)%bool then 1 else 100) < 1 / 100000000000000 * 10 ^ j.
Proof.
  intros x f j. unfold room, grown, aug_now. destruct (t_aug x), (t_iter x + 1 >? 1000)%Z; cbn [negb andb orb]; lra.
Qed.
Lemma room_one : forall x f, 0 < f -> room x f 0 -> grown x f < 1 / 100000000000000.
Proof. intros x f P H. apply room_grown in H. cbn [pow] in H. pose proof (grown_pos x f P). destruct (aug_now x || t_aug x)%bool; lra. Qed.
Lemma count_range : forall c d b, (0 <= c <= 4)%Z -> (let k := if (d : bool) then (c + 1)%Z else 0%Z in (k =? 5)%Z = b -> b = false -> (0 <= k <= 4)%Z).
Proof. intros c d b H. cbv zeta. destruct d; intros E ->; [apply Z.eqb_neq in E|]; lia. Qed.

(** A step up from any state; the mass need not be a number. *)
Lemma up_pass : forall x psi f, t_psi x = Fin psi -> t_factor x = Fin f -> dgtb (t_new x) (Fin prior) = true -> (0 <= t_count x <= 4)%Z ->
  let psi' := psi + 1 / 10 * grown x f in 0 <= psi' ->
  exists dp c b, step x = Ok (mkT (Fin psi') (t_prev x) (Fin (grown x f)) false (Fin (pt_theta p psi')) (Fin (M psi')) (Fin (Rabs (M psi' - prior))) dp c (t_sat x) (t_iter x + 1) (aug_now x || t_aug x), b) /\
    (b = false -> dp = Fin (Rabs (M psi' - prior)) /\ (0 <= c <= 4)%Z /\ psi' <= 10000000).
Proof.
  intros x psi f E1 E2 U C psi' H0. unfold tmb_step. cbv zeta. fold (aug_now x).
  assert (F1 : (if aug_now x then t_factor x * lit 100 else t_factor x)%d = Fin (grown x f)) by (rewrite E2; unfold grown; destruct (aug_now x); reflexivity).
  rewrite F1, U, E1. change (Fin psi + lit (1 / 10) * Fin (grown x f))%d with (Fin psi'). rewrite (mass_held e lay s dth dz ps p HP HS psi' H0). cbn [bind]. rewrite (theta_own e lay s dth dz ps p HP HS psi' H0).
  change (dabs (Fin (M psi') - Fin prior))%d with (Fin (Rabs (M psi' - prior))).
  match goal with |- context[if (?a && ?b)%bool then _ else _] => destruct (a && b)%bool end; [do 3 eexists; split; [reflexivity|discriminate]|].
  match goal with |- context[if ?d then (t_count x + 1)%Z else 0%Z] => set (D := d) end.
  destruct ((if D then (t_count x + 1)%Z else 0%Z) =? 5)%Z eqn:B2; [do 3 eexists; split; [reflexivity|discriminate]|].
  destruct (Fin psi' >? lit 10000000)%d eqn:B3; [do 3 eexists; split; [reflexivity|discriminate]|].
  match goal with |- context[if (?a && ?b)%bool then _ else _] => destruct (a && b)%bool end; (do 3 eexists; split; [reflexivity|]); [discriminate|]. intros _. split; [reflexivity|]. split.
  - exact (count_range _ _ _ C B2 eq_refl).
  - change (lit 10000000) with (Fin 10000000) in B3. destruct (Rlt_dec 10000000 psi'); [unfold dgtb in B3; rewrite ltb_t in B3 by assumption; discriminate|lra].
Qed.

(** A step below zero. *)
Lemma under_pass : forall x f mv f2, wet x 0 f mv -> mv <= prior -> f2 = (if t_switched x then grown x f else grown x f * (1 / 10)) ->
  exists y b, step x = Ok (y, b) /\ (b = false -> under y (- (1 / 10 * f2)) f2 /\ t_switched y = true /\ t_aug y = (aug_now x || t_aug x)%bool /\ 1 / 100000000000000 <= f2).
Proof.
  intros x f mv f2 (E1 & E2 & E3 & _ & _ & _ & P & C) D EF. unfold tmb_step. cbv zeta. fold (aug_now x). pose proof (grown_pos x f P) as GP.
  assert (F1 : (if aug_now x then t_factor x * lit 100 else t_factor x)%d = Fin (grown x f)) by (rewrite E2; unfold grown; destruct (aug_now x); reflexivity).
  rewrite F1, E3, E1. unfold dgtb at 1. rewrite ltb_f by assumption. change (lit (1 / 10)) with (Fin (1 / 10)).
  replace (if t_switched x then Fin (grown x f) else Fin (grown x f) * Fin (1 / 10))%d with (Fin f2) by (rewrite EF; destruct (t_switched x); reflexivity).
  assert (P2 : 0 < f2) by (rewrite EF; destruct (t_switched x); lra).
  change (Fin 0 - Fin (1 / 10) * Fin f2)%d with (Fin (0 - 1 / 10 * f2)). rewrite ltb_t by lra. replace (Fin 0 <>? Fin 0)%d with false by (symmetry; unfold dneb; rewrite eqb_t by reflexivity; reflexivity). cbn [negb andb].
  replace (0 - 1 / 10 * f2) with (- (1 / 10 * f2)) by ring.
  destruct (mass_some (theta_of_h s (Fin (- (1 / 10 * f2)))) (Fin (- (1 / 10 * f2)))) as [m EM]. rewrite EM. cbn [bind].
  match goal with |- context[if (?a && ?b)%bool then _ else _] => destruct (a && b)%bool eqn:B1 end; [do 2 eexists; split; [reflexivity|discriminate]|].
  match goal with |- context[if ?d then (t_count x + 1)%Z else 0%Z] => set (Q := d) end.
  destruct ((if Q then (t_count x + 1)%Z else 0%Z) =? 5)%Z eqn:B2; [do 2 eexists; split; [reflexivity|discriminate]|].
  match goal with |- context[if ?a then _ else _] => destruct a end; [do 2 eexists; split; [reflexivity|discriminate]|].
  match goal with |- context[if (?a && ?b)%bool then _ else _] => destruct (a && b)%bool end; (do 2 eexists; split; [reflexivity|]); [discriminate|]. intros _.
  cbn [t_switched t_aug]. split; [|split; [reflexivity|split; [reflexivity|]]].
  - unfold under. cbn [t_psi t_factor t_prev t_count]. repeat (split; [reflexivity || assumption|]). exact (count_range _ _ _ C B2 eq_refl).
  - destruct (Rle_dec (1 / 100000000000000) f2) as [|N]; [assumption|exfalso]. change (dabs (Fin (- (1 / 10 * f2)) - Fin 0))%d with (Fin (Rabs (- (1 / 10 * f2) - 0))) in B1.
    change (lit (1 / 1000000000000000)) with (Fin (1 / 1000000000000000)) in B1. change (lit (1 / 10000000000000)) with (Fin (1 / 10000000000000)) in B1.
    rewrite !ltb_t in B1; [discriminate|lra|]. rewrite Rabs_left; lra.
Qed.

(** Two steps below zero end the search. *)
Lemma under_down : forall x psi f, under x psi f -> dgtb (t_new x) (Fin prior) = false -> exists y, step x = Ok (y, true).
Proof.
  intros x psi f (E1 & E2 & _ & EP & P & _) U. unfold tmb_step. cbv zeta. fold (aug_now x). pose proof (grown_pos x f P) as GP.
  assert (F1 : (if aug_now x then t_factor x * lit 100 else t_factor x)%d = Fin (grown x f)) by (rewrite E2; unfold grown; destruct (aug_now x); reflexivity).
  rewrite F1, U, E1. change (lit (1 / 10)) with (Fin (1 / 10)).
  set (f2 := if t_switched x then grown x f else grown x f * (1 / 10)).
  replace (if t_switched x then Fin (grown x f) else Fin (grown x f) * Fin (1 / 10))%d with (Fin f2) by (unfold f2; destruct (t_switched x); reflexivity).
  assert (P2 : 0 < f2) by (unfold f2; destruct (t_switched x); lra).
  change (Fin psi - Fin (1 / 10) * Fin f2)%d with (Fin (psi - 1 / 10 * f2)). rewrite ltb_t by lra. replace (Fin psi <>? Fin 0)%d with true by (symmetry; unfold dneb; rewrite eqb_f by lra; reflexivity). cbn [negb andb].
  change (Fin psi * Fin (1 / 10))%d with (Fin (psi * (1 / 10))).
  destruct (mass_some (theta_of_h s (Fin (psi * (1 / 10)))) (Fin (psi * (1 / 10)))) as [m EM]. rewrite EM. cbn [bind]. rewrite leb_t by lra. rewrite (ltb_t psi 0) by lra. cbn [andb].
  repeat match goal with |- context[if ?a then Ok _ else _] => destruct a; [eexists; reflexivity|] end. eexists; reflexivity.
Qed.

(** ** Termination *)

(** An upper bound of what the masses at two heads can differ by. *)
Definition spread (psi : R) : R := Rsum (map (fun q => Rabs (pt_z q) * (pt_theta q 0 - pt_theta q psi)) (p :: ps)).

Lemma parts_vg : Forall (fun q => pt_r q < pt_e q /\ 0 < pt_a q /\ 1 < pt_n q /\ 0 < pt_m q < 1) (p :: ps).
Proof.
  destruct HP as (_ & N & (sl & ks & _ & V & _)). constructor; [destruct V; auto|]. apply Forall_forall. intros q Hq. apply In_nth_error in Hq as [j Hj].
  destruct (N _ _ Hj) as (sj & kj & _ & Vj & _). destruct Vj; auto.
Qed.
Lemma theta_falls : forall q x y, pt_r q < pt_e q /\ 0 < pt_a q /\ 1 < pt_n q /\ 0 < pt_m q < 1 -> 0 <= x -> x <= y -> pt_theta q y <= pt_theta q x.
Proof.
  intros q x y (A1 & A2 & A3 & A4) Hx Hy. destruct (Req_dec x y) as [->|NE]; [lra|]. unfold pt_theta, vg_theta.
  pose proof (Se_h_decreasing (pt_a q) (pt_n q) (pt_m q) x y ltac:(lra) ltac:(lra) ltac:(lra) Hx ltac:(lra)) as H.
  pose proof (Rmult_le_compat_l (pt_e q - pt_r q) _ _ ltac:(lra) (Rlt_le _ _ H)). lra.
Qed.
Lemma spread_pos : forall psi, 0 <= psi -> 0 <= spread psi.
Proof.
  intros psi H0. pose proof parts_vg as V. revert V. unfold spread. generalize (p :: ps). induction l as [|q l IH]; intros V; [cbn; lra|]. inversion V; subst. cbn [map Rsum].
  specialize (IH ltac:(assumption)). pose proof (theta_falls q 0 psi ltac:(assumption) ltac:(lra) H0). pose proof (Rmult_le_pos (Rabs (pt_z q)) (pt_theta q 0 - pt_theta q psi) (Rabs_pos _) ltac:(lra)). lra.
Qed.
Lemma mass_spread : forall psi psi', 0 <= psi' -> psi' <= psi -> Rabs (M psi' - M psi) <= spread psi - spread psi'.
Proof.
  intros psi psi' H0 H1. pose proof parts_vg as V. revert V. unfold spread, held. generalize (p :: ps). induction l as [|q l IH]; intros V; [cbn; rewrite Rminus_diag_eq, Rabs_R0 by reflexivity; lra|].
  inversion V; subst. cbn [map Rsum]. specialize (IH ltac:(assumption)). pose proof (theta_falls q psi' psi ltac:(assumption) H0 H1) as F.
  match type of IH with Rabs (?a - ?b) <= ?c - ?g => set (A := a) in *; set (B := b) in *; set (C := c) in *; set (G := g) in * end.
  replace (pt_z q * (pt_theta q psi' - pt_t q) + A - (pt_z q * (pt_theta q psi - pt_t q) + B)) with (pt_z q * (pt_theta q psi' - pt_theta q psi) + (A - B)) by ring.
  eapply Rle_trans; [apply Rabs_triang|]. rewrite Rabs_mult, (Rabs_right (pt_theta q psi' - pt_theta q psi)) by lra. lra.
Qed.
Lemma delta_spread : forall psi psi', 0 <= psi' -> psi' <= psi -> Rabs (Rabs (M psi' - prior) - Rabs (M psi - prior)) <= spread psi - spread psi'.
Proof.
  intros psi psi' H0 H1. eapply Rle_trans; [|apply (mass_spread psi psi' H0 H1)]. replace (M psi' - M psi) with (M psi' - prior - (M psi - prior)) by ring. apply Rabs_triang_inv2.
Qed.

(** After a step up, the search goes on in this state. *)
Lemma up_next : forall x psi f j, t_psi x = Fin psi -> t_factor x = Fin f -> 0 < f -> dgtb (t_new x) (Fin prior) = true -> (0 <= t_count x <= 4)%Z -> (exists prev, t_prev x = Fin prev) ->
  0 <= psi + 1 / 10 * grown x f -> room x f j ->
  (forall y, wet y (psi + 1 / 10 * grown x f) (grown x f) (M (psi + 1 / 10 * grown x f)) -> room y (grown x f) j -> t_switched y = false -> psi + 1 / 10 * grown x f <= 10000000 -> stops y) -> stops x.
Proof.
  intros x psi f j E1 E2 P U C EP H0 R K. destruct (up_pass x psi f E1 E2 U C H0) as (dp & c & b & ES & HB). apply (stops_step x _ b ES). intro B. destruct (HB B) as (-> & HC & HM).
  pose proof (grown_pos x f P). apply K; [|exact (room_grown _ _ _ R)|reflexivity|assumption]. unfold wet. cbn [t_psi t_factor t_new t_prev t_dprev t_count]. repeat (split; [reflexivity || assumption|]). split; [lra|assumption].
Qed.

(** After a step down. *)
Lemma down_next : forall x psi f mv f2, wet x psi f mv -> mv <= prior -> f2 = (if t_switched x then grown x f else grown x f * (1 / 10)) ->
  (forall y, 1 / 100000000000000 <= f2 -> t_switched y = true -> t_aug y = (aug_now x || t_aug x)%bool -> (wet y (psi - 1 / 10 * f2) f2 (M (psi - 1 / 10 * f2)) \/
     psi - 1 / 10 * f2 < 0 /\ 0 < psi /\ wet y (psi * (1 / 10)) f2 (M (psi * (1 / 10))) /\ t_count y = kept_count x (Rabs (mv - prior)) (Rabs (M (psi * (1 / 10)) - prior)) \/
     under y (- (1 / 10 * f2)) f2) -> stops y) -> stops x.
Proof.
  intros x psi f mv f2 W D EF K. pose proof W as (E1 & E2 & E3 & (prev & E4) & E5 & H0 & P & C). pose proof (grown_pos x f P) as GP.
  assert (P2 : 0 < f2) by (rewrite EF; destruct (t_switched x); lra).
  assert (KC : forall dp d, kept_count x dp d <> 5%Z -> (0 <= kept_count x dp d <= 4)%Z) by (intros dp d; unfold kept_count; destruct (Rlt_dec _ _); lia).
  destruct (Rlt_dec (psi - 1 / 10 * f2) 0) as [N|N].
  - destruct (Req_EM_T psi 0) as [Z|Z].
    + subst psi. destruct (under_pass x f mv f2 W D EF) as (y & b & ES & HB). apply (stops_step x y b ES). intro B. destruct (HB B) as (A1 & A2 & A3 & A4). apply K; auto.
    + destruct (pass e lay s dth dz ps p HP HS prior x psi f mv prev _ _ _ _ _ _ E1 E2 E3 E4 E5 (sh_over _ _ _ _ _ _ _ f2 D EF N Z) ltac:(lra)) as (dp & c & b & ES & HB).
      apply (stops_step x _ b ES). intro B. destruct (HB B) as (-> & -> & C5 & HM & NT). cbn [negb] in *. apply K; [|reflexivity|reflexivity|].
      * destruct (Rle_dec (1 / 100000000000000) f2) as [|NF]; [assumption|exfalso]. apply NT. split; [|lra]. rewrite Rabs_left1; lra.
      * right. left. split; [assumption|]. split; [lra|]. split; [|reflexivity]. unfold wet. cbn [t_psi t_factor t_new t_prev t_dprev t_count]. repeat (split; [reflexivity || assumption || solve [eauto]|]). split; [lra|]. split; [lra|apply KC; exact C5].
  - assert (N1 : 0 <= psi - 1 / 10 * f2) by lra. destruct (pass e lay s dth dz ps p HP HS prior x psi f mv prev _ _ _ _ _ _ E1 E2 E3 E4 E5 (sh_down _ _ _ _ _ _ _ f2 D EF N1) N1) as (dp & c & b & ES & HB).
    apply (stops_step x _ b ES). intro B. destruct (HB B) as (-> & -> & C5 & HM & NT). apply K; [|reflexivity|reflexivity|].
    + destruct (Rle_dec (1 / 100000000000000) f2) as [|NF]; [assumption|exfalso]. apply NT. split; [|lra]. rewrite Rabs_left1; lra.
    + left. unfold wet. cbn [t_psi t_factor t_new t_prev t_dprev t_count]. repeat (split; [reflexivity || assumption || solve [eauto]|]). apply KC; exact C5.
Qed.

Definition falls (j : nat) : Prop := forall y f, t_switched y = true -> room y f j -> (exists psi, wet y psi f (M psi)) \/ (exists psi, under y psi f) -> stops y.
Definition climbs (j : nat) : Prop := forall x psi f mv, t_switched x = false -> room x f j -> wet x psi f mv -> stops x.

Lemma climb : forall j, (forall i, j = Datatypes.S i -> falls i) -> climbs j.
Proof.
  intros j HF x psi f mv SW R W.
  assert (X : forall k x psi f mv, t_switched x = false -> room x f j -> wet x psi f mv -> 10000000 - psi < INR k * (f / 10) -> stops x).
  { clear x psi f mv SW R W. induction k as [|k IH]; intros x psi f mv SW R W HK; pose proof W as (E1 & E2 & E3 & EP & E5 & H0 & P & C); pose proof (grown_pos x f P) as GP.
    all: destruct (Rlt_dec prior mv) as [U|D].
    all: try (assert (HD : mv <= prior) by lra; apply (down_next x psi f mv _ W HD eq_refl); rewrite SW; intros y HF2 SY AY HY;
      destruct j as [|i]; [pose proof (room_one x f P R); exfalso; lra|]; apply (HF i eq_refl y (grown x f * (1 / 10)) SY);
      [unfold room; rewrite AY; pose proof (room_grown x f _ R) as RG; cbn [pow] in RG; lra|destruct HY as [HY|[(_ & _ & HY & _)|HY]]; eauto]).
    all: apply (up_next x psi f j E1 E2 P); [rewrite E3; apply ltb_t; exact U|exact C|exact EP|lra|exact R|]; intros y WY RY SY LY.
    - exfalso. cbn in HK. lra.
    - apply (IH y _ _ _ SY RY WY). rewrite S_INR in HK. pose proof (pos_INR k) as PK. pose proof (Rmult_le_compat_l (INR k) (f / 10) (grown x f / 10) PK ltac:(lra)). lra. }
  assert (HK : exists k, 10000000 - psi < INR k * (f / 10)).
  { destruct W as (_ & _ & _ & _ & _ & _ & P & _). exists (Z.to_nat (up ((10000000 - psi) / (f / 10)))). pose proof (archimed ((10000000 - psi) / (f / 10))) as [A _].
    assert (B : (10000000 - psi) / (f / 10) < INR (Z.to_nat (up ((10000000 - psi) / (f / 10))))).
    { eapply Rlt_le_trans; [exact A|]. rewrite INR_IZR_INZ. apply IZR_le. lia. }
    apply (Rmult_lt_compat_r (f / 10)) in B; [|lra]. replace ((10000000 - psi) / (f / 10) * (f / 10)) with (10000000 - psi) in B by (field; lra). exact B. }
  destruct HK as [k HK]. exact (X k x psi f mv SW R W HK).
Qed.

Lemma above : forall a b, 0 < b -> exists k, a < INR k * b.
Proof.
  intros a b Hb. exists (Z.to_nat (up (a / b))). pose proof (archimed (a / b)) as [A _].
  assert (B : a / b < INR (Z.to_nat (up (a / b)))). { eapply Rlt_le_trans; [exact A|]. rewrite INR_IZR_INZ. apply IZR_le. lia. }
  apply (Rmult_lt_compat_r b) in B; [|lra]. replace (a / b * b) with a in B by (field; lra). exact B.
Qed.

Lemma fall : forall j, climbs j -> falls j.
Proof.
  intros j HC.
  (* below zero *)
  assert (XU : forall y psi f, t_switched y = true -> room y f j -> under y psi f -> stops y).
  { intros y psi f SY R W. pose proof W as (E1 & E2 & EP & E & P & C). destruct (t_new y >? Fin prior)%d eqn:U.
    - apply (up_next y psi f j E1 E2 P U C (ex_intro _ 0 EP)); [pose proof (grown_pos y f P); lra|exact R|]. intros z WZ RZ SZ _. exact (HC z _ _ _ SZ RZ WZ).
    - destruct (under_down y psi f W U) as [z EZ]. exact (stops_break y z EZ). }
  assert (UP : forall x psi f, wet x psi f (M psi) -> room x f j -> prior < M psi -> stops x).
  { intros x psi f W R U. pose proof W as (E1 & E2 & E3 & EP & E5 & H0 & P & C). apply (up_next x psi f j E1 E2 P); [rewrite E3; apply ltb_t; exact U|exact C|exact EP|pose proof (grown_pos x f P); lra|exact R|].
    intros z WZ RZ SZ _. exact (HC z _ _ _ SZ RZ WZ). }
  (* overshooting *)
  assert (XO : forall k c x psi f, t_switched x = true -> room x f j -> wet x psi f (M psi) -> psi - 1 / 10 * f < 0 -> spread psi < INR k * (1 / 1000000000000000) -> (4 - t_count x <= Z.of_nat c)%Z -> stops x).
  { induction k as [|k IHk].
    { intros c x psi f SW R W _ HK _. exfalso. destruct W as (_ & _ & _ & _ & _ & H0 & _). pose proof (spread_pos psi H0). change (INR 0) with 0 in HK. lra. }
    induction c as [|c IHc]; intros x psi f SW R W HO HK HCn; (destruct (Rlt_dec prior (M psi)) as [U|D]; [exact (UP x psi f W R U)|]); assert (HD : M psi <= prior) by lra;
      apply (down_next x psi f (M psi) _ W HD eq_refl); rewrite SW; intros y HF2 SY AY HY; pose proof W as (E1 & E2 & E3 & EP & E5 & H0 & P & C); pose proof (grown_pos x f P) as GP;
      assert (RY : room y (grown x f) j) by (unfold room; rewrite AY; exact (room_grown x f j R));
      (destruct HY as [HY|[(_ & PP & HY & EC)|HY]]; [destruct HY as (_ & _ & _ & _ & _ & HN & _); exfalso; lra| |exact (XU y _ _ SY RY HY)]);
      (destruct (Rlt_dec prior (M (psi * (1 / 10)))) as [U'|D']; [exact (UP y _ _ HY RY U')|]);
      pose proof (delta_spread psi (psi * (1 / 10)) ltac:(lra) ltac:(lra)) as OM; pose proof (mass_spread psi (psi * (1 / 10)) ltac:(lra) ltac:(lra)) as MM; pose proof (Rabs_pos (M (psi * (1 / 10)) - M psi)); unfold kept_count in EC;
      pose proof HY as (_ & _ & _ & _ & _ & _ & _ & CY); rewrite S_INR in HK;
      destruct (Rlt_dec (Rabs (Rabs (M (psi * (1 / 10)) - prior) - Rabs (M psi - prior))) (1 / 1000000000000000)) as [S|B].
    - exfalso. lia.
    - apply (IHk 4%nat y _ _ SY RY HY); [lra|lra|lia].
    - apply (IHc y _ _ SY RY HY); [lra|rewrite S_INR; lra|lia].
    - apply (IHk 4%nat y _ _ SY RY HY); [lra|lra|lia]. }
  (* falling *)
  assert (XF : forall k x psi f, t_switched x = true -> room x f j -> wet x psi f (M psi) -> psi < INR k * (f / 10) -> stops x).
  { induction k as [|k IH]; intros x psi f SW R W HK; pose proof W as (E1 & E2 & E3 & EP & E5 & H0 & P & C); [cbn in HK; exfalso; lra|]. pose proof (grown_pos x f P) as GP.
    destruct (Rlt_dec prior (M psi)) as [U|D]; [exact (UP x psi f W R U)|]. assert (HD : M psi <= prior) by lra. apply (down_next x psi f (M psi) _ W HD eq_refl); rewrite SW; intros y HF2 SY AY HY.
    assert (RY : room y (grown x f) j) by (unfold room; rewrite AY; exact (room_grown x f j R)). destruct HY as [HY|[(HN & _ & HY & _)|HY]]; [| |exact (XU y _ _ SY RY HY)].
    - apply (IH y _ _ SY RY HY). rewrite S_INR in HK. pose proof (pos_INR k) as PK. pose proof (Rmult_le_compat_l (INR k) (f / 10) (grown x f / 10) PK ltac:(lra)). lra.
    - destruct (above (spread (psi * (1 / 10))) (1 / 1000000000000000) ltac:(lra)) as [q Hq]. pose proof HY as (_ & _ & _ & _ & _ & _ & _ & CY). apply (XO q 4%nat y _ _ SY RY HY); [lra|exact Hq|lia]. }
  intros y f SY R [[psi W]|[psi W]]; [|exact (XU y psi f SY R W)]. destruct (above psi (f / 10)) as [k Hk]; [destruct W as (_ & _ & _ & _ & _ & _ & P & _); lra|]. exact (XF k y psi f SY R W Hk).
Qed.

Lemma climbs_all : forall j, climbs j.
Proof. induction j as [|j IH]; apply climb; intros i E; [discriminate|]. injection E as <-. apply fall. exact IH. Qed.

Theorem head_sec : forall psi0 new, 0 <= psi0 -> stops (mkT (Fin psi0) (Fin psi0) (dfmax (lit 1) (Fin psi0 / lit 100)) false (Fin 0) (Fin new) (Fin (Rabs (new - prior))) (Fin (Rabs (new - prior))) 0 false 0 false).
Proof.
  intros psi0 new H0. set (f := Rmax 1 (psi0 / 100)).
  assert (EF : dfmax (lit 1) (Fin psi0 / lit 100) = Fin f).
  { change (lit 1) with (Fin 1). change (lit 100) with (Fin 100). rewrite div_fin by lra. unfold dfmax, dltb, Rltb, f, Rmax. destruct (Rlt_dec 1 (psi0 / 100)), (Rle_dec 1 (psi0 / 100)); try reflexivity; f_equal; lra. }
  rewrite EF. assert (F1 : 1 <= f) by apply Rmax_l.
  assert (HJ : exists j, f * 100 < 1 / 100000000000000 * 10 ^ j).
  { destruct (Pow_x_infinity 10 ltac:(rewrite Rabs_right; lra) (f * 100 * 100000000000000 + 1)) as [j Hj]. exists j. specialize (Hj j ltac:(lia)). rewrite Rabs_right in Hj by (apply Rle_ge, pow_le; lra). lra. }
  destruct HJ as [j HJ]. apply (climbs_all j _ psi0 f new); [reflexivity|exact HJ|]. unfold wet. cbn [t_psi t_factor t_new t_prev t_dprev t_count]. repeat (split; [reflexivity || solve [eauto]|]). split; [lra|lia].
Qed.
End Exactly.

Theorem head_ends : forall e lay s dth dz ps p psi0 new prior aet, layer_parts e dth dz lay ps p -> soil_of e lay = Ok s -> 0 <= psi0 ->
  exists N t a, forall cfg : Cfg, (N <= fuel)%nat -> @lgar_theta_mass_balance exact cfg e lay s (Fin psi0) (Fin new) (Fin prior) (Fin aet) dth dz = Ok (t, a).
Proof.
  intros e lay s dth dz ps p psi0 new prior aet HP HS H0. unfold lgar_theta_mass_balance. cbv zeta. change (dabs (@dsub exact (Fin new) (Fin prior)))%d with (Fin (Rabs (new - prior))).
  destruct (Fin (Rabs (new - prior)) <=? @tmb_tol exact)%d eqn:L; [exists 0%nat; do 2 eexists; intros cfg _; reflexivity|].
  destruct (head_sec e lay s dth dz ps p HP HS prior psi0 new H0) as (N & y & HN). exists N. do 2 eexists. intros cfg Hf. rewrite (HN _ Hf). cbn [bind]. reflexivity.
Qed.

Theorem drying_never_wets : forall (cfg : Cfg) e lay s dth dz ps p psi0 prior aet t a, layer_parts e dth dz lay ps p -> soil_of e lay = Ok s -> Forall (fun q => 0 <= pt_z q) (p :: ps) -> 0 <= psi0 ->
  prior <= held (p :: ps) psi0 ->
  @lgar_theta_mass_balance exact cfg e lay s (Fin psi0) (Fin (held (p :: ps) psi0)) (Fin prior) (Fin aet) dth dz = Ok (t, a) ->
  exists psi, psi0 <= psi /\ t = Fin (pt_theta p psi) /\ pt_theta p psi <= pt_theta p psi0 /\
    (Rabs (held (p :: ps) psi - prior) <= tol /\ a = Fin aet \/ tol < Rabs (held (p :: ps) psi - prior) /\ a = Fin (aet - (Rabs (held (p :: ps) psi - prior) - tol))).
Proof.
  intros cfg e lay s dth dz ps p psi0 prior aet t a HP HS HZ H0 HL H.
  assert (MN : forall x, psi0 <= x -> pt_theta p x <= pt_theta p psi0).
  { intros x Hx. destruct HP as (_ & _ & (sl & ks & _ & V & _)). destruct V. destruct (Req_dec psi0 x) as [->|NE]; [lra|]. unfold pt_theta, vg_theta.
    pose proof (Se_h_decreasing (pt_a p) (pt_n p) (pt_m p) psi0 x ltac:(assumption) ltac:(lra) ltac:(lra) H0 ltac:(lra)) as Q.
    pose proof (Rmult_le_compat_l (pt_e p - pt_r p) _ _ ltac:(lra) (Rlt_le _ _ Q)). lra. }
  destruct (Rlt_dec prior (held (p :: ps) psi0)) as [L|L].
  - destruct (drying_only cfg e lay s dth dz ps p psi0 prior aet t a HP HS HZ H0 L H) as (psi & A1 & A2 & A3). exists psi. auto.
  - assert (EQ : prior = held (p :: ps) psi0) by lra. rewrite EQ in *. unfold lgar_theta_mass_balance in H. cbv zeta in H.
    change (dabs (@dsub exact (Fin (held (p :: ps) psi0)) (Fin (held (p :: ps) psi0))))%d with (Fin (Rabs (held (p :: ps) psi0 - held (p :: ps) psi0))) in H.
    rewrite Rminus_diag_eq, Rabs_R0 in H by reflexivity. change (@tmb_tol exact) with (Fin tol) in H. rewrite leb_t in H by (unfold tol; lra). apply Ok_inj in H. apply pair_equal_spec in H as [<- <-].
    exists psi0. split; [lra|]. split; [apply (theta_own e lay s dth dz ps p HP HS psi0 H0)|]. split; [lra|]. left. rewrite Rminus_diag_eq, Rabs_R0 by reflexivity. unfold tol. split; [lra|reflexivity].
Qed.
