(** The fuel of the two loops that need it: with more of it the result stays the same. *)

From Coq Require Import String Reals ZArith List Bool Lia.
From RecordUpdate Require Import RecordSet.
From Verif Require Import Outcome Dbl Types ListOps Soil Fronts Infil Move State Update Bmi Config Driver Lib.
Import ListNotations.

Section Fuel.
Context {fp : Fp}.
Variables c1 c2 : Cfg.
Hypothesis More : (@fuel c1 <= @fuel c2)%nat.
Hypothesis Same : @ngen c1 = @ngen c2.

Definition agrees {A} (m m' : outcome A) : Prop := m = Stop OutOfFuel \/ m' = m.

Lemma agrees_refl : forall A (m : outcome A), agrees m m.
Proof. intros. right. reflexivity. Qed.
Lemma agrees_bind : forall A B (m m' : outcome A) (k k' : A -> outcome B), agrees m m' -> (forall x, agrees (k x) (k' x)) -> agrees (bind m k) (bind m' k').
Proof.
  intros A B m m' k k' [->| ->] H; [left; reflexivity|]. destruct m as [x|r]; [apply H|right; reflexivity].
Qed.
(** The functions compared so far. *)
Ltac known := fail.

(** Goes down both sides at once. *)
Ltac both :=
  repeat (cbv zeta;
    lazymatch goal with
    | |- agrees ?a ?b =>
      first
      [ constr_eq a b; exact (agrees_refl _ a)
      | solve [known]
      | solve [match goal with IH : _ |- _ => simple apply IH end]
      | lazymatch a with
        | bind _ _ => simple apply agrees_bind; [|intros]
        | match ?x with _ => _ end => destruct x
        end ]
    end).

Lemma geff_loop_more : forall s ks k j hi h2 dh K1 G, (k <= j)%nat -> agrees (geff_loop k s ks hi h2 dh K1 G) (geff_loop j s ks hi h2 dh K1 G).
Proof.
  intros s ks. induction k as [|k IH]; intros j hi h2 dh K1 G H; [left; reflexivity|]. destruct j as [|j]; [lia|]. cbn [geff_loop]. destruct (_ <? _)%d; [|apply agrees_refl]. cbv zeta. apply IH. lia.
Qed.
Lemma calc_Geff_more : forall closed t1 t2 s ks nint, agrees (@calc_Geff _ c1 closed t1 t2 s ks nint) (@calc_Geff _ c2 closed t1 t2 s ks nint).
Proof. intros. unfold calc_Geff. destruct closed; cbn [negb]; [apply agrees_refl|]. cbv zeta. apply agrees_bind; [apply geff_loop_more; exact More|intros; apply agrees_refl]. Qed.
Ltac known ::= first [ simple apply calc_Geff_more ].
Lemma tmb_loop_more : forall e lay s prior dth dz k j x, (k <= j)%nat -> agrees (tmb_loop k e lay s prior dth dz x) (tmb_loop j e lay s prior dth dz x).
Proof.
  intros e lay s prior dth dz. induction k as [|k IH]; intros j x H; [left; reflexivity|]. destruct j as [|j]; [lia|]. cbn [tmb_loop]. destruct (_ >? _)%d; [|apply agrees_refl].
  apply agrees_bind; [apply agrees_refl|]. intros [y brk]. destruct brk; [apply agrees_refl|]. apply IH. lia.
Qed.
Lemma tmb_more : forall e lay s psi nm pm aet dth dz, agrees (@lgar_theta_mass_balance _ c1 e lay s psi nm pm aet dth dz) (@lgar_theta_mass_balance _ c2 e lay s psi nm pm aet dth dz).
Proof. intros. unfold lgar_theta_mass_balance. cbv zeta. destruct (_ <=? _)%d; [apply agrees_refl|]. apply agrees_bind; [apply tmb_loop_more; exact More|intros; apply agrees_refl]. Qed.
Ltac known ::= first [ simple apply calc_Geff_more | simple apply tmb_more ].
Lemma capacity_more : forall e closed nint dt aet ponded precip wfd head,
  agrees (@infiltration_capacity _ c1 e closed nint dt aet ponded precip wfd head) (@infiltration_capacity _ c2 e closed nint dt aet ponded precip wfd head).
Proof. intros. unfold infiltration_capacity. both. Qed.
Ltac known ::= first [ simple apply calc_Geff_more | simple apply tmb_more | simple apply capacity_more ].
Lemma insert_more : forall e closed nint dt aet ponded volin precip wfd pm head,
  agrees (@lgar_insert_water _ c1 e closed nint dt aet ponded volin precip wfd pm head) (@lgar_insert_water _ c2 e closed nint dt aet ponded volin precip wfd pm head).
Proof. intros. unfold lgar_insert_water. both. Qed.
Ltac known ::= first [ simple apply calc_Geff_more | simple apply tmb_more | simple apply capacity_more | simple apply insert_more ].
Lemma dry_more : forall e closed nint dt head, agrees (@lgar_calc_dry_depth _ c1 e closed nint dt head) (@lgar_calc_dry_depth _ c2 e closed nint dt head).
Proof. intros. unfold lgar_calc_dry_depth. both. Qed.
Ltac known ::= first [ simple apply calc_Geff_more | simple apply tmb_more | simple apply capacity_more | simple apply insert_more | simple apply dry_more ].
Lemma dzdt_front_more : forall e closed nint h c n, agrees (@dzdt_front _ c1 e closed nint h c n) (@dzdt_front _ c2 e closed nint h c n).
Proof. intros. unfold dzdt_front. both. Qed.
Ltac known ::= first [ simple apply calc_Geff_more | simple apply tmb_more | simple apply capacity_more | simple apply insert_more | simple apply dry_more | simple apply dzdt_front_more ].
Lemma dzdt_loop_more : forall e closed nint h l, agrees (@dzdt_loop _ c1 e closed nint h l) (@dzdt_loop _ c2 e closed nint h l).
Proof. intros e closed nint h. induction l as [|c l IH]; cbn [dzdt_loop]; both. Qed.
Ltac known ::= first [ simple apply calc_Geff_more | simple apply tmb_more | simple apply capacity_more | simple apply insert_more | simple apply dry_more | simple apply dzdt_front_more | simple apply dzdt_loop_more ].
Lemma dzdt_more : forall e closed nint h l, agrees (@lgar_dzdt_calc _ c1 e closed nint h l) (@lgar_dzdt_calc _ c2 e closed nint h l).
Proof. intros. unfold lgar_dzdt_calc. both. Qed.
Ltac known ::= first [ simple apply calc_Geff_more | simple apply tmb_more | simple apply capacity_more | simple apply insert_more | simple apply dry_more | simple apply dzdt_front_more | simple apply dzdt_loop_more | simple apply dzdt_more ].
Lemma balance_theta_more : forall e lay s po p below prior newm ldth ldz add aet,
  agrees (@balance_theta _ c1 e lay s po p below prior newm ldth ldz add aet) (@balance_theta _ c2 e lay s po p below prior newm ldth ldz add aet).
Proof. intros. unfold balance_theta. both. Qed.
Ltac known ::= first [ simple apply calc_Geff_more | simple apply tmb_more | simple apply capacity_more | simple apply insert_more | simple apply dry_more | simple apply dzdt_front_more | simple apply dzdt_loop_more | simple apply dzdt_more | simple apply balance_theta_more ].
Lemma move_one_more : forall e dt precip wfd prev nf wf l aet, agrees (@move_one _ c1 e dt precip wfd prev nf wf l aet) (@move_one _ c2 e dt precip wfd prev nf wf l aet).
Proof. intros. unfold move_one. both. Qed.
Ltac known ::= first [ simple apply calc_Geff_more | simple apply tmb_more | simple apply capacity_more | simple apply insert_more | simple apply dry_more | simple apply dzdt_front_more | simple apply dzdt_loop_more | simple apply dzdt_more | simple apply balance_theta_more | simple apply move_one_more ].
Lemma move_loop_more : forall k e dt precip wfd prev nf l aet, agrees (@move_loop _ c1 k e dt precip wfd prev nf l aet) (@move_loop _ c2 k e dt precip wfd prev nf l aet).
Proof. induction k as [|k IH]; intros; cbn [move_loop]; both. Qed.
Ltac known ::= first [ simple apply calc_Geff_more | simple apply tmb_more | simple apply capacity_more | simple apply insert_more | simple apply dry_more | simple apply dzdt_front_more | simple apply dzdt_loop_more | simple apply dzdt_more | simple apply balance_theta_more | simple apply move_one_more | simple apply move_loop_more ].
Lemma move_more : forall e dt volin wfd om aet head prev, agrees (@lgar_move_wetting_fronts _ c1 e dt volin wfd om aet head prev) (@lgar_move_wetting_fronts _ c2 e dt volin wfd om aet head prev).
Proof. intros. unfold lgar_move_wetting_fronts. both. Qed.
Ltac known ::= first [ simple apply calc_Geff_more | simple apply tmb_more | simple apply capacity_more | simple apply insert_more | simple apply dry_more | simple apply dzdt_front_more | simple apply dzdt_loop_more | simple apply dzdt_more | simple apply balance_theta_more | simple apply move_one_more | simple apply move_loop_more | simple apply move_more ].
Lemma hydro_more : forall u pp pr pe p von w ve h pv, agrees (@sub_hydro _ c1 u pp pr pe p von w ve h pv) (@sub_hydro _ c2 u pp pr pe p von w ve h pv).
Proof. intros. unfold sub_hydro, sub_create, sub_insert, sub_move. both. Qed.
Ltac known ::= first [ simple apply calc_Geff_more | simple apply tmb_more | simple apply capacity_more | simple apply insert_more | simple apply dry_more | simple apply dzdt_front_more | simple apply dzdt_loop_more | simple apply dzdt_more | simple apply balance_theta_more | simple apply move_one_more | simple apply move_loop_more | simple apply move_more | simple apply hydro_more ].
Lemma substep_more : forall u s a, agrees (@substep _ c1 u s a) (@substep _ c2 u s a).
Proof. intros. unfold substep. both. Qed.
Ltac known ::= first [ simple apply calc_Geff_more | simple apply tmb_more | simple apply capacity_more | simple apply insert_more | simple apply dry_more | simple apply dzdt_front_more | simple apply dzdt_loop_more | simple apply dzdt_more | simple apply balance_theta_more | simple apply move_one_more | simple apply move_loop_more | simple apply move_more | simple apply hydro_more | simple apply substep_more ].
Lemma subcycle_more : forall k u s a, agrees (@subcycle_loop _ c1 k u s a) (@subcycle_loop _ c2 k u s a).
Proof. induction k as [|k IH]; intros; cbn [subcycle_loop]; [apply agrees_refl|]. rewrite <- Same. both. Qed.
Ltac known ::= first [ simple apply calc_Geff_more | simple apply tmb_more | simple apply capacity_more | simple apply insert_more | simple apply dry_more | simple apply dzdt_front_more | simple apply dzdt_loop_more | simple apply dzdt_more | simple apply balance_theta_more | simple apply move_one_more | simple apply move_loop_more | simple apply move_more | simple apply hydro_more | simple apply substep_more | simple apply subcycle_more ].
Lemma Update_more : forall s, agrees (@Update _ c1 s) (@Update _ c2 s).
Proof. intros. unfold Update. both. Qed.
Ltac known ::= first [ simple apply calc_Geff_more | simple apply tmb_more | simple apply capacity_more | simple apply insert_more | simple apply dry_more | simple apply dzdt_front_more | simple apply dzdt_loop_more | simple apply dzdt_more | simple apply balance_theta_more | simple apply move_one_more | simple apply move_loop_more | simple apply move_more | simple apply hydro_more | simple apply substep_more | simple apply subcycle_more | simple apply Update_more ].
Lemma bmi_Update_more : forall o, agrees (@bmi_Update _ c1 o) (@bmi_Update _ c2 o).
Proof. intros. unfold bmi_Update. both. Qed.
Lemma bmi_UpdateUntil_more : forall t o, agrees (@bmi_UpdateUntil _ c1 t o) (@bmi_UpdateUntil _ c2 t o).
Proof. intros. unfold bmi_UpdateUntil, UpdateUntil. both. Qed.
Ltac known ::= first [ simple apply calc_Geff_more | simple apply tmb_more | simple apply capacity_more | simple apply insert_more | simple apply dry_more | simple apply dzdt_front_more | simple apply dzdt_loop_more | simple apply dzdt_more | simple apply balance_theta_more | simple apply move_one_more | simple apply move_loop_more | simple apply move_more | simple apply hydro_more | simple apply substep_more | simple apply subcycle_more | simple apply Update_more | simple apply bmi_Update_more | simple apply bmi_UpdateUntil_more ].
Lemma drive_step_more : forall f i o, agrees (@drive_step _ c1 f i o) (@drive_step _ c2 f i o).
Proof. intros. unfold drive_step. both. Qed.
Ltac known ::= first [ simple apply calc_Geff_more | simple apply tmb_more | simple apply capacity_more | simple apply insert_more | simple apply dry_more | simple apply dzdt_front_more | simple apply dzdt_loop_more | simple apply dzdt_more | simple apply balance_theta_more | simple apply move_one_more | simple apply move_loop_more | simple apply move_more | simple apply hydro_more | simple apply substep_more | simple apply subcycle_more | simple apply Update_more | simple apply bmi_Update_more | simple apply bmi_UpdateUntil_more | simple apply drive_step_more ].
Lemma drive_more : forall k f i o, agrees (@drive _ c1 k f i o) (@drive _ c2 k f i o).
Proof. induction k as [|k IH]; intros; cbn [drive]; both. Qed.
Ltac known ::= first [ simple apply calc_Geff_more | simple apply tmb_more | simple apply capacity_more | simple apply insert_more | simple apply dry_more | simple apply dzdt_front_more | simple apply dzdt_loop_more | simple apply dzdt_more | simple apply balance_theta_more | simple apply move_one_more | simple apply move_loop_more | simple apply move_more | simple apply hydro_more | simple apply substep_more | simple apply subcycle_more | simple apply Update_more | simple apply bmi_Update_more | simple apply bmi_UpdateUntil_more | simple apply drive_step_more | simple apply drive_more ].
Lemma simulate_more : forall files texts junk ls, agrees (@simulate _ c1 files texts junk ls) (@simulate _ c2 files texts junk ls).
Proof. intros. unfold simulate. both. Qed.
End Fuel.
