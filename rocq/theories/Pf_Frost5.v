(** The capacity does not see the frost of the layer of the front that drains. *)

From Coq Require Import Reals Lra ZArith List Bool Lia.
From Verif Require Import Outcome Dbl Types ListOps Soil Fronts Infil Lib Spec_Frost.
Import ListNotations.
Open Scope R_scope.

Section Any.
Context {fp : Fp} {cfg : Cfg}.

Lemma zfor_ext : forall {A} (f g : Z -> A -> outcome A) n k x, (forall j y, (k <= j < k + Z.of_nat n)%Z -> f j y = g j y) -> zfor k n f x = zfor k n g x.
Proof.
  intros A f g. induction n as [|n IH]; intros k x H; [reflexivity|]. cbn [zfor]. rewrite H by lia. destruct (g k x) as [y|]; [|reflexivity]. cbn [bind]. apply IH. intros j z Hj. apply H. lia.
Qed.

Lemma capacity_blind : forall e e' closed nint dt aet w r wfd head c fd, other_frost e e' -> lget head 0 = Ok c -> f_layer c = 1%Z -> pget head (findFront wfd head) = Ok fd -> (2 <= f_layer fd)%Z ->
  (forall k, (1 <= k < f_layer fd)%Z -> aget (e_frozen e) k = aget (e_frozen e') k) ->
  infiltration_capacity e closed nint dt aet w r wfd head = infiltration_capacity e' closed nint dt aet w r wfd head.
Proof.
  intros [nl cum st so fr] [nl' cum' st' so' fr'] closed nint dt aet w r wfd head c fd (X1 & X2 & X3 & X4 & _) Hc L1 Hfd L2 HK. cbn [e_nlayers e_cum e_stype e_soils e_frozen] in *. subst nl' cum' st' so'.
  unfold infiltration_capacity. rewrite Hfd. cbn [bind]. rewrite Hc. set (e := mkEnv nl cum st so fr). set (e' := mkEnv nl cum st so fr'). cbv zeta. cbn [bind].
  assert (S : forall k, soil_of e' k = soil_of e k) by reflexivity. rewrite !S. destruct (soil_of e (f_layer fd)) as [s|]; [|reflexivity]. cbn [bind]. rewrite L1.
  change (e_frozen e) with fr. change (e_frozen e') with fr'. rewrite <- (HK 1%Z) by lia. destruct (aget fr 1) as [ff|]; [|reflexivity]. cbn [bind]. change (e_nlayers e') with (e_nlayers e). change (e_cum e') with (e_cum e). change (max_storage e') with (max_storage e).
  assert (F : forall x, layers_above_sum e' (f_layer fd) x = layers_above_sum e (f_layer fd) x).
  { intro x. unfold layers_above_sum. apply zfor_ext. intros j y Hj. rewrite S. change (e_frozen e') with fr'. change (e_frozen e) with fr. rewrite <- HK by lia. reflexivity. }
  replace (f_layer fd =? 1)%Z with false by (symmetry; apply Z.eqb_neq; lia). change (soil_of e' 1) with (soil_of e 1). change (e_nlayers e) with nl. change (e_cum e) with cum.
  set (G := if (listLength head =? nl)%Z then _ else _). clearbody G. destruct G as [G|]; [|reflexivity]. cbn [bind].
  destruct (aget cum (f_layer fd - 1)%Z) as [c0|]; [|reflexivity]. cbn [bind]. rewrite F. reflexivity.
Qed.
End Any.
