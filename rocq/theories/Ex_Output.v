(** Worked examples of output files. *)

From Coq Require Import String Ascii Reals ZArith List Bool Lra Lia.
From Verif Require Import Outcome Dbl Exact Types ListOps State Bmi Config Driver TableFile Output Spec_Common Spec_Config Spec_Driver Ex_Config Ex_Driver.
Import ListNotations.
Open Scope string_scope.
Open Scope list_scope.
Open Scope Z_scope.

Lemma nearest_at : forall x d, (IZR d - 1 / 2 < x < IZR d + 1 / 2)%R -> nearest x = d.
Proof.
  intros x d H. unfold nearest. destruct (base_Int_part x) as [A B].
  assert (L : Int_part x < d + 1) by (apply lt_IZR; rewrite plus_IZR; lra). assert (M : d - 2 < Int_part x) by (apply lt_IZR; rewrite minus_IZR; lra).
  assert (C : Int_part x = d - 1 \/ Int_part x = d) by lia. destruct C as [C|C]; rewrite C in *; [rewrite minus_IZR in *|]; destruct (total_order_T _ _) as [[D|D]|D]; try lra; lia.
Qed.
Lemma nearest_tie : forall x d, (x = IZR d + 1 / 2)%R -> nearest x = if Z.even d then d else d + 1.
Proof.
  intros x d H. unfold nearest. assert (C : Int_part x = d).
  { destruct (base_Int_part x) as [A B]. assert (Int_part x < d + 1) by (apply lt_IZR; rewrite plus_IZR; lra). assert (d - 1 < Int_part x) by (apply lt_IZR; rewrite minus_IZR; lra). lia. }
  rewrite C. destruct (total_order_T _ _) as [[D|D]|D]; try lra. reflexivity.
Qed.
Lemma fixed_pos : forall w p x n, (0 <= x)%R -> nearest (x * IZR (10 ^ Z.of_nat p)) = n -> print_fixed w p (Fin x) = pad w (print_nat (n / 10 ^ Z.of_nat p) ++ "." ++ last_digits p (n mod 10 ^ Z.of_nat p)).
Proof. intros w p x n H <-. unfold print_fixed. rewrite Rabs_right by lra. destruct (Rlt_dec x 0); [lra|reflexivity]. Qed.
Lemma fixed_neg : forall w p x n, (x < 0)%R -> nearest (- x * IZR (10 ^ Z.of_nat p)) = n -> print_fixed w p (Fin x) = pad w ("-" ++ print_nat (n / 10 ^ Z.of_nat p) ++ "." ++ last_digits p (n mod 10 ^ Z.of_nat p)).
Proof. intros w p x n H <-. unfold print_fixed. rewrite Rabs_left by lra. destruct (Rlt_dec x 0); [reflexivity|lra]. Qed.

Lemma out_data : data_variables [dr_out] = Ok (file_of [csv ("Time" :: column_names);
    "2016-10-01 00:00:00,0.020000000000000,0.000000000000000,0.000000000000000,0.005000000000000,0.005000000000000,0.400000000000000,0.005000000000000,0.000000000000000,0.000000000000000,0.000000000000000,0.000000000000000"]).
Proof.
  unfold data_variables, dr_out. cbn [print_rows map]. unfold print_row. cbn [w_vars w_time print_items print_item bind].
  rewrite (fixed_pos 6 15 (2 / 100) 20000000000000), (fixed_pos 6 15 0 0), (fixed_pos 6 15 (1 / 200) 5000000000000), (fixed_pos 6 15 (4 / 10) 400000000000000);
    try lra; try (apply nearest_at; change (10 ^ Z.of_nat 15) with 1000000000000000; lra).
  vm_compute. reflexivity.
Qed.
Lemma out_layers : @data_layers exact [dr_out] = file_of ["# Timestep = 0, 2016-10-01 00:00:00 "; "[(1000.000000,0.400000,1,1,0.000000)]"].
Proof.
  unfold data_layers, print_layers, dr_out, write_state, print_fronts, print_front, dr_front. cbn [w_fronts w_time f_depth f_theta f_layer f_num f_psi].
  change (lit 10) with (Fin 10). change (Fin 100 * Fin 10)%d with (Fin (100 * 10)). change (Fin 0 * Fin 10)%d with (Fin (0 * 10)).
  rewrite (fixed_pos 0 6 (100 * 10) 1000000000), (fixed_pos 0 6 (0 * 10) 0), (fixed_pos 0 6 (2 / 5) 400000); try lra; try (apply nearest_at; change (10 ^ Z.of_nat 6) with 1000000; lra).
  vm_compute. reflexivity.
Qed.
Lemma out_rounding :
  print_fixed 6 15 (Fin (2 / 3)) = "0.666666666666667" /\ print_fixed 0 6 (Fin (- (1 / 3))) = "-0.333333" /\ print_fixed 0 2 (Fin (1 / 8)) = "0.12" /\
  print_fixed 0 2 (Fin (3 / 8)) = "0.38" /\ print_fixed 0 2 (Fin (- (1 / 1000))) = "-0.00" /\ print_fixed 6 15 NaN = "   nan".
Proof.
  repeat split.
  - rewrite (fixed_pos 6 15 (2 / 3) 666666666666667); [vm_compute; reflexivity|lra|apply nearest_at; change (10 ^ Z.of_nat 15) with 1000000000000000; lra].
  - rewrite (fixed_neg 0 6 (- (1 / 3)) 333333); [vm_compute; reflexivity|lra|apply nearest_at; change (10 ^ Z.of_nat 6) with 1000000; lra].
  - rewrite (fixed_pos 0 2 (1 / 8) 12); [vm_compute; reflexivity|lra|rewrite (nearest_tie _ 12); [reflexivity|change (10 ^ Z.of_nat 2) with 100; lra]].
  - rewrite (fixed_pos 0 2 (3 / 8) 38); [vm_compute; reflexivity|lra|rewrite (nearest_tie _ 37); [reflexivity|change (10 ^ Z.of_nat 2) with 100; lra]].
  - rewrite (fixed_neg 0 2 (- (1 / 1000)) 0); [vm_compute; reflexivity|lra|apply nearest_at; change (10 ^ Z.of_nat 2) with 100; lra].
Qed.
