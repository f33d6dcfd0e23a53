(** The soil table and the derived parameters. *)

From Coq Require Import String Ascii Reals Lra ZArith List Bool Lia.
From Verif Require Import Outcome Dbl Exact Types Soil State Config Lib Spec_Common Spec_Soil Spec_Config Pf_Dbl Pf_Soil Pf_InitState.
Import ListNotations.
Open Scope string_scope.
Open Scope list_scope.
Open Scope R_scope.

Section Any.
Context {fp : Fp}.

Lemma derive_fields : forall wp junk tr te al n k nm en, derive wp junk tr te al n k nm = Ok en ->
  dltb (lit 1) n = true /\ en_name en = nm /\ s_theta_r (en_soil en) = tr /\ s_theta_e (en_soil en) = te /\ s_alpha (en_soil en) = al /\ s_n (en_soil en) = n /\
  s_m (en_soil en) = (lit 1 - lit 1 / n)%d /\ s_Ksat (en_soil en) = k /\ dgtb (s_psib (en_soil en)) (Fin 0) = true /\
  en_theta_wp en = calc_theta_from_h wp al junk n te tr.
Proof.
  intros wp junk tr te al n k nm en H. unfold derive in H. cbv zeta in H. destruct (dltb (lit 1) n) eqn:N; [|discriminate].
  bind_inv H q0 Eq0. apply cassert_Ok in Eq0. apply Ok_inj in H. subst en. cbn. repeat split; assumption.
Qed.
Lemma derive_stops : forall wp junk tr te al n k nm, dltb (lit 1) n = false -> derive wp junk tr te al n k nm = Stop (UB Uninit).
Proof. intros. unfold derive. cbv zeta. rewrite H. reflexivity. Qed.

Lemma row_fields : forall wp junk r l i tab l' tab', read_row wp junk r l i tab = Ok (l', tab') ->
  l' = scan r l /\ exists nm tr te al n k en, l_name l' = Some nm /\ l_vals l' = [Some tr; Some te; Some al; Some n; Some k] /\ (String.length nm < 25)%nat /\
    derive wp junk tr te al n k nm = Ok en /\ aset tab i (Some en) = Ok tab'.
Proof.
  intros wp junk r l i tab l' tab' H. unfold read_row in H. bind_inv H nm En. destruct (Z.leb_spec 30 (Z.of_nat (String.length nm))); [discriminate|].
  destruct (Z.ltb_spec 25 (Z.of_nat (String.length nm))); [discriminate|]. bind_inv H u0 Eu0. destruct (Z.eqb_spec (Z.of_nat (String.length nm)) 25); [discriminate|].
  destruct (l_vals (scan r l)) as [|a [|b [|g [|d [|e [|? ?]]]]]] eqn:V; try discriminate.
  bind_inv H va Ea. bind_inv H vb Eb. bind_inv H vg Eg. bind_inv H vd Ed. bind_inv H ve Ee. bind_inv H en Een. bind_inv H tb Et. apply Ok_inj, pair_equal_spec in H as [<- <-].
  destruct a, b, g, d, e; try discriminate. apply Ok_inj in Ea, Eb, Eg, Ed, Ee. subst.
  destruct (l_name (scan r l)) as [nm'|] eqn:N; [|discriminate]. apply Ok_inj in En. subst nm'.
  split; [reflexivity|]. exists nm, va, vb, vg, vd, ve, en. rewrite V. repeat split; try assumption. lia.
Qed.
Lemma uget_aset : forall A (a : list (option A)) i x a' j y, aset a i (Some x) = Ok a' -> uget a' j = Ok y -> (j = i /\ y = x) \/ (j <> i /\ uget a j = Ok y).
Proof.
  intros A a i x a' j y H G. apply aset_Ok in H as [P ->]. apply uget_Ok, aget_Ok in G as [Q G].
  destruct (Z.eq_dec j i) as [->|N].
  - left. split; [reflexivity|]. rewrite nth_error_lset_eq in G by lia. injection G as <-. reflexivity.
  - right. split; [assumption|]. rewrite nth_error_lset_neq in G by lia. unfold uget.
    assert (E : aget a j = Ok (Some y)) by (apply aget_Ok; auto). rewrite E. reflexivity.
Qed.

(** In a table of complete rows the soil of type [t] is that of row [t]. *)
Lemma table_rows : forall wp junk nst rs l i tab tab', read_rows wp junk nst rs l i tab = Ok tab' ->
  (forall r, In r rs -> exists nm tr te al n k, r = full_row nm tr te al n k) -> length (l_vals l) = 5%nat ->
  forall t en, uget tab' t = Ok en ->
    uget tab t = Ok en \/ exists j nm tr te al n k, t = (i + Z.of_nat j)%Z /\ nth_error rs j = Some (full_row nm tr te al n k) /\ derive wp junk tr te al n k nm = Ok en.
Proof.
  intros wp junk nst. induction rs as [|r rs IH]; intros l i tab tab' H F V t en G; cbn in H; [apply Ok_inj in H; subst; auto|].
  bind_inv H q0 Eq0. destruct q0 as [l1 tab1]. destruct (row_fields _ _ _ _ _ _ _ _ Eq0) as (L1 & nm & tr & te & al & n & k & en1 & N & Vs & _ & D & A).
  destruct (F r (or_introl eq_refl)) as (nm' & tr' & te' & al' & n' & k' & Er).
  assert (V1 : l_vals l1 = [Some tr'; Some te'; Some al'; Some n'; Some k']).
  { subst l1 r. cbn. destruct (l_vals l) as [|? [|? [|? [|? [|? [|? ?]]]]]]; try discriminate V. reflexivity. }
  assert (N1 : l_name l1 = Some nm') by (subst l1 r; reflexivity).
  rewrite V1 in Vs. injection Vs as <- <- <- <- <-. rewrite N1 in N. injection N as <-.
  assert (One : uget tab1 t = Ok en -> uget tab t = Ok en \/ exists j nm tr te al n k, t = (i + Z.of_nat j)%Z /\ nth_error (r :: rs) j = Some (full_row nm tr te al n k) /\ derive wp junk tr te al n k nm = Ok en).
  { intro G1. destruct (uget_aset _ _ _ _ _ _ _ A G1) as [[-> ->]|[_ G2]]; [|auto]. right. exists 0%nat, nm', tr', te', al', n', k'. split; [lia|]. split; [cbn; congruence|assumption]. }
  destruct (nst =? i)%Z; [apply Ok_inj in H; subst tab1; apply One; assumption|].
  destruct (IH l1 (i + 1)%Z tab1 tab' H) with (t := t) (en := en) as [G1|(j & a)]; try assumption.
  - intros q Hq. apply F. right. assumption.
  - rewrite V1. reflexivity.
  - apply One. assumption.
  - destruct a as (nm2 & tr2 & te2 & al2 & n2 & k2 & T & Nj & D2). right. exists (S j), nm2, tr2, te2, al2, n2, k2. split; [lia|]. split; assumption.
Qed.
Lemma uget_empty : forall A k i (x : A), uget (repeat None k) i <> Ok x.
Proof. intros A k i x H. apply uget_Ok, aget_Ok in H as [_ H]. apply nth_error_In, repeat_spec in H. discriminate. Qed.
End Any.

Section Exactly.
Local Existing Instance exact.

Lemma derive_is : forall wp junk tr te al n k nm, 0 < al -> 1 < n -> exists en psib hmin,
  derive wp junk (Fin tr) (Fin te) (Fin al) (Fin n) (Fin k) nm = Ok en /\
  en_soil en = mkSoil (Fin tr) (Fin te) (Fin al) (Fin n) (Fin (1 - / n)) (Fin (n - 1)) (Fin psib) (Fin hmin) (Fin k) /\
  0 < 1 - / n < 1 /\ 0 < psib /\ psib < hmin.
Proof.
  intros wp junk tr te al n k nm Al N.
  assert (In : 0 < / n < 1). { split; [apply Rinv_0_lt_compat; lra|]. rewrite <- Rinv_1. apply Rinv_lt_contravar; lra. }
  set (m := 1 - / n). assert (M : 0 < m < 1) by (unfold m; lra).
  assert (D1 : forall x y, y <> 0 -> ddiv (Fin x) (Fin y) = Fin (x / y)).
  { intros x y Y. unfold ddiv. destruct (Req_EM_T y 0); [contradiction|reflexivity]. }
  set (p := 3 + 2 / (n - 1)). assert (I1 : 0 < / (n - 1)) by (apply Rinv_0_lt_compat; lra).
  assert (P : 3 < p) by (unfold p, Rdiv; lra).
  set (num := (p + 3) * (1478 / 10 + 81 / 10 * p + 92 / 1000 * p * p)).
  set (den := 2 * al * p * (p - 1) * (556 / 10 + 74 / 10 * p + p * p)).
  assert (Nu : 0 < num). { unfold num. assert (0 < p * p) by (apply Rmult_lt_0_compat; lra). apply Rmult_lt_0_compat; lra. }
  assert (De : 0 < den). { unfold den. assert (0 < p * p) by (apply Rmult_lt_0_compat; lra). repeat apply Rmult_lt_0_compat; lra. }
  assert (Q3 : 0 < 3 / (n - 1)) by (unfold Rdiv; lra).
  set (psib := num / den). assert (Ps : 0 < psib) by (apply Rdiv_lt_0_compat; assumption).
  set (hmin := psib * (2 + 3 / (n - 1)) / (1 + 3 / (n - 1))).
  exists (mkEntry nm (mkSoil (Fin tr) (Fin te) (Fin al) (Fin n) (Fin m) (Fin (n - 1)) (Fin psib) (Fin hmin) (Fin k)) (calc_theta_from_h wp (Fin al) junk (Fin n) (Fin te) (Fin tr))), psib, hmin.
  split; [|split; [reflexivity|split; [assumption|split; [assumption|]]]].
  - unfold derive. cbv zeta. change (lit 1) with (Fin 1).
    assert (N1 : dltb (Fin 1) (Fin n) = true) by (apply Rltb_true; assumption). rewrite N1.
    rewrite (D1 1 n) by lra. change (dsub (Fin 1) (Fin (1 / n))) with (Fin (1 - 1 / n)). replace (1 - 1 / n) with m by (unfold m, Rdiv; ring).
    change (lit 2) with (Fin 2). rewrite (D1 2 m) by lra. change (dadd (Fin 1) (Fin (2 / m))) with (Fin (1 + 2 / m)).
    replace (1 + 2 / m) with p. 2: { unfold p, m. field. split; lra. }
    change (lit 3) with (Fin 3). change (dsub (Fin p) (Fin 3)) with (Fin (p - 3)). rewrite (D1 2 (p - 3)) by lra. replace (2 / (p - 3)) with (n - 1) by (unfold p; field; lra).
    match goal with |- context [ddiv ?a ?b] => match b with dmul _ (dadd _ _) => change a with (Fin num); change b with (Fin den) end end.
    rewrite (D1 num den) by lra. fold psib.
    assert (C : dltb (Fin 0) (Fin psib) = true) by (apply Rltb_true; assumption). rewrite C. cbn [cassert bind].
    rewrite (D1 3 (n - 1)) by lra.
    match goal with |- context [ddiv ?a ?b] => match b with dadd _ _ => change a with (Fin (psib * (2 + 3 / (n - 1)))); change b with (Fin (1 + 3 / (n - 1))) end end.
    rewrite D1 by lra. reflexivity.
  - unfold hmin. apply Rmult_lt_reg_r with (1 + 3 / (n - 1)); [lra|]. replace (psib * (2 + 3 / (n - 1)) / (1 + 3 / (n - 1)) * (1 + 3 / (n - 1))) with (psib * (2 + 3 / (n - 1))) by (field; lra).
    apply Rmult_lt_compat_l; lra.
Qed.
End Exactly.
