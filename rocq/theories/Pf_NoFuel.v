(** Functions that never reach the bound of the loops, whatever the values: all of the sub-step except the capillary integral and the
    head iteration.  The layers of the fronts stay inside the column. *)

From Coq Require Import Reals ZArith List Bool Lia.
From Verif Require Import Outcome Dbl Types ListOps Soil Fronts Infil Move Lib Spec_Common Spec_Profile Pf_Structure Pf_Repair.
Import ListNotations.

Definition not_fuel (r : reason) : Prop := r <> OutOfFuel.
Definition fin {A} (P : A -> Prop) (m : outcome A) : Prop := ends not_fuel P m.
Definition any {A} : A -> Prop := fun _ => True.

Lemma fin_bind : forall A B (P : A -> Prop) (Q : B -> Prop) (m : outcome A) (k : A -> outcome B), fin P m -> (forall a, P a -> fin Q (k a)) -> fin Q (bind m k).
Proof. intros A B P Q [a|r] k H1 H2; cbn in *; auto. Qed.
Lemma fin_ok : forall A (P : A -> Prop) a, P a -> fin P (Ok a).
Proof. intros A P a H. exact H. Qed.
Lemma fin_stop : forall A (P : A -> Prop) r, r <> OutOfFuel -> fin P (@Stop A r).
Proof. intros A P r H. exact H. Qed.
Lemma fin_any : forall A (P : A -> Prop) m, fin P m -> fin any m.
Proof. intros A P [a|r] H; cbn in *; unfold any; auto. Qed.

Section Any.
Context {fp : Fp}.
Variable e : env.
Notation nl := (e_nlayers e).

Definition inside (f : front) : Prop := (1 <= f_layer f <= nl)%Z.
Notation ins := (Forall inside).

Lemma fin_aget : forall A (a : list A) i, fin any (aget a i).
Proof. intros A a i. unfold aget. destruct (i <? 0)%Z; [discriminate|]. destruct (nth_error a (Z.to_nat i)); cbn; unfold any; auto. discriminate. Qed.
Lemma fin_aset : forall A (a : list A) i x, fin any (aset a i x).
Proof. intros A a i x. unfold aset. destruct (i <? 0)%Z; [discriminate|]. destruct (_ <? _)%nat; cbn; unfold any; auto. discriminate. Qed.
Lemma fin_uget : forall A (a : list (option A)) i, fin any (uget a i).
Proof. intros A a i. unfold uget. eapply fin_bind; [apply fin_aget|]. intros [x|] _; cbn; unfold any; auto. discriminate. Qed.
Lemma fin_soil : forall k, fin any (soil_of e k).
Proof. intro k. unfold soil_of. eapply fin_bind; [apply fin_uget|]. intros t _. apply fin_uget. Qed.
Lemma fin_lget : forall l i, ins l -> fin inside (lget l i).
Proof. intros l i H. unfold lget. destruct (nth_error l i) as [f|] eqn:E; [|discriminate]. apply nth_error_In in E. cbn. exact (proj1 (Forall_forall _ _) H f E). Qed.
Lemma fin_lget_any : forall l i, fin any (lget l i).
Proof. intros l i. unfold lget. destruct (nth_error l i) as [f|] eqn:E; [exact I|discriminate]. Qed.
Lemma fin_pget : forall l p, ins l -> fin inside (pget l p).
Proof. intros l [i|] H; [apply fin_lget; assumption|discriminate]. Qed.
Lemma fin_pget_any : forall l p, fin any (pget l p).
Proof. intros l [i|]; [apply fin_lget_any|discriminate]. Qed.
Lemma fin_cassert : forall b, fin any (cassert b).
Proof. intros [|]; [exact I|discriminate]. Qed.
Lemma fin_zfor : forall S (P : S -> Prop) (body : Z -> S -> outcome S) k i s, (forall i s, P s -> fin P (body i s)) -> P s -> fin P (zfor i k body s).
Proof. intros S P body. induction k as [|k IH]; intros i s H Hs; [exact Hs|]. cbn [zfor]. eapply fin_bind; [apply H; exact Hs|]. intros s' Hs'. apply IH; assumption. Qed.
Lemma fin_mass : forall cum l, fin any (lgar_calc_mass_bal cum l).
Proof.
  intros cum l. unfold lgar_calc_mass_bal. generalize (Fin 0). induction l as [|c l IH]; intro sum; [exact I|]. cbn [mass_loop]. eapply fin_bind; [apply fin_aget|]. intros base _. destruct l as [|n l]; [exact I|apply IH].
Qed.

Lemma ins_bump : forall d l, ins l -> ins (bump d l).
Proof. intros d l H. unfold bump. rewrite Forall_map. eapply Forall_impl; [|exact H]. intros f Hf. exact Hf. Qed.
Lemma In_firstn : forall A n (x : A) l, In x (firstn n l) -> In x l.
Proof. intros A. induction n as [|n IH]; intros x [|a l] H; cbn in *; try contradiction. destruct H as [H|H]; auto. Qed.
Lemma In_skipn : forall A n (x : A) l, In x (skipn n l) -> In x l.
Proof. intros A. induction n as [|n IH]; intros x [|a l] H; cbn in *; auto. Qed.
Lemma bump_length : forall d l, length (bump d l) = length l.
Proof. intros. unfold bump. apply map_length. Qed.
Lemma pos_of_lt : forall k l i, pos_of k l = Some i -> (i < length l)%nat.
Proof.
  intros k. induction l as [|f l IH]; intros i H; cbn in H; [discriminate|]. destruct (_ =? _)%Z; [injection H as <-; cbn; lia|]. destruct (pos_of k l) as [j|] eqn:E; [|discriminate]. injection H as <-. specialize (IH j eq_refl). cbn. lia.
Qed.
(** Deleting keeps the other fronts where they are and shortens the list by one. *)
Lemma fin_delete : forall num l, ins l -> fin (fun r => ins (fst r) /\ S (length (fst r)) = length l) (listDeleteFront num l).
Proof.
  intros num l H. unfold listDeleteFront. destruct (pos_of num l) as [i|] eqn:E; [|discriminate]. unfold fin. cbn [ends fst]. split.
  - apply Forall_app. split; [|apply ins_bump]; apply Forall_forall; intros f Hf; apply (proj1 (Forall_forall _ _) H); [eapply In_firstn|eapply In_skipn with (n := S i)]; eassumption.
  - apply pos_of_lt in E. rewrite app_length, bump_length, firstn_length, skipn_length. lia.
Qed.

Lemma fin_merge_step : forall p l, ins l -> fin (fun l' => ins l' /\ (length l' <= length l)%nat /\ (S p < length l)%nat) (merge_step e p l).
Proof.
  intros p l H. unfold merge_step. eapply fin_bind; [apply fin_lget; exact H|]. intros c Hc.
  unfold lget at 1. destruct (nth_error l (S p)) as [n|] eqn:En; [|discriminate]. cbn [bind]. assert (HL : (S p < length l)%nat) by (apply nth_error_Some; congruence).
  destruct (_ && _ && _)%bool; [|cbn; auto]. eapply fin_bind; [apply fin_lget_any|]. intros nn _. cbv zeta. eapply fin_bind; [apply fin_cassert|]. intros _ _.
  eapply fin_bind; [apply fin_soil|]. intros s _. eapply fin_bind; [apply fin_aget|]. intros ff _. eapply fin_bind; [apply fin_delete; apply Forall_lset; [exact H|exact Hc]|].
  intros [l' o] [H1 H2]. cbn [fst] in *. cbn. rewrite lset_length in H2. repeat split; auto; lia.
Qed.
(** The loops over the fronts count with the position: a position behind the last front is a NULL pointer. *)
Lemma fin_walk : forall (loop : nat -> env -> nat -> list front -> outcome (list front)) (step : env -> nat -> list front -> outcome (list front)),
  (forall k p l, loop (S k) e p l = if (Z.of_nat (S p) =? listLength l)%Z then Ok l else bind (step e p l) (fun l' => loop k e (S p) l')) ->
  (forall p l, ins l -> fin (fun l' => ins l' /\ (length l' <= length l)%nat /\ (S p < length l)%nat) (step e p l)) ->
  forall k p l, ins l -> (length l <= k + p)%nat -> fin ins (loop (S k) e p l).
Proof.
  intros loop step HL HS. induction k as [|k IH]; intros p l H L; rewrite HL; destruct (_ =? _)%Z; try exact H; eapply fin_bind; try (apply HS; exact H); intros l' (H1 & H2 & H3); [lia|].
  apply IH; [exact H1|lia].
Qed.
Lemma fin_merge : forall l, ins l -> fin ins (lgar_merge_wetting_fronts e l).
Proof. intros l H. unfold lgar_merge_wetting_fronts. apply (fin_walk merge_loop merge_step); [reflexivity|apply fin_merge_step|exact H|lia]. Qed.

Lemma fin_cross_step : forall p l, ins l -> fin (fun l' => ins l' /\ (length l' <= length l)%nat /\ (S p < length l)%nat) (cross_step e p l).
Proof.
  intros p l H. unfold cross_step. eapply fin_bind; [apply fin_lget; exact H|]. intros c Hc. eapply fin_bind; [apply fin_soil|]. intros s _. eapply fin_bind; [apply fin_aget|]. intros ff _. cbv zeta.
  unfold lget at 1. destruct (nth_error l (S p)) as [n|] eqn:En; [|discriminate]. cbn [bind]. assert (HL : (S p < length l)%nat) by (apply nth_error_Some; congruence).
  assert (Hn : inside n) by (apply nth_error_In in En; exact (proj1 (Forall_forall _ _) H n En)).
  eapply fin_bind; [apply fin_aget|]. intros ck _. destruct (_ && _ && _)%bool eqn:B; [|cbn; auto]. apply andb_true_iff in B as [_ B]. apply negb_true_iff, Z.eqb_neq in B.
  eapply fin_bind; [apply fin_soil|]. intros s2 _. eapply fin_bind; [apply fin_lget_any|]. intros nn _. eapply fin_bind; [apply fin_aget|]. intros ck1 _. cbn. rewrite !lset_length. split; [|split; [lia|exact HL]].
  apply Forall_lset; [apply Forall_lset; [exact H|exact Hc]|]. unfold inside in *. cbn [f_layer]. lia.
Qed.
Lemma fin_cross : forall l, ins l -> fin ins (lgar_wetting_fronts_cross_layer_boundary e l).
Proof. intros l H. unfold lgar_wetting_fronts_cross_layer_boundary. apply (fin_walk cross_loop cross_step); [reflexivity|apply fin_cross_step|exact H|lia]. Qed.

Lemma fin_domain : forall d l, ins l -> fin (fun r => ins (snd r)) (lgar_wetting_front_cross_domain_boundary e d l).
Proof.
  intros d l H. assert (G : forall k p, fin (fun r => ins (snd r)) (domain_loop k e d p l)).
  { induction k as [|k IH]; intro p; [exact H|]. cbn [domain_loop]. destruct (_ >=? _)%Z; [exact H|]. eapply fin_bind; [apply fin_lget; exact H|]. intros c Hc. eapply fin_bind; [apply fin_uget|]. intros t _.
    eapply fin_bind; [apply fin_lget; exact H|]. intros n Hn. destruct (nth_error l (S (S p))); [apply IH|]. destruct (_ >=? _)%d; [|apply IH]. cbv zeta. eapply fin_bind; [apply fin_uget|]. intros s _.
    eapply fin_bind; [apply fin_aget|]. intros ff _. eapply fin_bind; [apply fin_delete; apply Forall_lset; [exact H|exact Hn]|]. intros [l' o] [H1 _]. exact H1. }
  unfold lgar_wetting_front_cross_domain_boundary. destruct l; [exact H|apply G].
Qed.

Lemma fin_fix_above : forall k psi l, ins l -> fin (fun l' => ins l' /\ length l' = length l) (fix_above e k psi l).
Proof.
  intros k psi. induction l as [|c l IH]; intro H; [discriminate|]. inversion H as [|? ? Hc Hl]; subst. cbn [fix_above]. destruct (_ <? _)%Z; [|cbn; auto]. eapply fin_bind; [apply fin_soil|]. intros s _.
  eapply fin_bind; [apply IH; exact Hl|]. intros l' [H1 H2]. cbn. split; [constructor; [exact Hc|exact H1]|lia].
Qed.
Lemma fin_fix_pair : forall c l, ins l -> fin (fun r => ins (fst (fst r)) /\ (length (fst (fst r)) <= length l)%nat) (fix_pair e c l).
Proof.
  intros c l H. unfold fix_pair. eapply fin_bind; [apply fin_mass|]. intros m _. eapply fin_bind; [apply fin_delete; exact H|]. intros [l1 [q|]] [H1 H2]; [|discriminate]. cbn [fst] in *.
  eapply fin_bind with (P := fun l2 => ins l2 /\ length l2 = length l1).
  - destruct (_ >? _)%Z; [|cbn; auto]. eapply fin_bind; [apply fin_lget; exact H1|]. intros cur Hcur. eapply fin_bind; [apply fin_soil|]. intros s _. cbv zeta.
    match goal with |- fin _ (fix_above e ?k ?psi ?l) => assert (HH : ins l) by (apply Forall_lset; [exact H1|exact Hcur]); pose proof (fin_fix_above k psi l HH) as Q end. destruct (fix_above _ _ _ _); [|exact Q]. cbn in *. rewrite lset_length in Q. exact Q.
  - intros l2 [A B]. eapply fin_bind; [apply fin_mass|]. intros m' _. cbn. split; [exact A|lia].
Qed.
Lemma fix_unfold : forall k i p l mc, fix_loop (S k) e i p l mc = if (i <=? listLength l)%Z then match nth_error l p, nth_error l (S p) with
  | Some c, Some n => if dry_over_wet c n then bind (fix_pair e c l) (fun '(l', q, dm) => fix_loop k e (i + 1)%Z (S q) l' (mc + dm)%d) else fix_loop k e (i + 1)%Z (S p) l mc | _, _ => Ok (l, mc) end else Ok (l, mc).
Proof. reflexivity. Qed.
Lemma fin_fix : forall mc l, ins l -> fin (fun r => ins (fst r)) (lgar_fix_dry_over_wet_wetting_fronts e mc l).
Proof.
  intros mc l H. unfold lgar_fix_dry_over_wet_wetting_fronts. destruct l as [|f l]; [discriminate|].
  assert (G : forall k i p l mc, ins l -> (listLength l < Z.of_nat k + i)%Z -> fin (fun r => ins (fst r)) (fix_loop (S k) e i p l mc)).
  { clear. induction k as [|k IH]; intros i p l mc H L; unfold listLength in *.
    - cbn [fix_loop]. unfold listLength. destruct (_ <=? _)%Z eqn:B; [apply Z.leb_le in B; lia|exact H].
    - rewrite fix_unfold. unfold listLength. destruct (_ <=? _)%Z; [|exact H]. destruct (nth_error l p) as [c|]; [|exact H]. destruct (nth_error l (S p)) as [n|]; [|exact H]. destruct (dry_over_wet c n).
      + eapply fin_bind; [apply fin_fix_pair; exact H|]. intros [[l' q] dm] [A B]. cbn [fst] in *. apply IH; [exact A|lia].
      + apply IH; [exact H|lia]. }
  apply G; [exact H|]. unfold listLength. lia.
Qed.
Lemma fin_check : forall mc l, ins l -> fin (fun r => ins (fst r)) (check_and_fix e l mc).
Proof.
  intros mc l H. unfold check_and_fix. eapply fin_bind with (P := any); [unfold lgar_check_dry_over_wet_wetting_fronts; destruct l; [discriminate|exact I]|]. intros [|] _; [apply fin_fix; exact H|exact H].
Qed.
Lemma fin_phases : forall l, ins l -> fin (fun r => ins (fst (fst r))) (merge_phases e l).
Proof.
  intros l H. unfold merge_phases. eapply fin_bind; [apply fin_check; exact H|]. intros [l1 mc1] H1. eapply fin_bind; [apply fin_merge; exact H1|]. intros l2 H2. eapply fin_bind; [apply fin_cross; exact H2|]. intros l3 H3.
  eapply fin_bind; [apply fin_check; exact H3|]. intros [l4 mc4] H4. eapply fin_bind; [apply fin_merge; exact H4|]. intros l5 H5. eapply fin_bind; [apply fin_aget|]. intros col _.
  eapply fin_bind; [apply fin_domain; exact H5|]. intros [fl l6] H6. eapply fin_bind; [apply fin_check; exact H6|]. intros [l7 mc7] H7. exact H7.
Qed.
Lemma fin_refresh : forall l, ins l -> fin ins (refresh_psi e l).
Proof.
  induction l as [|c l IH]; intro H; [discriminate|]. inversion H as [|? ? Hc Hl]; subst. cbn [refresh_psi]. destruct l as [|n l]; [exact H|].
  eapply fin_bind with (P := inside).
  - destruct (_ >? _)%d; [|exact Hc]. eapply fin_bind; [apply fin_soil|]. intros s _. eapply fin_bind; [apply fin_aget|]. intros ff _. exact Hc.
  - intros c' Hc'. eapply fin_bind; [apply IH; exact Hl|]. intros r' Hr. constructor; assumption.
Qed.
Lemma fin_single : forall l, ins l -> fin ins (fix_single e l).
Proof.
  intros l H. unfold fix_single. destruct l as [|c [|n l]]; [exact H| |exact H]. eapply fin_bind; [apply fin_aget|]. intros d _. inversion H; subst. destruct (_ <>? _)%d; (constructor; [assumption|constructor]).
Qed.

Lemma fin_closure_loop : forall k p target l mass err factor dn sw aug iter, ins l -> fin (fun r => ins (fst (fst r))) (closure_loop k e p target l mass err factor dn sw aug iter).
Proof.
  induction k as [|k IH]; intros p target l mass err factor dn sw aug iter H; cbn [closure_loop]; (destruct (_ >? _)%d; [|exact H]); [exact H|]. cbv zeta.
  match goal with |- fin _ (match ?t with _ => _ end) => destruct t as [[dn' sw'] f'] end.
  eapply fin_bind; [apply fin_lget; exact H|]. intros f Hf. eapply fin_bind with (P := any); [destruct (_ && _)%bool; [apply fin_aget|exact I]|]. intros d _.
  assert (H' : ins (lset l p (set_depth f d))) by (apply Forall_lset; [exact H|exact Hf]). eapply fin_bind; [apply fin_mass|]. intros m _. apply IH. exact H'.
Qed.
Lemma fin_closure : forall om pr l aet, ins l -> fin (fun r => ins (fst (fst r))) (closure e om pr l aet).
Proof.
  intros om pr l aet H. unfold closure. eapply fin_bind; [apply fin_cross; exact H|]. intros l1 H1. cbv zeta. eapply fin_bind; [apply fin_soil|]. intros s _. eapply fin_bind; [apply fin_cassert|]. intros _ _.
  destruct (findFront _ l1) as [p|]; [|discriminate]. eapply fin_bind; [apply fin_lget; exact H1|]. intros f Hf. destruct (_ <? _)%d; [|exact H1]. eapply fin_bind; [apply fin_mass|]. intros m _.
  eapply fin_bind; [apply fin_closure_loop; exact H1|]. intros [[l2 er] g] H2. destruct g; [|exact H2]. eapply fin_bind; [apply fin_mass|]. intros m' _. exact H2.
Qed.

Lemma fin_masses_above : forall lay po pn below st, fin any (masses_above e lay po pn below st).
Proof.
  intros lay po pn below st. unfold masses_above. apply fin_zfor; [|exact I]. intros k [[[prior newm] dth] dz] _. eapply fin_bind; [apply fin_soil|]. intros s _. eapply fin_bind; [apply fin_aget|]. intros c1 _.
  eapply fin_bind; [apply fin_aget|]. intros c0 _. cbv zeta. eapply fin_bind; [apply fin_aset|]. intros d1 _. eapply fin_bind; [apply fin_aset|]. intros d2 _. exact I.
Qed.
Lemma fin_create_front : (1 <= nl)%Z -> forall ponded dry th l, ins l -> fin (fun r => ins (fst (fst r))) (lgar_create_surficial_front e ponded dry th l).
Proof.
  intros N1 ponded dry th l H. unfold lgar_create_surficial_front. eapply fin_bind; [apply fin_soil|]. intros s _. cbv zeta.
  eapply fin_bind with (P := any); [destruct (_ >? _)%d; [exact I|apply fin_aget]|]. intros _ _. eapply fin_bind; [apply fin_aget|]. intros ff _. cbn [listInsertFirst].
  assert (HB : ins (bump 1 l)) by (apply ins_bump; exact H).
  match goal with |- context [set_dzdt (set_K (set_psi ?x ?y) ?z) ?w :: bump 1 l] => set (c := set_dzdt (set_K (set_psi x y) z) w) end.
  assert (HC : ins (c :: bump 1 l)). { constructor; [|exact HB]. unfold inside, c. cbn. lia. }
  eapply fin_bind with (P := ins).
  - destruct (bump 1 l) as [|n r]; [exact HC|]. clearbody c. destruct (f_depth c >? f_depth n)%d; [|exact HC]. eapply fin_bind; [apply fin_merge; exact HC|]. intros l1 H1. apply fin_cross. exact H1.
  - intros l' H'. exact H'.
Qed.
Lemma fin_above_sum : forall lay s0, fin any (layers_above_sum e lay s0).
Proof.
  intros lay s0. unfold layers_above_sum. apply fin_zfor; [|exact I]. intros k st _. eapply fin_bind; [apply fin_soil|]. intros s _. eapply fin_bind; [apply fin_aget|]. intros c1 _.
  eapply fin_bind; [apply fin_aget|]. intros c0 _. eapply fin_bind; [apply fin_aget|]. intros d1 _. exact I.
Qed.
Lemma fin_max_storage : fin any (max_storage e).
Proof.
  unfold max_storage. apply fin_zfor; [|exact I]. intros k st _. eapply fin_bind; [apply fin_soil|]. intros s _. eapply fin_bind; [apply fin_aget|]. intros c1 _. eapply fin_bind; [apply fin_aget|]. intros c0 _. exact I.
Qed.
Lemma fin_denominator : forall lay psi s0, fin any (dzdt_denominator e lay psi s0).
Proof.
  intros lay psi s0. unfold dzdt_denominator. apply fin_zfor; [|exact I]. intros k st _. eapply fin_bind; [apply fin_soil|]. intros s _. eapply fin_bind; [apply fin_aget|]. intros ff _. eapply fin_bind; [apply fin_aget|]. intros c1 _.
  eapply fin_bind; [apply fin_aget|]. intros c0 _. exact I.
Qed.
Lemma fin_calc_aet : forall pet dt wp fc l, fin any (calc_aet e pet dt wp fc l).
Proof. intros. unfold calc_aet. eapply fin_bind; [apply fin_lget_any|]. intros c _. eapply fin_bind; [apply fin_soil|]. intros s _. exact I. Qed.
End Any.
