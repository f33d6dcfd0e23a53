(** Lemmas: merging and layer crossing on the heap and on lists. *)

From Coq Require Import Reals ZArith List Bool Arith Lia.
From Verif Require Import Outcome Dbl Types ListOps HeapList Soil Spec_List Pf_List Fronts Infil Move HeapFronts Spec_Refine Pf_Lay Pf_Lay2 Pf_Refine.
Import ListNotations.
Open Scope dbl_scope.

Ltac fs := cbn [set_depth set_theta set_psi set_K set_layer set_num set_bottom set_dzdt f_depth f_theta f_psi f_K f_layer f_num f_bottom f_dzdt].

(** ** Numbers *)
Lemma numbered_set : forall l i f g, numbered l -> nth_error l i = Some f -> f_num g = f_num f -> numbered (lset l i g).
Proof.
  intros l i f g H E G j x Hx. destruct (Nat.eq_dec i j) as [-> | NE].
  - rewrite nth_lset_eq in Hx by (eapply nth_lt; eassumption). injection Hx as <-. rewrite G. apply H. exact E.
  - rewrite nth_lset_ne in Hx by exact NE. apply H. exact Hx.
Qed.
Lemma numbered_del : forall l k l' q, numbered l -> listDeleteFront k l = Ok (l', q) -> numbered l'.
Proof.
  intros l k l' q H E. destruct (pos_of k l) as [i|] eqn:P; [|unfold listDeleteFront in E; rewrite P in E; discriminate E].
  apply pos_of_Some in P. destruct P as (f & Hf & Ef & _). pose proof (H _ _ Hf). apply nth_lt in Hf.
  destruct (numbered_delete l k H ltac:(lia)) as (l2 & E2 & N2 & _). rewrite E in E2. injection E2 as -> _. exact N2.
Qed.

(** ** Reading after writing *)
Lemma get_set : forall l i v w, nth_error l i = Some v -> lget (lset l i w) i = Ok w.
Proof. intros l i v w H. apply some_lget, nth_lset_eq. eapply nth_lt. exact H. Qed.
Lemma get_other : forall l i j w, i <> j -> lget (lset l i w) j = lget l j.
Proof. intros l i j w H. unfold lget. rewrite nth_lset_ne by exact H. reflexivity. Qed.
Lemma nth_set : forall l i v w, nth_error l i = Some v -> nth_error (lset l i w) i = Some (w : front).
Proof. intros l i v w H. apply nth_lset_eq. eapply nth_lt. exact H. Qed.

Lemma lay_upd_at : forall h p po A B l lo i c, lay h p po A B (lset l i c) lo -> (i < length l)%nat -> forall g,
  exists h', h_upd g h (nth_error A i) = Ok h' /\ lay h' p po A B (lset l i (g c)) lo /\ h_top h' = h_top h.
Proof.
  intros h p po A B l lo i c Y H g. destruct (lay_upd _ _ _ _ _ _ _ Y g i c (nth_lset_eq _ _ _ _ H)) as (h' & U & Y' & T).
  rewrite lset_twice in Y'. eauto.
Qed.
Definition two (l : list front) (p : nat) (c n : front) : list front := lset (lset l p c) (S p) n.
Lemma two_id : forall l p c n, nth_error l p = Some c -> nth_error l (S p) = Some n -> two l p c n = l.
Proof. intros l p c n H1 H2. unfold two. rewrite (lset_id _ _ _ _ H1), (lset_id _ _ _ _ H2). reflexivity. Qed.
Lemma two_first : forall l p c n, (S p < length l)%nat -> lget (two l p c n) p = Ok c.
Proof. intros. unfold two. rewrite get_other by lia. apply some_lget, nth_lset_eq. lia. Qed.
Lemma two_second : forall l p c n, (S p < length l)%nat -> lget (two l p c n) (S p) = Ok n.
Proof. intros. unfold two. apply some_lget, nth_lset_eq. rewrite lset_length. lia. Qed.
Lemma two_else : forall l p c n j, j <> p -> j <> S p -> lget (two l p c n) j = lget l j.
Proof. intros. unfold two. rewrite !get_other by lia. reflexivity. Qed.
Lemma upd_first : forall h p po A B l lo i c n, lay h p po A B (two l i c n) lo -> (S i < length l)%nat -> forall g,
  exists h', h_upd g h (nth_error A i) = Ok h' /\ lay h' p po A B (two l i (g c) n) lo /\ h_top h' = h_top h.
Proof.
  intros h p po A B l lo i c n Y H g. destruct (lay_upd _ _ _ _ _ _ _ Y g i c) as (h' & U & Y' & T).
  { apply lget_some, two_first. exact H. }
  unfold two in Y'. rewrite (lset_swap _ _ (S i) i), lset_twice in Y' by lia. exists h'. auto.
Qed.
Lemma upd_second : forall h p po A B l lo i c n, lay h p po A B (two l i c n) lo -> (S i < length l)%nat -> forall g,
  exists h', h_upd g h (nth_error A (S i)) = Ok h' /\ lay h' p po A B (two l i c (g n)) lo /\ h_top h' = h_top h.
Proof.
  intros h p po A B l lo i c n Y H g. destruct (lay_upd _ _ _ _ _ _ _ Y g (S i) n) as (h' & U & Y' & T).
  { apply lget_some, two_second. exact H. }
  unfold two in Y'. rewrite lset_twice in Y'. exists h'. auto.
Qed.

Ltac wr L := let hh := fresh "h" in let U := fresh "U" in let YY := fresh "Y" in let TT := fresh "T" in
  match goal with |- context [h_upd ?g _ _] => destruct (L g) as (hh & U & YY & TT) end; rewrite U; clear U; cbn [bind]; cbv beta in YY.
Tactic Notation "same" ident(x) ident(E) := apply follows_same; intros x E.

(** What a routine that changes the list leaves behind. *)
Definition img (po : ptr) (B : list nat) (lo : list front) (l : list front) (y : heap * ptr) : Prop :=
  (exists A, lay (fst y) (snd y) po A B l lo) /\ numbered l.

Section Merge.
Context {fp : Fp} {cfg : Cfg}.

Lemma without_nth_S : forall (T : Type) (L : list T) i, nth_error (without i L) i = nth_error L (S i).
Proof. induction L as [|x L IH]; intros i; [destruct i; reflexivity|]. destruct i as [|i]; [reflexivity|]. exact (IH i). Qed.
Lemma without_nth_lt : forall (T : Type) (L : list T) i j, (j < i)%nat -> nth_error (without i L) j = nth_error L j.
Proof. induction L as [|x L IH]; intros i j H; [destruct i; reflexivity|]. destruct i as [|i]; [lia|]. destruct j as [|j]; [reflexivity|]. apply (IH i j). lia. Qed.

Lemma merge_step_follows : forall e h p po A B l lo i, lay h p po A B l lo -> numbered l ->
  follows (fun l' y => exists A', lay (fst (fst y)) (snd (fst y)) po A' B l' lo /\ numbered l' /\ snd y = nth_error A' (S i)
                         /\ (length l' = length l \/ S (length l') = length l /\ (S (S i) < length l)%nat) /\ (S i < length l)%nat)
          (merge_step e i l) (h_merge_step e h p (nth_error A i)).
Proof.
  intros e h p po A B l lo i Y NL. unfold merge_step, h_merge_step.
  rewrite !(lay_next _ _ _ _ _ _ _ Y).
  destruct (lget l i) as [c|] eqn:C; [|reflexivity]. apply lget_some in C. cbn [bind].
  rewrite (lay_next _ _ _ _ _ _ _ Y). destruct (lget l (S i)) as [n|] eqn:N; [|reflexivity]. apply lget_some in N. cbn [bind].
  rewrite !(lay_get _ _ _ _ _ _ _ Y), (some_lget _ _ _ C), (some_lget _ _ _ N). cbn [bind].
  pose proof (nth_lt _ _ _ _ N) as LT.
  destruct ((f_depth c >? f_depth n) && (f_layer c =? f_layer n)%Z && negb (f_bottom n)) eqn:TEST.
  2:{ cbn [bind]. rewrite (lay_next _ _ _ _ _ _ _ Y), (some_lget _ _ _ C). cbn [bind]. apply follows_ok. exists A. cbn [fst snd]. repeat split; auto. }
  rewrite ?(lay_get _ _ _ _ _ _ _ Y). destruct (lget l (S (S i))) as [nn|] eqn:NN; [|reflexivity]. apply lget_some in NN. cbn [bind].
  set (d := (f_depth c * (f_theta c - f_theta n) + f_depth n * (f_theta n - f_theta nn)) / (f_theta c - f_theta nn)).
  rewrite <- (lset_id _ _ _ _ C) in Y. pose proof (nth_lt _ _ _ _ C) as LC.
  wr (lay_upd_at _ _ _ _ _ _ _ _ _ Y LC). rewrite (lay_get _ _ _ _ _ _ _ Y0), (get_set _ _ _ _ C). cbn [bind]. fs.
  destruct (cassert (d >? Fin 0)) as [[]|] eqn:CA; [|reflexivity]. cbn [bind].
  destruct (soil_of e (f_layer c)) as [s|]; [|reflexivity]. cbn [bind].
  destruct (aget (e_frozen e) (f_layer c)) as [ff|]; [|reflexivity]. cbn [bind].
  wr (lay_upd_at _ _ _ _ _ _ _ _ _ Y0 LC). wr (lay_upd_at _ _ _ _ _ _ _ _ _ Y1 LC).
  set (l2 := lset l i _) in Y2 |- *.
  match goal with |- context [listDeleteFront _ ?x] => change x with l2 end.
  assert (N2 : numbered l2) by (eapply numbered_set; [exact NL|exact C|reflexivity]).
  assert (G2 : nth_error l2 (S i) = Some n) by (unfold l2; rewrite nth_lset_ne by lia; exact N).
  rewrite (lay_get _ _ _ _ _ _ _ Y2), (some_lget _ _ _ G2). cbn [bind].
  destruct (listDeleteFront (f_num n) l2) as [[l' q]|r] eqn:D.
  2:{ rewrite (lay_delete_stop _ _ _ _ _ _ _ Y2 _ _ D). reflexivity. }
  destruct (lay_delete _ _ _ _ _ _ _ Y2 _ _ _ D) as (h3 & p3 & A' & j & U & Y3 & _ & PJ & EA & _). rewrite U. cbn [bind].
  assert (j = S i).
  { rewrite (N2 _ _ G2) in PJ. rewrite pos_of_numbered in PJ; [congruence|exact N2|eapply nth_lt; exact G2]. }
  subst j. assert (EI : nth_error A i = nth_error A' i) by (rewrite EA, without_nth_lt by lia; reflexivity).
  assert (LL : S (length l') = length l).
  { pose proof (lay_len _ _ _ _ _ _ _ Y3) as E3. pose proof (lay_len _ _ _ _ _ _ _ Y2) as E2. unfold l2 in E2. rewrite lset_length in E2.
    rewrite <- E3, <- E2, EA. unfold without. rewrite app_length, firstn_length_le, skipn_length by lia. lia. }
  rewrite EI, (lay_next _ _ _ _ _ _ _ Y3). unfold lget.
  pose proof (nth_lt _ _ _ _ NN) as LN.
  destruct (nth_error l' i) eqn:Z; [|apply nth_error_None in Z; lia]. cbn [bind]. apply follows_ok. exists A'. cbn [fst snd].
  repeat split; auto. eapply numbered_del; eassumption.
Qed.

Lemma merge_loop_follows : forall e po B lo kl kh h p A l i, lay h p po A B l lo -> numbered l ->
  (l = [] /\ i = 0%nat \/ (i < length l)%nat) -> (length l < kl + i)%nat -> (length l < kh + i)%nat ->
  follows (img po B lo) (merge_loop kl e i l) (h_merge_loop kh e (Z.of_nat (S i)) h p (nth_error A i)).
Proof.
  intros e po B lo. induction kl as [|kl IH]; intros kh h p A l i Y NL HI K1 K2.
  - destruct HI as [[-> ->] | HI]; [simpl in K1|]; lia.
  - destruct kh as [|kh]; [destruct HI as [[-> ->] | HI]; [simpl in K2|]; lia|].
    cbn [merge_loop h_merge_loop]. rewrite (lay_length _ _ _ _ _ _ _ Y). cbn [bind].
    destruct (Z.of_nat (S i) =? listLength l)%Z eqn:E.
    + apply follows_ok. split; [exists A; exact Y|exact NL].
    + apply Z.eqb_neq in E. unfold listLength in E.
      eapply follows_bind; [apply merge_step_follows; eassumption|].
      intros l' [[h' p'] q] _ (A' & Y' & N' & Eq & HL & LT). cbn [fst snd] in *. subst q. cbv beta iota.
      replace (Z.of_nat (S i) + 1)%Z with (Z.of_nat (S (S i))) by lia. apply IH; auto; try (right; lia); try lia.
Qed.

Lemma merge_follows : forall e h p po A B l lo, lay h p po A B l lo -> numbered l ->
  follows (img po B lo) (lgar_merge_wetting_fronts e l) (h_merge e h p).
Proof.
  intros e h p po A B l lo Y NL. unfold lgar_merge_wetting_fronts, h_merge. pose proof (lay_room _ _ _ _ _ _ _ Y).
  rewrite (lay_head _ _ _ _ _ _ _ Y) at 2. apply (merge_loop_follows e po B lo (S (length l)) (room h) h p A l 0); auto; try lia.
  destruct l; [left; auto|right; simpl; lia].
Qed.

Lemma cross_step_follows : forall e h p po A B l lo i, lay h p po A B l lo -> numbered l ->
  follows (fun l' y => lay (fst y) p po A B l' lo /\ numbered l' /\ snd y = nth_error A (S i) /\ length l' = length l /\ (S i < length l)%nat)
          (cross_step e i l) (h_cross_step e h (nth_error A i)).
Proof.
  intros e h p po A B l lo i Y NL. unfold cross_step, h_cross_step.
  rewrite !(lay_get _ _ _ _ _ _ _ Y).
  destruct (lget l i) as [c|] eqn:C; [|reflexivity]. apply lget_some in C. cbn [bind].
  destruct (soil_of e (f_layer c)) as [s|] eqn:ES; [|reflexivity]. cbn [bind].
  destruct (aget (e_frozen e) (f_layer c)) as [ff|] eqn:EF; [|reflexivity]. cbn [bind].
  rewrite !(lay_next _ _ _ _ _ _ _ Y), (some_lget _ _ _ C). cbn [bind]. rewrite !(lay_next _ _ _ _ _ _ _ Y).
  destruct (lget l (S i)) as [n|] eqn:N; [|reflexivity]. apply lget_some in N. cbn [bind].
  destruct (aget (e_cum e) (f_layer c)) as [ck|] eqn:ECK; [|reflexivity]. cbn [bind].
  rewrite ?(lay_get _ _ _ _ _ _ _ Y), (some_lget _ _ _ N). cbn [bind].
  pose proof (nth_lt _ _ _ _ N) as LT.
  destruct ((f_depth c >? ck) && (f_depth n =? ck) && negb (f_layer c =? e_nlayers e)%Z) eqn:TEST.
  2:{ cbn [bind]. rewrite (lay_next _ _ _ _ _ _ _ Y), (some_lget _ _ _ C). cbn [bind]. apply follows_ok. cbn [fst snd]. repeat split; auto. }
  destruct (soil_of e (f_layer c + 1)) as [s2|] eqn:ES2; [|reflexivity]. cbn [bind].
  rewrite <- (two_id _ _ _ _ C N) in Y.
  wr (upd_first _ _ _ _ _ _ _ _ _ _ Y LT). wr (upd_first _ _ _ _ _ _ _ _ _ _ Y0 LT).
  rewrite !(lay_get _ _ _ _ _ _ _ Y1), two_first, two_second, two_else by lia. cbn [bind]. fs.
  destruct (lget l (S (S i))) as [nn|] eqn:NN; [|reflexivity]. apply lget_some in NN. cbn [bind].
  destruct (aget (e_cum e) (f_layer c + 1)) as [ck1|] eqn:ECK1; [|reflexivity]. cbn [bind].
  wr (upd_first _ _ _ _ _ _ _ _ _ _ Y1 LT). wr (upd_second _ _ _ _ _ _ _ _ _ _ Y2 LT).
  rewrite !(lay_get _ _ _ _ _ _ _ Y3), two_first by lia. cbn [bind].
  wr (upd_second _ _ _ _ _ _ _ _ _ _ Y3 LT). wr (upd_second _ _ _ _ _ _ _ _ _ _ Y4 LT). wr (upd_second _ _ _ _ _ _ _ _ _ _ Y5 LT).
  rewrite !(lay_get _ _ _ _ _ _ _ Y6), two_first by lia. cbn [bind].
  wr (upd_second _ _ _ _ _ _ _ _ _ _ Y6 LT). wr (upd_first _ _ _ _ _ _ _ _ _ _ Y7 LT). wr (upd_first _ _ _ _ _ _ _ _ _ _ Y8 LT).
  wr (upd_second _ _ _ _ _ _ _ _ _ _ Y9 LT).
  rewrite (lay_next _ _ _ _ _ _ _ Y10), two_first by lia. cbn [bind]. apply follows_ok. cbn [fst snd].
  split; [exact Y10|]. split; [|repeat split; auto; rewrite !lset_length; reflexivity].
  eapply numbered_set; [eapply numbered_set; [exact NL|exact C|reflexivity]|rewrite nth_lset_ne by lia; exact N|reflexivity].
Qed.

Lemma cross_loop_follows : forall e po B lo kl kh h p A l i, lay h p po A B l lo -> numbered l ->
  (l = [] /\ i = 0%nat \/ (i < length l)%nat) -> (length l < kl + i)%nat -> (length l < kh + i)%nat ->
  follows (fun l' h' => lay h' p po A B l' lo /\ numbered l') (cross_loop kl e i l) (h_cross_loop kh e (Z.of_nat (S i)) h p (nth_error A i)).
Proof.
  intros e po B lo. induction kl as [|kl IH]; intros kh h p A l i Y NL HI K1 K2.
  - destruct HI as [[-> ->] | HI]; [simpl in K1|]; lia.
  - destruct kh as [|kh]; [destruct HI as [[-> ->] | HI]; [simpl in K2|]; lia|].
    cbn [cross_loop h_cross_loop]. rewrite (lay_length _ _ _ _ _ _ _ Y). cbn [bind].
    destruct (Z.of_nat (S i) =? listLength l)%Z eqn:E.
    + apply follows_ok. auto.
    + apply Z.eqb_neq in E. unfold listLength in E.
      eapply follows_bind; [apply cross_step_follows; eassumption|].
      intros l' [h' q] _ (Y' & N' & Eq & HL & LT). cbn [fst snd] in *. subst q. cbv beta iota.
      replace (Z.of_nat (S i) + 1)%Z with (Z.of_nat (S (S i))) by lia. apply IH; auto; try (right; lia); try lia.
Qed.

Lemma cross_follows : forall e h p po A B l lo, lay h p po A B l lo -> numbered l ->
  follows (fun l' h' => lay h' p po A B l' lo /\ numbered l') (lgar_wetting_fronts_cross_layer_boundary e l) (h_cross e h p).
Proof.
  intros e h p po A B l lo Y NL. unfold lgar_wetting_fronts_cross_layer_boundary, h_cross. pose proof (lay_room _ _ _ _ _ _ _ Y).
  rewrite (lay_head _ _ _ _ _ _ _ Y) at 2. apply (cross_loop_follows e po B lo (S (length l)) (room h) h p A l 0); auto; try lia.
  destruct l; [left; auto|right; simpl; lia].
Qed.

End Merge.
