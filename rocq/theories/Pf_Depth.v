(** Proofs about sorting by depth, finding a layer and inserting at a depth. *)

From Coq Require Import Reals Lra ZArith List Lia Bool Permutation.
From Verif Require Import Outcome Dbl Types ListOps HeapList DepthList Lib Spec_List Spec_Heap Spec_Depth Pf_List Pf_Heap.
Import ListNotations.

(** ** The order of depths *)
Definition le (a b : dbl) : Prop := dleb a b = true.
Lemma le_trans : forall a b c, le a b -> le b c -> le a c.
Proof.
  intros [x| | |] [y| | |] [z| | |]; unfold le; simpl; intros H1 H2; try discriminate; auto.
  apply Rleb_true in H1. apply Rleb_true in H2. apply Rleb_true. lra.
Qed.
Lemma gt_le : forall a b, dgtb a b = true -> le b a.
Proof.
  intros [x| | |] [y| | |]; unfold le, dgtb; simpl; intro H; try discriminate; auto.
  apply Rltb_true in H. apply Rleb_true. lra.
Qed.
Lemma ngt_le : forall a b, a <> NaN -> b <> NaN -> dgtb a b = false -> le a b.
Proof.
  intros [x| | |] [y| | |] Ha Hb; unfold le, dgtb; simpl; intro H; try discriminate; try congruence; auto.
  apply Rltb_false in H. apply Rleb_true. lra.
Qed.

(** ** Bubble sort *)
Definition key (f : front) : dbl := f_depth f.
Lemma key_place : forall f, key f = fst (fst (fst (place_of f))).
Proof. reflexivity. Qed.

Lemma swap_place : forall c n, place_of (fst (sort_swap c n)) = place_of n /\ place_of (snd (sort_swap c n)) = place_of c
  /\ rest_of (fst (sort_swap c n)) = rest_of c /\ rest_of (snd (sort_swap c n)) = rest_of n.
Proof. intros. repeat split. Qed.

Lemma pass_spec : forall k c r suf, length r = k -> depths_ordered (c :: r) ->
  exists pre m, sort_pass k (c :: r ++ suf) = pre ++ m :: suf /\ length pre = k
    /\ (forall x, In x pre -> le (key x) (key m))
    /\ Permutation (map place_of (pre ++ [m])) (map place_of (c :: r))
    /\ map rest_of (pre ++ [m]) = map rest_of (c :: r).
Proof.
  induction k as [|k IH]; intros c r suf Hl HN; destruct r as [|n r]; simpl in Hl; try lia.
  - exists [], c. simpl. repeat split; auto. intros x [].
  - injection Hl as Hl. cbn [sort_pass app].
    assert (Nc : key c <> NaN) by (apply HN; left; reflexivity).
    assert (Nn : key n <> NaN) by (apply HN; right; left; reflexivity).
    assert (G : forall c' n', Permutation (map place_of [c'; n']) (map place_of [c; n]) -> map rest_of [c'; n'] = map rest_of [c; n] ->
              le (key c') (key n') ->
              exists pre m, c' :: sort_pass k (n' :: r ++ suf) = pre ++ m :: suf /\ length pre = S k
                /\ (forall x, In x pre -> le (key x) (key m))
                /\ Permutation (map place_of (pre ++ [m])) (map place_of (c :: n :: r))
                /\ map rest_of (pre ++ [m]) = map rest_of (c :: n :: r)).
    { intros c' n' HP HR HL.
      destruct (IH n' r suf Hl) as (pre & m & E & L & M & P & R).
      { intros f [<-|Hf]; [|apply HN; right; right; assumption].
        assert (In (place_of n') (map place_of [c; n])) as Q.
        { eapply Permutation_in; [exact HP|]. right; left; reflexivity. }
        change (f_depth n') with (fst (fst (fst (place_of n')))).
        destruct Q as [<-|[<-|[]]]; assumption. }
      exists (c' :: pre), m. rewrite E. split; [reflexivity|]. split; [simpl; lia|]. split.
      - intros x [<-|Hx]; [|apply M; assumption].
        assert (In (place_of n') (map place_of (pre ++ [m]))) as Q.
        { eapply Permutation_in; [apply Permutation_sym; exact P|]. left; reflexivity. }
        apply in_map_iff in Q. destruct Q as (y & Ey & Hy).
        assert (Ky : key y = key n') by (rewrite !key_place, Ey; reflexivity).
        apply in_app_or in Hy. destruct Hy as [Hy|[<-|[]]].
        + eapply le_trans; [exact HL|]. rewrite <- Ky. apply M; assumption.
        + rewrite Ky. assumption.
      - split.
        + change (Permutation (place_of c' :: map place_of (pre ++ [m])) (place_of c :: place_of n :: map place_of r)).
          eapply perm_trans; [apply perm_skip; exact P|].
          change (Permutation (map place_of [c'; n'] ++ map place_of r) (map place_of [c; n] ++ map place_of r)).
          apply Permutation_app_tail. assumption.
        + change (rest_of c' :: map rest_of (pre ++ [m]) = map rest_of (c :: n :: r)). rewrite R.
          exact (f_equal (fun l => l ++ map rest_of r) HR). }
    destruct (dgtb (f_depth c) (f_depth n)) eqn:D.
    + destruct (swap_place c n) as (P1 & P2 & R1 & R2). unfold sort_swap in *. cbn [fst snd] in *.
      apply G.
      * simpl map. rewrite P1, P2. apply perm_swap.
      * simpl map. rewrite R1, R2. reflexivity.
      * apply gt_le in D. exact D.
    + apply G; auto. apply ngt_le; assumption.
Qed.

Lemma outer_spec : forall k pre suf, length pre = S k -> depths_ordered pre ->
  (forall x y, In x pre -> In y suf -> le (key x) (key y)) -> by_depth suf ->
  by_depth (sort_outer k (pre ++ suf)) /\ Permutation (map place_of (sort_outer k (pre ++ suf))) (map place_of (pre ++ suf))
  /\ map rest_of (sort_outer k (pre ++ suf)) = map rest_of (pre ++ suf).
Proof.
  assert (CONS : forall m suf, (forall y, In y suf -> le (key m) (key y)) -> by_depth suf -> by_depth (m :: suf)).
  { intros m suf H S [|i] [|j] f g Hij Ef Eg; try lia.
    - simpl in Ef. injection Ef as <-. apply H. eapply nth_error_In. exact Eg.
    - simpl in Ef, Eg. apply (S i j); auto; lia. }
  induction k as [|k IH]; intros pre suf Hl HN Hle HS; destruct pre as [|c r]; simpl in Hl; try lia; injection Hl as Hl.
  - destruct r; [|discriminate]. simpl. split; [|split; auto]. apply CONS; [|assumption]. intros y Hy. apply Hle; [left; reflexivity|assumption].
  - destruct (pass_spec (S k) c r suf Hl HN) as (pre & m & E & L & M & P & R).
    change (sort_outer (S k) ((c :: r) ++ suf)) with (sort_outer k (sort_pass (S k) (c :: r ++ suf))). rewrite E.
    assert (T : forall x, In x (pre ++ [m]) -> exists y, In y (c :: r) /\ place_of y = place_of x).
    { intros x Hx. assert (In (place_of x) (map place_of (c :: r))) as Q by (eapply Permutation_in; [exact P|apply in_map; assumption]).
      apply in_map_iff in Q. destruct Q as (y & Ey & Hy). eauto. }
    destruct (IH pre (m :: suf) L) as (A1 & A2 & A3).
    + intros f Hf. destruct (T f) as (y & Hy & Ey); [apply in_or_app; left; assumption|].
      assert (K : f_depth y = f_depth f) by (injection Ey; auto). rewrite <- K. apply HN. assumption.
    + intros x y Hx [<-|Hy]; [apply M; assumption|].
      destruct (T x) as (z & Hz & Ez); [apply in_or_app; left; assumption|].
      assert (K : key z = key x) by (rewrite !key_place, Ez; reflexivity). rewrite <- K. apply Hle; assumption.
    + apply CONS; [|assumption]. intros y Hy. destruct (T m) as (z & Hz & Ez); [apply in_or_app; right; left; reflexivity|].
      assert (K : key z = key m) by (rewrite !key_place, Ez; reflexivity). rewrite <- K. apply Hle; assumption.
    + split; [assumption|]. replace (map place_of ((c :: r) ++ suf)) with (map place_of (c :: r) ++ map place_of suf) by (rewrite map_app; reflexivity).
      split.
      * eapply perm_trans; [exact A2|].
        replace (pre ++ m :: suf) with ((pre ++ [m]) ++ suf) by (rewrite <- app_assoc; reflexivity).
        rewrite map_app. apply Permutation_app_tail. assumption.
      * rewrite A3. replace (pre ++ m :: suf) with ((pre ++ [m]) ++ suf) by (rewrite <- app_assoc; reflexivity).
        rewrite map_app, R, <- map_app. reflexivity.
Qed.

Lemma sort_spec : forall l, depths_ordered l ->
  by_depth (listSortFrontsByDepth l) /\ Permutation (map place_of (listSortFrontsByDepth l)) (map place_of l)
  /\ map rest_of (listSortFrontsByDepth l) = map rest_of l.
Proof.
  intros [|c r] H.
  - simpl. repeat split; auto. intros [|i] j f g _ E; discriminate.
  - assert (Q : listSortFrontsByDepth (c :: r) = sort_outer (length r) ((c :: r) ++ [])).
    { rewrite app_nil_r. unfold listSortFrontsByDepth. replace (length (c :: r) - 1)%nat with (length r) by (simpl; lia). reflexivity. }
    rewrite Q. rewrite <- (app_nil_r (c :: r)) at 3 5. apply outer_spec; auto.
    + intros x y _ [].
    + intros [|i] j f g _ E; discriminate.
Qed.

(** Numbers travel with the depths, so a list that is not sorted loses its numbering. *)
Lemma sort_numbers : forall l, depths_ordered l -> numbered l -> numbered (listSortFrontsByDepth l) -> by_depth l.
Proof.
  intros l HO N N'. destruct (sort_spec l HO) as (S & P & _).
  assert (Q : forall i f, nth_error l i = Some f -> exists g, nth_error (listSortFrontsByDepth l) i = Some g /\ place_of g = place_of f).
  { intros i f Ef. assert (In (place_of f) (map place_of (listSortFrontsByDepth l))) as H.
    { eapply Permutation_in; [apply Permutation_sym; exact P|]. apply in_map. eapply nth_error_In; exact Ef. }
    apply in_map_iff in H. destruct H as (g & Eg & Hg). apply In_nth_error in Hg. destruct Hg as [j Hj].
    assert (f_num g = f_num f) by (injection Eg; auto). rewrite (N _ _ Ef), (N' _ _ Hj) in H.
    assert (j = i) by lia. subst j. eauto. }
  intros i j f g Hij Ef Eg. destruct (Q _ _ Ef) as (f' & Ef' & Pf). destruct (Q _ _ Eg) as (g' & Eg' & Pg).
  assert (f_depth f' = f_depth f) by (injection Pf; auto). assert (f_depth g' = f_depth g) by (injection Pg; auto).
  rewrite <- H, <- H0. eapply S; eassumption.
Qed.

Lemma sort_separates : forall c n, dgtb (f_depth c) (f_depth n) = true -> f_psi c <> f_psi n ->
  ~ Permutation (contents (listSortFrontsByDepth [c; n])) (contents [c; n]).
Proof.
  intros c n D H P. unfold listSortFrontsByDepth in P. cbn [length Nat.sub sort_outer sort_pass] in P. rewrite D in P.
  apply Permutation_in with (x := content (fst (sort_swap c n))) in P; [|left; reflexivity].
  destruct P as [P|[P|[]]]; unfold content, sort_swap in P; cbn in P.
  - assert (Q : f_depth n = f_depth c) by (injection P; auto). rewrite <- Q in D. revert D. destruct (f_depth n); unfold dgtb; simpl; try discriminate. intro D. apply Rltb_true in D. lra.
  - injection P; intros. congruence.
Qed.
