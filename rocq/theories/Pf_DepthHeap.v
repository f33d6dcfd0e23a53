(** The routines by depth at the level of heap cells. *)

From Coq Require Import Reals Lra ZArith List Lia Bool Permutation.
From Verif Require Import Outcome Dbl Types ListOps HeapList DepthList Lib Spec_List Spec_Heap Spec_Depth Pf_List Pf_Heap Pf_Depth.
Import ListNotations.

Lemma put_put : forall h a c d b, h_cell (h_put (h_put h a c) b d) a = if Nat.eqb a b then d else c.
Proof. intros. simpl. rewrite Nat.eqb_refl. reflexivity. Qed.

Lemma h_sort_pass_ok : forall k L h a v, seg h (Some a) ((a, v) :: L) None -> NoDup (a :: addrs L) -> (k <= length L)%nat ->
  exists h' L', h_sort_pass k h (Some a) (ptr_at L 0) = Ok h' /\ seg h' (Some a) L' None /\ addrs L' = a :: addrs L
    /\ vals L' = sort_pass k (v :: vals L) /\ same_outside (a :: addrs L) h h' /\ h_top h' = h_top h.
Proof.
  induction k as [|k IH]; intros L h a v S N Hk.
  - exists h, ((a, v) :: L). split; [reflexivity|]. split; [assumption|]. split; [reflexivity|]. split; [reflexivity|]. split; [apply same_outside_refl|reflexivity].
  - destruct L as [|[b w] L]; simpl in Hk; [lia|].
    destruct S as [_ [nx [S1 S2]]]. destruct S2 as [-> [nx2 [S2 S3]]].
    pose proof (seg_head _ _ _ S3) as Hnx.
    inversion N as [|? ? N1 N2]; subst. simpl in N1.
    assert (Hab : a <> b) by (intros ->; apply N1; left; reflexivity).
    assert (NaL : ~ In a (addrs L)) by (intro; apply N1; right; assumption).
    inversion N2 as [|? ? NbL N3]; subst. simpl in NbL.
    cbn [h_sort_pass ptr_at nth_error option_map fst].
    rewrite (load_live _ _ _ S1), (load_live _ _ _ S2). cbn [bind n_val n_next].
    set (v' := if dgtb (f_depth v) (f_depth w) then fst (sort_swap v w) else v).
    set (w' := if dgtb (f_depth v) (f_depth w) then snd (sort_swap v w) else w).
    assert (G : exists h1, (if dgtb (f_depth v) (f_depth w) then
               h1 <- h_store h (Some a) (mkN (fst (sort_swap v w)) (Some b)) ;;
               h_store h1 (Some b) (mkN (snd (sort_swap v w)) (ptr_at L 0))
             else Ok h) = Ok h1 /\ h_cell h1 a = Live (mkN v' (Some b)) /\ h_cell h1 b = Live (mkN w' (ptr_at L 0))
             /\ (forall y, y <> a -> y <> b -> h_cell h1 y = h_cell h y) /\ h_top h1 = h_top h).
    { unfold v', w'. destruct (dgtb (f_depth v) (f_depth w)).
      - rewrite (store_live _ _ _ _ S1). cbn [bind].
        rewrite (store_live _ b (mkN w (ptr_at L 0))) by (rewrite put_neq by auto; assumption).
        eexists. split; [reflexivity|]. split; [rewrite put_neq by assumption; apply put_eq|]. split; [apply put_eq|].
        split; [|reflexivity]. intros y Y1 Y2. rewrite !put_neq by assumption. reflexivity.
      - exists h. repeat split; auto. }
    destruct G as (h1 & -> & C1 & C2 & O1 & T1). cbn [bind].
    rewrite (load_live _ _ _ C1), (load_live _ _ _ C2). cbn [bind n_next].
    destruct (IH L h1 b w') as (h' & L' & E & Sg & A & V & O & T).
    + simpl. split; [reflexivity|]. exists (ptr_at L 0). split; [assumption|]. eapply seg_frame; [|exact S3].
      intros y Hy. apply O1; intros ->; contradiction.
    + assumption.
    + lia.
    + exists h', ((a, v') :: L'). rewrite E. split; [reflexivity|]. split; [|split; [|split; [|split]]].
      * simpl. split; [reflexivity|]. exists (Some b). split; [|assumption].
        rewrite O; [assumption|]. simpl. intros [->|Hy]; [congruence|contradiction].
      * simpl. rewrite A. reflexivity.
      * cbn [vals map snd]. change (map snd L') with (vals L'). rewrite V. cbn [sort_pass vals map snd].
        unfold v', w'. destruct (dgtb (f_depth v) (f_depth w)); reflexivity.
      * intros y Hy. simpl in Hy. rewrite O by (simpl; intuition congruence). apply O1; intuition congruence.
      * congruence.
Qed.

Lemma sort_pass_length : forall k l, length (sort_pass k l) = length l.
Proof.
  induction k as [|k IH]; intros [|c [|n r]]; try reflexivity.
  cbn [sort_pass]. destruct (dgtb (f_depth c) (f_depth n)); unfold sort_swap; cbn [length]; rewrite IH; reflexivity.
Qed.

Lemma h_sort_outer_ok : forall k L h p, seg h p L None -> NoDup (addrs L) -> (k < length L \/ k = 0)%nat ->
  exists h' L', h_sort_outer k h p = Ok h' /\ seg h' p L' None /\ addrs L' = addrs L
    /\ vals L' = sort_outer k (vals L) /\ same_outside (addrs L) h h' /\ h_top h' = h_top h.
Proof.
  induction k as [|k IH]; intros L h p S N Hk.
  - exists h, L. split; [reflexivity|]. split; [assumption|]. split; [reflexivity|]. split; [reflexivity|]. split; [apply same_outside_refl|reflexivity].
  - destruct L as [|[a v] L]; simpl in Hk; [lia|].
    pose proof S as S'. destruct S as [-> [nx [S1 S2]]]. cbn [h_sort_outer]. rewrite (load_live _ _ _ S1). cbn [bind n_next].
    rewrite (seg_head _ _ _ S2).
    destruct (h_sort_pass_ok (Datatypes.S k) L h a v S' N) as (h1 & L1 & E & Sg & A & V & O & T); [lia|].
    rewrite E. cbn [bind].
    destruct (IH L1 h1 (Some a) Sg) as (h2 & L2 & E2 & Sg2 & A2 & V2 & O2 & T2).
    + rewrite A. assumption.
    + left. rewrite <- (map_length fst). fold (addrs L1). rewrite A. cbn [length addrs]. unfold addrs. rewrite map_length. lia.
    + exists h2, L2. split; [assumption|]. split; [assumption|]. split; [rewrite A2, A; reflexivity|].
      split; [rewrite V2, V; reflexivity|]. split; [|congruence].
      intros y Hy. rewrite O2 by (rewrite A; assumption). apply O. assumption.
Qed.

Lemma h_sort_ok : forall L k h p, seg h p L None -> NoDup (addrs L) -> (length L < k)%nat ->
  exists h' L', h_listSortFrontsByDepth k h p = Ok h' /\ seg h' p L' None /\ addrs L' = addrs L
    /\ vals L' = listSortFrontsByDepth (vals L) /\ same_outside (addrs L) h h' /\ h_top h' = h_top h.
Proof.
  intros L k h p S N Hk. unfold h_listSortFrontsByDepth. rewrite (h_listLength_ok L k h p 0 S Hk). cbn [bind].
  replace (Z.to_nat (0 + Z.of_nat (length L) - 1)) with (length L - 1)%nat by lia.
  unfold listSortFrontsByDepth. rewrite vals_length. apply h_sort_outer_ok; auto. destruct L; simpl; lia.
Qed.

(** ** Finding the layer *)
Section Find.
Context {fp : Fp}.

Lemma aget_nth : forall A (l : list A) i x, (0 <= i)%Z -> nth_error l (Z.to_nat i) = Some x -> aget l i = Ok x.
Proof. intros A l i x Hi E. apply aget_Ok. auto. Qed.

Lemma find_from_ok : forall k cum d flag lay nl, boundaries cum nl -> (1 <= lay)%Z -> (lay + Z.of_nat k = nl + 1)%Z ->
  (forall j, (1 <= j < lay)%Z -> ~ layer_contains cum d j) ->
  exists r b, findLayer_from cum (Fin d) flag lay k = Ok (r, b)
    /\ ((r = 0%Z /\ b = flag /\ forall j, (j <= nl)%Z -> ~ layer_contains cum d j)
        \/ (1 <= r <= nl)%Z /\ layer_contains cum d r /\ exists hi, nth_error cum (Z.to_nat r) = Some (Fin hi)
           /\ b = (is_epsilon_less_than (dsub (Fin d) (Fin hi)) (lit (1 / 100000)) || flag)%bool).
Proof.
  induction k as [|k IH]; intros cum d flag lay nl B Hl Hk Hno.
  - exists 0%Z, flag. split; [reflexivity|]. left. split; [reflexivity|]. split; [reflexivity|].
    intros j Hj HC. assert (1 <= j)%Z by (destruct HC as (? & ? & ? & _); assumption). apply (Hno j); [lia|assumption].
  - destruct B as (B0 & B1 & B2 & B3).
    assert (N1 : exists x, nth_error cum (Z.to_nat lay) = Some (Fin x)).
    { destruct (nth_error cum (Z.to_nat lay)) as [y|] eqn:E; [|apply nth_error_None in E; lia].
      destruct (B2 _ _ E) as [x ->]. eauto. }
    assert (N0 : exists x, nth_error cum (Z.to_nat (lay - 1)) = Some (Fin x)).
    { destruct (nth_error cum (Z.to_nat (lay - 1))) as [y|] eqn:E; [|apply nth_error_None in E; lia].
      destruct (B2 _ _ E) as [x ->]. eauto. }
    destruct N1 as [hi N1]. destruct N0 as [lo N0].
    assert (P1 : (0 <= lay)%Z) by lia. assert (P0 : (0 <= lay - 1)%Z) by lia.
    cbn [findLayer_from]. rewrite (aget_nth _ _ _ _ P1 N1). cbn [bind]. rewrite (aget_nth _ _ _ _ P0 N0). cbn [bind].
    unfold dgtb. cbn [dleb dltb].
    destruct (Rleb d hi && Rltb lo d)%bool eqn:C.
    + apply andb_prop in C. destruct C as [C1 C2]. apply Rleb_true in C1. apply Rltb_true in C2.
      eexists lay, _. split; [reflexivity|]. right. split; [lia|]. split.
      * exists lo, hi. auto.
      * exists hi. split; [assumption|]. destruct (is_epsilon_less_than _ _); reflexivity.
    + apply IH with (nl := nl).
      * repeat split; auto.
      * lia.
      * lia.
      * intros j Hj HC. destruct (Z.eq_dec j lay) as [->|]; [|apply (Hno j); [lia|assumption]].
        destruct HC as (lo' & hi' & _ & E0 & E1 & HC). rewrite N0 in E0. rewrite N1 in E1. injection E0 as <-. injection E1 as <-.
        apply andb_false_iff in C. destruct C as [C|C]; [apply Rleb_false in C|apply Rltb_false in C]; lra.
Qed.

Lemma find_layer_ok : forall cum d flag nl, boundaries cum nl ->
  exists r b, listFindLayer nl cum (Fin d) flag = Ok (r, b)
    /\ ((r = 0%Z /\ b = flag /\ forall j, (j <= nl)%Z -> ~ layer_contains cum d j)
        \/ (1 <= r <= nl)%Z /\ layer_contains cum d r /\ exists hi, nth_error cum (Z.to_nat r) = Some (Fin hi)
           /\ b = (is_epsilon_less_than (dsub (Fin d) (Fin hi)) (lit (1 / 100000)) || flag)%bool).
Proof. intros cum d flag nl B. apply find_from_ok with (nl := nl); auto; [lia|destruct B; lia|intros; lia]. Qed.

End Find.

Lemma boundaries_lt : forall cum nl, boundaries cum nl -> forall i j x y, (i < j)%nat ->
  nth_error cum i = Some (Fin x) -> nth_error cum j = Some (Fin y) -> (x < y)%R.
Proof.
  intros cum nl (B0 & B1 & B2 & B3) i j. induction j as [|j IH]; intros x y Hij Ex Ey; [lia|].
  destruct (Nat.eq_dec i j) as [->|]; [eapply B3; eassumption|].
  destruct (nth_error cum j) as [w|] eqn:E; [|apply nth_error_None in E; assert (nth_error cum (S j) <> None) by congruence; apply nth_error_Some in H; lia].
  destruct (B2 _ _ E) as [z ->]. specialize (IH x z ltac:(lia) Ex eq_refl). specialize (B3 _ _ _ E Ey). lra.
Qed.

Lemma layer_unique : forall cum nl d i j, boundaries cum nl -> layer_contains cum d i -> layer_contains cum d j -> i = j.
Proof.
  intros cum nl d i j B (lo & hi & Hi & A0 & A1 & A2) (lo' & hi' & Hj & C0 & C1 & C2).
  destruct (Z.lt_trichotomy i j) as [H|[H|H]]; [|assumption|].
  - destruct (Z.eq_dec i (j - 1)) as [E|E].
    + rewrite <- E in C0. rewrite A1 in C0. injection C0 as <-. lra.
    + assert (hi < lo')%R by (eapply (boundaries_lt cum nl B (Z.to_nat i) (Z.to_nat (j - 1))); eauto; lia). lra.
  - destruct (Z.eq_dec j (i - 1)) as [E|E].
    + rewrite <- E in A0. rewrite C1 in A0. injection A0 as <-. lra.
    + assert (hi' < lo)%R by (eapply (boundaries_lt cum nl B (Z.to_nat j) (Z.to_nat (i - 1))); eauto; lia). lra.
Qed.
