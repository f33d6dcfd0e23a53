(** listInsertFrontAtDepth. *)

From Coq Require Import Reals Lra ZArith List Lia Bool Permutation.
From Verif Require Import Outcome Dbl Types ListOps HeapList DepthList Lib Spec_List Spec_Heap Spec_Depth Pf_List Pf_Heap Pf_Depth Pf_DepthHeap.
Import ListNotations.

Lemma gt_not_le : forall a b, dgtb a b = true -> dleb a b = false.
Proof.
  intros [x| | |] [y| | |]; unfold dgtb; simpl; intro H; try discriminate; auto.
  apply Rltb_true in H. apply Rleb_false. lra.
Qed.
Lemma gt_not_lt : forall a b, dgtb a b = true -> dltb a b = false.
Proof.
  intros [x| | |] [y| | |]; unfold dgtb; simpl; intro H; try discriminate; auto.
  apply Rltb_true in H. apply Rltb_false. lra.
Qed.
Lemma gt_le_trans : forall a b c, dgtb a b = true -> le c b -> dgtb a c = true.
Proof.
  intros [x| | |] [y| | |] [z| | |]; unfold dgtb, le; simpl; intros H1 H2; try discriminate; auto.
  apply Rltb_true in H1. apply Rleb_true in H2. apply Rltb_true. lra.
Qed.

Section Insert.
Context {fp : Fp}.

Lemma search_between : forall L1 k d h a v b w L2, seg h (Some a) ((a, v) :: L1 ++ (b, w) :: L2) None -> (length L1 < k)%nat ->
  (forall u, In u (v :: vals L1) -> dgtb d (f_depth u) = true) -> dleb d (f_depth w) = true ->
  h_depth_search k d h (Some a) (ptr_at (L1 ++ (b, w) :: L2) 0) = Ok (Some (ptr_at ((a, v) :: L1) (length L1), Some b)).
Proof.
  induction L1 as [|[a' v'] L1 IH]; intros k d h a v b w L2 S Hk Hgt Hle; destruct k as [|k]; simpl in Hk; try lia.
  - destruct S as [_ [nx [S1 S2]]]. simpl in S2. destruct S2 as [-> [nx2 [S2 S3]]].
    cbn [h_depth_search app ptr_at nth_error option_map fst length]. rewrite (load_live _ _ _ S1). cbn [bind n_val].
    rewrite Hgt by (left; reflexivity). rewrite (load_live _ _ _ S2). cbn [bind n_val]. rewrite Hle. reflexivity.
  - destruct S as [_ [nx [S1 S2]]]. pose proof S2 as S2'. simpl in S2. destruct S2 as [-> [nx2 [S2 S3]]].
    cbn [h_depth_search app ptr_at nth_error option_map fst length]. rewrite (load_live _ _ _ S1). cbn [bind n_val].
    rewrite Hgt by (left; reflexivity). rewrite (load_live _ _ _ S2). cbn [bind n_val].
    rewrite gt_not_le by (apply Hgt; right; left; reflexivity). cbn [bind n_next].
    pose proof (seg_head _ _ _ S3) as Hn.
    destruct nx2 as [q|]; [|destruct L1 as [|[c u] L1]; discriminate Hn].
    rewrite Hn. rewrite (IH k d h a' v' b w L2); [reflexivity| |lia| |assumption].
    + exact S2'.
    + intros u Hu. apply Hgt. right. assumption.
Qed.

Lemma search_end : forall T k d h a v, T <> [] -> seg h (Some a) ((a, v) :: T) None -> (length T < k)%nat ->
  (forall u, In u (v :: vals T) -> dgtb d (f_depth u) = true) ->
  h_depth_search k d h (Some a) (ptr_at T 0) = Ok None.
Proof.
  induction T as [|[a' v'] T IH]; intros k d h a v NE S Hk Hgt; [contradiction|]; destruct k as [|k]; simpl in Hk; try lia.
  destruct S as [_ [nx [S1 S2]]]. pose proof S2 as S2'. simpl in S2. destruct S2 as [-> [nx2 [S2 S3]]].
  cbn [h_depth_search ptr_at nth_error option_map fst]. rewrite (load_live _ _ _ S1). cbn [bind n_val].
  rewrite Hgt by (left; reflexivity). rewrite (load_live _ _ _ S2). cbn [bind n_val].
  rewrite gt_not_le by (apply Hgt; right; left; reflexivity). cbn [bind n_next].
  pose proof (seg_head _ _ _ S3) as Hn. destruct T as [|[c u] T].
  - simpl in Hn. subst nx2. reflexivity.
  - rewrite Hn. cbn [ptr_at nth_error option_map fst]. change (Some c) with (ptr_at ((c, u) :: T) 0). apply (IH k d h a' v').
    + discriminate.
    + exact S2'.
    + simpl in Hk |- *. lia.
    + intros x Hx. apply Hgt. right. assumption.
Qed.

(** Is the bottom of the layer close? *)
Definition near (cum : list dbl) (d : R) (lay : Z) : bool :=
  match nth_error cum (Z.to_nat lay) with Some hi => is_epsilon_less_than (dsub (Fin d) hi) (lit (1 / 100000)) | None => false end.

Lemma find_layer_at : forall cum nl d lay, boundaries cum nl -> (lay <= nl)%Z -> layer_contains cum d lay ->
  listFindLayer nl cum (Fin d) false = Ok (lay, near cum d lay) /\ (lay <> 0)%Z.
Proof.
  intros cum nl d lay B Hl HC. destruct (find_layer_ok cum d false nl B) as (r & b & E & [(-> & _ & H)|(Hr & HC' & hi & Eh & Hb)]).
  - exfalso. apply (H lay); assumption.
  - assert (r = lay) by (eapply layer_unique; eassumption). subst r. split; [|lia].
    rewrite E. unfold near. rewrite Eh. rewrite Hb, orb_false_r. reflexivity.
Qed.

Lemma find_layer_none : forall cum nl d, boundaries cum nl -> (forall j, (j <= nl)%Z -> ~ layer_contains cum d j) ->
  listFindLayer nl cum (Fin d) false = Ok (0%Z, false).
Proof.
  intros cum nl d B H. destruct (find_layer_ok cum d false nl B) as (r & b & E & [(-> & -> & _)|(Hr & HC' & _)]); [assumption|].
  exfalso. apply (H r); [lia|assumption].
Qed.

Lemma seg_split_last : forall h L a v p q, seg h p (L ++ [(a, v)]) q -> exists r, seg h p L (Some a) /\ h_cell h a = Live (mkN v r) /\ r = q.
Proof. intros h L a v p q S. apply seg_app in S. destruct S as (r & S1 & S2). simpl in S2. destruct S2 as [-> (nx & E & ->)]. exists q. auto. Qed.

Lemma insert_between : forall L1 a v b w L2 k g gn cum nl d th lay h p,
  heap_ok h -> seg h p (L1 ++ (a, v) :: (b, w) :: L2) None -> NoDup (addrs (L1 ++ (a, v) :: (b, w) :: L2)) ->
  (length (L1 ++ (a, v) :: (b, w) :: L2) < k)%nat -> boundaries cum nl -> (lay <= nl)%Z -> layer_contains cum d lay ->
  (forall u, In u (vals (L1 ++ [(a, v)])) -> dgtb (Fin d) (f_depth u) = true) -> dleb (Fin d) (f_depth w) = true ->
  exists h', h_listInsertFrontAtDepth k g gn nl cum (Fin d) th h p = Ok (h', Some (h_top h)) /\ heap_ok h'
    /\ seg h' p (L1 ++ (a, v) :: (h_top h, mkF (Fin d) th (f_psi g) (f_K g) lay (f_num w) (near cum d lay) (Fin (-1))) :: renum 1 ((b, w) :: L2)) None
    /\ (forall y, (y < h_top h)%nat -> ~ In y (a :: b :: addrs L2) -> h_cell h' y = h_cell h y).
Proof.
  intros L1 a v b w L2 k g gn cum nl d th lay h p HO S N Hk B Hl HC Hgt Hle.
  destruct (find_layer_at cum nl d lay B Hl HC) as [FL NZ].
  set (T := h_top h).
  assert (HD : exists a0 v0 T0, L1 ++ (a, v) :: (b, w) :: L2 = (a0, v0) :: T0 /\ T0 <> [] /\ p = Some a0
            /\ h_cell h a0 = Live (mkN v0 (ptr_at T0 0)) /\ dgtb (Fin d) (f_depth v0) = true
            /\ h_depth_search k (Fin d) h p (ptr_at T0 0) = Ok (Some (Some a, Some b))).
  { destruct L1 as [|[a0 v0] L1].
    - exists a, v, ((b, w) :: L2). cbn [app] in *. pose proof S as S0. destruct S0 as [-> [nx [S1 S2]]].
      split; [reflexivity|]. split; [discriminate|]. split; [reflexivity|]. rewrite (seg_head _ _ _ S2) in S1. split; [assumption|].
      split; [apply Hgt; left; reflexivity|].
      apply (search_between [] k (Fin d) h a v b w L2 S); [simpl in *; lia| |assumption].
      intros u [<-|[]]. apply Hgt. left. reflexivity.
    - exists a0, v0, (L1 ++ (a, v) :: (b, w) :: L2). cbn [app] in *. pose proof S as S0. destruct S0 as [-> [nx [S1 S2]]].
      split; [reflexivity|]. split; [destruct L1; discriminate|]. split; [reflexivity|]. rewrite (seg_head _ _ _ S2) in S1. split; [assumption|].
      split; [apply Hgt; left; reflexivity|].
      replace (L1 ++ (a, v) :: (b, w) :: L2) with ((L1 ++ [(a, v)]) ++ (b, w) :: L2) in S |- * by (rewrite <- app_assoc; reflexivity).
      rewrite (search_between (L1 ++ [(a, v)]) k (Fin d) h a0 v0 b w L2 S); [| | |assumption].
      + f_equal. f_equal. f_equal. unfold ptr_at. rewrite app_length. cbn [length]. rewrite Nat.add_1_r. cbn [nth_error].
        rewrite nth_error_app2 by lia. rewrite Nat.sub_diag. reflexivity.
      + rewrite app_length. cbn [length] in Hk |- *. rewrite app_length in Hk. cbn [length] in Hk. lia.
      + intros u Hu. apply Hgt. exact Hu. }
  destruct HD as (a0 & v0 & T0 & EL & NE & Ep & C0 & G0 & SR).
  unfold h_listInsertFrontAtDepth. rewrite Ep. rewrite (load_live _ _ _ C0). cbn [bind n_val n_next].
  rewrite (gt_not_lt _ _ G0). rewrite <- Ep, SR. cbn [bind].
  unfold h_new_link. destruct (h_malloc h _) as [h1 lk] eqn:M. unfold h_malloc in M. injection M as <- <-. fold T.
  rewrite FL. cbn [bind]. destruct (Z.eqb_spec lay 0) as [Z0|_]; [contradiction|].
  apply seg_app in S. destruct S as (q1 & U1 & U2). destruct U2 as [-> [nx1 [A1 U3]]]. destruct U3 as [-> [nx2 [A2 U4]]].
  pose proof (live_below _ _ _ HO A1) as La. pose proof (live_below _ _ _ HO A2) as Lb. fold T in La, Lb.
  assert (NT : forall y u, h_cell h y = Live u -> y <> T) by (intros y u E ->; unfold T in E; rewrite HO in E by lia; discriminate).
  unfold addrs in N. rewrite map_app in N. fold (addrs L1) in N. cbn [map fst] in N. fold (addrs L2) in N.
  pose proof (NoDup_right _ _ _ N) as NR. inversion NR as [|? ? Na NR']; subst. inversion NR' as [|? ? Nb NR'']; subst.
  assert (Hab : a <> b) by (intros ->; apply Na; left; reflexivity).
  assert (NL1 : forall y, In y (addrs L1) -> ~ In y (a :: b :: addrs L2)).
  { intros y H1 H2. apply in_split in H1. destruct H1 as (X & Y & E). rewrite E in N. rewrite <- app_assoc in N. apply NoDup_right in N. cbn [app] in N.
    inversion N as [|? ? Q _]. apply Q. apply in_or_app. right. assumption. }
  rewrite (load_live _ b (mkN w nx2)). 2:{ cbn [h_cell]. fold T. destruct (Nat.eqb_spec b T); [lia|assumption]. }
  cbn [bind n_val]. unfold h_fill_link.
  rewrite (load_live _ T (mkN (mkF (Fin d) th (f_psi g) (f_K g) (f_layer g) (f_num g) false (f_dzdt g)) gn)).
  2:{ cbn [h_cell]. fold T. rewrite Nat.eqb_refl. reflexivity. }
  cbn [bind n_val n_next f_depth f_theta f_psi f_K f_num].
  rewrite (store_live _ T (mkN (mkF (Fin d) th (f_psi g) (f_K g) (f_layer g) (f_num g) false (f_dzdt g)) gn)).
  2:{ cbn [h_cell]. fold T. rewrite Nat.eqb_refl. reflexivity. }
  cbn [bind]. set (new := mkF (Fin d) th (f_psi g) (f_K g) lay (f_num w) (near cum d lay) (Fin (-1))).
  set (h2 := h_put _ T _).
  assert (H2 : forall y, y <> T -> h_cell h2 y = h_cell h y).
  { intros y Hy. unfold h2. rewrite put_neq by assumption. cbn [h_cell]. fold T. destruct (Nat.eqb_spec y T); [contradiction|reflexivity]. }
  rewrite (load_live _ a (mkN v (Some b))) by (rewrite H2 by lia; assumption). cbn [bind n_val].
  rewrite (store_live _ a (mkN v (Some b))) by (rewrite H2 by lia; assumption). cbn [bind].
  set (h3 := h_put h2 a _).
  rewrite (load_live _ T (mkN new (Some b))).
  2:{ unfold h3. rewrite put_neq by lia. unfold h2. apply put_eq. }
  cbn [bind n_next].
  assert (H3 : forall y, y <> T -> y <> a -> h_cell h3 y = h_cell h y).
  { intros y Y1 Y2. unfold h3. rewrite put_neq by assumption. apply H2. assumption. }
  assert (S3 : seg h3 (Some b) ((b, w) :: L2) None).
  { cbn [seg]. split; [reflexivity|]. exists nx2. split; [rewrite H3 by (lia || congruence); assumption|].
    eapply seg_frame; [|exact U4]. intros y Hy. apply H3.
    - destruct (seg_live_addr _ _ _ _ _ U4 Hy) as [u Hu]. eapply NT; eassumption.
    - intros ->. apply Na. right. assumption. }
  destruct (h_renum_ok 1 ((b, w) :: L2) k h3 (Some b) S3) as (h4 & R1 & R2 & R3 & R4).
  { constructor; assumption. }
  { rewrite app_length in Hk. cbn [length] in Hk |- *. lia. }
  rewrite R1. cbn [bind]. exists h4. split; [reflexivity|].
  assert (O4 : forall y, ~ In y (b :: addrs L2) -> h_cell h4 y = h_cell h3 y) by (intros y Hy; apply R4; exact Hy).
  split; [|split].
  - intros y Hy. rewrite R2 in Hy. unfold h3, h2 in Hy. cbn [h_top h_put] in Hy. fold T in Hy.
    rewrite O4.
    + rewrite H3 by lia. apply HO. fold T. lia.
    + intros [->|Hi]; [lia|]. destruct (seg_live_addr _ _ _ _ _ U4 Hi) as [u Hu]. apply (live_below _ _ _ HO) in Hu. fold T in Hu. lia.
  - apply seg_app. exists (Some a). split; [|split; [reflexivity|]].
    + eapply seg_frame; [|exact U1]. intros y Hy. rewrite O4.
      * apply H3; [|intros ->; apply (NL1 a Hy); left; reflexivity].
        destruct (seg_live_addr _ _ _ _ _ U1 Hy) as [u Hu]. eapply NT; eassumption.
      * intro Hi. apply (NL1 y Hy). right. assumption.
    + exists (Some T). split.
      * rewrite O4 by assumption. unfold h3. apply put_eq.
      * split; [reflexivity|]. exists (Some b). split; [|exact R3].
        rewrite O4. { unfold h3. rewrite put_neq by lia. unfold h2. apply put_eq. }
        intros [<-|Hi]; [lia|]. destruct (seg_live_addr _ _ _ _ _ U4 Hi) as [u Hu]. apply (live_below _ _ _ HO) in Hu. fold T in Hu. lia.
  - intros y Hy Hi. rewrite O4; [|intro; apply Hi; right; assumption]. apply H3; [unfold T; lia|]. intros ->. apply Hi. left. reflexivity.
Qed.

Lemma insert_below : forall L k g gn cum nl d th h p, (2 <= length L)%nat -> seg h p L None -> (length L < k)%nat ->
  (forall u, In u (vals L) -> dgtb d (f_depth u) = true) ->
  h_listInsertFrontAtDepth k g gn nl cum d th h p = Ok (h, None).
Proof.
  intros [|[a v] T] k g gn cum nl d th h p HL S Hk Hgt; simpl in HL, Hk; [lia|].
  unfold h_listInsertFrontAtDepth. pose proof S as S0. destruct S as [-> [nx [S1 S2]]]. rewrite (load_live _ _ _ S1). cbn [bind n_val n_next].
  rewrite gt_not_lt by (apply Hgt; left; reflexivity). rewrite (seg_head _ _ _ S2). rewrite (search_end T k d h a v); [reflexivity| |assumption|lia|assumption].
  destruct T; simpl in HL; [lia|discriminate].
Qed.

Lemma insert_single : forall a v k g gn cum nl d th h, (0 < k)%nat -> seg h (Some a) [(a, v)] None -> dltb d (f_depth v) = false ->
  h_listInsertFrontAtDepth k g gn nl cum d th h (Some a) = Stop (UB NullDeref).
Proof.
  intros a v k g gn cum nl d th h Hk S Hd. destruct k as [|k]; [lia|].
  unfold h_listInsertFrontAtDepth. destruct S as [_ [nx [S1 S2]]]. simpl in S2. subst nx. rewrite (load_live _ _ _ S1). cbn [bind n_val n_next].
  rewrite Hd. cbn [h_depth_search]. rewrite (load_live _ _ _ S1). cbn [bind n_val]. destruct (dgtb d (f_depth v)); reflexivity.
Qed.

(** Above the first front. *)
Lemma insert_above : forall a v T k g gn cum nl d th lay h, heap_ok h -> seg h (Some a) ((a, v) :: T) None ->
  boundaries cum nl -> (lay <= nl)%Z -> layer_contains cum d lay -> dltb (Fin d) (f_depth v) = true ->
  exists h', h_listInsertFrontAtDepth k g gn nl cum (Fin d) th h (Some a) = Ok (h', Some (h_top h))
    /\ seg h' (Some a) ((a, v) :: T) None
    /\ seg h' (Some (h_top h)) ((h_top h, mkF (Fin d) th (f_psi g) (f_K g) lay (f_num g) (near cum d lay) (Fin (-1))) :: (a, v) :: T) None.
Proof.
  intros a v T k g gn cum nl d th lay h HO S B Hl HC Hd. destruct (find_layer_at cum nl d lay B Hl HC) as [FL NZ].
  unfold h_listInsertFrontAtDepth. pose proof S as S0. destruct S0 as [_ [nx [S1 S2]]]. rewrite (load_live _ _ _ S1). cbn [bind n_val].
  rewrite Hd. unfold h_new_link, h_malloc. rewrite FL. cbn [bind]. destruct (Z.eqb_spec lay 0) as [|_]; [contradiction|].
  unfold h_fill_link. unfold h_load at 1. cbn [h_cell]. rewrite Nat.eqb_refl. cbn [bind n_val f_depth f_theta f_psi f_K f_num].
  unfold h_store, h_load. cbn [h_cell]. rewrite Nat.eqb_refl. cbn [bind].
  eexists. split; [reflexivity|].
  assert (F : seg (h_put (mkH (Datatypes.S (h_top h)) (fun b => if Nat.eqb b (h_top h) then Live (mkN (mkF (Fin d) th (f_psi g) (f_K g) (f_layer g) (f_num g) false (f_dzdt g)) gn) else h_cell h b)) (h_top h)
      (Live (mkN (mkF (Fin d) th (f_psi g) (f_K g) lay (f_num g) (near cum d lay) (Fin (-1))) (Some a)))) (Some a) ((a, v) :: T) None).
  { eapply seg_frame; [|exact S]. intros y Hy.
    pose proof (seg_below h ((a, v) :: T) (Some a) None y HO S Hy) as Hb.
    rewrite put_neq by lia. cbn [h_cell]. destruct (Nat.eqb_spec y (h_top h)); [lia|reflexivity]. }
  split; [exact F|]. split; [reflexivity|]. exists (Some a). split; [apply put_eq|exact F].
Qed.

Lemma insert_leak : forall a v T k g gn cum nl d th h, heap_ok h -> seg h (Some a) ((a, v) :: T) None ->
  boundaries cum nl -> (forall j, (j <= nl)%Z -> ~ layer_contains cum d j) -> dltb (Fin d) (f_depth v) = true ->
  exists h' n, h_listInsertFrontAtDepth k g gn nl cum (Fin d) th h (Some a) = Ok (h', None) /\ seg h' (Some a) ((a, v) :: T) None
    /\ h_cell h' (h_top h) = Live n /\ ~ In (h_top h) (a :: addrs T).
Proof.
  intros a v T k g gn cum nl d th h HO S B HC Hd. pose proof (find_layer_none cum nl d B HC) as FL.
  unfold h_listInsertFrontAtDepth. pose proof S as S0. destruct S0 as [_ [nx [S1 S2]]]. rewrite (load_live _ _ _ S1). cbn [bind n_val].
  rewrite Hd. unfold h_new_link, h_malloc. rewrite FL. cbn [bind Z.eqb].
  eexists _, _. split; [reflexivity|]. split; [|split].
  - eapply seg_frame; [|exact S]. intros y Hy.
    pose proof (seg_below h ((a, v) :: T) (Some a) None y HO S Hy) as Hb.
    cbn [h_cell]. destruct (Nat.eqb_spec y (h_top h)); [lia|reflexivity].
  - cbn [h_cell]. rewrite Nat.eqb_refl. reflexivity.
  - intro Hi. pose proof (seg_below h ((a, v) :: T) (Some a) None (h_top h) HO S Hi). lia.
Qed.

End Insert.

(** ** In terms of positions *)
Lemma nth_vals : forall L i v, nth_error (vals L) i = Some v -> exists a L1 L2, L = L1 ++ (a, v) :: L2 /\ length L1 = i.
Proof.
  intros L i v E. unfold vals in E. rewrite nth_error_map in E. destruct (nth_error L i) as [[a u]|] eqn:Q; [|discriminate].
  cbn in E. injection E as <-. destruct (split_nth _ _ _ _ Q) as (L1 & L2 & E1 & E2). eauto.
Qed.

Lemma contents_bump : forall d l, contents (bump d l) = contents l.
Proof. intros d l. unfold contents, bump. rewrite map_map. apply map_ext. intros []. reflexivity. Qed.

Lemma bump_nth : forall d l i f, nth_error (bump d l) i = Some f -> exists g, nth_error l i = Some g /\ f = set_num g (f_num g + d).
Proof. intros d l i f E. unfold bump in E. rewrite nth_error_map in E. destruct (nth_error l i) as [g|]; [|discriminate]. injection E as <-. eauto. Qed.

Lemma by_depth_insert : forall l1 v new w l2, by_depth (l1 ++ v :: w :: l2) -> le (f_depth v) (f_depth new) -> le (f_depth new) (f_depth w) ->
  by_depth (l1 ++ v :: new :: bump 1 (w :: l2)).
Proof.
  intros l1 v new w l2 BD H1 H2.
  assert (LE : forall i j f g, (i < j)%nat -> nth_error (l1 ++ v :: w :: l2) i = Some f -> nth_error (l1 ++ v :: w :: l2) j = Some g -> le (f_depth f) (f_depth g)) by exact BD.
  set (n := length l1).
  assert (OLD : forall i f, (i <= n)%nat -> nth_error (l1 ++ v :: new :: bump 1 (w :: l2)) i = Some f -> nth_error (l1 ++ v :: w :: l2) i = Some f).
  { intros i f Hi E. destruct (Nat.eq_dec i n) as [->|].
    - rewrite nth_error_app2 in * by (unfold n; lia). unfold n in *. rewrite Nat.sub_diag in *. exact E.
    - rewrite nth_error_app1 in * by (unfold n in *; lia). exact E. }
  assert (MID : nth_error (l1 ++ v :: new :: bump 1 (w :: l2)) (S n) = Some new).
  { rewrite nth_error_app2 by (unfold n; lia). replace (S n - length l1)%nat with 1%nat by (unfold n; lia). reflexivity. }
  assert (NEW : forall i f, (S n < i)%nat -> nth_error (l1 ++ v :: new :: bump 1 (w :: l2)) i = Some f ->
            exists g, nth_error (l1 ++ v :: w :: l2) (i - 1) = Some g /\ f_depth f = f_depth g).
  { intros i f Hi E. rewrite nth_error_app2 in E by (unfold n in *; lia).
    replace (i - length l1)%nat with (S (S (i - 2 - n)))%nat in E by (unfold n in *; lia). cbn [nth_error] in E.
    destruct (bump_nth _ _ _ _ E) as (g & Eg & ->). exists g. split; [|reflexivity].
    rewrite nth_error_app2 by (unfold n in *; lia). replace (i - 1 - length l1)%nat with (S (i - 2 - n))%nat by (unfold n in *; lia). exact Eg. }
  assert (V : nth_error (l1 ++ v :: w :: l2) n = Some v) by (rewrite nth_error_app2 by (unfold n; lia); unfold n; rewrite Nat.sub_diag; reflexivity).
  assert (W : nth_error (l1 ++ v :: w :: l2) (S n) = Some w).
  { rewrite nth_error_app2 by (unfold n; lia). replace (S n - length l1)%nat with 1%nat by (unfold n; lia). reflexivity. }
  intros i j f g Hij Ef Eg. change (le (f_depth f) (f_depth g)).
  destruct (lt_eq_lt_dec j (S n)) as [[Hj|Hj]|Hj].
  - apply (LE i j); [assumption|apply OLD; [lia|assumption]|apply OLD; [lia|assumption]].
  - subst j. rewrite MID in Eg. injection Eg as <-. apply OLD in Ef; [|lia].
    destruct (Nat.eq_dec i n) as [->|]; [rewrite V in Ef; injection Ef as <-; assumption|].
    eapply le_trans; [|exact H1]. apply (LE i n); [lia|assumption|assumption].
  - destruct (NEW _ _ Hj Eg) as (g' & Eg' & Dg). rewrite Dg.
    destruct (lt_eq_lt_dec i (S n)) as [[Hi|Hi]|Hi].
    + apply OLD in Ef; [|lia]. apply (LE i (j - 1)%nat); [lia|assumption|assumption].
    + subst i. rewrite MID in Ef. injection Ef as <-.
      destruct (Nat.eq_dec (j - 1) (S n)) as [E|]; [rewrite E, W in Eg'; injection Eg' as <-; assumption|].
      eapply le_trans; [exact H2|]. apply (LE (S n) (j - 1)%nat); [lia|assumption|assumption].
    + destruct (NEW _ _ Hi Ef) as (f' & Ef' & Df). rewrite Df. apply (LE (i - 1)%nat (j - 1)%nat); [lia|assumption|assumption].
Qed.

Lemma numbered_insert : forall l1 v new w l2, numbered (l1 ++ v :: w :: l2) -> f_num new = f_num w -> numbered (l1 ++ v :: new :: bump 1 (w :: l2)).
Proof.
  intros l1 v new w l2 N Hn i f E. set (n := length l1) in *.
  destruct (lt_eq_lt_dec i (S n)) as [[Hi|Hi]|Hi].
  - apply N. destruct (Nat.eq_dec i n) as [->|].
    + rewrite nth_error_app2 in * by (unfold n; lia). unfold n in *. rewrite Nat.sub_diag in *. exact E.
    + rewrite nth_error_app1 in * by (unfold n in *; lia). exact E.
  - subst i. rewrite nth_error_app2 in E by (unfold n; lia). replace (S n - length l1)%nat with 1%nat in E by (unfold n; lia). cbn in E. injection E as <-.
    rewrite Hn. apply N. rewrite nth_error_app2 by (unfold n; lia). replace (S n - length l1)%nat with 1%nat by (unfold n; lia). reflexivity.
  - rewrite nth_error_app2 in E by (unfold n in *; lia).
    replace (i - length l1)%nat with (S (S (i - 2 - n)))%nat in E by (unfold n in *; lia). cbn [nth_error] in E.
    destruct (bump_nth _ _ _ _ E) as (g & Eg & ->). cbn [f_num set_num].
    rewrite (N (i - 1)%nat g); [lia|]. rewrite nth_error_app2 by (unfold n in *; lia).
    replace (i - 1 - length l1)%nat with (S (i - 2 - n))%nat by (unfold n in *; lia). exact Eg.
Qed.

Lemma cut_app : forall A (l1 l2 : list A) x, firstn (S (length l1)) (l1 ++ x :: l2) = l1 ++ [x] /\ skipn (S (length l1)) (l1 ++ x :: l2) = l2.
Proof. intros A l1 l2 x. induction l1 as [|y l1 [IH1 IH2]]; [split; reflexivity|]. cbn [length app]. rewrite firstn_cons, skipn_cons, IH1, IH2. split; reflexivity. Qed.

Lemma insert_between_user : forall {fp : Fp} L i v w k g gn cum nl d th lay h p,
    heap_ok h -> seg h p L None -> NoDup (addrs L) -> (length L < k)%nat -> boundaries cum nl -> (lay <= nl)%Z -> layer_contains cum d lay ->
    by_depth (vals L) -> nth_error (vals L) i = Some v -> nth_error (vals L) (S i) = Some w -> dltb (f_depth v) (Fin d) = true -> dleb (Fin d) (f_depth w) = true ->
    exists h' L' new, h_listInsertFrontAtDepth k g gn nl cum (Fin d) th h p = Ok (h', Some (h_top h)) /\ heap_ok h'
      /\ seg h' p L' None /\ addrs L' = firstn (S i) (addrs L) ++ h_top h :: skipn (S i) (addrs L)
      /\ contents (vals L') = firstn (S i) (contents (vals L)) ++ content new :: skipn (S i) (contents (vals L))
      /\ f_depth new = Fin d /\ f_theta new = th /\ f_layer new = lay
      /\ (numbered (vals L) -> numbered (vals L')) /\ by_depth (vals L').
Proof.
  intros fp L i v w k g gn cum nl d th lay h p HO S N Hk B Hl HC BD Ev Ew Hv Hw.
  destruct (nth_vals _ _ _ Ev) as (a & L1 & L2' & -> & Li).
  assert (exists b L2, L2' = (b, w) :: L2) as (b & L2 & ->).
  { unfold vals in Ew. rewrite map_app, nth_error_app2 in Ew by (rewrite map_length; lia). rewrite map_length, Li in Ew.
    replace (Datatypes.S i - i)%nat with 1%nat in Ew by lia. destruct L2' as [|[b u] L2]; cbn in Ew; [discriminate|]. injection Ew as <-. eauto. }
  assert (VL : vals (L1 ++ (a, v) :: (b, w) :: L2) = vals L1 ++ v :: w :: vals L2) by (unfold vals; rewrite map_app; reflexivity).
  assert (LL : length (vals L1) = i) by (rewrite vals_length; assumption).
  destruct (insert_between L1 a v b w L2 k g gn cum nl d th lay h p HO S N Hk B Hl HC) as (h' & E & HO' & S' & _).
  { intros u Hu. unfold vals in Hu. rewrite map_app in Hu. apply in_app_or in Hu. destruct Hu as [Hu|[<-|[]]]; [|exact Hv].
    apply gt_le_trans with (b := f_depth v); [exact Hv|]. apply In_nth_error in Hu. destruct Hu as [j Hj].
    assert (j < i)%nat. { assert (Hj' : nth_error (map snd L1) j <> None) by congruence. apply nth_error_Some in Hj'. rewrite map_length in Hj'. lia. }
    rewrite VL in BD. apply (BD j i); [assumption| |].
    - rewrite nth_error_app1 by lia. exact Hj.
    - rewrite nth_error_app2 by lia. rewrite LL, Nat.sub_diag. reflexivity. }
  { exact Hw. }
  set (new := mkF _ _ _ _ _ _ _ _) in S'.
  eexists h', _, new. split; [exact E|]. split; [exact HO'|]. split; [exact S'|].
  assert (VL' : vals (L1 ++ (a, v) :: (h_top h, new) :: renum 1 ((b, w) :: L2)) = vals L1 ++ v :: new :: bump 1 (w :: vals L2)).
  { unfold vals at 1. rewrite map_app. cbn [map snd]. change (map snd (renum 1 ((b, w) :: L2))) with (vals (renum 1 ((b, w) :: L2))). rewrite vals_renum. reflexivity. }
  split; [|split; [|split; [|split; [|split; [|split]]]]].
  - unfold addrs. rewrite !map_app. cbn [map fst]. change (map fst (renum 1 ((b, w) :: L2))) with (addrs (renum 1 ((b, w) :: L2))). rewrite addrs_renum.
    destruct (cut_app _ (map fst L1) (b :: map fst L2) a) as [C1 C2]. rewrite map_length, Li in C1, C2. rewrite C1, C2. rewrite <- app_assoc. reflexivity.
  - rewrite VL', VL. unfold contents. rewrite !map_app. cbn [map].
    destruct (cut_app _ (map content (vals L1)) (content w :: map content (vals L2)) (content v)) as [C1 C2]. rewrite map_length, LL in C1, C2. rewrite C1, C2.
    rewrite <- app_assoc. cbn [app]. f_equal. f_equal. f_equal. exact (contents_bump 1 (w :: vals L2)).
  - reflexivity.
  - reflexivity.
  - reflexivity.
  - intro Nm. rewrite VL'. apply numbered_insert; [rewrite <- VL; assumption|reflexivity].
  - rewrite VL'. apply by_depth_insert; [rewrite <- VL; assumption|apply gt_le; exact Hv|exact Hw].
Qed.

Lemma insert_above_user : forall {fp : Fp} a v T k g gn cum nl d th lay h, heap_ok h -> seg h (Some a) ((a, v) :: T) None -> numbered (v :: vals T) ->
    boundaries cum nl -> (lay <= nl)%Z -> layer_contains cum d lay -> dltb (Fin d) (f_depth v) = true ->
    exists h' new, h_listInsertFrontAtDepth k g gn nl cum (Fin d) th h (Some a) = Ok (h', Some (h_top h))
      /\ seg h' (Some a) ((a, v) :: T) None
      /\ seg h' (Some (h_top h)) ((h_top h, new) :: (a, v) :: T) None
      /\ f_num new = f_num g /\ ~ numbered (new :: v :: vals T).
Proof.
  intros fp a v T k g gn cum nl d th lay h HO S N B Hl HC Hd.
  destruct (insert_above a v T k g gn cum nl d th lay h HO S B Hl HC Hd) as (h' & E & S1 & S2).
  eexists h', _. split; [exact E|]. split; [exact S1|]. split; [exact S2|]. split; [reflexivity|].
  intro N'. pose proof (N 0%nat v eq_refl). pose proof (N' 1%nat v eq_refl). lia.
Qed.
