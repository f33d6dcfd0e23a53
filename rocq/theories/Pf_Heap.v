(** Proofs about the pointer level of the list routines. *)

From Coq Require Import Reals Lra ZArith List Bool Lia Arith.
From Verif Require Import Outcome Dbl Types ListOps HeapList Lib Spec_List Spec_Heap Pf_List.
Import ListNotations.

Lemma load_live : forall h a n, h_cell h a = Live n -> h_load h (Some a) = Ok n.
Proof. intros h a n H. unfold h_load. rewrite H. reflexivity. Qed.

Lemma store_live : forall h a n m, h_cell h a = Live n -> h_store h (Some a) m = Ok (h_put h a (Live m)).
Proof. intros. unfold h_store. rewrite (load_live _ _ _ H). reflexivity. Qed.

Lemma put_eq : forall h a c, h_cell (h_put h a c) a = c.
Proof. intros. simpl. rewrite Nat.eqb_refl. reflexivity. Qed.

Lemma put_neq : forall h a c b, b <> a -> h_cell (h_put h a c) b = h_cell h b.
Proof. intros. simpl. destruct (Nat.eqb_spec b a); [contradiction|reflexivity]. Qed.

Lemma put_ok : forall h a c n, heap_ok h -> h_cell h a = Live n -> heap_ok (h_put h a c).
Proof.
  intros h a c n H E b Hb. simpl in Hb. rewrite put_neq; [apply H; assumption|].
  intros ->. rewrite (H a Hb) in E. discriminate.
Qed.

Lemma live_below : forall h a n, heap_ok h -> h_cell h a = Live n -> (a < h_top h)%nat.
Proof. intros h a n H E. destruct (Nat.lt_ge_cases a (h_top h)); [assumption|]. rewrite (H a H0) in E. discriminate. Qed.

Lemma seg_frame : forall h h' L p q, (forall a, In a (addrs L) -> h_cell h' a = h_cell h a) -> seg h p L q -> seg h' p L q.
Proof.
  induction L as [|[a v] L IH]; intros p q F S; simpl in *; [assumption|].
  destruct S as [E [nx [S1 S2]]]. split; [assumption|]. exists nx. split.
  - rewrite F by auto. assumption.
  - apply IH; auto.
Qed.

Lemma seg_app : forall h L1 L2 p q, seg h p (L1 ++ L2) q <-> exists r, seg h p L1 r /\ seg h r L2 q.
Proof.
  induction L1 as [|[a v] L1 IH]; intros L2 p q; simpl.
  - split; [intro H; exists p; auto|intros [r [-> H]]; assumption].
  - split.
    + intros [E [nx [H1 H2]]]. apply IH in H2. destruct H2 as [r [H2 H3]].
      exists r. split; [|assumption]. split; [assumption|]. exists nx. auto.
    + intros [r [[E [nx [H1 H2]]] H3]]. split; [assumption|]. exists nx. split; [assumption|].
      apply IH. exists r. auto.
Qed.

Lemma seg_head : forall h L p, seg h p L None -> p = ptr_at L 0.
Proof. intros h [|[a v] L] p H; simpl in H; [assumption|]. destruct H as [-> _]. reflexivity. Qed.

Lemma seg_live : forall h L p q a v, seg h p L q -> In (a, v) L -> exists nx, h_cell h a = Live (mkN v nx).
Proof.
  induction L as [|[b w] L IH]; intros p q a v S I; simpl in *; [contradiction|].
  destruct S as [E [nx [S1 S2]]]. destruct I as [I|I].
  - injection I as -> ->. exists nx. assumption.
  - eapply IH; eassumption.
Qed.

Lemma seg_live_addr : forall h L p q a, seg h p L q -> In a (addrs L) -> exists n, h_cell h a = Live n.
Proof.
  intros h L p q a S I. unfold addrs in I. apply in_map_iff in I. destruct I as [[b v] [<- I]].
  destruct (seg_live _ _ _ _ _ _ S I) as [nx E]. eauto.
Qed.

Lemma vals_length : forall L, length (vals L) = length L.
Proof. intro. apply map_length. Qed.

Lemma same_outside_refl : forall A h, same_outside A h h.
Proof. intros A h a _. reflexivity. Qed.

(** ** listLength *)
Lemma h_listLength_ok : forall L k h p n, seg h p L None -> (length L < k)%nat ->
  h_listLength k h p n = Ok (n + Z.of_nat (length L))%Z.
Proof.
  induction L as [|[a v] L IH]; intros k h p n S Hk; destruct k as [|k]; simpl in Hk; try lia; simpl in S.
  - subst p. simpl. f_equal. lia.
  - destruct S as [-> [nx [S1 S2]]]. cbn [h_listLength]. rewrite (load_live _ _ _ S1). cbn [bind n_next].
    rewrite (IH k h nx) by (auto; lia). f_equal. simpl length. lia.
Qed.

(** ** listDelete *)
Lemma h_listDelete_ok : forall L k h p, seg h p L None -> NoDup (addrs L) -> (length L < k)%nat ->
  exists h', h_listDelete k h p = Ok h' /\ h_top h' = h_top h /\ same_outside (addrs L) h h'
    /\ (forall a, In a (addrs L) -> h_cell h' a = Freed).
Proof.
  induction L as [|[a v] L IH]; intros k h p S N Hk; destruct k as [|k]; simpl in Hk; try lia; simpl in S.
  - subst p. exists h. repeat split; auto. intros a [].
  - destruct S as [-> [nx [S1 S2]]]. cbn [h_listDelete].
    rewrite (load_live _ _ _ S1). cbn [bind]. unfold h_free. rewrite S1. cbn [bind n_next].
    inversion N as [|? ? N1 N2]; subst.
    destruct (IH k (h_put h a Freed) nx) as (h' & E & T & O & F).
    + eapply seg_frame; [|eassumption]. intros b Hb. apply put_neq. intros ->. contradiction.
    + assumption.
    + lia.
    + exists h'. rewrite E. split; [reflexivity|]. split; [rewrite T; reflexivity|]. split.
      * intros b Hb. rewrite O by (intro; apply Hb; right; assumption). apply put_neq. intros ->. apply Hb. left. reflexivity.
      * intros b [<-|Hb]; [|auto]. simpl. rewrite O by assumption. apply put_eq.
Qed.

(** ** listCopy *)
Lemma malloc_cell : forall h n h1 p, h_malloc h n = (h1, p) ->
  p = Some (h_top h) /\ h_top h1 = S (h_top h) /\ h_cell h1 (h_top h) = Live n /\
  (forall a, a <> h_top h -> h_cell h1 a = h_cell h a).
Proof.
  intros h n h1 p H. unfold h_malloc in H. injection H as <- <-. repeat split; simpl.
  - rewrite Nat.eqb_refl. reflexivity.
  - intros a Ha. destruct (Nat.eqb_spec a (h_top h)); [contradiction|reflexivity].
Qed.

Lemma h_listCopy_ok : forall L k h p, heap_ok h -> seg h p L None -> (length L < k)%nat ->
  exists h' p' L', h_listCopy k h p = Ok (h', p') /\ heap_ok h'
    /\ seg h' p' L' None /\ NoDup (addrs L') /\ vals L' = vals L
    /\ (forall a, In a (addrs L') <-> (h_top h <= a < h_top h')%nat)
    /\ (forall a, (a < h_top h)%nat -> h_cell h' a = h_cell h a)
    /\ h_top h' = (h_top h + length L)%nat.
Proof.
  induction L as [|[a v] L IH]; intros k h p K S Hk; destruct k as [|k]; simpl in Hk; try lia; simpl in S.
  - subst p. exists h, None, []. simpl. repeat split; auto; try constructor; try lia; try tauto.
  - destruct S as [-> [nx [S1 S2]]]. cbn [h_listCopy].
    rewrite (load_live _ _ _ S1). cbn [bind n_val n_next].
    destruct (h_malloc h (mkN v None)) as [h1 wf] eqn:M. apply malloc_cell in M. destruct M as (-> & T1 & C1 & O1).
    assert (La : (a < h_top h)%nat) by (eapply live_below; eassumption).
    assert (S1' : h_cell h1 a = Live (mkN v nx)) by (rewrite O1; [assumption|lia]).
    rewrite (load_live _ _ _ S1'). cbn [bind n_val n_next].
    assert (K1 : heap_ok h1). { intros b Hb. rewrite O1 by lia. apply K. lia. }
    destruct (IH k h1 nx) as (h' & p' & L' & E & K' & Sg & N & V & A & O & T); [assumption| |lia|].
    { eapply seg_frame; [|eassumption]. intros b Hb. apply O1.
      destruct (seg_live_addr _ _ _ _ _ S2 Hb) as [n En]. apply live_below in En; [lia|assumption]. }
    rewrite E. cbn [bind].
    assert (C2 : h_cell h' (h_top h) = Live (mkN v None)). { rewrite O by lia. assumption. }
    rewrite (store_live _ _ _ _ C2). cbn [bind].
    assert (Hnew : ~ In (h_top h) (addrs L')). { rewrite A. lia. }
    exists (h_put h' (h_top h) (Live (mkN v p'))), (Some (h_top h)), ((h_top h, v) :: L').
    split; [reflexivity|]. split; [eapply put_ok; eassumption|]. split; [|split; [|split; [|split; [|split]]]].
    + split; [reflexivity|]. exists p'. split; [apply put_eq|].
      eapply seg_frame; [|eassumption]. intros b Hb. apply put_neq. intros ->. contradiction.
    + constructor; assumption.
    + simpl. f_equal. assumption.
    + intro b. unfold addrs in *. cbn [map fst In h_top h_put]. rewrite A. lia.
    + intros b Hb. rewrite put_neq by lia. rewrite O by lia. apply O1. lia.
    + cbn [h_top h_put length]. lia.
Qed.

(** ** Renumbering loops *)
Definition renum (d : Z) (L : list (nat * front)) : list (nat * front) :=
  map (fun '(a, v) => (a, set_num v (f_num v + d)%Z)) L.

Lemma addrs_renum : forall d L, addrs (renum d L) = addrs L.
Proof. intros. unfold addrs, renum. rewrite map_map. apply map_ext. intros []; reflexivity. Qed.
Lemma vals_renum : forall d L, vals (renum d L) = bump d (vals L).
Proof. intros. unfold vals, renum, bump. rewrite !map_map. apply map_ext. intros []; reflexivity. Qed.

Lemma h_renum_ok : forall d L k h p, seg h p L None -> NoDup (addrs L) -> (length L < k)%nat ->
  exists h', h_renum k d h p = Ok h' /\ h_top h' = h_top h /\ seg h' p (renum d L) None /\ same_outside (addrs L) h h'.
Proof.
  induction L as [|[a v] L IH]; intros k h p S N Hk; destruct k as [|k]; simpl in Hk; try lia; simpl in S.
  - subst p. exists h. repeat split; auto.
  - destruct S as [-> [nx [S1 S2]]]. cbn [h_renum].
    rewrite (load_live _ _ _ S1). cbn [bind n_val n_next].
    rewrite (store_live _ _ _ _ S1). cbn [bind].
    inversion N as [|? ? N1 N2]; subst.
    set (h1 := h_put h a _).
    destruct (IH k h1 nx) as (h' & E & T & Sg & O).
    + eapply seg_frame; [|eassumption]. intros b Hb. apply put_neq. intros ->. contradiction.
    + assumption.
    + lia.
    + exists h'. rewrite E. split; [reflexivity|]. split; [rewrite T; reflexivity|]. split.
      * cbn [renum map seg]. split; [reflexivity|]. exists nx. split; [|assumption].
        rewrite O by assumption. apply put_eq.
      * intros b Hb. rewrite O by (intro; apply Hb; right; assumption). apply put_neq. intros ->. apply Hb. left. reflexivity.
Qed.

Lemma same_outside_ok : forall A h h', heap_ok h -> h_top h' = h_top h -> (forall a, In a A -> (a < h_top h)%nat) ->
  same_outside A h h' -> heap_ok h'.
Proof.
  intros A h h' K T B O a Ha. rewrite T in Ha. rewrite O; [apply K; assumption|].
  intro I. apply B in I. lia.
Qed.

Lemma seg_below : forall h L p q a, heap_ok h -> seg h p L q -> In a (addrs L) -> (a < h_top h)%nat.
Proof. intros h L p q a K S I. destruct (seg_live_addr _ _ _ _ _ S I) as [n E]. eapply live_below; eassumption. Qed.

(** ** listInsertFirst *)
Lemma h_insertFirst_ok : forall L k gp gK d t num lay b h p,
  heap_ok h -> seg h p L None -> NoDup (addrs L) -> (length L < k)%nat ->
  exists h' L', h_listInsertFirst k gp gK d t num lay b h p = Ok (h', Some (h_top h)) /\ heap_ok h'
    /\ seg h' (Some (h_top h)) L' None /\ addrs L' = h_top h :: addrs L /\ NoDup (addrs L')
    /\ vals L' = listInsertFirst gp gK d t num lay b (vals L)
    /\ same_outside (h_top h :: addrs L) h h'.
Proof.
  intros L k gp gK d t num lay b h p K S N Hk. unfold h_listInsertFirst.
  set (v := mkF d t gp gK lay num b (Fin 0)).
  destruct (h_malloc h (mkN v p)) as [h1 link] eqn:M. apply malloc_cell in M. destruct M as (-> & T1 & C1 & O1).
  rewrite (load_live _ _ _ C1). cbn [bind n_next].
  assert (B : forall a, In a (addrs L) -> (a < h_top h)%nat) by (intros; eapply seg_below; eassumption).
  destruct (h_renum_ok 1 L k h1 p) as (h' & E & T & Sg & O); auto.
  { eapply seg_frame; [|eassumption]. intros a Ha. apply O1. specialize (B a Ha). lia. }
  rewrite E. cbn [bind]. exists h', ((h_top h, v) :: renum 1 L).
  assert (Nt : ~ In (h_top h) (addrs L)) by (intro I; apply B in I; lia).
  split; [reflexivity|]. split; [|split; [|split; [|split; [|split]]]].
  - intros a Ha. rewrite T, T1 in Ha. rewrite O by (intro I; apply B in I; lia). rewrite O1 by lia. apply K. lia.
  - split; [reflexivity|]. exists p. split; [|assumption]. rewrite O by assumption. assumption.
  - change (addrs ((h_top h, v) :: renum 1 L)) with (h_top h :: addrs (renum 1 L)). rewrite addrs_renum. reflexivity.
  - change (addrs ((h_top h, v) :: renum 1 L)) with (h_top h :: addrs (renum 1 L)). rewrite addrs_renum. constructor; assumption.
  - change (vals ((h_top h, v) :: renum 1 L)) with (v :: vals (renum 1 L)). rewrite vals_renum. reflexivity.
  - intros a Ha. rewrite O by (intro; apply Ha; right; assumption). apply O1. intros ->. apply Ha. left. reflexivity.
Qed.

(** ** listFindFront *)
Lemma h_find_ok : forall key L k h p, L <> [] -> seg h p L None -> (length L < k)%nat ->
  h_find k key h p = Ok (match pos_of key (vals L) with Some i => ptr_at L i | None => None end).
Proof.
  induction L as [|[a v] L IH]; intros k h p NE S Hk; [contradiction|].
  destruct k as [|k]; simpl in Hk; [lia|]. simpl in S. destruct S as [-> [nx [S1 S2]]]. cbn [h_find].
  rewrite (load_live _ _ _ S1). cbn [bind n_val n_next].
  change (vals ((a, v) :: L)) with (v :: vals L). cbn [pos_of].
  destruct (f_num v =? key)%Z; [reflexivity|].
  destruct L as [|[b w] L].
  - simpl in S2. subst nx. reflexivity.
  - pose proof S2 as S3. simpl in S3. destruct S3 as [-> _].
    rewrite (IH k h (Some b)); [|discriminate|assumption|simpl in *; lia].
    destruct (pos_of key (vals ((b, w) :: L))); reflexivity.
Qed.

Lemma h_findFront_ok : forall key L Lo k h p po, seg h p L None -> seg h po Lo None -> (length L < k)%nat -> (length Lo < k)%nat ->
  h_listFindFront k key h p po =
    Ok (match L with
        | [] => None
        | _ => let T := match Lo with [] => L | _ => Lo end in
               match pos_of key (vals T) with Some i => ptr_at T i | None => None end
        end).
Proof.
  intros key L Lo k h p po S So Hk Hko. unfold h_listFindFront.
  destruct L as [|[a v] L].
  - simpl in S. subst p. reflexivity.
  - pose proof S as S'. simpl in S'. destruct S' as [-> _].
    destruct Lo as [|[b w] Lo].
    + simpl in So. subst po. apply h_find_ok; [discriminate|assumption|assumption].
    + pose proof So as So'. simpl in So'. destruct So' as [-> _].
      apply h_find_ok; [discriminate|assumption|assumption].
Qed.

(** ** listDeleteFront *)
Lemma h_present_ok : forall num L k h p found, seg h p L None -> (length L < k)%nat ->
  h_present k num h p found = Ok (found || match pos_of num (vals L) with Some _ => true | None => false end)%bool.
Proof.
  induction L as [|[a v] L IH]; intros k h p found S Hk; destruct k as [|k]; simpl in Hk; try lia; simpl in S.
  - subst p. cbn. rewrite orb_false_r. reflexivity.
  - destruct S as [-> [nx [S1 S2]]]. cbn [h_present].
    rewrite (load_live _ _ _ S1). cbn [bind n_val n_next]. rewrite (IH k h nx) by (auto; lia).
    change (vals ((a, v) :: L)) with (v :: vals L). cbn [pos_of].
    destruct (f_num v =? num)%Z.
    + rewrite orb_true_r. reflexivity.
    + destruct (pos_of num (vals L)); reflexivity.
Qed.

(** Navigation stops at the first match, at address [a]; the nodes before it are [L1]. *)
Lemma h_navigate_ok : forall num L1 a v L2 k h p prev,
  seg h p (L1 ++ (a, v) :: L2) None -> f_num v = num -> (forall g, In g (vals L1) -> f_num g <> num) ->
  (length L1 < k)%nat ->
  h_navigate k num h p prev = Ok (Some (Some a, match rev L1 with (b, _) :: _ => Some b | [] => prev end)).
Proof.
  induction L1 as [|[b w] L1 IH]; intros a v L2 k h p prev S Hv Hn Hk; destruct k as [|k]; simpl in Hk; try lia.
  - simpl in S. destruct S as [-> [nx [S1 S2]]]. cbn [h_navigate rev].
    rewrite (load_live _ _ _ S1). cbn [bind n_val]. rewrite Hv, Z.eqb_refl. reflexivity.
  - simpl in S. destruct S as [-> [nx [S1 S2]]]. cbn [h_navigate].
    rewrite (load_live _ _ _ S1). cbn [bind n_val n_next].
    destruct (Z.eqb_spec (f_num w) num) as [E|E]; [exfalso; apply (Hn w); [left; reflexivity|assumption]|].
    assert (exists x, nx = Some x) as [x Ex].
    { destruct L1 as [|[c u] L1]; simpl in S2; destruct S2 as [-> _]; eauto. }
    rewrite Ex at 1.
    rewrite (IH a v L2 k h nx (Some b) S2 Hv); [|intros g Hg; apply Hn; right; assumption|lia].
    cbn [rev]. destruct (rev L1) as [|[c u] r]; reflexivity.
Qed.

Lemma pos_of_split : forall num L i, pos_of num (vals L) = Some i ->
  exists L1 a v L2, L = L1 ++ (a, v) :: L2 /\ length L1 = i /\ f_num v = num /\ (forall g, In g (vals L1) -> f_num g <> num).
Proof.
  induction L as [|[a v] L IH]; intros i H; [discriminate|].
  change (vals ((a, v) :: L)) with (v :: vals L) in H. cbn [pos_of] in H.
  destruct (Z.eqb_spec (f_num v) num).
  - injection H as <-. exists [], a, v, L. repeat split; auto.
  - destruct (pos_of num (vals L)) eqn:E; [|discriminate]. injection H as <-.
    destruct (IH _ eq_refl) as (L1 & b & w & L2 & -> & H1 & H2 & H3).
    exists ((a, v) :: L1), b, w, L2. repeat split; simpl; auto. intros g [<-|Hg]; auto.
Qed.

Lemma rev_last : forall A (l : list A) x, rev (l ++ [x]) = x :: rev l.
Proof. intros. rewrite rev_app_distr. reflexivity. Qed.

Lemma NoDup_left : forall A (l r : list A), NoDup (l ++ r) -> NoDup l.
Proof.
  induction l as [|x l IH]; intros r H; [constructor|]. simpl in H. inversion H; subst. constructor.
  - intro I. apply H2. apply in_or_app. auto.
  - eapply IH; eassumption.
Qed.
Lemma NoDup_right : forall A (l r : list A), NoDup (l ++ r) -> NoDup r.
Proof. induction l as [|x l IH]; intros r H; [assumption|]. simpl in H. inversion H; subst. auto. Qed.

Lemma NoDup_mid : forall (L1 : list nat) a L2, NoDup (L1 ++ a :: L2) -> NoDup (L1 ++ L2) /\ ~ In a (L1 ++ L2).
Proof. intros L1 a L2 H. split; [eapply NoDup_remove_1; eassumption|eapply NoDup_remove_2; eassumption]. Qed.

Lemma h_deleteFront_ok : forall num L k h p i,
  heap_ok h -> seg h p L None -> NoDup (addrs L) -> (length L < k)%nat -> pos_of num (vals L) = Some i ->
  exists h' p' L' a,
    h_listDeleteFront k num h p = Ok (h', p', ptr_at L' i)
    /\ heap_ok h' /\ seg h' p' L' None /\ NoDup (addrs L')
    /\ nth_error (addrs L) i = Some a /\ addrs L' = without i (addrs L)
    /\ listDeleteFront num (vals L) = Ok (vals L', if (i <? length (vals L'))%nat then Some i else None)
    /\ h_cell h' a = Freed /\ same_outside (addrs L) h h' /\ h_top h' = h_top h.
Proof.
  intros num L k h p i K S N Hk E.
  destruct (pos_of_split _ _ _ E) as (L1 & a & v & L2 & -> & HL1 & Hv & Hn).
  unfold h_listDeleteFront.
  rewrite (h_present_ok num _ k h p false S Hk), E. cbn [orb negb bind].
  assert (B : forall x, In x (addrs (L1 ++ (a, v) :: L2)) -> (x < h_top h)%nat) by (intros; eapply seg_below; eassumption).
  assert (AE : addrs (L1 ++ (a, v) :: L2) = addrs L1 ++ a :: addrs L2) by (unfold addrs; rewrite map_app; reflexivity).
  rewrite AE in N. destruct (NoDup_mid _ _ _ N) as [N1 N2].
  assert (exists x, p = Some x) as [x Ex].
  { destruct L1 as [|[c u] L1]; simpl in S; destruct S as [-> _]; eauto. }
  subst p.
  rewrite (h_navigate_ok num L1 a v L2 k h (Some x) None S Hv Hn) by (rewrite app_length in Hk; lia). cbn [bind].
  apply seg_app in S. destruct S as [r [S1 S2]]. simpl in S2. destruct S2 as [-> [nx [S2 S3]]].
  rewrite (load_live _ _ _ S2). cbn [bind n_next].
  (* unlink: heap h1 in which L1 ++ L2 is linked *)
  assert (U : exists h1 p1,
    (if Nat.eqb a x
     then @Ok (heap * ptr * ptr) (h, nx, nx)
     else pn <- h_load h (match rev L1 with (b, _) :: _ => Some b | [] => None end) ;;
          h1 <- h_store h (match rev L1 with (b, _) :: _ => Some b | [] => None end) (mkN (n_val pn) nx) ;;
          Ok (h1, (Some x : ptr), nx)) = Ok (h1, p1, nx)
    /\ h_top h1 = h_top h /\ seg h1 p1 L1 nx /\ seg h1 nx L2 None /\ h_cell h1 a = Live (mkN v nx)
    /\ same_outside (addrs L1) h h1).
  { destruct (rev L1) as [|[b w] R] eqn:ER.
    - assert (L1 = []) by (rewrite <- (rev_involutive L1), ER; reflexivity). subst L1. simpl in S1.
      injection S1 as ->. rewrite Nat.eqb_refl.
      exists h, nx. repeat split; auto.
    - assert (EL : L1 = rev R ++ [(b, w)]) by (rewrite <- (rev_involutive L1), ER; reflexivity).
      assert (NA : ~ In a (addrs L1)) by (intro I; apply N2; apply in_or_app; auto).
      assert (Hx : Nat.eqb a x = false).
      { destruct L1 as [|[c u] L1']; [destruct R; discriminate|]. simpl in S1. destruct S1 as [E1 _].
        injection E1 as ->. apply Nat.eqb_neq. intros ->. apply NA. left. reflexivity. }
      rewrite Hx. rewrite EL in S1. apply seg_app in S1. destruct S1 as [r1 [S4 S5]]. simpl in S5.
      destruct S5 as [-> [nb [S5 S6]]]. subst nb.
      rewrite (load_live _ _ _ S5). cbn [bind n_val]. rewrite (store_live _ _ _ _ S5). cbn [bind].
      exists (h_put h b (Live (mkN w nx))), (Some x).
      assert (Nb : In b (addrs L1)). { rewrite EL. unfold addrs. rewrite map_app. apply in_or_app. right. left. reflexivity. }
      assert (NL1 : NoDup (addrs L1)). { apply NoDup_left in N1. assumption. }
      split; [reflexivity|]. split; [reflexivity|]. split; [|split; [|split]].
      + rewrite EL. apply seg_app. exists (Some b). split.
        * eapply seg_frame; [|eassumption]. intros y Hy. apply put_neq. intros ->.
          rewrite EL in NL1. unfold addrs in NL1. rewrite map_app in NL1. apply NoDup_remove_2 in NL1.
          apply NL1. rewrite app_nil_r. assumption.
        * simpl. split; [reflexivity|]. exists nx. rewrite Nat.eqb_refl. auto.
      + eapply seg_frame; [|eassumption]. intros y Hy. apply put_neq. intros ->.
        assert (D : forall (A B : list nat) z, NoDup (A ++ B) -> In z A -> In z B -> False).
        { clear. induction A as [|q A IH]; intros B z H I1 I2; [contradiction|]. inversion H; subst.
          destruct I1 as [->|I1]; [apply H2; apply in_or_app; auto|]. eapply IH; eassumption. }
        eapply D; eassumption.
      + rewrite put_neq; [assumption|]. intros ->. contradiction.
      + intros y Hy. apply put_neq. intros ->. contradiction. }
  destruct U as (h1 & p1 & U1 & U2 & U3 & U4 & U5 & U6).
  rewrite U1. cbn [bind].
  unfold h_free. rewrite U5. cbn [bind].
  set (h2 := h_put h1 a Freed).
  assert (Na1 : ~ In a (addrs L1)) by (intro I; apply N2; apply in_or_app; auto).
  assert (Na2 : ~ In a (addrs L2)) by (intro I; apply N2; apply in_or_app; auto).
  destruct (h_renum_ok (-1) L2 k h2 nx) as (h3 & R1 & R2 & R3 & R4).
  { eapply seg_frame; [|eassumption]. intros y Hy. apply put_neq. intros ->. contradiction. }
  { apply NoDup_right in N1. assumption. }
  { rewrite app_length in Hk. simpl in Hk. lia. }
  rewrite R1. cbn [bind].
  assert (D : forall z, In z (addrs L1) -> ~ In z (addrs L2)).
  { clear - N1. intros z I1 I2. revert N1 I1. induction (addrs L1) as [|q A IH]; intros H I1; [contradiction|]. inversion H; subst.
    destruct I1 as [->|I1]; [apply H2; apply in_or_app; auto|]. apply IH; assumption. }
  assert (O : same_outside (addrs (L1 ++ (a, v) :: L2)) h h3).
  { rewrite AE. intros y Hy. rewrite R4 by (intro; apply Hy; apply in_or_app; right; right; assumption).
    unfold h2. rewrite put_neq by (intros ->; apply Hy; apply in_or_app; right; left; reflexivity).
    apply U6. intro; apply Hy; apply in_or_app; auto. }
  exists h3, p1, (L1 ++ renum (-1) L2), a.
  assert (AL : addrs (L1 ++ renum (-1) L2) = addrs L1 ++ addrs L2).
  { unfold addrs at 1. rewrite map_app. fold (addrs L1). fold (addrs (renum (-1) L2)). rewrite addrs_renum. reflexivity. }
  assert (PX : nx = ptr_at (L1 ++ renum (-1) L2) i).
  { apply seg_head in R3. rewrite R3. unfold ptr_at. rewrite nth_error_app2 by lia. rewrite HL1, Nat.sub_diag. reflexivity. }
  rewrite <- PX.
  split; [reflexivity|]. split; [|split; [|split; [|split; [|split; [|split; [|split; [|split]]]]]]].
  - eapply same_outside_ok; [eassumption| |exact B|assumption]. rewrite R2. unfold h2. simpl. assumption.
  - apply seg_app. exists nx. split; [|assumption].
    eapply seg_frame; [|exact U3]. intros y Hy. rewrite R4 by (apply D; assumption). unfold h2. apply put_neq. intros ->. contradiction.
  - rewrite AL. assumption.
  - assert (LA : length (addrs L1) = i) by (unfold addrs; rewrite map_length; assumption).
    rewrite AE. rewrite nth_error_app2 by lia. rewrite LA, Nat.sub_diag. reflexivity.
  - rewrite AL, AE. unfold without.
    assert (LA : length (addrs L1) = i) by (unfold addrs; rewrite map_length; assumption).
    rewrite firstn_app, firstn_all2 by lia. rewrite LA, Nat.sub_diag. simpl. rewrite app_nil_r. f_equal.
    rewrite <- LA. clear. induction (addrs L1); simpl; auto.
  - unfold listDeleteFront. rewrite E.
    assert (VE : vals (L1 ++ renum (-1) L2) = firstn i (vals (L1 ++ (a, v) :: L2)) ++ bump (-1) (skipn (S i) (vals (L1 ++ (a, v) :: L2)))).
    { assert (LV : length (vals L1) = i) by (unfold vals; rewrite map_length; assumption).
      unfold vals at 1. rewrite map_app. fold (vals L1). fold (vals (renum (-1) L2)). rewrite vals_renum.
      unfold vals at 3 4. rewrite map_app. fold (vals L1). cbn [map snd]. fold (vals L2).
      rewrite firstn_app, firstn_all2 by lia. rewrite LV, Nat.sub_diag. cbn [firstn]. rewrite app_nil_r. f_equal. f_equal.
      rewrite <- LV. clear. induction (vals L1); simpl; auto. }
    rewrite <- VE. reflexivity.
  - rewrite R4 by assumption. unfold h2. apply put_eq.
  - assumption.
  - rewrite R2. unfold h2. simpl. assumption.
Qed.

Lemma h_deleteFront_absent : forall num L k h p,
  seg h p L None -> (length L < k)%nat -> (forall f, In f (vals L) -> f_num f <> num) ->
  h_listDeleteFront k num h p = Stop Abort.
Proof.
  intros num L k h p S Hk H. unfold h_listDeleteFront. rewrite (h_present_ok num _ k h p false S Hk).
  apply pos_of_None in H. rewrite H. reflexivity.
Qed.

(** ** listReverseOrder *)
Lemma h_reverse_ok : forall L k h prev p P, seg h p L None -> seg h prev P None -> NoDup (addrs L ++ addrs P) -> (length L < k)%nat ->
  exists h' p', h_reverse k h prev p = Ok (h', p') /\ h_top h' = h_top h /\ seg h' p' (rev L ++ P) None
    /\ same_outside (addrs L) h h'.
Proof.
  induction L as [|[a v] L IH]; intros k h prev p P S SP N Hk; destruct k as [|k]; simpl in Hk; try lia; simpl in S.
  - subst p. exists h, prev. repeat split; auto.
  - destruct S as [-> [nx [S1 S2]]]. cbn [h_reverse].
    rewrite (load_live _ _ _ S1). cbn [bind n_val n_next]. rewrite (store_live _ _ _ _ S1). cbn [bind].
    inversion N as [|? ? N1 N2]; subst.
    assert (Na1 : ~ In a (addrs L)) by (intro; apply N1; apply in_or_app; auto).
    assert (Na2 : ~ In a (addrs P)) by (intro; apply N1; apply in_or_app; auto).
    set (h1 := h_put h a _).
    destruct (IH k h1 (Some a) nx ((a, v) :: P)) as (h' & p' & E & T & Sg & O).
    + eapply seg_frame; [|eassumption]. intros b Hb. apply put_neq. intros ->. contradiction.
    + simpl. split; [reflexivity|]. exists prev. split; [rewrite Nat.eqb_refl; reflexivity|].
      eapply seg_frame; [|eassumption]. intros b Hb. apply put_neq. intros ->. contradiction.
    + simpl. apply NoDup_Add with (a := a) (l := addrs L ++ addrs P); [apply Add_app|]. auto.
    + lia.
    + exists h', p'. rewrite E. split; [reflexivity|]. split; [rewrite T; reflexivity|]. split.
      * simpl. rewrite <- app_assoc. assumption.
      * intros b Hb. rewrite O by (intro; apply Hb; right; assumption). apply put_neq. intros ->. apply Hb. left. reflexivity.
Qed.

(** ** listInsertFront *)
Lemma h_insert_renum_last : forall k h a n, h_cell h a = Live n -> n_next n = None -> h_insert_renum (S k) h (Some a) = Ok h.
Proof. intros k h a n E Hn. cbn [h_insert_renum]. rewrite (load_live _ _ _ E). cbn [bind]. rewrite Hn. reflexivity. Qed.

(** The renumbering loop never ends when the new node has a successor. *)
Lemma h_insert_renum_diverges : forall k h a b n m,
  h_cell h a = Live n -> n_next n = Some b -> h_cell h b = Live m -> a <> b ->
  h_insert_renum k h (Some a) = Stop OutOfFuel.
Proof.
  induction k as [|k IH]; intros h a b n m Ea En Eb Hab; [reflexivity|].
  cbn [h_insert_renum]. rewrite (load_live _ _ _ Ea). cbn [bind]. rewrite En. rewrite (load_live _ _ _ Eb). cbn [bind].
  rewrite (store_live _ _ _ _ Eb). cbn [bind].
  eapply IH; [|eassumption|apply put_eq|assumption]. rewrite put_neq by assumption. assumption.
Qed.

Lemma h_insert_search_split : forall L1 a v L2 k new h p,
  seg h p (L1 ++ (a, v) :: L2) None -> f_num v = (f_num new - 1)%Z -> (forall g, In g (vals L1) -> f_num g <> (f_num new - 1)%Z) ->
  (length L1 < k)%nat ->
  h_insert_search k new h p =
    (let '(h1, link) := h_malloc h (mkN new (ptr_at L2 0)) in
     h2 <- h_store h1 (Some a) (mkN v link) ;;
     h3 <- h_insert_renum (k - length L1 - 1) h2 link ;;
     Ok (h3, link)).
Proof.
  induction L1 as [|[b w] L1 IH]; intros a v L2 k new h p S Hv Hn Hk; destruct k as [|k]; simpl in Hk; try lia.
  - simpl in S. destruct S as [-> [nx [S1 S2]]]. cbn [h_insert_search].
    rewrite (load_live _ _ _ S1). cbn [bind n_val n_next]. rewrite Hv, Z.eqb_refl.
    apply seg_head in S2. subst nx. replace (S k - length (@nil (nat * front)) - 1)%nat with k by (simpl; lia). reflexivity.
  - simpl in S. destruct S as [-> [nx [S1 S2]]]. cbn [h_insert_search].
    rewrite (load_live _ _ _ S1). cbn [bind n_val n_next].
    destruct (Z.eqb_spec (f_num w) (f_num new - 1)) as [E|E]; [exfalso; apply (Hn w); [left; reflexivity|assumption]|].
    rewrite (IH a v L2 k new h nx S2 Hv); [|intros g Hg; apply Hn; right; assumption|lia].
    replace (S k - length ((b, w) :: L1) - 1)%nat with (k - length L1 - 1)%nat by (simpl; lia). reflexivity.
Qed.

Lemma h_insert_search_missing : forall L k new h p,
  seg h p L None -> (forall g, In g (vals L) -> f_num g <> (f_num new - 1)%Z) -> (length L < k)%nat ->
  h_insert_search k new h p = Stop (UB NullDeref).
Proof.
  induction L as [|[a v] L IH]; intros k new h p S Hn Hk; destruct k as [|k]; simpl in Hk; try lia; simpl in S.
  - subst p. reflexivity.
  - destruct S as [-> [nx [S1 S2]]]. cbn [h_insert_search]. rewrite (load_live _ _ _ S1). cbn [bind n_val n_next].
    destruct (Z.eqb_spec (f_num v) (f_num new - 1)) as [E|E]; [exfalso; apply (Hn v); [left; reflexivity|assumption]|].
    apply IH; [assumption|intros g Hg; apply Hn; right; assumption|lia].
Qed.

(** For chains numbered 1..n: the result of inserting with number [m]. *)
Lemma h_insertFront_append : forall L k gp gK d t lay b h p,
  heap_ok h -> seg h p L None -> NoDup (addrs L) -> numbered (vals L) -> (S (length L) < k)%nat ->
  exists h' p' L', h_listInsertFront k gp gK d t (Z.of_nat (S (length L))) lay b h p = Ok (h', p', Some (h_top h))
    /\ heap_ok h' /\ seg h' p' L' None /\ addrs L' = addrs L ++ [h_top h] /\ NoDup (addrs L')
    /\ vals L' = vals L ++ [mkF d t gp gK lay (Z.of_nat (S (length L))) b (Fin 0)]
    /\ (forall a, a <> h_top h -> ~ In a (addrs L) -> h_cell h' a = h_cell h a).
Proof.
  intros L k gp gK d t lay b h p K S N NU Hk. unfold h_listInsertFront.
  set (v0 := mkF d t gp gK lay (Z.of_nat (Datatypes.S (length L))) b (Fin 0)).
  assert (B : forall x, In x (addrs L) -> (x < h_top h)%nat) by (intros; eapply seg_below; eassumption).
  assert (Nt : ~ In (h_top h) (addrs L)) by (intro I; apply B in I; lia).
  destruct L as [|[a0 w0] L0] eqn:EL.
  - simpl in S. subst p. simpl (Z.of_nat (Datatypes.S (length []))) in *. cbn [Z.eqb Pos.eqb].
    destruct (h_malloc h (mkN v0 None)) as [h1 link] eqn:M. apply malloc_cell in M. destruct M as (-> & T1 & C1 & O1).
    exists h1, (Some (h_top h)), [(h_top h, v0)]. repeat split; auto.
    + intros x Hx. rewrite O1 by lia. apply K. lia.
    + exists None. split; [exact C1|reflexivity].
    + constructor; [intros []|constructor].
  - rewrite <- EL in *.
    assert (Lv : f_num v0 = Z.of_nat (Datatypes.S (length L))) by (unfold v0; cbn [f_num]; rewrite EL; reflexivity).
    destruct (exists_last (l := L)) as [L1 [[a v] EL2]]; [rewrite EL; discriminate|].
    assert (Ex : exists x, p = Some x). { rewrite EL in S. simpl in S. destruct S as [-> _]. eauto. }
    destruct Ex as [x Ex]. subst p.
    assert (HV : f_num v = Z.of_nat (length L)).
    { rewrite EL2 in NU. unfold vals in NU. rewrite map_app in NU. specialize (NU (length L1) v).
      rewrite nth_error_app2 in NU by (rewrite map_length; lia). rewrite map_length, Nat.sub_diag in NU.
      rewrite NU by reflexivity. rewrite EL2, app_length. simpl. f_equal. lia. }
    assert (S' := S). rewrite EL2 in S'.
    erewrite (h_insert_search_split L1 a v [] k v0 h (Some x) S').
    + change (ptr_at [] 0) with (@None nat).
      destruct (h_malloc h (mkN v0 None)) as [h1 link] eqn:M. apply malloc_cell in M. destruct M as (-> & T1 & C1 & O1).
      apply seg_app in S'. destruct S' as [r [S1 S2]]. simpl in S2. destruct S2 as [-> [nx [S2 ->]]].
      assert (La : (a < h_top h)%nat) by (eapply live_below; eassumption).
      assert (S2' : h_cell h1 a = Live (mkN v None)) by (rewrite O1; [assumption|lia]).
      rewrite (store_live _ _ _ _ S2'). cbn [bind].
      assert (C2 : h_cell (h_put h1 a (Live (mkN v (Some (h_top h))))) (h_top h) = Live (mkN v0 None)) by (rewrite put_neq by lia; assumption).
      assert (Hk2 : exists k', (k - length L1 - 1)%nat = Datatypes.S k').
      { exists (k - length L1 - 2)%nat. rewrite EL2, app_length in Hk. simpl in Hk. lia. }
      destruct Hk2 as [k' ->]. rewrite (h_insert_renum_last _ _ _ _ C2 eq_refl). cbn [bind].
      assert (Na : ~ In a (addrs L1)).
      { rewrite EL2 in N. unfold addrs in N. rewrite map_app in N. apply NoDup_remove_2 in N. rewrite app_nil_r in N. assumption. }
      set (h2 := h_put h1 a _) in *.
      assert (K2 : heap_ok h2). { eapply put_ok; [|eassumption]. intros y Hy. rewrite O1 by lia. apply K. lia. }
      exists h2, (Some x), (L ++ [(h_top h, v0)]). split; [reflexivity|]. split; [assumption|]. split; [|split; [|split; [|split]]].
      * rewrite EL2, <- app_assoc. apply seg_app. exists (Some a). split.
        -- eapply seg_frame; [|eassumption]. intros y Hy. unfold h2. rewrite put_neq by (intros ->; contradiction). apply O1.
           intros ->. apply Nt. rewrite EL2. unfold addrs. rewrite map_app. apply in_or_app. left. assumption.
        -- simpl. split; [reflexivity|]. exists (Some (h_top h)). rewrite Nat.eqb_refl. split; [reflexivity|]. split; [reflexivity|].
           exists None. split; [|reflexivity]. exact C2.
      * unfold addrs. rewrite map_app. reflexivity.
      * unfold addrs. rewrite map_app. simpl. apply NoDup_Add with (a := h_top h) (l := addrs L); [|auto].
        rewrite <- (app_nil_r (addrs L)) at 1. apply Add_app.
      * unfold vals. rewrite map_app. reflexivity.
      * intros y Hy Ny. unfold h2. rewrite put_neq; [apply O1; assumption|].
        intros ->. apply Ny. rewrite EL2. unfold addrs. rewrite map_app. apply in_or_app. right. left. reflexivity.
    + rewrite HV, Lv. lia.
    + intros g Hg. rewrite Lv. apply In_nth_error in Hg. destruct Hg as [j Hj].
      assert (A : nth_error (vals L) j = Some g).
      { rewrite EL2. unfold vals. rewrite map_app. rewrite nth_error_app1; [assumption|].
        apply nth_error_Some. intro Q. unfold vals in Hj. rewrite Q in Hj. discriminate. }
      rewrite (NU _ _ A). assert (j < length L1)%nat.
      { assert (j < length (vals L1))%nat by (apply nth_error_Some; congruence). rewrite vals_length in H. assumption. }
      rewrite EL2, app_length. cbn [length]. lia.
    + rewrite EL2, app_length in Hk. lia.
Qed.

Lemma h_insertFront_interior : forall L k gp gK d t m lay b h p,
  heap_ok h -> seg h p L None -> NoDup (addrs L) -> numbered (vals L) -> (2 <= m <= Z.of_nat (length L))%Z ->
  h_listInsertFront k gp gK d t m lay b h p = Stop OutOfFuel.
Proof.
  intros L k gp gK d t m lay b h p K S N NU Hm. unfold h_listInsertFront.
  set (v0 := mkF d t gp gK lay m b (Fin 0)).
  set (i := Z.to_nat (m - 2)).
  destruct (nth_error L i) as [[a v]|] eqn:Ei; [|apply nth_error_None in Ei; lia].
  destruct (nth_error_split _ _ Ei) as (L1 & L2 & EL & HL1).
  assert (HV : f_num v = (m - 1)%Z).
  { rewrite (NU i v). - lia. - unfold vals. rewrite nth_error_map, Ei. reflexivity. }
  destruct L2 as [|[a2 v2] L2]; [rewrite EL, app_length in Hm; simpl in Hm; lia|].
  assert (exists x, p = Some x) as [x Ex]. { rewrite EL in S. destruct L1 as [|[c u] L1]; simpl in S; destruct S as [-> _]; eauto. }
  rewrite Ex at 1.
  assert (Q : h_insert_search k v0 h p = Stop OutOfFuel); [|rewrite Q; reflexivity].
  assert (Hn : forall g, In g (vals L1) -> f_num g <> (f_num v0 - 1)%Z).
  { intros g Hg. unfold v0. cbn [f_num]. apply In_nth_error in Hg. destruct Hg as [j Hj].
    assert (Hjl : (j < length L1)%nat).
    { assert (j < length (vals L1))%nat by (apply nth_error_Some; congruence). rewrite vals_length in H. assumption. }
    assert (A : nth_error (vals L) j = Some g).
    { rewrite EL. unfold vals. rewrite map_app. rewrite nth_error_app1; [assumption|]. rewrite map_length. assumption. }
    rewrite (NU _ _ A). lia. }
  rewrite EL in S.
  destruct (Nat.le_gt_cases k (length L1)) as [Hk|Hk].
  - (* the search itself runs out of steps *)
    clear - S Hk Hn. revert k h p S Hk. induction L1 as [|[b1 w] L1 IH]; intros k h p S Hk.
    + simpl in Hk. assert (k = 0)%nat by lia. subst k. reflexivity.
    + destruct k as [|k]; [reflexivity|]. simpl in S. destruct S as [-> [nx [S1 S2]]].
      cbn [h_insert_search]. rewrite (load_live _ _ _ S1). cbn [bind n_val n_next].
      destruct (Z.eqb_spec (f_num w) (f_num v0 - 1)) as [E|E]; [exfalso; apply (Hn w); [left; reflexivity|assumption]|].
      apply IH; [intros g Hg; apply Hn; right; assumption|assumption|simpl in Hk; lia].
  - rewrite (h_insert_search_split L1 a v ((a2, v2) :: L2) k v0 h p S); [|unfold v0; cbn [f_num]; lia|assumption|lia].
    change (ptr_at ((a2, v2) :: L2) 0) with (Some a2).
    destruct (h_malloc h (mkN v0 (Some a2))) as [h1 link] eqn:M. apply malloc_cell in M. destruct M as (-> & T1 & C1 & O1).
    apply seg_app in S. destruct S as [r [S1 S2]]. simpl in S2. destruct S2 as [-> [nx [S2 [-> [nx2 [S3 S4]]]]]].
    assert (La : (a < h_top h)%nat) by (eapply live_below; eassumption).
    assert (La2 : (a2 < h_top h)%nat) by (eapply live_below; eassumption).
    assert (S2' : h_cell h1 a = Live (mkN v (Some a2))) by (rewrite O1; [assumption|lia]).
    rewrite (store_live _ _ _ _ S2'). cbn [bind].
    assert (Haa : a2 <> a).
    { rewrite EL in N. unfold addrs in N. rewrite map_app in N. apply NoDup_right in N. simpl in N. inversion N; subst.
      intros ->. apply H1. left. reflexivity. }
    erewrite (h_insert_renum_diverges _ _ (h_top h) a2).
    + reflexivity.
    + rewrite put_neq by lia. exact C1.
    + reflexivity.
    + rewrite put_neq by assumption. rewrite O1 by lia. exact S3.
    + lia.
Qed.

Lemma h_insertFront_missing : forall L k gp gK d t m lay b h p,
  L <> [] -> seg h p L None -> (forall f, In f (vals L) -> f_num f <> (m - 1)%Z) -> (length L < k)%nat ->
  h_listInsertFront k gp gK d t m lay b h p = Stop (UB NullDeref).
Proof.
  intros L k gp gK d t m lay b h p NE S Hn Hk. unfold h_listInsertFront.
  assert (exists x, p = Some x) as [x Ex]. { destruct L as [|[c u] L]; [contradiction|]. simpl in S. destruct S as [-> _]; eauto. }
  rewrite Ex at 1. erewrite h_insert_search_missing; [reflexivity|eassumption|assumption|assumption].
Qed.

(** ** Two lists deleted one after the other, then again *)
Lemma h_delete_twice : forall L k h p h', seg h p L None -> NoDup (addrs L) -> L <> [] -> (length L < k)%nat ->
  h_listDelete k h p = Ok h' -> forall k', h_listDelete (S k') h' p = Stop (UB UseAfterFree).
Proof.
  intros L k h p h' S N NE Hk E k'.
  destruct (h_listDelete_ok L k h p S N Hk) as (h'' & E' & _ & _ & F).
  rewrite E in E'. injection E' as <-.
  destruct L as [|[a v] L]; [contradiction|]. simpl in S. destruct S as [-> _].
  cbn [h_listDelete]. unfold h_load. rewrite F by (left; reflexivity). reflexivity.
Qed.

(** [same_outside] composed. *)
Lemma same_outside_trans : forall A B h1 h2 h3, same_outside A h1 h2 -> same_outside B h2 h3 -> same_outside (A ++ B) h1 h3.
Proof.
  intros A B h1 h2 h3 H1 H2 a Ha. rewrite H2 by (intro; apply Ha; apply in_or_app; auto).
  apply H1. intro; apply Ha; apply in_or_app; auto.
Qed.

Lemma h_reverse_whole : forall L k h p, seg h p L None -> NoDup (addrs L) -> (length L < k)%nat ->
    exists h' p', h_listReverseOrder k h p = Ok (h', p') /\ h_top h' = h_top h /\ seg h' p' (rev L) None
      /\ same_outside (addrs L) h h'.
Proof.
  intros L k h p S N Hk. destruct (h_reverse_ok L k h None p [] S eq_refl) as (h' & p' & E & T & Sg & O); auto.
  - rewrite app_nil_r. assumption.
  - rewrite app_nil_r in Sg. exists h', p'. auto.
Qed.
