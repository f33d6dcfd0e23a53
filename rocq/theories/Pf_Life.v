(** Lemmas about the dynamic memory of a BmiLGAR object. *)

From Coq Require Import String Reals ZArith List Bool Arith Lia.
From RecordUpdate Require Import RecordSet.
From Verif Require Import Outcome Dbl Types ListOps HeapList Config Life Lib Spec_List Spec_Heap Spec_Config Spec_Life Pf_List Pf_Heap.
Import ListNotations.
Import RecordSetNotations.

(** ** Fuel: an operation that returns has walked the whole list *)
Lemma delete_fuel : forall L k h p h', seg h p L None -> NoDup (addrs L) -> h_listDelete k h p = Ok h' -> (length L < k)%nat.
Proof.
  induction L as [|[a v] L IH]; intros k h p h' S N E; destruct k as [|k]; try discriminate E; simpl in S; cbn [length]; [lia|].
  destruct S as [-> [nx [S1 S2]]]. cbn [h_listDelete] in E. rewrite (load_live _ _ _ S1) in E. cbn [bind] in E. unfold h_free in E. rewrite S1 in E.
  cbn [bind n_next] in E. inversion N as [|? ? N1 N2]; subst. apply IH in E; [lia| |assumption].
  eapply seg_frame; [|eassumption]. intros b Hb. apply put_neq. intros ->. contradiction.
Qed.

Lemma present_fuel : forall num L k h p b r, seg h p L None -> h_present k num h p b = Ok r -> (length L < k)%nat.
Proof.
  induction L as [|[a v] L IH]; intros k h p b r S E; destruct k as [|k]; try discriminate E; simpl in S; cbn [length]; [lia|].
  destruct S as [-> [nx [S1 S2]]]. cbn [h_present] in E. rewrite (load_live _ _ _ S1) in E. cbn [bind n_next] in E. apply (IH _ _ _ _ _ S2) in E. lia.
Qed.

Lemma renum_fuel : forall d L k h p h', seg h p L None -> NoDup (addrs L) -> h_renum k d h p = Ok h' -> (length L < k)%nat.
Proof.
  induction L as [|[a v] L IH]; intros k h p h' S N E; destruct k as [|k]; try discriminate E; simpl in S; cbn [length]; [lia|].
  destruct S as [-> [nx [S1 S2]]]. cbn [h_renum] in E. rewrite (load_live _ _ _ S1) in E. cbn [bind n_val n_next] in E.
  rewrite (store_live _ _ _ _ S1) in E. cbn [bind] in E. inversion N as [|? ? N1 N2]; subst. apply IH in E; [lia| |assumption].
  eapply seg_frame; [|eassumption]. intros b Hb. apply put_neq. intros ->. contradiction.
Qed.

Lemma copy_fuel : forall L k h p h' p', heap_ok h -> seg h p L None -> h_listCopy k h p = Ok (h', p') -> (length L < k)%nat.
Proof.
  induction L as [|[a v] L IH]; intros k h p h' p' K S E; destruct k as [|k]; try discriminate E; simpl in S; cbn [length]; [lia|].
  destruct S as [-> [nx [S1 S2]]]. cbn [h_listCopy] in E. rewrite (load_live _ _ _ S1) in E. cbn [bind n_val] in E.
  destruct (h_malloc h (mkN v None)) as [h1 wf] eqn:M. apply malloc_cell in M. destruct M as (-> & T1 & C1 & O1).
  assert (Na : a <> h_top h) by (intros ->; rewrite K in S1 by lia; discriminate).
  assert (S1' : h_cell h1 a = Live (mkN v nx)) by (rewrite O1 by assumption; assumption).
  rewrite (load_live _ _ _ S1') in E. cbn [bind n_next n_val] in E. bind_inv E x Ex. destruct x as [h2 rest].
  apply IH in Ex; [lia| |].
  - intros b Hb. rewrite T1 in Hb. rewrite O1 by lia. apply K. lia.
  - eapply seg_frame; [|exact S2]. intros b Hb. apply O1. intros ->. pose proof (seg_below _ _ _ _ _ K S2 Hb). lia.
Qed.

Lemma insert_fuel : forall L k gp gK d t num lay b h p h' p', heap_ok h -> seg h p L None -> NoDup (addrs L) ->
  h_listInsertFirst k gp gK d t num lay b h p = Ok (h', p') -> (length L < k)%nat.
Proof.
  intros L k gp gK d t num lay b h p h' p' K S N E. unfold h_listInsertFirst in E.
  destruct (h_malloc h _) as [h1 wf] eqn:M. apply malloc_cell in M. destruct M as (-> & T1 & C1 & O1).
  rewrite (load_live _ _ _ C1) in E. cbn [bind n_next] in E. bind_inv E h2 Eh. eapply renum_fuel; [|exact N|exact Eh].
  eapply seg_frame; [|exact S]. intros x Hx. apply O1. intros ->. pose proof (seg_below _ _ _ _ _ K S Hx). lia.
Qed.

(** ** Two disjoint chains *)
Lemma edit_ok : forall L i f h p, seg h p L None -> NoDup (addrs L) -> (i < length L)%nat ->
  exists a v n, nth_error L i = Some (a, v) /\ h_walk i h p = Ok (Some a) /\ h_cell h a = Live n /\
    seg (h_put h a (Live (mkN f (n_next n)))) p (firstn i L ++ (a, f) :: skipn (S i) L) None.
Proof.
  induction L as [|[a v] L IH]; intros i f h p S N I; [simpl in I; lia|]. simpl in S. destruct S as [-> [nx [S1 S2]]]. inversion N as [|? ? N1 N2]; subst.
  destruct i as [|i].
  - exists a, v, (mkN v nx). cbn [nth_error h_walk firstn skipn app n_next]. repeat split; auto. exists nx. split; [apply put_eq|].
    eapply seg_frame; [|exact S2]. intros b Hb. apply put_neq. intros ->. contradiction.
  - cbn [length] in I. destruct (IH i f h nx S2 N2) as (b & w & n & E1 & E2 & E3 & E4); [lia|]. exists b, w, n.
    cbn [nth_error h_walk firstn skipn app]. rewrite (load_live _ _ _ S1). cbn [bind n_next]. repeat split; auto.
    exists nx. split; [|exact E4]. rewrite put_neq; [assumption|]. intros ->. apply N1. change b with (fst (b, w)). apply in_map. eapply nth_error_In. exact E1.
Qed.

Lemma edit_end : forall L i h p, seg h p L None -> (length L <= i)%nat -> h_walk i h p = Ok None \/ h_walk i h p = Stop (UB NullDeref).
Proof.
  induction L as [|[a v] L IH]; intros i h p S I; simpl in S.
  - subst p. destruct i; [left; reflexivity|right; reflexivity].
  - destruct S as [-> [nx [S1 S2]]]. destruct i as [|i]; cbn [length] in I; [lia|]. cbn [h_walk]. rewrite (load_live _ _ _ S1). cbn [bind n_next].
    apply (IH i h nx S2). lia.
Qed.

Lemma addrs_edit : forall L i a v f, nth_error L i = Some (a, v) -> addrs (firstn i L ++ (a, f) :: skipn (S i) L) = addrs L.
Proof.
  induction L as [|[b w] L IH]; intros [|i] a v f E; try discriminate E; cbn [nth_error] in E.
  - injection E as -> ->. reflexivity.
  - cbn [firstn skipn app]. unfold addrs. cbn [map]. f_equal. apply (IH i a v f E).
Qed.
Lemma vals_edit : forall L i a f, vals (firstn i L ++ (a, f) :: skipn (S i) L) = firstn i (vals L) ++ f :: skipn (S i) (vals L).
Proof. intros. unfold vals. rewrite map_app. cbn [map snd]. rewrite firstn_map, skipn_map. reflexivity. Qed.

Lemma without_in : forall A (l : list A) i x, In x (without i l) -> In x l.
Proof.
  unfold without. induction l as [|y l IH]; intros [|i] x H; cbn [firstn skipn app] in H; try contradiction; [right; assumption|].
  destruct H as [H|H]; [left; assumption|right; eapply IH; exact H].
Qed.
Lemma in_without : forall A (l : list A) i j x, nth_error l j = Some x -> j <> i -> In x (without i l).
Proof.
  unfold without. induction l as [|y l IH]; intros [|i] [|j] x H N; cbn [nth_error firstn skipn app] in *; try discriminate; try congruence.
  - eapply nth_error_In. exact H.
  - injection H as ->. left. reflexivity.
  - right. apply (IH i j x H). congruence.
Qed.

(** The fields that the actions on the lists leave alone. *)
Definition same_blocks (o o' : life) : Prop := lf_ar o' = lf_ar o /\ lf_slot o' = lf_slot o.

Lemma use_tt : forall x o u, b_use x o = Ok u -> exists a, lf_slot o x = At a /\ ar_cell (lf_ar o) a = BLive.
Proof. intros x o u H. unfold b_use in H. destruct (lf_slot o x) as [| |a]; try discriminate. destruct (ar_cell (lf_ar o) a) eqn:E; try discriminate. eauto. Qed.

Lemma holds_action : forall k a o o' l p, holds o l p -> a <> ARealloc -> l_action k a o = Ok o' ->
  exists l' p', effect a l p l' p' /\ holds o' l' p' /\ same_blocks o o'.
Proof.
  intros k a o o' l p (L & P & K & [S N] & [SP NP] & Vl & Vp & D & A) Na E. unfold l_action in E. bind_inv E u Eu. clear u Eu.
  assert (BL : forall x, In x (addrs L) -> (x < h_top (lf_nodes o))%nat) by (intros; apply (seg_below _ _ _ _ _ K S); assumption).
  assert (BP : forall x, In x (addrs P) -> (x < h_top (lf_nodes o))%nat) by (intros; apply (seg_below _ _ _ _ _ K SP); assumption).
  destruct a as [i f|f|num| |]; [| | | |congruence].
  - (* edit *)
    bind_inv E q Eq'. bind_inv E n En. bind_inv E h Eh. apply Ok_inj in E. subst o'.
    destruct (Nat.lt_ge_cases i (length L)) as [I|I].
    2:{ destruct (edit_end _ _ _ _ S I) as [W|W]; rewrite W in Eq'; [|discriminate]. apply Ok_inj in Eq'. subst q. discriminate En. }
    destruct (edit_ok L i f _ _ S N I) as (b & v & m & E1 & E2 & E3 & E4). rewrite E2 in Eq'. apply Ok_inj in Eq'. subst q.
    rewrite (load_live _ _ _ E3) in En. apply Ok_inj in En. subst n. rewrite (store_live _ _ _ _ E3) in Eh. apply Ok_inj in Eh. subst h.
    pose proof (addrs_edit _ _ _ _ f E1) as AE.
    assert (Ib : In b (addrs L)). { change b with (fst (b, v)). apply in_map. eapply nth_error_In. exact E1. }
    exists (firstn i l ++ f :: skipn (Datatypes.S i) l), p. split; [subst l; cbn; rewrite vals_length; auto|]. split; [|split; reflexivity].
    exists (firstn i L ++ (b, f) :: skipn (Datatypes.S i) L), P. cbn [lf_nodes lf_head lf_prev set].
    split; [eapply put_ok; eassumption|]. split; [split; [exact E4|unfold addrs in AE; rewrite AE; exact N]|].
    split; [split; [|exact NP]; eapply seg_frame; [|exact SP]; intros x Hx; apply put_neq; intros ->; exact (D _ Ib Hx)|].
    split; [subst l; apply vals_edit|]. split; [assumption|]. split; [intros x Hx; rewrite AE in Hx; auto|].
    intros x n Hx. rewrite AE. destruct (Nat.eq_dec x b) as [->|Nx]; [auto|]. cbn [lf_nodes] in Hx. rewrite put_neq in Hx by assumption. eauto.
  - (* insert *)
    bind_inv E y Ey. destruct y as [h q]. apply Ok_inj in E. subst o'.
    pose proof (insert_fuel _ _ _ _ _ _ _ _ _ _ _ _ _ K S N Ey) as Hk.
    destruct (h_insertFirst_ok L k (f_psi f) (f_K f) (f_depth f) (f_theta f) (f_num f) (f_layer f) (f_bottom f) _ _ K S N Hk) as (h' & L' & E1 & K' & S' & AE & N' & VE & O).
    rewrite E1 in Ey. apply Ok_inj in Ey. apply pair_equal_spec in Ey. destruct Ey as [-> <-].
    eexists _, p. split; [split; reflexivity|]. split; [|split; reflexivity].
    exists L', P. cbn [lf_nodes lf_head lf_prev set]. split; [assumption|]. split; [split; assumption|].
    split; [split; [|exact NP]; eapply seg_frame; [|exact SP]; intros x Hx; apply O; intros [<-|Hi]; [pose proof (BP _ Hx); lia|exact (D _ Hi Hx)]|].
    split; [rewrite VE; subst l; reflexivity|]. split; [assumption|]. rewrite AE. split.
    + intros x [<-|Hx] Hp; [pose proof (BP _ Hp); lia|exact (D _ Hx Hp)].
    + intros x n Hx. destruct (Nat.eq_dec x (h_top (lf_nodes o))) as [->|Nx]; [left; left; reflexivity|].
      destruct (in_dec Nat.eq_dec x (addrs L)) as [Hi|Hi]; [left; right; assumption|].
      rewrite O in Hx by (intros [Q|Q]; [congruence|contradiction]). destruct (A _ _ Hx); auto. contradiction.
  - (* delete *)
    bind_inv E y Ey. destruct y as [[h q] r]. apply Ok_inj in E. subst o'.
    assert (Hk : (length L < k)%nat). { unfold h_listDeleteFront in Ey. bind_inv Ey z Ez. eapply present_fuel; eassumption. }
    destruct (pos_of num (vals L)) as [i|] eqn:Ep.
    2:{ rewrite (h_deleteFront_absent num L k _ _ S Hk) in Ey; [discriminate|]. apply pos_of_None. assumption. }
    destruct (h_deleteFront_ok num L k _ _ i K S N Hk Ep) as (h' & p' & L' & b & E1 & K' & S' & N' & Eb & AE & LE & Fb & O & Tp).
    rewrite E1 in Ey. apply Ok_inj in Ey. apply pair_equal_spec in Ey. destruct Ey as [Ey <-]. apply pair_equal_spec in Ey. destruct Ey as [-> ->].
    exists (vals L'), p. split.
    + split; [|reflexivity]. destruct (pos_of_Some _ _ _ Ep) as (g & G1 & G2 & G3). exists i, g. subst l. split; [assumption|]. split; [assumption|]. split; [assumption|].
      unfold listDeleteFront in LE. rewrite Ep in LE. apply Ok_inj in LE. apply pair_equal_spec in LE. destruct LE as [LE _]. symmetry. exact LE.
    + split; [|split; reflexivity]. exists L', P. cbn [lf_nodes lf_head lf_prev set]. split; [assumption|]. split; [split; assumption|].
      split; [split; [|exact NP]; eapply seg_frame; [|exact SP]; intros x Hx; apply O; intro Hi; exact (D _ Hi Hx)|].
      split; [reflexivity|]. split; [assumption|].
      assert (W : forall x, In x (addrs L') -> In x (addrs L)).
      { intros x Hx. rewrite AE in Hx. eapply without_in. exact Hx. }
      split; [intros x Hx; apply D; auto|]. intros x n Hx. destruct (in_dec Nat.eq_dec x (addrs L)) as [Hi|Hi].
      * left. rewrite AE. apply In_nth_error in Hi. destruct Hi as [j Hj]. destruct (Nat.eq_dec j i) as [->|Nj].
        { assert (x = b) by congruence. subst x. rewrite Fb in Hx. discriminate. }
        apply (in_without _ _ _ j); assumption.
      * rewrite O in Hx by assumption. destruct (A _ _ Hx); [contradiction|auto].
  - (* copy *)
    bind_inv E h Eh. bind_inv E y Ey. destruct y as [h2 q]. apply Ok_inj in E. subst o'.
    assert (X : h_top h = h_top (lf_nodes o) /\ (forall x, ~ In x (addrs P) -> h_cell h x = h_cell (lf_nodes o) x) /\ (forall x, In x (addrs P) -> h_cell h x = Freed)).
    { pose proof (seg_head _ _ _ SP) as HP. destruct P as [|[b w] P']; cbn in HP; rewrite HP in Eh.
      - apply Ok_inj in Eh. subst h. repeat split; auto. intros x [].
      - rewrite <- HP in Eh. pose proof (delete_fuel _ _ _ _ _ SP NP Eh) as Hk. destruct (h_listDelete_ok _ _ _ _ SP NP Hk) as (h' & E1 & T1 & O1 & F1).
        rewrite E1 in Eh. apply Ok_inj in Eh. subst h'. auto. }
    destruct X as (T1 & O1 & F1).
    assert (K1 : heap_ok h). { intros x Hx. rewrite T1 in Hx. rewrite O1; [apply K; assumption|]. intro Hp. pose proof (BP _ Hp). lia. }
    assert (S1 : seg h (lf_head o) L None). { eapply seg_frame; [|exact S]. intros x Hx. apply O1. auto. }
    pose proof (copy_fuel _ _ _ _ _ _ K1 S1 Ey) as Hk.
    destruct (h_listCopy_ok L k h _ K1 S1 Hk) as (h' & p' & L' & E1 & K' & S' & N' & VE & AE & O2 & T2).
    rewrite E1 in Ey. apply Ok_inj in Ey. apply pair_equal_spec in Ey. destruct Ey as [-> ->].
    exists l, l. split; [split; reflexivity|]. split; [|split; reflexivity]. exists L, L'. cbn [lf_nodes lf_head lf_prev set].
    split; [assumption|]. split; [split; [|exact N]; eapply seg_frame; [|exact S1]; intros x Hx; apply O2; rewrite T1; auto|].
    split; [split; assumption|]. split; [assumption|]. split; [congruence|]. split.
    + intros x Hx Hp. apply AE in Hp. pose proof (BL _ Hx). lia.
    + intros x n Hx. destruct (Nat.lt_ge_cases x (h_top h)) as [Lt|Ge].
      * rewrite O2 in Hx by assumption. destruct (in_dec Nat.eq_dec x (addrs P)) as [Hp|Hp]; [rewrite F1 in Hx by assumption; discriminate|].
        rewrite O1 in Hx by assumption. destruct (A _ _ Hx); [auto|contradiction].
      * right. apply AE. split; [assumption|]. eapply live_below; eassumption.
Qed.

(** ** Blocks *)
Record tidy (o : life) : Prop := mkTidy {
  td_live : forall x a, lf_slot o x = At a -> ar_cell (lf_ar o) a = BLive /\ (a < ar_top (lf_ar o))%nat;
  td_inj : forall x y a, lf_slot o x = At a -> lf_slot o y = At a -> x = y;
  td_top : forall a, (ar_top (lf_ar o) <= a)%nat -> ar_cell (lf_ar o) a = BUnalloc
}.

Definition held (o : life) (x : slot) : Prop := exists a, lf_slot o x = At a.

Lemma slot_beq_refl : forall x, slot_beq x x = true.
Proof. destruct x; reflexivity. Qed.
Lemma slot_beq_spec : forall x y, reflect (x = y) (slot_beq x y).
Proof. intros x y. destruct (slot_beq x y) eqn:E; constructor; [apply internal_slot_dec_bl; assumption|intros ->; rewrite slot_beq_refl in E; discriminate]. Qed.

Lemma new_tidy : forall x o, tidy o -> tidy (b_new x o).
Proof.
  intros x o [T1 T2 T3]. unfold b_new. split; cbn [lf_slot lf_ar set ar_cell ar_top].
  - intros y a H. unfold set_slot in H. destruct (slot_beq_spec y x) as [->|N].
    + injection H as <-. rewrite Nat.eqb_refl. split; [reflexivity|lia].
    + apply T1 in H. destruct H as [H1 H2]. destruct (Nat.eqb_spec a (ar_top (lf_ar o))); [lia|]. split; [assumption|lia].
  - intros y z a H1 H2. unfold set_slot in *. destruct (slot_beq_spec y x) as [->|N1], (slot_beq_spec z x) as [->|N2]; auto.
    + injection H1 as <-. apply T1 in H2. lia.
    + injection H2 as <-. apply T1 in H1. lia.
    + eapply T2; eassumption.
  - intros a H. destruct (Nat.eqb_spec a (ar_top (lf_ar o))); [lia|]. apply T3. lia.
Qed.
Lemma new_held : forall x o, held (b_new x o) x.
Proof. intros x o. exists (ar_top (lf_ar o)). unfold b_new. cbn. unfold set_slot. rewrite slot_beq_refl. reflexivity. Qed.
Lemma new_keeps : forall x y o, held o y -> held (b_new x o) y.
Proof. intros x y o [a H]. unfold held, b_new. cbn. unfold set_slot. destruct (slot_beq y x); eauto. Qed.
Lemma new_lists : forall x o, lf_nodes (b_new x o) = lf_nodes o /\ lf_head (b_new x o) = lf_head o /\ lf_prev (b_new x o) = lf_prev o.
Proof. repeat split. Qed.

Lemma live_ext : forall (f g : nat -> bool) (l : list nat), (forall a, In a l -> f a = g a) -> length (filter f l) = length (filter g l).
Proof.
  induction l as [|a l IH]; intro H; [reflexivity|]. cbn. rewrite (H a) by (left; reflexivity). destruct (g a); cbn; [f_equal|]; apply IH; intros; apply H; right; assumption.
Qed.
Lemma live_drop : forall (f g : nat -> bool) a (l : list nat), NoDup l -> In a l -> f a = true -> g a = false -> (forall b, b <> a -> g b = f b) -> length (filter f l) = S (length (filter g l)).
Proof.
  induction l as [|b l IH]; intros N I Fa Ga E; [contradiction|]. inversion N as [|? ? N1 N2]; subst. destruct (Nat.eq_dec b a) as [->|Nb].
  - cbn. rewrite Fa, Ga. cbn. f_equal. apply live_ext. intros c Hc. symmetry. apply E. intros ->. contradiction.
  - destruct I as [I|I]; [congruence|]. cbn. rewrite (E b Nb). destruct (f b); cbn; rewrite (IH N2 I Fa Ga E); reflexivity.
Qed.
Lemma new_count : forall x o, live_blocks (b_new x o) = S (live_blocks o).
Proof.
  intros x o. unfold live_blocks, b_new. cbn [lf_ar set ar_top ar_cell]. rewrite seq_S, filter_app, app_length. cbn [filter plus].
  rewrite Nat.eqb_refl. cbn [is_live length]. rewrite Nat.add_1_r. f_equal. apply live_ext. intros a Ha. apply in_seq in Ha.
  destruct (Nat.eqb_spec a (ar_top (lf_ar o))); [lia|reflexivity].
Qed.

(** Deleting held pointers, each once. *)
Record loose (o : life) (gone : list slot) : Prop := mkLoose {
  ls_live : forall x a, ~ In x gone -> lf_slot o x = At a -> ar_cell (lf_ar o) a = BLive;
  ls_gone : forall x a, In x gone -> lf_slot o x = At a -> ar_cell (lf_ar o) a = BFreed;
  ls_below : forall x a, lf_slot o x = At a -> (a < ar_top (lf_ar o))%nat;
  ls_inj : forall x y a, lf_slot o x = At a -> lf_slot o y = At a -> x = y;
  ls_top : forall a, (ar_top (lf_ar o) <= a)%nat -> ar_cell (lf_ar o) a = BUnalloc
}.
Lemma tidy_loose : forall o, tidy o -> loose o [].
Proof. intros o [T1 T2 T3]. split; auto; try (intros; eapply T1; eassumption). intros x a []. Qed.

Lemma delete_one : forall x o gone, loose o gone -> held o x -> ~ In x gone ->
  exists o', b_delete x o = Ok o' /\ loose o' (x :: gone) /\ lf_slot o' = lf_slot o /\ S (live_blocks o') = live_blocks o /\
    lf_nodes o' = lf_nodes o /\ lf_head o' = lf_head o /\ lf_prev o' = lf_prev o.
Proof.
  intros x o gone [L1 L2 L3 L4 L5] [a Ha] N. unfold b_delete. rewrite Ha, (L1 _ _ N Ha). eexists. split; [reflexivity|].
  assert (Lv : ar_cell (lf_ar o) a = BLive) by eauto. assert (B : (a < ar_top (lf_ar o))%nat) by eauto.
  split; [|repeat split].
  - split; cbn [lf_slot lf_ar set ar_cell ar_top].
    + intros y b Hy Hb. destruct (Nat.eqb_spec b a) as [->|Nb]; [exfalso; apply Hy; left; eapply L4; eassumption|]. apply (L1 y); [intro; apply Hy; right; assumption|assumption].
    + intros y b Hy Hb. destruct (Nat.eqb_spec b a) as [->|Nb]; [reflexivity|]. destruct Hy as [->|Hy]; [congruence|]. eapply L2; eassumption.
    + assumption.
    + assumption.
    + intros b Hb. destruct (Nat.eqb_spec b a); [lia|]. apply L5. assumption.
  - unfold live_blocks. cbn [lf_ar set ar_top ar_cell]. symmetry. apply (live_drop _ _ a).
    + apply seq_NoDup.
    + apply in_seq. lia.
    + rewrite Lv. reflexivity.
    + rewrite Nat.eqb_refl. reflexivity.
    + intros b Nb. destruct (Nat.eqb_spec b a); [contradiction|reflexivity].
Qed.

Lemma delete_many : forall xs o gone, loose o gone -> (forall x, In x xs -> held o x /\ ~ In x gone) -> NoDup xs ->
  exists o', b_deletes xs o = Ok o' /\ loose o' (rev xs ++ gone) /\ lf_slot o' = lf_slot o /\ (length xs + live_blocks o')%nat = live_blocks o /\
    lf_nodes o' = lf_nodes o /\ lf_head o' = lf_head o /\ lf_prev o' = lf_prev o.
Proof.
  induction xs as [|x xs IH]; intros o gone L H N.
  - exists o. repeat split; auto; apply L.
  - inversion N as [|? ? N1 N2]; subst. destruct (H x) as [Hx Hg]; [left; reflexivity|].
    destruct (delete_one x o gone L Hx Hg) as (o1 & E1 & L1 & S1 & C1 & D1 & D2 & D3). destruct (IH o1 (x :: gone) L1) as (o2 & E2 & L2 & S2 & C2 & F1 & F2 & F3).
    + intros y Hy. destruct (H y) as [Hy1 Hy2]; [right; assumption|]. split; [unfold held in *; rewrite S1; assumption|]. intros [->|Hz]; [contradiction|contradiction].
    + assumption.
    + exists o2. cbn [b_deletes]. rewrite E1. cbn [bind rev length]. rewrite <- app_assoc. cbn [app]. split; [assumption|]. split; [assumption|]. split; [congruence|].
      split; [lia|]. repeat split; congruence.
Qed.
