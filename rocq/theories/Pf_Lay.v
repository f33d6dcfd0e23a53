(** Lemmas: reading, writing, searching, deleting, inserting and copying in a heap that pictures two lists. *)

From Coq Require Import Reals ZArith List Bool Arith Lia.
From Verif Require Import Outcome Dbl Types ListOps HeapList Lib Spec_List Spec_Heap Pf_List Pf_Heap HeapFronts Spec_Refine.
Import ListNotations.

Lemma nth_lt : forall A (l : list A) i x, nth_error l i = Some x -> (i < length l)%nat.
Proof. intros A l i x H. apply nth_error_Some. rewrite H. discriminate. Qed.

(** ** lset *)
Lemma lset_length : forall A (l : list A) i x, length (lset l i x) = length l.
Proof. induction l; destruct i; simpl; intros; auto. Qed.
Lemma nth_lset_eq : forall A (l : list A) i x, (i < length l)%nat -> nth_error (lset l i x) i = Some x.
Proof. induction l; destruct i; simpl; intros; try lia; auto. apply IHl. lia. Qed.
Lemma nth_lset_ne : forall A (l : list A) i j x, i <> j -> nth_error (lset l i x) j = nth_error l j.
Proof. induction l; destruct i, j; simpl; intros; try lia; auto. Qed.
Lemma lset_twice : forall A (l : list A) i x y, lset (lset l i x) i y = lset l i y.
Proof. induction l; destruct i; simpl; intros; auto. f_equal. auto. Qed.
Lemma lset_swap : forall A (l : list A) i j x y, i <> j -> lset (lset l i x) j y = lset (lset l j y) i x.
Proof. induction l; destruct i, j; simpl; intros; try lia; auto. f_equal. apply IHl. lia. Qed.
Lemma lset_id : forall A (l : list A) i x, nth_error l i = Some x -> lset l i x = l.
Proof. induction l; destruct i; simpl; intros x H; try discriminate; auto. - injection H as <-. reflexivity. - f_equal. auto. Qed.

(** ** The picture with the addresses named *)
Definition lay (h : heap) (p po : ptr) (A B : list nat) (l lo : list front) : Prop :=
  exists L P, addrs L = A /\ addrs P = B /\ vals L = l /\ vals P = lo
    /\ heap_ok h /\ seg h p L None /\ seg h po P None /\ NoDup (A ++ B)
    /\ (forall a n, h_cell h a = Live n -> In a (A ++ B)).

Lemma lay_pictures : forall h p po l lo, pictures h p po l lo <-> exists A B, lay h p po A B l lo.
Proof.
  intros. split.
  - intros (L & P & K & S1 & S2 & N & V1 & V2 & F). exists (addrs L), (addrs P), L, P. repeat split; auto.
  - intros (A & B & L & P & <- & <- & V1 & V2 & K & S1 & S2 & N & F). exists L, P. repeat split; auto.
Qed.

Lemma addrs_lset : forall L i a v w, nth_error L i = Some (a, v) -> addrs (lset L i (a, w)) = addrs L.
Proof.
  induction L as [|[b x] L IH]; intros i a v w H; destruct i; simpl in *; try discriminate.
  - injection H as -> ->. reflexivity.
  - f_equal. eapply IH. exact H.
Qed.
Lemma vals_lset : forall L i a w, vals (lset L i (a, w)) = lset (vals L) i w.
Proof. induction L as [|[b x] L IH]; intros i a w; destruct i; simpl in *; auto. f_equal. apply IH. Qed.
Lemma seg_put : forall L h q i a v w, seg h q L None -> NoDup (addrs L) -> nth_error L i = Some (a, v) ->
  seg (h_put h a (Live (mkN w (nth_error (addrs L) (S i))))) q (lset L i (a, w)) None.
Proof.
  induction L as [|[b x] L IH]; intros h q i a v w S1 N H; [destruct i; discriminate H|].
  destruct S1 as [-> [nx [C S2]]]. cbn [addrs map fst] in N. inversion N as [|? ? N1 N2]; subst. destruct i as [|i].
  - cbn [nth_error] in H. injection H as -> ->. cbn [lset seg addrs map fst nth_error]. split; [reflexivity|].
    exists nx. split.
    + rewrite put_eq. pose proof (seg_head _ _ _ S2) as Q. rewrite Q. unfold ptr_at. destruct L; reflexivity.
    + eapply seg_frame; [|exact S2]. intros c Hc. apply put_neq. intros ->. contradiction.
  - cbn [nth_error] in H. cbn [lset seg addrs map fst]. split; [reflexivity|]. exists nx. split.
    + rewrite put_neq; [exact C|]. intros ->. apply N1. apply nth_error_In in H. apply (in_map fst) in H. exact H.
    + cbn [nth_error]. exact (IH h nx i a v w S2 N2 H).
Qed.

Section Lay.
Variables (h : heap) (p po : ptr) (A B : list nat) (l lo : list front).
Hypothesis Y : lay h p po A B l lo.

Lemma lay_len : length A = length l.
Proof. destruct Y as (L & P & <- & _ & <- & _). unfold addrs, vals. rewrite !map_length. reflexivity. Qed.
Lemma lay_len_old : length B = length lo.
Proof. destruct Y as (L & P & _ & <- & _ & <- & _). unfold addrs, vals. rewrite !map_length. reflexivity. Qed.

Lemma lay_room : (length l + length lo < room h)%nat.
Proof.
  destruct Y as (L & P & EA & EB & V1 & V2 & K & S1 & S2 & N & F).
  rewrite <- lay_len, <- lay_len_old. rewrite <- app_length. unfold room.
  assert (I : incl (A ++ B) (seq 0 (h_top h))).
  { intros a Ha. apply in_seq. apply in_app_or in Ha. split; [lia|]. simpl.
    destruct Ha as [Ha | Ha]; [rewrite <- EA in Ha; eapply seg_below with (L := L)|rewrite <- EB in Ha; eapply seg_below with (L := P)]; eassumption. }
  pose proof (NoDup_incl_length N I) as Q. rewrite seq_length in Q. lia.
Qed.

Lemma lay_head : p = nth_error A 0.
Proof. destruct Y as (L & P & <- & _ & _ & _ & _ & S1 & _). apply seg_head in S1. rewrite S1. unfold ptr_at, addrs. destruct L; reflexivity. Qed.
Lemma lay_head_old : po = nth_error B 0.
Proof. destruct Y as (L & P & _ & <- & _ & _ & _ & _ & S1 & _). apply seg_head in S1. rewrite S1. unfold ptr_at, addrs. destruct P; reflexivity. Qed.

Lemma seg_load : forall L q i, seg h q L None ->
  h_load h (nth_error (addrs L) i) = match nth_error (vals L) i with Some v => Ok (mkN v (nth_error (addrs L) (S i))) | None => Stop (UB NullDeref) end.
Proof.
  clear. induction L as [|[a v] L IH]; intros q i S1.
  - destruct i; reflexivity.
  - destruct S1 as [-> [nx [C S2]]]. destruct i as [|i].
    + cbn [addrs map nth_error vals snd fst]. rewrite (load_live _ _ _ C). apply seg_head in S2. rewrite S2. unfold ptr_at, addrs. destruct L; reflexivity.
    + cbn [addrs map nth_error vals]. exact (IH nx i S2).
Qed.

Lemma lay_load : forall i, h_load h (nth_error A i) = match nth_error l i with Some v => Ok (mkN v (nth_error A (S i))) | None => Stop (UB NullDeref) end.
Proof. intros i. destruct Y as (L & P & <- & _ & <- & _ & _ & S1 & _). exact (seg_load L p i S1). Qed.
Lemma lay_load_old : forall i, h_load h (nth_error B i) = match nth_error lo i with Some v => Ok (mkN v (nth_error B (S i))) | None => Stop (UB NullDeref) end.
Proof. intros i. destruct Y as (L & P & _ & <- & _ & <- & _ & _ & S1 & _). exact (seg_load P po i S1). Qed.

Lemma lay_get : forall i, h_get h (nth_error A i) = lget l i.
Proof. intros i. unfold h_get, lget. rewrite lay_load. destruct (nth_error l i); reflexivity. Qed.
Lemma lay_get_old : forall i, h_get h (nth_error B i) = lget lo i.
Proof. intros i. unfold h_get, lget. rewrite lay_load_old. destruct (nth_error lo i); reflexivity. Qed.
Lemma lay_next : forall i, h_next h (nth_error A i) = (_ <- lget l i ;; Ok (nth_error A (S i))).
Proof. intros i. unfold h_next, lget. rewrite lay_load. destruct (nth_error l i); reflexivity. Qed.
Lemma lay_next_old : forall i, h_next h (nth_error B i) = (_ <- lget lo i ;; Ok (nth_error B (S i))).
Proof. intros i. unfold h_next, lget. rewrite lay_load_old. destruct (nth_error lo i); reflexivity. Qed.

Lemma lay_null : forall i, is_null (nth_error A i) = match nth_error l i with Some _ => false | None => true end.
Proof.
  intros i. pose proof lay_len as E. destruct (nth_error A i) eqn:H1, (nth_error l i) eqn:H2; auto.
  - apply nth_error_None in H2. apply nth_lt in H1. lia.
  - apply nth_error_None in H1. apply nth_lt in H2. lia.
Qed.

Lemma lay_upd : forall g i v, nth_error l i = Some v ->
  exists h', h_upd g h (nth_error A i) = Ok h' /\ lay h' p po A B (lset l i (g v)) lo /\ h_top h' = h_top h.
Proof.
  intros g i v E. pose proof (lay_load i) as Q. rewrite E in Q.
  destruct Y as (L & P & EA & EB & V1 & V2 & K & S1 & S2 & N & F).
  destruct (nth_error A i) as [a|] eqn:Ha; [|discriminate Q].
  assert (C : h_cell h a = Live (mkN v (nth_error A (S i)))).
  { unfold h_load in Q. destruct (h_cell h a); try discriminate Q. injection Q as ->. reflexivity. }
  unfold h_upd. rewrite Q. cbn [bind n_val n_next]. rewrite (store_live _ _ _ _ C).
  exists (h_put h a (Live (mkN (g v) (nth_error A (S i))))). split; [reflexivity|]. split; [|reflexivity].
  assert (NL : nth_error L i = Some (a, v)).
  { clear - Ha E EA V1. subst. unfold addrs, vals in *. rewrite nth_error_map in Ha, E. destruct (nth_error L i) as [[x y]|]; [|discriminate].
    simpl in *. injection Ha as ->. injection E as ->. reflexivity. }
  exists (lset L i (a, g v)), P. repeat split; auto.
  - rewrite (addrs_lset L i a v (g v) NL). exact EA.
  - rewrite vals_lset. rewrite V1. reflexivity.
  - eapply put_ok; eassumption.
  - rewrite <- EA. eapply seg_put; try eassumption. rewrite EA. eapply NoDup_left; eassumption.
  - eapply seg_frame; [|exact S2]. intros b Hb. apply put_neq. intros ->. rewrite EB in Hb.
    apply nth_error_In in Ha. clear - N Ha Hb. revert Ha. induction A as [|x A0 IH]; intros Ha; [destruct Ha|].
    simpl in N. inversion N as [|? ? N1 N2]; subst. destruct Ha as [-> | Ha]; [apply N1, in_or_app; auto|auto].
  - intros b n Hb. destruct (Nat.eq_dec b a) as [-> | Ne].
    + eapply F. exact C.
    + rewrite put_neq in Hb by assumption. eapply F. exact Hb.
Qed.

End Lay.
