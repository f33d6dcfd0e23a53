(** The allocators. *)

From Coq Require Import ZArith List Bool Lia.
From Verif Require Import Outcome Lib Alloc Spec_Alloc.
Import ListNotations.
Open Scope Z_scope.

Definition zb (n elem : Z) : block := mkBlk (size_t n elem) elem (fun i => if (i + 1) * elem <=? size_t n elem then Zeros else Junk).

Section Alloc.
Variable grants : nat -> Z -> bool.

Lemma size_small : forall n elem, element elem -> 0 <= n <= 2147483648 -> size_t n elem = n * elem.
Proof. intros n elem [->| ->] H; unfold size_t; apply Z.mod_small; lia. Qed.
Lemma lset_last : forall A (l : list A) x y, lset (l ++ [x]) (length l) y = l ++ [y].
Proof. intros A l x y. induction l as [|a l IH]; [reflexivity|]. cbn. rewrite IH. reflexivity. Qed.
Lemma lset_app_l : forall A (l r : list A) i y, (i < length l)%nat -> lset (l ++ r) i y = lset l i y ++ r.
Proof. intros A l. induction l as [|a l IH]; intros r [|i] y H; cbn in *; try lia; [reflexivity|]. rewrite IH by lia. reflexivity. Qed.
Lemma nth_last : forall A (l : list A) x, nth_error (l ++ [x]) (length l) = Some x.
Proof. intros A l x. rewrite nth_error_app2, Nat.sub_diag by lia. reflexivity. Qed.

(** A block that is granted and cleared. *)
Lemma fresh_clear : forall n elem bl c, memset0 (Some (length bl)) n elem (mkMem (bl ++ [mkBlk (size_t n elem) elem (fun _ => Junk)]) c) = Ok (mkMem (bl ++ [zb n elem]) c).
Proof. intros n elem bl c. unfold memset0, block_at. cbn [me_blocks]. rewrite nth_last. cbn [bind bk_bytes bk_elem bk_cell me_calls]. rewrite Z.leb_refl, lset_last. reflexivity. Qed.

Lemma zb_array : forall n elem a m, element elem -> 0 <= n <= 2147483647 -> nth_error (me_blocks m) a = Some (zb (n + 1) elem) -> zero_array a n m.
Proof.
  intros n elem a m He Hn E. assert (S1 : size_t (n + 1) elem = (n + 1) * elem) by (apply size_small; [assumption|lia]).
  split; intros i Hi; unfold load, block_at, inside; rewrite E; cbn [bind zb bk_bytes bk_elem bk_cell]; rewrite S1.
  - assert (Q : (i + 1) * elem <=? (n + 1) * elem = true) by (apply Z.leb_le; destruct He; subst; lia). rewrite Q. replace (0 <=? i) with true by (symmetry; apply Z.leb_le; lia). reflexivity.
  - destruct (0 <=? i) eqn:Q0; [|reflexivity]. apply Z.leb_le in Q0. replace ((i + 1) * elem <=? (n + 1) * elem) with false by (symmetry; apply Z.leb_gt; destruct He; subst; lia). reflexivity.
Qed.

Theorem vec_ok : forall elem n m, element elem -> 0 <= n <= 2147483646 -> exists m' p, vec_alloc grants elem n m = Ok (m', p) /\ extends m m' /\
  ((grants (me_calls m) ((n + 1) * elem) = false /\ p = None /\ me_blocks m' = me_blocks m) \/
   (grants (me_calls m) ((n + 1) * elem) = true /\ exists a, p = Some a /\ new a m /\ zero_array a n m')).
Proof.
  intros elem n m He Hn. unfold vec_alloc, malloc. cbv zeta. rewrite (size_small (n + 1) elem He) by lia. destruct (grants (me_calls m) ((n + 1) * elem)) eqn:G.
  - rewrite <- (size_small (n + 1) elem He) by lia. rewrite fresh_clear. cbn [bind]. do 2 eexists. split; [reflexivity|]. split.
    + intros a b H. cbn [me_blocks]. rewrite nth_error_app1; [assumption|]. apply nth_error_Some. congruence.
    + right. split; [reflexivity|]. exists (length (me_blocks m)). split; [reflexivity|]. split; [apply nth_error_None; lia|]. apply (zb_array n elem); [assumption|lia|]. cbn [me_blocks]. apply nth_last.
  - do 2 eexists. split; [reflexivity|]. split; [intros a b H; exact H|]. left. repeat split.
Qed.

(** The rows. *)
Definition granted (c : nat) (b : Z) (i j last : Z) : Prop := (forall t, i <= t < j -> grants (c + Z.to_nat (t - i)) b = true) /\ (j <= last -> grants (c + Z.to_nat (j - i)) b = false).
Lemma loop_ok : forall elem fcols last k i a bl b c, element elem -> 0 <= fcols <= 2147483648 -> 0 <= i -> i + Z.of_nat k = last + 1 -> nth_error bl a = Some b ->
  bk_bytes b = (last + 1) * 8 -> bk_elem b = 8 -> (forall t, i <= t -> t <= last -> bk_cell b t = Zeros) ->
  exists b' j c', rows_loop grants k i fcols elem (Some a) (mkMem bl c) = Ok (mkMem (lset bl a b' ++ repeat (zb fcols elem) (Z.to_nat (j - i))) c') /\
    i <= j <= last + 1 /\ bk_bytes b' = bk_bytes b /\ bk_elem b' = 8 /\ granted c (fcols * elem) i j last /\
    (forall t, t < i -> bk_cell b' t = bk_cell b t) /\ (forall t, i <= t < j -> bk_cell b' t = Addr (length bl + Z.to_nat (t - i))) /\ (forall t, j <= t <= last -> bk_cell b' t = Zeros).
Proof.
  intros elem fcols last k. induction k as [|k IH]; intros i a bl b c He Hf Hi Hk Hb Hy Hl Hz.
  - exists b, i, c. cbn [rows_loop]. split; [rewrite Z.sub_diag; cbn [Z.to_nat repeat]; rewrite app_nil_r; f_equal; f_equal; clear - Hb; revert a Hb; induction bl as [|x bl IH]; intros [|a] H; try discriminate; cbn; [injection H as ->; reflexivity|rewrite <- IH by assumption; reflexivity]|].
    split; [lia|]. repeat (split; [assumption || reflexivity|]). split; [split; intros; lia|]. split; [reflexivity|]. split; [intros; lia|]. intros t Ht. apply Hz; lia.
  - assert (LA : (a < length bl)%nat) by (apply nth_error_Some; congruence). cbn [rows_loop]. unfold malloc at 1. cbn [me_calls me_blocks]. rewrite (size_small fcols elem He Hf).
    assert (IN : inside b i = true). { unfold inside. rewrite Hl, Hy. apply andb_true_intro. split; apply Z.leb_le; lia. }
    destruct (grants c (fcols * elem)) eqn:G.
    + unfold store at 1, block_at. cbn [me_blocks]. rewrite nth_error_app1, Hb by assumption. cbn [bind]. rewrite IN. cbn [bind me_calls].
      rewrite lset_app_l by assumption. set (b1 := mkBlk (bk_bytes b) (bk_elem b) (fun j => if j =? i then Addr (length bl) else bk_cell b j)).
      assert (LL : length (lset bl a b1) = length bl) by (rewrite lset_length; reflexivity).
      pose proof (fresh_clear fcols elem (lset bl a b1) (S c)) as FC. rewrite LL, (size_small fcols elem He Hf) in FC. rewrite FC. cbn [bind].
      destruct (IH (i + 1) a (lset bl a b1 ++ [zb fcols elem]) b1 (S c)) as (b' & j & c' & E & J & Y & L & (GR1 & GR2) & B1 & B2 & B3); try assumption; try lia.
      { rewrite nth_error_app1 by lia. apply nth_error_lset_eq. assumption. }
      { intros t T1 T2. unfold b1. cbn [bk_cell]. replace (t =? i) with false by (symmetry; apply Z.eqb_neq; lia). apply Hz; lia. }
      exists b', j, c'. rewrite E. split.
      { f_equal. f_equal. rewrite lset_app_l by lia. rewrite <- app_assoc. f_equal.
        - clearbody b1. clear. revert a. induction bl as [|x bl IH]; intros [|a]; cbn; try reflexivity. rewrite IH. reflexivity.
        - replace (Z.to_nat (j - i)) with (S (Z.to_nat (j - (i + 1)))) by lia. reflexivity. }
      split; [lia|]. split; [exact Y|]. split; [exact L|]. split.
      { split.
        - intros t Ht. destruct (Z.eq_dec t i) as [->|N]; [rewrite Z.sub_diag; cbn [Z.to_nat]; rewrite Nat.add_0_r; exact G|]. specialize (GR1 t ltac:(lia)). replace (c + Z.to_nat (t - i))%nat with (S c + Z.to_nat (t - (i + 1)))%nat by lia. exact GR1.
        - intro Q. specialize (GR2 Q). replace (c + Z.to_nat (j - i))%nat with (S c + Z.to_nat (j - (i + 1)))%nat by lia. exact GR2. }
      split; [|split].
      * intros t Ht. rewrite B1 by lia. unfold b1. cbn [bk_cell]. replace (t =? i) with false by (symmetry; apply Z.eqb_neq; lia). reflexivity.
      * intros t Ht. destruct (Z.eq_dec t i) as [->|N].
        -- rewrite B1 by lia. unfold b1. cbn [bk_cell]. rewrite Z.eqb_refl. f_equal. lia.
        -- rewrite B2 by lia. f_equal. rewrite app_length, LL. cbn [length]. lia.
      * intros t Ht. apply B3. lia.
    + unfold store at 1, block_at. cbn [me_blocks]. rewrite Hb. cbn [bind]. rewrite IN. cbn [bind me_calls].
      exists (mkBlk (bk_bytes b) (bk_elem b) (fun j => if j =? i then Zeros else bk_cell b j)), i, (S c). split; [rewrite Z.sub_diag; cbn [Z.to_nat repeat]; rewrite app_nil_r; reflexivity|].
      split; [lia|]. split; [reflexivity|]. split; [exact Hl|]. split; [split; [intros; lia|intros _; rewrite Z.sub_diag; cbn [Z.to_nat]; rewrite Nat.add_0_r; exact G]|].
      cbn [bk_cell]. split; [intros t Ht; replace (t =? i) with false by (symmetry; apply Z.eqb_neq; lia); reflexivity|]. split; [intros; lia|].
      intros t Ht. destruct (t =? i); [reflexivity|]. apply Hz; lia.
Qed.

Theorem mat_ok : forall elem rows cols m, element elem -> 1 <= rows <= 2147483646 -> 1 <= cols <= 2147483646 -> exists m' p, mat_alloc grants elem rows cols m = Ok (m', p) /\ extends m m' /\
  ((grants (me_calls m) ((rows + 1) * 8) = false /\ p = None /\ me_blocks m' = me_blocks m) \/
   (grants (me_calls m) ((rows + 1) * 8) = true /\ exists a k, p = Some a /\ new a m /\ 0 <= k <= rows + 1 /\ zero_matrix a rows cols k m m' /\
     (forall i, 0 <= i < k -> grants (S (me_calls m) + Z.to_nat i) ((cols + 1) * elem) = true) /\ (k <= rows -> grants (S (me_calls m) + Z.to_nat k) ((cols + 1) * elem) = false))).
Proof.
  intros elem rows cols m He Hr Hc. unfold mat_alloc. replace (rows =? 0) with false by (symmetry; apply Z.eqb_neq; lia). replace (cols =? 0) with false by (symmetry; apply Z.eqb_neq; lia). cbn [orb]. cbv zeta.
  assert (E8 : element 8) by (right; reflexivity). unfold malloc at 1. rewrite (size_small (rows + 1) 8 E8) by lia. destruct (grants (me_calls m) ((rows + 1) * 8)) eqn:G.
  - rewrite <- (size_small (rows + 1) 8 E8) by lia. rewrite fresh_clear. cbn [bind]. set (bl := me_blocks m).
    destruct (loop_ok elem (cols + 1) rows (Z.to_nat (rows + 1)) 0 (length bl) (bl ++ [zb (rows + 1) 8]) (zb (rows + 1) 8) (S (me_calls m))) as (b' & j & c' & E & J & Y & L & (GR1 & GR2) & B1 & B2 & B3); try assumption; try lia.
    { apply nth_last. } { cbn [zb bk_bytes]. apply size_small; [assumption|lia]. } { reflexivity. }
    { intros t T1 T2. cbn [zb bk_cell]. rewrite size_small by (assumption || lia). replace ((t + 1) * 8 <=? (rows + 1) * 8) with true by (symmetry; apply Z.leb_le; lia). reflexivity. }
    rewrite E. cbn [bind]. rewrite Z.sub_0_r in *. rewrite lset_last in *. do 2 eexists. split; [reflexivity|]. split.
    + intros a b H. cbn [me_blocks]. fold bl in H. assert (a < length bl)%nat by (apply nth_error_Some; congruence). rewrite !nth_error_app1 by (rewrite ?app_length; cbn; lia). assumption.
    + right. split; [reflexivity|]. exists (length bl), j. split; [reflexivity|]. split; [apply nth_error_None; fold bl; lia|]. split; [lia|].
      assert (NA : nth_error ((bl ++ [b']) ++ repeat (zb (cols + 1) elem) (Z.to_nat j)) (length bl) = Some b') by (rewrite nth_error_app1 by (rewrite app_length; cbn; lia); apply nth_last).
      assert (YB : bk_bytes b' = (rows + 1) * 8) by (rewrite Y; cbn [zb bk_bytes]; apply size_small; [assumption|lia]).
      split; [|split; [intros i Hi; specialize (GR1 i ltac:(lia)); rewrite Z.sub_0_r in GR1; exact GR1|intro Q; exact (GR2 Q)]]. split.
      * intros i Hi. unfold load, block_at. cbn [me_blocks]. rewrite NA. cbn [bind]. unfold inside. rewrite L, YB. destruct (0 <=? i) eqn:Q0; [|reflexivity]. apply Z.leb_le in Q0.
        replace ((i + 1) * 8 <=? (rows + 1) * 8) with false by (symmetry; apply Z.leb_gt; lia). reflexivity.
      * exists (fun i => (length bl + 1 + Z.to_nat i)%nat). split; [|split].
        -- intros i Hi. split; [|split; [|split]].
           ++ unfold load, block_at. cbn [me_blocks]. rewrite NA. cbn [bind]. unfold inside. rewrite L, YB. replace (0 <=? i) with true by (symmetry; apply Z.leb_le; lia). replace ((i + 1) * 8 <=? (rows + 1) * 8) with true by (symmetry; apply Z.leb_le; lia). cbn [andb].
              rewrite B2, Z.sub_0_r by lia. rewrite app_length. reflexivity.
           ++ apply nth_error_None. fold bl. lia.
           ++ lia.
           ++ apply (zb_array cols elem); [assumption|lia|]. cbn [me_blocks]. rewrite nth_error_app2 by (rewrite app_length; cbn; lia). rewrite app_length. cbn [length]. replace (length bl + 1 + Z.to_nat i - (length bl + 1))%nat with (Z.to_nat i) by lia. 
              rewrite nth_error_repeat by lia. reflexivity.
        -- intros i i' H1 H2 H3. lia.
        -- intros i Hi. unfold load, block_at. cbn [me_blocks]. rewrite NA. cbn [bind]. unfold inside. rewrite L, YB. replace (0 <=? i) with true by (symmetry; apply Z.leb_le; lia). replace ((i + 1) * 8 <=? (rows + 1) * 8) with true by (symmetry; apply Z.leb_le; lia). cbn [andb].
           rewrite B3 by lia. reflexivity.
  - do 2 eexists. split; [reflexivity|]. split; [intros a b H; exact H|]. left. repeat split.
Qed.
End Alloc.

(** Memory without blocks. *)
Definition no_mem : mem := mkMem [] 0.
(** Everything is granted; everything but the third call. *)
Definition all_granted (_ : nat) (_ : Z) : bool := true.
Definition all_but_third (c : nat) (_ : Z) : bool := negb (Nat.eqb c 2).

Lemma mat_empty : forall grants elem rows cols m, rows = 0 \/ cols = 0 -> mat_alloc grants elem rows cols m = Stop (ExitCode 0).
Proof. intros grants elem rows cols m [->| ->]; unfold mat_alloc; [reflexivity|]. rewrite orb_true_r. reflexivity. Qed.
Lemma vec_two : exists m', vec_alloc all_granted 8 2 no_mem = Ok (m', Some 0%nat) /\ map bk_bytes (me_blocks m') = [24].
Proof. eexists. split; reflexivity. Qed.
Lemma mat_two : exists m', mat_alloc all_granted 4 2 3 no_mem = Ok (m', Some 0%nat) /\ map bk_bytes (me_blocks m') = [24; 16; 16; 16].
Proof. eexists. split; reflexivity. Qed.
Lemma mat_short : exists m', mat_alloc all_but_third 4 2 3 no_mem = Ok (m', Some 0%nat) /\ load (Some 0%nat) 0 m' = Ok (Addr 1) /\ load (Some 0%nat) 1 m' = Ok Zeros /\ load (Some 0%nat) 2 m' = Ok Zeros /\ map bk_bytes (me_blocks m') = [24; 16].
Proof. eexists. repeat split. Qed.
Lemma vec_negative : exists m', vec_alloc all_granted 8 (-1) no_mem = Ok (m', Some 0%nat) /\ load (Some 0%nat) 0 m' = Stop (UB OutOfBounds).
Proof. eexists. split; reflexivity. Qed.
