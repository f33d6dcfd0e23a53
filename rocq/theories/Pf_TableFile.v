(** The soil table read from bytes through buffers is the table read from rows. *)

From Coq Require Import Reals ZArith List Bool String Ascii Lia.
From Verif Require Import Outcome Dbl Types Config TableFile Spec_Config Spec_Table.
Import ListNotations.
Open Scope Z_scope.

(** ** fgets *)

Lemma eqb_ne : forall a b : ascii, a <> b -> Ascii.eqb a b = false.
Proof. intros a b H. apply Ascii.eqb_neq. exact H. Qed.

Lemma app_nil : forall s : string, (s ++ "" = s)%string.
Proof. induction s as [|c r IH]; cbn; [reflexivity|rewrite IH; reflexivity]. Qed.
Lemma app_ass : forall a b c : string, ((a ++ b) ++ c = a ++ (b ++ c))%string.
Proof. induction a as [|x r IH]; intros b c; cbn; [reflexivity|rewrite IH; reflexivity]. Qed.
Lemma length_app_s : forall a b : string, String.length (a ++ b) = (String.length a + String.length b)%nat.
Proof. induction a as [|x r IH]; intros b; cbn; [reflexivity|rewrite IH; reflexivity]. Qed.

Lemma fgets_line : forall l k rest, free_of LF l -> (String.length l < k)%nat -> fgets k (l ++ String LF rest) = ((l ++ String LF "")%string, rest).
Proof.
  induction l as [|c r IH]; intros k rest F Hk; (destruct k as [|k]; [cbn in Hk; lia|]).
  - cbn [String.append fgets]. rewrite Ascii.eqb_refl. reflexivity.
  - destruct F as [F1 F2]. cbn [String.append fgets]. rewrite (eqb_ne _ _ F1). rewrite (IH k rest F2) by (cbn in Hk; lia). reflexivity.
Qed.
Lemma fgets_long : forall k l rest, free_of LF l -> (k <= String.length l)%nat -> fgets k (l ++ rest) = (take k l, (drop k l ++ rest)%string).
Proof.
  induction k as [|k IH]; intros l rest F Hk; [reflexivity|]. destruct l as [|c r]; [cbn in Hk; lia|]. destruct F as [F1 F2].
  cbn [String.append fgets take drop]. rewrite (eqb_ne _ _ F1). rewrite (IH r rest F2) by (cbn in Hk; lia). reflexivity.
Qed.
Lemma fgets_end : forall k l, free_of LF l -> (String.length l <= k)%nat -> fgets k l = (l, ""%string).
Proof.
  induction k as [|k IH]; intros l F Hk; (destruct l as [|c r]; [reflexivity|]); [cbn in Hk; lia|]. destruct F as [F1 F2].
  cbn [fgets]. rewrite (eqb_ne _ _ F1). rewrite (IH r F2) by (cbn in Hk; lia). reflexivity.
Qed.
Lemma fgets_rest : forall k s a b, fgets k s = (a, b) -> (String.length b <= String.length s)%nat.
Proof.
  induction k as [|k IH]; intros s a b E; [injection E as <- <-; lia|]. destruct s as [|c r]; [injection E as <- <-; lia|]. cbn [fgets] in E.
  destruct (Ascii.eqb c LF); [injection E as <- <-; cbn; lia|]. destruct (fgets k r) as [x y] eqn:Er. injection E as <- <-. apply IH in Er. cbn. lia.
Qed.
Lemma fgets_shorter : forall k c r a b, fgets (S k) (String c r) = (a, b) -> (String.length b < String.length (String c r))%nat.
Proof.
  intros k c r a b E. cbn [fgets] in E. destruct (Ascii.eqb c LF); [injection E as <- <-; cbn; lia|]. destruct (fgets k r) as [x y] eqn:Er. injection E as <- <-.
  apply fgets_rest in Er. cbn. lia.
Qed.
Lemma gets_fuel : forall n m s, (String.length s <= n)%nat -> (String.length s <= m)%nat -> gets n s = gets m s.
Proof.
  induction n as [|n IH]; intros m s Hn Hm.
  - destruct s; [|cbn in Hn; lia]. destruct m; reflexivity.
  - destruct m as [|m]; [destruct s; [reflexivity|cbn in Hm; lia]|]. destruct s as [|c r]; [reflexivity|]. cbn [gets].
    destruct (fgets 254 (String c r)) as [a b] eqn:E. f_equal. apply fgets_shorter in E. apply IH; lia.
Qed.
Lemma pieces_one : forall s a b, s <> ""%string -> fgets 254 s = (a, b) -> pieces s = a :: pieces b.
Proof.
  intros s a b N E. destruct s as [|c r]; [congruence|]. unfold pieces at 1. cbn [String.length gets]. rewrite E. f_equal. apply fgets_shorter in E. apply gets_fuel; cbn in E |- *; lia.
Qed.
Lemma pieces_line : forall l rest, free_of LF l -> (String.length l <= 253)%nat -> pieces (l ++ String LF rest) = (l ++ String LF "")%string :: pieces rest.
Proof. intros l rest F H. apply pieces_one; [destruct l; discriminate|]. apply fgets_line; [exact F|lia]. Qed.
Lemma pieces_long : forall l rest, free_of LF l -> (254 <= String.length l)%nat -> pieces (l ++ rest) = take 254 l :: pieces (drop 254 l ++ rest).
Proof. intros l rest F H. apply pieces_one; [destruct l; [cbn in H; lia|discriminate]|]. apply fgets_long; [exact F|lia]. Qed.
Lemma pieces_end : forall l, free_of LF l -> l <> ""%string -> (String.length l <= 254)%nat -> pieces l = [l].
Proof. intros l F N H. rewrite (pieces_one l l ""); [reflexivity|exact N|]. apply fgets_end; [exact F|lia]. Qed.

(** ** Strings *)

Lemma cstring_id : forall s, free_of NUL s -> cstring s = s.
Proof. induction s as [|c r IH]; intro F; [reflexivity|]. destruct F as [F1 F2]. cbn [cstring]. rewrite (eqb_ne _ _ F1), IH by assumption. reflexivity. Qed.
Lemma cstring_free : forall s, free_of NUL (cstring s).
Proof. induction s as [|c r IH]; [exact Logic.I|]. cbn [cstring]. destruct (Ascii.eqb_spec c NUL); [exact Logic.I|]. split; assumption. Qed.
Lemma free_app : forall c a b, free_of c a -> free_of c b -> free_of c (a ++ b).
Proof. induction a as [|x r IH]; intros b Fa Fb; [exact Fb|]. destruct Fa. split; [assumption|apply IH; assumption]. Qed.
Lemma skip_free : forall c s, free_of c s -> free_of c (skip_space s).
Proof. induction s as [|x r IH]; intro F; [exact Logic.I|]. cbn [skip_space]. destruct (is_space x); [apply IH, F|exact F]. Qed.
Lemma word_free : forall c s w t, free_of c s -> word s = (w, t) -> free_of c w.
Proof.
  induction s as [|x r IH]; intros w t F E; cbn [word] in E; [injection E as <- <-; exact Logic.I|]. destruct (is_space x); [injection E as <- <-; exact Logic.I|].
  destruct (word r) as [w' t'] eqn:Er. injection E as <- <-. destruct F. split; [assumption|eapply IH; [assumption|reflexivity]].
Qed.
Lemma drop_free : forall c k s, free_of c s -> free_of c (drop k s).
Proof. induction k as [|k IH]; intros s F; [exact F|]. destruct s; [exact Logic.I|]. apply IH, F. Qed.

(** ** The line feed at the end of a piece does not matter *)

Definition nl : string := String LF "".
Lemma lf_space : is_space LF = true. Proof. reflexivity. Qed.
Lemma skip_lf : forall s, skip_space (s ++ nl) = match skip_space s with EmptyString => EmptyString | t => (t ++ nl)%string end.
Proof. induction s as [|c r IH]; [reflexivity|]. cbn [String.append skip_space]. destruct (is_space c) eqn:E; [exact IH|reflexivity]. Qed.
Lemma word_lf : forall s, word (s ++ nl) = let '(w, t) := word s in (w, (t ++ nl)%string).
Proof. induction s as [|c r IH]; [reflexivity|]. cbn [String.append word]. destruct (is_space c); [reflexivity|]. rewrite IH. destruct (word r). reflexivity. Qed.
Lemma digits_lf : forall s a k, digits (s ++ nl) a k = let '(x, j, t) := digits s a k in (x, j, (t ++ nl)%string).
Proof. induction s as [|c r IH]; intros a k; [reflexivity|]. cbn [String.append digits]. destruct (digit c); [apply IH|reflexivity]. Qed.
Lemma sign_lf : forall s, sign (s ++ nl) = let '(b, t) := sign s in (b, (t ++ nl)%string).
Proof. intros [|c r]; [reflexivity|]. cbn [String.append sign]. destruct (Ascii.eqb c "-"); [reflexivity|]. destruct (Ascii.eqb c "+"); reflexivity. Qed.
Lemma exponent_lf : forall s, exponent (s ++ nl) = let '(x, t) := exponent s in (x, (t ++ nl)%string).
Proof.
  intros [|c r]; [reflexivity|]. cbn [String.append exponent]. destruct (Ascii.eqb (lower c) "e"); [|reflexivity]. rewrite sign_lf. destruct (sign r) as [b t]. rewrite digits_lf.
  destruct (digits t 0 0) as [[x j] u]. destruct j; reflexivity.
Qed.
Lemma decimal_lf : forall s, decimal (s ++ nl) = match decimal s with None => None | Some (m, x, t) => Some (m, x, (t ++ nl)%string) end.
Proof.
  intro s. unfold decimal. rewrite digits_lf. destruct (digits s 0 0) as [[i ki] r]. destruct r as [|c r1].
  - cbn [String.append nl]. change (Ascii.eqb LF ".") with false. cbn iota. change (exponent (String LF "")) with (0, nl). cbn. destruct (ki + 0)%nat; reflexivity.
  - cbn [String.append]. destruct (Ascii.eqb c ".").
    + rewrite digits_lf. destruct (digits r1 i 0) as [[mant kf] r']. rewrite exponent_lf. destruct (exponent r') as [x t]. destruct (ki + kf)%nat; reflexivity.
    + change (String c (r1 ++ nl)) with (String c r1 ++ nl)%string. rewrite exponent_lf. destruct (exponent (String c r1)) as [x t]. destruct (ki + 0)%nat; reflexivity.
Qed.
Lemma prefix_lf : forall w s, free_of LF w -> prefix_ci w (s ++ nl) = prefix_ci w s.
Proof.
  induction w as [|a w IH]; intros s F; [destruct s; reflexivity|]. destruct F as [F1 F2]. destruct s as [|c r].
  - cbn [String.append nl prefix_ci]. change (lower LF) with LF. rewrite (eqb_ne LF a) by congruence. reflexivity.
  - cbn [String.append prefix_ci]. rewrite IH by exact F2. reflexivity.
Qed.
Lemma prefix_drop : forall w s, prefix_ci w s = true -> drop (String.length w) (s ++ nl) = (drop (String.length w) s ++ nl)%string.
Proof.
  induction w as [|a w IH]; intros s E; [destruct s; reflexivity|]. destruct s as [|c r]; [discriminate|]. cbn [prefix_ci] in E. apply andb_true_iff in E as [_ E].
  cbn [String.append String.length drop]. apply IH, E.
Qed.

Section Rounding.
Context {fp : Fp}.

Lemma scan_number_nil : scan_number "" = None.
Proof. reflexivity. Qed.
Lemma scan_number_lf : forall s, scan_number (s ++ nl) = match scan_number s with None => None | Some (v, t) => Some (v, (t ++ nl)%string) end.
Proof.
  intro s. unfold scan_number. rewrite skip_lf. destruct (skip_space s) as [|c r] eqn:Es; [reflexivity|]. rewrite sign_lf. destruct (sign (String c r)) as [neg t].
  assert (D : forall x y, x <> y -> Ascii.eqb x y = false) by (intros; apply eqb_ne; assumption).
  rewrite !prefix_lf by (repeat split; discriminate).
  destruct (prefix_ci "infinity" t) eqn:P1; [f_equal; f_equal; exact (prefix_drop "infinity" t P1)|].
  destruct (prefix_ci "inf" t) eqn:P2; [f_equal; f_equal; exact (prefix_drop "inf" t P2)|].
  destruct (prefix_ci "nan" t) eqn:P3; [f_equal; f_equal; exact (prefix_drop "nan" t P3)|].
  rewrite decimal_lf. destruct (decimal t) as [[[m x] u]|]; reflexivity.
Qed.
Lemma scan_numbers_lf : forall k s, scan_numbers k (s ++ nl) = scan_numbers k s.
Proof. induction k as [|k IH]; intro s; [reflexivity|]. cbn [scan_numbers]. rewrite scan_number_lf. destruct (scan_number s) as [[v t]|]; [rewrite IH|]; reflexivity. Qed.
Lemma row_lf : forall s, sscanf_row (s ++ nl) = sscanf_row s.
Proof.
  intro s. unfold sscanf_row. rewrite skip_lf. destruct (skip_space s) as [|c r] eqn:Es; [reflexivity|]. rewrite word_lf. destruct (word (String c r)) as [w t].
  destruct w; [reflexivity|]. rewrite scan_numbers_lf. reflexivity.
Qed.

(** The rows of a file. *)
Lemma line_split : forall k l, line_of k l -> free_of LF l /\ free_of NUL l /\ (String.length l <= k)%nat.
Proof. intros k l H. exact H. Qed.
Lemma piece_row : forall l, free_of NUL l -> sscanf_row (cstring (l ++ String LF "")) = sscanf_row l.
Proof. intros l F. rewrite cstring_id; [apply row_lf|]. apply free_app; [exact F|]. split; [discriminate|exact Logic.I]. Qed.
Lemma rows_of : forall ls rest, Forall (line_of 253) ls ->
  map (fun p => sscanf_row (cstring p)) (pieces (fold_right (fun l t => (l ++ String LF t)%string) rest ls)) = map sscanf_row ls ++ map (fun p => sscanf_row (cstring p)) (pieces rest).
Proof.
  induction ls as [|l ls IH]; intros rest F; [reflexivity|]. inversion F as [|x y (F1 & F2 & F3) F']; subst. cbn [fold_right]. rewrite pieces_line by assumption. cbn [map app].
  rewrite piece_row by assumption. rewrite IH by assumption. reflexivity.
Qed.
Lemma file_rows : forall h ls, line_of 253 h -> Forall (line_of 253) ls -> table_file (text_file (h :: ls)) = table_of (h :: ls).
Proof.
  intros h ls (F1 & F2 & F3) F. unfold table_file, text_file, table_of. cbn [fold_right tl]. rewrite pieces_line by assumption. cbn [tl].
  change line_feed with LF. rewrite (rows_of ls EmptyString F). apply app_nil_r.
Qed.
Lemma file_rows_open : forall h ls x, line_of 253 h -> Forall (line_of 253) ls -> line_of 254 x -> x <> ""%string -> table_file (text_file (h :: ls) ++ x) = table_of (h :: ls ++ [x]).
Proof.
  intros h ls x (F1 & F2 & F3) F (G1 & G2 & G3) N. unfold table_file, text_file, table_of. cbn [fold_right tl]. rewrite app_ass. cbn [String.append]. rewrite pieces_line by assumption. cbn [tl].
  assert (E : forall ls, (fold_right (fun l t => (l ++ String line_feed t)%string) "" ls ++ x)%string = fold_right (fun l t => (l ++ String LF t)%string) x ls).
  { induction ls0 as [|l l0 IH]; [reflexivity|]. cbn [fold_right]. rewrite app_ass. cbn [String.append]. rewrite IH. reflexivity. }
  rewrite E, (rows_of ls x F), (pieces_end x G1 N G3), map_app. cbn [map]. rewrite (cstring_id x G2). reflexivity.
Qed.
Lemma long_header : forall h ls, free_of LF h -> free_of NUL h -> (254 <= String.length h <= 507)%nat -> Forall (line_of 253) ls ->
  table_file (text_file (h :: ls)) = sscanf_row (drop 254 h) :: map sscanf_row ls.
Proof.
  intros h ls F1 F2 L F. unfold table_file, text_file. cbn [fold_right]. rewrite pieces_long by (try assumption; lia). cbn [tl].
  assert (D : forall k s, String.length (drop k s) = (String.length s - k)%nat).
  { induction k as [|k IH]; intro s; [destruct s; cbn; lia|]. destruct s; [reflexivity|]. cbn [drop]. rewrite IH. cbn. lia. }
  rewrite pieces_line; [|apply drop_free; exact F1|rewrite D; lia]. cbn [map]. rewrite piece_row by (apply drop_free; exact F2). change line_feed with LF.
  rewrite (rows_of ls EmptyString F). cbn. rewrite app_nil_r. reflexivity.
Qed.

(** ** Buffers *)

Lemma lset_len : forall (A : Type) (l : list A) i x, List.length (lset l i x) = List.length l.
Proof. induction l as [|a l IH]; intros [|i] x; cbn; congruence. Qed.
Lemma lset_same : forall (A : Type) (l : list A) i x, (i < List.length l)%nat -> nth_error (lset l i x) i = Some x.
Proof. induction l as [|a l IH]; intros [|i] x H; cbn in *; try lia; [reflexivity|apply IH; lia]. Qed.
Lemma lset_other : forall (A : Type) (l : list A) i j x, i <> j -> nth_error (lset l i x) j = nth_error l j.
Proof. induction l as [|a l IH]; intros [|i] [|j] x H; cbn; try reflexivity; try lia. apply IH; lia. Qed.

Lemma put_fits : forall w b i, 0 <= i -> i + Z.of_nat (String.length w) < Z.of_nat (List.length b) -> free_of NUL w ->
  exists b', put b i w = Ok b' /\ List.length b' = List.length b /\ (forall j, (j < Z.to_nat i)%nat -> nth_error b' j = nth_error b j) /\
             forall k, (String.length w <= k)%nat -> chars k b' i = Ok w.
Proof.
  induction w as [|c r IH]; intros b i Hi Hb F.
  - cbn [put]. unfold aset. destruct (Z.ltb_spec i 0); [lia|]. destruct (Nat.ltb_spec (Z.to_nat i) (List.length b)); [|cbn in Hb; lia].
    eexists. split; [reflexivity|]. split; [apply lset_len|]. split; [intros j Hj; apply lset_other; lia|]. intros k _.
    assert (G : uget (lset b (Z.to_nat i) (Some NUL)) i = Ok NUL).
    { unfold uget, aget. destruct (Z.ltb_spec i 0); [lia|]. rewrite lset_same by assumption. reflexivity. }
    destruct k; cbn [chars]; rewrite G; reflexivity.
  - destruct F as [F1 F2]. cbn [put]. unfold aset. destruct (Z.ltb_spec i 0); [lia|]. cbn [String.length] in Hb. destruct (Nat.ltb_spec (Z.to_nat i) (List.length b)); [|lia].
    cbn [bind]. destruct (IH (lset b (Z.to_nat i) (Some c)) (i + 1)) as (b' & E & L & K & C); [lia|rewrite lset_len; lia|exact F2|].
    exists b'. split; [exact E|]. split; [rewrite L; apply lset_len|]. split.
    + intros j Hj. rewrite K by lia. apply lset_other. lia.
    + intros k Hk. destruct k as [|k]; [cbn in Hk; lia|]. cbn [chars].
      assert (G : uget b' i = Ok c).
      { unfold uget, aget. destruct (Z.ltb_spec i 0); [lia|]. rewrite K by lia. rewrite lset_same by assumption. reflexivity. }
      rewrite G. cbn [bind]. rewrite (eqb_ne _ _ F1). rewrite C by (cbn in Hk; lia). reflexivity.
Qed.
Lemma put_over : forall w b i, 0 <= i -> Z.of_nat (List.length b) <= i + Z.of_nat (String.length w) -> put b i w = Stop (UB OutOfBounds).
Proof.
  induction w as [|c r IH]; intros b i Hi Hb; cbn [put]; unfold aset; (destruct (Z.ltb_spec i 0); [lia|]); (destruct (Nat.ltb_spec (Z.to_nat i) (List.length b)); [|reflexivity]).
  - cbn in Hb. lia.
  - cbn [bind]. apply IH; [lia|]. rewrite lset_len. cbn [String.length] in Hb. lia.
Qed.

(** The buffer holds the name. *)
Definition holds (b : buffer) (o : option string) : Prop :=
  List.length b = 30%nat /\
  match o with
  | None => b = repeat None 30
  | Some w => free_of NUL w /\ (String.length w <= 29)%nat /\ chars 30 b 0 = Ok w
  end.

Lemma row_name_free : forall p w, r_name (sscanf_row (cstring p)) = Some w -> free_of NUL w.
Proof.
  intros p w E. unfold sscanf_row in E. destruct (word (skip_space (cstring p))) as [w' t] eqn:Ew. destruct w'; [discriminate|]. cbn [r_name] in E. injection E as <-.
  eapply word_free; [|exact Ew]. apply skip_free, cstring_free.
Qed.

Definition forget (x : outcome (buffer * list (option dbl) * list (option entry))) : outcome (list (option dbl) * list (option entry)) :=
  '(_, v, t) <- x ;; Ok (v, t).

Lemma piece_is_row : forall wp junk p b l i tab, holds b (l_name l) ->
  match read_piece wp junk p b (l_vals l) i tab, read_row wp junk (sscanf_row (cstring p)) l i tab with
  | Ok (b', v', t'), Ok (l', t'') => holds b' (l_name l') /\ v' = l_vals l' /\ t' = t''
  | Stop w, Stop w' => w = w'
  | _, _ => False
  end.
Proof.
  intros wp junk p b l i tab (HL & HO). unfold read_piece, read_row, scan. set (r := sscanf_row (cstring p)).
  assert (W : forall w, r_name r = Some w -> free_of NUL w) by (intro w; apply row_name_free).
  set (l2 := match r_name r with None => l | Some s => mkLoc (Some s) (over (r_vals r) (l_vals l)) end).
  assert (V : match r_name r with None => l_vals l | Some _ => over (r_vals r) (l_vals l) end = l_vals l2) by (unfold l2; destruct (r_name r); reflexivity).
  rewrite V. clear V.
  assert (B : match match r_name r with None => Ok b | Some w => put b 0 w end with
              | Ok b' => holds b' (l_name l2)
              | Stop w => w = UB OutOfBounds /\ exists x, l_name l2 = Some x /\ (30 <= String.length x)%nat
              end).
  { unfold l2. destruct (r_name r) as [w|]; [|split; assumption]. cbn [l_name]. destruct (Nat.le_gt_cases 30 (String.length w)) as [Hw|Hw].
    - rewrite put_over by lia. split; [reflexivity|]. exists w. auto.
    - destruct (put_fits w b 0) as (b' & E & L & _ & C); [lia|lia|apply W; reflexivity|]. rewrite E. split; [lia|]. split; [apply W; reflexivity|]. split; [lia|]. apply C. lia. }
  clearbody l2. clear W HO. destruct (match r_name r with None => Ok b | Some w => put b 0 w end) as [b'|w].
  2:{ destruct B as (-> & x & Ex & Hx). cbn [bind]. rewrite Ex. cbn [known bind]. destruct (Z.leb_spec 30 (Z.of_nat (String.length x))); [reflexivity|lia]. }
  cbn [bind]. destruct B as [L B]. rewrite L. destruct (l_name l2) as [w|] eqn:En.
  2:{ subst b'. reflexivity. }
  destruct B as (F & Lw & C). rewrite C. cbn [known bind]. destruct (Z.leb_spec 30 (Z.of_nat (String.length w))); [lia|].
  destruct (Z.ltb_spec 25 (Z.of_nat (String.length w))); [reflexivity|]. destruct (aget tab i) as [z|z]; [|reflexivity]. cbn [bind].
  destruct (Z.eqb_spec (Z.of_nat (String.length w)) 25).
  { rewrite put_over; [reflexivity|lia|]. rewrite repeat_length. lia. }
  destruct (put_fits w (repeat None 25) 0) as (fd & E & Lf & _ & Cf); [lia|rewrite repeat_length; lia|exact F|]. rewrite E. cbn [bind]. rewrite Cf by lia. cbn [bind].
  destruct (l_vals l2) as [|r0 [|r1 [|r2 [|r3 [|r4 [|r5 rs]]]]]] eqn:Ev; try reflexivity.
  destruct (known r0); [|reflexivity]. cbn [bind]. destruct (known r1); [|reflexivity]. cbn [bind]. destruct (known r2); [|reflexivity]. cbn [bind]. destruct (known r3); [|reflexivity]. cbn [bind].
  destruct (known r4); [|reflexivity]. cbn [bind]. destruct (derive _ _ _ _ _ _ _ _); [|reflexivity]. cbn [bind]. destruct (aset _ _ _); [|reflexivity]. cbn [bind].
  rewrite En, Ev. split; [|auto]. split; [exact L|]. auto.
Qed.

Lemma pieces_are_rows : forall wp junk nst ps b l i tab, holds b (l_name l) ->
  read_pieces wp junk nst ps b (l_vals l) i tab = read_rows wp junk nst (map (fun p => sscanf_row (cstring p)) ps) l i tab.
Proof.
  induction ps as [|p ps IH]; intros b l i tab H; [reflexivity|]. cbn [map read_pieces read_rows]. pose proof (piece_is_row wp junk p b l i tab H) as G.
  destruct (read_piece _ _ _ _ _ _ _) as [[[b' v'] t']|w]; destruct (read_row _ _ _ _ _ _) as [[l' t'']|w']; try contradiction; cbn [bind].
  - destruct G as (G1 & -> & ->). destruct (nst =? i); [reflexivity|]. apply IH, G1.
  - congruence.
Qed.
Lemma buffers : forall file nst wp junk tab, read_table file nst wp junk tab = lgar_read_vG_param_file (option_map table_file file) nst wp junk tab.
Proof.
  intros [s|] nst wp junk tab; [|reflexivity]. cbn [option_map read_table lgar_read_vG_param_file]. unfold table_file. apply (pieces_are_rows wp junk nst _ _ loc0 1 tab).
  split; reflexivity.
Qed.

(** A header of 254 characters leaves its line feed to be read as the first soil. *)
Lemma full_header : forall h ls nst wp junk tab, free_of LF h -> free_of NUL h -> String.length h = 254%nat -> Forall (line_of 253) ls ->
  read_table (Some (text_file (h :: ls))) nst wp junk tab = Stop (UB Uninit).
Proof.
  intros h ls nst wp junk tab F1 F2 L F. rewrite buffers. cbn [option_map]. rewrite long_header by (try assumption; lia).
  assert (D : forall k s, String.length s = k -> drop k s = ""%string).
  { induction k as [|k IH]; intros [|c r] E; try discriminate; [reflexivity|]. cbn [drop]. apply IH. cbn in E. lia. }
  rewrite (D _ _ L). reflexivity.
Qed.

(** The name of a complete row. *)
Lemma named : forall wp junk p nm tr te al n k b vals i tab, sscanf_row (cstring p) = full_row nm tr te al n k -> List.length b = 30%nat -> List.length vals = 5%nat ->
  (0 <= i < Z.of_nat (List.length tab)) ->
  ((String.length nm <= 24)%nat -> exists b', read_piece wp junk p b vals i tab =
     (en <- derive wp junk tr te al n k nm ;; Ok (b', map Some [tr; te; al; n; k], lset tab (Z.to_nat i) (Some en)))) /\
  ((26 <= String.length nm <= 29)%nat -> read_piece wp junk p b vals i tab = Stop (ExitCode 0)) /\
  ((String.length nm = 25 \/ 30 <= String.length nm)%nat -> read_piece wp junk p b vals i tab = Stop (UB OutOfBounds)).
Proof.
  intros wp junk p nm tr te al n k b vals i tab E HB HV Hi. assert (F : free_of NUL nm) by (apply (row_name_free p); rewrite E; reflexivity).
  unfold read_piece. rewrite E. cbn [full_row r_name r_vals]. destruct vals as [|v0 [|v1 [|v2 [|v3 [|v4 [|]]]]]]; try discriminate. cbn [over].
  assert (A : exists z, aget tab i = Ok z).
  { unfold aget. destruct (Z.ltb_spec i 0); [lia|]. destruct (nth_error tab (Z.to_nat i)) eqn:N; [eauto|]. apply nth_error_None in N. lia. }
  destruct A as [z A].
  assert (T : forall x, aset tab i x = Ok (lset tab (Z.to_nat i) x)).
  { intro x. unfold aset. destruct (Z.ltb_spec i 0); [lia|]. destruct (Nat.ltb_spec (Z.to_nat i) (List.length tab)); [reflexivity|lia]. }
  assert (P : (String.length nm <= 29)%nat -> exists b', put b 0 nm = Ok b' /\ chars (List.length b') b' 0 = Ok nm).
  { intro L. destruct (put_fits nm b 0) as (b' & Eb & Lb & _ & C); [lia|lia|exact F|]. exists b'. split; [exact Eb|]. apply C. lia. }
  split; [|split].
  - intro L. destruct P as (b' & -> & C); [lia|]. exists b'. cbn [bind]. rewrite C. cbn [bind]. destruct (Z.ltb_spec 25 (Z.of_nat (String.length nm))); [lia|]. rewrite A. cbn [bind].
    destruct (put_fits nm (repeat None 25) 0) as (fd & Ef & _ & _ & Cf); [lia|rewrite repeat_length; lia|exact F|]. rewrite Ef. cbn [bind]. rewrite Cf by lia. cbn [known bind map].
    destruct (derive _ _ _ _ _ _ _ _); [|reflexivity]. cbn [bind]. rewrite T. reflexivity.
  - intro L. destruct P as (b' & -> & C); [lia|]. cbn [bind]. rewrite C. cbn [bind]. destruct (Z.ltb_spec 25 (Z.of_nat (String.length nm))); [reflexivity|lia].
  - intros [L|L].
    + destruct P as (b' & -> & C); [lia|]. cbn [bind]. rewrite C. cbn [bind]. destruct (Z.ltb_spec 25 (Z.of_nat (String.length nm))); [lia|]. rewrite A. cbn [bind].
      rewrite put_over; [reflexivity|lia|]. rewrite repeat_length. lia.
    + rewrite put_over by lia. reflexivity.
Qed.

End Rounding.
