(** Lemmas on the text of the output files. *)

From Coq Require Import String Ascii Reals Lra ZArith List Bool Lia.
From Verif Require Import Outcome Dbl Exact Types ListOps Fronts State Update Bmi Config Driver TableFile Output Lib Spec_Common Spec_Update Spec_Profile Spec_Bmi Spec_Config Spec_Run Spec_Driver Spec_Output Pf_Text Pf_Forcing Pf_DriverRun Pf_DriverBalance.
Import ListNotations.
Open Scope string_scope.
Open Scope list_scope.
Open Scope Z_scope.

(** ** Digits *)

Definition dvalue (l : list nat) : Z := fold_left (fun a d => 10 * a + Z.of_nat d) l 0.
Definition good_digits (l : list nat) : Prop := Forall (fun d => (d < 10)%nat) l.

Lemma dvalue_snoc : forall l d, dvalue (l ++ [d]) = 10 * dvalue l + Z.of_nat d.
Proof. intros. unfold dvalue. rewrite fold_left_app. reflexivity. Qed.
Lemma digits_snoc : forall l d, digits_text (l ++ [d]) = (digits_text l ++ String (ascii_of_nat (48 + d)) "")%string.
Proof. induction l as [|x l IH]; intro d; [reflexivity|]. cbn [List.app digits_text append]. rewrite IH. reflexivity. Qed.
Lemma good_snoc : forall l n, good_digits l -> good_digits (l ++ [Z.to_nat (n mod 10)]).
Proof. intros l n H. apply Forall_app. split; [exact H|]. constructor; [|constructor]. pose proof (Z.mod_pos_bound n 10). lia. Qed.

Lemma last_spec : forall k n, 0 <= n -> exists l, last_digits k n = digits_text l /\ good_digits l /\ List.length l = k /\ dvalue l = n mod 10 ^ Z.of_nat k.
Proof.
  induction k as [|k IH]; intros n Hn.
  - exists []. repeat split; [constructor|]. cbn. rewrite Z.mod_1_r. reflexivity.
  - destruct (IH (n / 10) ltac:(apply Z.div_pos; lia)) as (l & E & G & L & V). exists (l ++ [Z.to_nat (n mod 10)]). cbn [last_digits]. rewrite digits_snoc, E. split; [reflexivity|].
    split; [apply good_snoc, G|]. split; [rewrite app_length; cbn; lia|]. rewrite dvalue_snoc, V. pose proof (Z.mod_pos_bound n 10 ltac:(lia)). rewrite Z2Nat.id by lia.
    replace (10 ^ Z.of_nat (S k)) with (10 * 10 ^ Z.of_nat k) by (rewrite Nat2Z.inj_succ, Z.pow_succ_r by lia; lia).
    rewrite Z.rem_mul_r by (try apply Z.pow_pos_nonneg; lia). lia.
Qed.
Lemma leading_spec : forall k n, 0 <= n < 2 ^ (Z.of_nat k + 1) -> exists l, leading k n = digits_text l /\ good_digits l /\ l <> [] /\ dvalue l = n.
Proof.
  assert (S1 : forall n, 0 <= n < 10 -> exists l, digit_text n = digits_text l /\ good_digits l /\ l <> [] /\ dvalue l = n).
  { intros n Hn. exists [Z.to_nat n]. split; [reflexivity|]. split; [constructor; [lia|constructor]|]. split; [discriminate|]. cbn. lia. }
  induction k as [|k IH]; intros n Hn; cbn [leading]; destruct (Z.ltb_spec n 10) as [L|L]; try (apply S1; lia).
  - cbn in Hn. lia.
  - destruct (IH (n / 10)) as (l & E & G & N & V).
    { split; [apply Z.div_pos; lia|]. apply Z.div_lt_upper_bound; [lia|]. replace (Z.of_nat (S k) + 1) with (Z.succ (Z.of_nat k + 1)) in Hn by lia. rewrite Z.pow_succ_r in Hn by lia. lia. }
    exists (l ++ [Z.to_nat (n mod 10)]). rewrite digits_snoc, E. split; [reflexivity|]. split; [apply good_snoc, G|]. split; [destruct l; discriminate|].
    rewrite dvalue_snoc, V. pose proof (Z.mod_pos_bound n 10 ltac:(lia)). rewrite Z2Nat.id by lia. pose proof (Z.div_mod n 10). lia.
Qed.
Lemma print_nat_spec : forall n, 0 <= n -> exists l, print_nat n = digits_text l /\ good_digits l /\ l <> [] /\ dvalue l = n.
Proof.
  intros n Hn. apply leading_spec. split; [exact Hn|]. rewrite Z2Nat.id by apply Z.log2_nonneg. destruct (Z.eq_dec n 0) as [->|N]; [cbn; lia|]. apply Z.log2_spec. lia.
Qed.

Lemma whole_is : forall l, whole l = IZR (dvalue l).
Proof. intro l. unfold dvalue. rewrite fold_whole. reflexivity. Qed.
Lemma fraction_is : forall l, (fraction l * 10 ^ List.length l)%R = IZR (dvalue l).
Proof. intro l. unfold dvalue. rewrite fold_whole, fold_frac. ring. Qed.

(** ** Integers *)
Lemma print_int_spec : forall z, integer z (print_int z).
Proof.
  intro z. unfold print_int. destruct (Z.ltb_spec z 0) as [L|L].
  - destruct (print_nat_spec (- z) ltac:(lia)) as (l & E & G & N & V). exists (mkNum (Some true) l None None false). split; [repeat split; auto|]. split; [reflexivity|]. split; [reflexivity|].
    split; [rewrite E; unfold text; cbn; rewrite app_nil; reflexivity|]. unfold value. cbn [nu_sign nu_int nu_frac nu_exp signed]. rewrite whole_is, V, opp_IZR. ring.
  - destruct (print_nat_spec z L) as (l & E & G & N & V). exists (mkNum None l None None false). split; [repeat split; auto|]. split; [reflexivity|]. split; [reflexivity|].
    split; [rewrite E; unfold text; cbn; rewrite app_nil; reflexivity|]. unfold value. cbn [nu_sign nu_int nu_frac nu_exp signed]. rewrite whole_is, V. ring.
Qed.

(** ** Numbers *)
Lemma nearest_close : forall x, (Rabs (IZR (nearest x) - x) <= 1 / 2)%R.
Proof.
  intro x. unfold nearest. destruct (base_Int_part x) as [A B]. destruct (total_order_T _ _) as [[C|C]|C].
  - rewrite Rabs_left1; lra.
  - destruct (Z.even _); [rewrite Rabs_left1|rewrite plus_IZR, Rabs_right]; lra.
  - rewrite plus_IZR, Rabs_right; lra.
Qed.
Lemma nearest_pos : forall x, (0 <= x)%R -> 0 <= nearest x.
Proof.
  intros x Hx. assert (0 <= Int_part x). { destruct (base_Int_part x) as [A B]. assert (IZR (-1) < IZR (Int_part x))%R by lra. apply lt_IZR in H. lia. }
  unfold nearest. destruct (total_order_T _ _) as [[C|C]|C]; try lia. destruct (Z.even _); lia.
Qed.

Lemma blank_blanks : forall k, blanks (blank k).
Proof. induction k; cbn; auto. Qed.

Lemma fixed_body : forall p x, let n := nearest (Rabs x * IZR (10 ^ Z.of_nat p)) in
  exists nu, shows p x nu /\ ((if Rlt_dec x 0 then "-" else "") ++ print_nat (n / 10 ^ Z.of_nat p) ++ "." ++ last_digits p (n mod 10 ^ Z.of_nat p))%string = text nu.
Proof.
  intros p x n. set (P := 10 ^ Z.of_nat p) in *. assert (HP : 0 < P) by (apply Z.pow_pos_nonneg; lia). assert (HPR : IZR P = (10 ^ p)%R) by (symmetry; apply pow_IZR).
  assert (P0 : (0 < 10 ^ p)%R) by (apply pow_lt; lra). assert (Hn : 0 <= n) by (apply nearest_pos, Rmult_le_pos; [apply Rabs_pos|rewrite HPR; lra]).
  destruct (print_nat_spec (n / P) ltac:(apply Z.div_pos; lia)) as (l & E & G & N & V). pose proof (Z.mod_pos_bound n P HP) as Hm.
  destruct (last_spec p (n mod P) ltac:(lia)) as (k & E' & G' & L' & V'). fold P in V'. rewrite Z.mod_mod in V' by lia.
  exists (mkNum (if Rlt_dec x 0 then Some true else None) l (Some k) None false). split.
  - split; [repeat split; auto|]. split; [exact N|]. split; [reflexivity|]. split; [exists k; auto|]. split; [cbn [nu_sign]; destruct (Rlt_dec x 0); lra|].
    assert (VV : (whole l + fraction k = IZR n / 10 ^ p)%R).
    { pose proof (fraction_is k) as F. rewrite L', V' in F. rewrite whole_is, V. replace (fraction k) with (IZR (n mod P) / 10 ^ p)%R by (rewrite <- F; field; lra).
      rewrite (Z.div_mod n P) at 3 by lia. rewrite plus_IZR, mult_IZR, HPR. field. lra. }
    pose proof (nearest_close (Rabs x * IZR P)) as NC. fold n in NC. rewrite HPR in NC.
    assert (B : (Rabs (IZR n / 10 ^ p - Rabs x) <= / 2 * / 10 ^ p)%R).
    { replace (IZR n / 10 ^ p - Rabs x)%R with ((IZR n - Rabs x * 10 ^ p) * / 10 ^ p)%R by (field; lra). rewrite Rabs_mult, (Rabs_right (/ 10 ^ p)) by (left; apply Rinv_0_lt_compat; lra).
      apply Rmult_le_compat_r; [left; apply Rinv_0_lt_compat; lra|lra]. }
    unfold value. cbn [nu_sign nu_int nu_frac nu_exp]. destruct (Rlt_dec x 0) as [Lx|Lx]; cbn [signed].
    + rewrite (Rabs_left x Lx) in B. replace (- (whole l + fraction k) * 1 - x)%R with (- (IZR n / 10 ^ p - - x))%R by (rewrite VV; ring). rewrite Rabs_Ropp. exact B.
    + rewrite (Rabs_right x) in B by lra. replace ((whole l + fraction k) * 1 - x)%R with (IZR n / 10 ^ p - x)%R by (rewrite VV; ring). exact B.
  - rewrite E, E'. unfold text. cbn [nu_sign nu_int nu_frac nu_exp]. rewrite app_nil. destruct (Rlt_dec x 0); reflexivity.
Qed.

(** The format of data_variables.csv needs no blanks for a number. *)
Lemma wide : forall p x nu, shows p x nu -> (p + 2 <= String.length (text nu))%nat.
Proof.
  intros p x nu (_ & N & E & (l & F & L) & _ & _). assert (D : forall l, String.length (digits_text l) = List.length l) by (induction l0; cbn; auto).
  unfold text. rewrite F, !length_app, D. cbn. rewrite D. destruct (nu_int nu); [contradiction|]. cbn. lia.
Qed.
Theorem fixed_shows : forall w p x, (w <= p + 2)%nat -> exists n, shows p x n /\ print_fixed w p (Fin x) = text n.
Proof.
  intros w p x H. destruct (fixed_body p x) as (n & A & B). exists n. split; [exact A|]. unfold print_fixed, pad. rewrite B. pose proof (wide _ _ _ A).
  replace (w - String.length (text n))%nat with 0%nat by lia. reflexivity.
Qed.

Theorem fixed_written : forall w p d, (w <= p + 2)%nat -> written p d (print_fixed w p d).
Proof.
  intros w p d H. destruct d as [x| | |]; [apply fixed_shows, H|..]; (eexists; split; [apply blank_blanks|reflexivity]).
Qed.

(** ** Reading the numbers again *)
Lemma skip_blanks : forall b t, blanks b -> skip_space (b ++ t) = skip_space t.
Proof.
  induction b as [|c b IH]; intros t H; [reflexivity|]. destruct H as [C H]. cbn [append skip_space]. replace (is_space c) with true; [apply IH, H|]. symmetry. destruct C as [-> | ->]; reflexivity.
Qed.
Section Read.
Context {fp : Fp}.
Theorem written_read : forall p d s, written p d s ->
  match d with
  | Fin x => exists v, (Rabs (v - x) <= / 2 * / 10 ^ p)%R /\ stod s = match rnd v with Fin y => Ok (Fin y) | _ => Stop Throw end
  | _ => stod s = Ok d
  end.
Proof.
  intros p d s H. destruct d as [x| | |].
  - destruct H as (n & (G & _ & _ & _ & _ & C) & ->). exists (value n). split; [exact C|]. apply stod_text, G.
  - destruct H as (b & HB & ->). unfold stod. rewrite skip_blanks by exact HB. reflexivity.
  - destruct H as (b & HB & ->). unfold stod. rewrite skip_blanks by exact HB. reflexivity.
  - destruct H as (b & HB & ->). unfold stod. rewrite skip_blanks by exact HB. reflexivity.
Qed.
End Read.

(** ** Characters of the text *)
Definition plain (c : ascii) : Prop := digit c = None /\ c <> "."%char /\ c <> "-"%char /\ c <> " "%char /\ c <> "i"%char /\ c <> "n"%char /\ c <> "f"%char /\ c <> "a"%char.
Lemma digits_free : forall c l, good_digits l -> digit c = None -> free_of c (digits_text l).
Proof.
  intros c l G H. induction G as [|d l Hd G IH]; [exact Logic.I|]. cbn [digits_text free_of]. split; [|exact IH]. intro E. subst c. rewrite digit_char in H by exact Hd. discriminate.
Qed.
Lemma print_nat_free : forall c n, 0 <= n -> digit c = None -> free_of c (print_nat n).
Proof. intros c n Hn H. destruct (print_nat_spec n Hn) as (l & -> & G & _). apply digits_free; assumption. Qed.
Lemma print_int_free : forall c z, plain c -> free_of c (print_int z).
Proof.
  intros c z (A & _ & B & _). unfold print_int. destruct (Z.ltb_spec z 0); [|apply print_nat_free; [lia|exact A]]. split; [congruence|]. apply print_nat_free; [lia|exact A].
Qed.
Lemma blank_free : forall c k, c <> " "%char -> free_of c (blank k).
Proof. induction k; cbn; [auto|]. intuition congruence. Qed.
Lemma fixed_free : forall c w p d, plain c -> free_of c (print_fixed w p d).
Proof.
  intros c w p d (A & B & C & D1 & E & F & G & H). unfold print_fixed, pad. apply free_app; [apply blank_free; exact D1|]. destruct d as [x| | |]; [|cbn; intuition congruence..].
  assert (Hn : 0 <= nearest (Rabs x * IZR (10 ^ Z.of_nat p))) by (apply nearest_pos, Rmult_le_pos; [apply Rabs_pos|apply IZR_le, Z.pow_nonneg; lia]).
  assert (HP : 0 < 10 ^ Z.of_nat p) by (apply Z.pow_pos_nonneg; lia). set (n := nearest _) in *.
  apply free_app; [destruct (Rlt_dec x 0); cbn; intuition congruence|]. apply free_app; [apply print_nat_free; [apply Z.div_pos; lia|exact A]|].
  split; [congruence|]. cbn [append]. destruct (last_spec p (n mod 10 ^ Z.of_nat p)) as (l & -> & G' & _); [apply Z.mod_pos_bound; lia|]. apply digits_free; assumption.
Qed.
Lemma plain_chars : plain "," /\ plain newline /\ plain "|" /\ plain ")".
Proof. repeat split; try discriminate. Qed.
Lemma fixed_not_empty : forall w p d, print_fixed w p d <> "".
Proof.
  intros w p d. unfold print_fixed, pad. intro E. apply (f_equal String.length) in E. rewrite length_app in E. cbn [String.length] in E.
  destruct d as [x| | |]; try (cbn in E; lia). rewrite !length_app in E. cbn in E. lia.
Qed.

(** ** data_variables.csv *)
Lemma cstring_is : forall s, cstring s = before_nul s.
Proof. induction s as [|c s IH]; [reflexivity|]. cbn. rewrite IH. reflexivity. Qed.
Lemma before_free : forall c s, free_of c s -> free_of c (before_nul s).
Proof. induction s as [|a s IH]; intro H; [exact Logic.I|]. cbn. destruct (Ascii.eqb _ _); [exact Logic.I|]. destruct H. split; auto. Qed.

Lemma items_text : forall l, l <> [] -> Forall (fun i => exists d, i = D d) l ->
  exists fs, print_items l = Ok (csv fs ++ feed)%string /\ Forall2 (fun v f => exists d, v = D d /\ written 15 d f) l fs /\ Forall (fun c => free_of "," c /\ free_of newline c) fs /\ last fs "" <> "" /\ fs <> [].
Proof.
  induction l as [|i l IH]; intros N F; [contradiction|]. inversion_clear F as [|? ? [d ->] F']. cbn [print_items print_item bind].
  destruct plain_chars as (P1 & P2 & _).
  assert (FR : free_of "," (print_fixed 6 15 d) /\ free_of newline (print_fixed 6 15 d)) by (split; apply fixed_free; assumption).
  destruct l as [|j l].
  - exists [print_fixed 6 15 d]. split; [reflexivity|]. split; [constructor; [|constructor]; exists d; split; [reflexivity|apply fixed_written; lia]|]. split; [constructor; [exact FR|constructor]|].
    split; [apply fixed_not_empty|discriminate].
  - destruct (IH ltac:(discriminate) F') as (fs & E & W & FF & LL & NN). rewrite E. cbn [bind]. exists (print_fixed 6 15 d :: fs). destruct fs as [|g fs]; [contradiction|].
    split; [|split; [constructor; [exists d; split; [reflexivity|apply fixed_written; lia]|exact W]|split; [constructor; assumption|split; [exact LL|discriminate]]]].
    unfold csv. cbn [String.concat]. rewrite !app_assoc_s. reflexivity.
Qed.
Lemma last_cons : forall (a : string) l x y, l <> [] -> last (a :: l) x = last l y.
Proof. intros a l x y H. destruct l as [|b l]; [contradiction|]. clear H. cbn [last]. revert b. induction l as [|c l IH]; intro b; [reflexivity|]. apply IH. Qed.
Lemma rows_text : forall rs, Forall (fun r => w_vars r <> [] /\ Forall (fun i => exists d, i = D d) (w_vars r) /\ free_of "," (w_time r) /\ free_of newline (w_time r)) rs ->
  exists cs, print_rows rs = Ok (file_of (map csv cs)) /\ Forall2 data_cells rs cs.
Proof.
  induction 1 as [|r rs (N & F & T1 & T2) H IH]; [exists []; split; [reflexivity|constructor]|]. destruct IH as (cs & E & W). destruct (items_text _ N F) as (fs & E1 & W1 & F1 & L1 & N1).
  exists ((before_nul (w_time r) :: fs) :: cs). cbn [print_rows]. unfold print_row. rewrite E1, E. cbn [bind]. split.
  - rewrite cstring_is. destruct fs as [|g fs]; [contradiction|]. cbn [map file_of]. unfold csv. cbn [String.concat]. rewrite !app_assoc_s. reflexivity.
  - constructor; [|exact W]. exists fs. split; [reflexivity|]. split; [|exact W1]. split; [constructor; [split; apply before_free; assumption|exact F1]|]. rewrite (last_cons _ _ _ "") by exact N1. exact L1.
Qed.
Lemma names_text : (print_names column_names = csv column_names ++ feed)%string.
Proof. reflexivity. Qed.
Theorem data_text : forall rs, Forall (fun r => w_vars r <> [] /\ Forall (fun i => exists d, i = D d) (w_vars r) /\ free_of "," (w_time r) /\ free_of newline (w_time r)) rs ->
  exists cs, data_variables rs = Ok (file_of (map csv (("Time" :: column_names) :: cs))) /\ Forall2 data_cells rs cs.
Proof.
  intros rs H. destruct (rows_text rs H) as (cs & E & W). exists cs. split; [|exact W]. unfold data_variables. rewrite E. cbn [bind]. rewrite names_text. f_equal.
Qed.

(** ** Times *)
Lemma getline_free : forall c st l st' old, free_of c old -> getline c old st = (l, st') -> free_of c l.
Proof.
  intros c st l st' old HO H. unfold getline in H. destruct (sm_eof st || sm_fail st)%bool; [injection H as <- _; exact HO|]. destruct (find c (sm_rest st)) as [i|] eqn:Ef.
  - injection H as <- _. destruct (find_split _ _ _ Ef) as (a & b & -> & Fa & <-). rewrite take_app. exact Fa.
  - injection H as <- _. apply find_free. exact Ef.
Qed.
Lemma getline_sub : forall c x st l st' old, free_of x old -> free_of x (sm_rest st) -> getline c old st = (l, st') -> free_of x l /\ free_of x (sm_rest st').
Proof.
  intros c x st l st' old HO HS H. unfold getline in H. destruct (sm_eof st || sm_fail st)%bool; [injection H as <- <-; auto|]. destruct (find c (sm_rest st)) as [i|] eqn:Ef.
  - injection H as <- <-. destruct (find_split _ _ _ Ef) as (a & b & E & _ & <-). rewrite E in *. rewrite take_app. apply free_app_inv in HS as [HA HB]. destruct HB as [_ HB]. split; [exact HA|].
    change (free_of x (drop (S (String.length a)) (a ++ String c b))). replace (S (String.length a)) with (String.length a + 1)%nat by lia. rewrite drop_app. exact HB.
  - injection H as <- <-. split; [exact HS|exact Logic.I].
Qed.
Definition cell_ok (t : string) : Prop := free_of "," t /\ free_of newline t.
Lemma cells_ok : forall k old st, cell_ok old -> free_of newline (sm_rest st) -> Forall cell_ok (cells k old st).
Proof.
  induction k as [|k IH]; intros old st [H1 H2] H; [constructor|]. cbn [cells]. destruct (getline "," old st) as [c st'] eqn:E. destruct (sm_fail st'); [constructor|].
  destruct (getline_sub _ _ _ _ _ _ H2 H E) as [A B]. assert (C : cell_ok c) by (split; [exact (getline_free _ _ _ _ _ H1 E)|exact A]). constructor; [exact C|]. apply IH; assumption.
Qed.
Section Times.
Context {fp : Fp}.
Lemma push_ok : forall cs f g, Forall cell_ok cs -> Forall cell_ok (fo_time f) -> push_cells cs f = Ok g -> Forall cell_ok (fo_time g).
Proof.
  intros cs f g HC HF H.
  assert (G : forall t, cell_ok t -> Forall cell_ok (fo_time f ++ [t])) by (intros t Ht; apply Forall_app; split; [exact HF|repeat constructor; apply Ht]).
  destruct cs as [|t [|p [|e cs]]]; cbn [push_cells] in H.
  - apply Ok_inj in H. subst g. exact HF.
  - apply Ok_inj in H. subst g. apply G. inversion HC; assumption.
  - bind_inv H x Ex. apply Ok_inj in H. subst g. apply G. inversion HC; assumption.
  - bind_inv H x Ex. bind_inv H y Ey. apply Ok_inj in H. subst g. apply G. inversion HC; assumption.
Qed.
Lemma loop_ok : forall k line st f g, free_of newline line -> Forall cell_ok (fo_time f) -> read_loop k line st f = Ok g -> Forall cell_ok (fo_time g).
Proof.
  induction k as [|k IH]; intros line st f g HL HF H; cbn [read_loop] in H; destruct (sm_fail st); try discriminate; try (apply Ok_inj in H; subst g; exact HF).
  destruct (getline newline line st) as [l st'] eqn:E. pose proof (getline_free _ _ _ _ _ HL E) as L. bind_inv H f1 Ef. apply (IH l st' f1 g L); [|exact H].
  refine (push_ok _ _ _ _ HF Ef). apply cells_ok; [split; exact Logic.I|exact L].
Qed.
Theorem times_ok : forall texts lines f, ReadForcingData texts lines = Ok f -> Forall cell_ok (fo_time f).
Proof.
  intros texts lines f H. unfold ReadForcingData in H. destruct (forcing_file lines); [|discriminate]. destruct (texts s); [|discriminate]. unfold read_text in H.
  destruct (getline newline "" (opened s0)) as [l st] eqn:E. refine (loop_ok _ _ _ _ _ _ _ H); [exact (getline_free newline (opened s0) l st "" Logic.I E)|constructor].
Qed.
End Times.

(** ** The files of a run *)
Section Run.
Context {fp : Fp} {cfg : Cfg}.
Lemma driven_rows : forall s ps rs s', driven s ps rs s' -> Forall (fun p => cell_ok (fst (fst p))) ps ->
  Forall (fun r => w_vars r <> [] /\ Forall (fun i => exists d, i = D d) (w_vars r) /\ free_of "," (w_time r) /\ free_of newline (w_time r)) rs.
Proof.
  induction 1 as [|s t p e s1 b ps rs s2 U So H IH]; intro F; [constructor|]. inversion_clear F as [|? ? [F1 F2] F']. constructor; [|apply IH, F'].
  cbn [w_vars w_time]. split; [discriminate|]. split; [|auto]. apply Forall_forall. intros i Hi. apply in_map_iff in Hi as (d & <- & _). exists d. reflexivity.
Qed.
Theorem run_rows : forall files texts junk ls res, simulate files texts junk ls = Ok res ->
  Forall (fun r => w_vars r <> [] /\ Forall (fun i => exists d, i = D d) (w_vars r) /\ free_of "," (w_time r) /\ free_of newline (w_time r)) (rs_rows res).
Proof.
  intros files texts junk ls res H. destruct (simulate_inv _ _ _ _ _ H) as (s & f & n & _ & Ef & _ & _ & DR & _). refine (driven_rows _ _ _ _ DR _).
  pose proof (times_ok _ _ _ Ef) as T. rewrite Forall_forall in T. apply Forall_forall. intros [[t p] e] Hi. unfold first_steps in Hi.
  assert (Hi' : In (t, p, e) (combine (combine (fo_time f) (fo_precip f)) (fo_pet f))) by (rewrite <- (firstn_skipn (Z.to_nat n)); apply in_or_app; left; exact Hi).
  apply in_combine_l, in_combine_l in Hi'. apply T. exact Hi'.
Qed.
Theorem run_data : forall files texts junk ls res, simulate files texts junk ls = Ok res ->
  exists cs, data_variables (rs_rows res) = Ok (file_of (map csv (("Time" :: column_names) :: cs))) /\ Forall2 data_cells (rs_rows res) cs /\ Forall (fun c => line_cells (csv c) = c) cs.
Proof.
  intros files texts junk ls res H. destruct (data_text _ (run_rows _ _ _ _ _ H)) as (cs & E & W). exists cs. split; [exact E|]. split; [exact W|].
  clear E. induction W as [|r c rs cs (fs & _ & G & _) W IH]; constructor; [apply line_cells_csv, G|exact IH].
Qed.

(** ** data_layers.csv *)
Lemma front_printed : forall f, front_text f (print_front f).
Proof.
  intro f. exists [print_fixed 0 6 (f_depth f * lit 10)%d; print_fixed 0 6 (f_theta f); print_int (f_layer f); print_int (f_num f); print_fixed 0 6 (f_psi f * lit 10)%d].
  destruct plain_chars as (P1 & P2 & P3 & P4). split; [unfold print_front, csv; cbn [String.concat]; rewrite !app_assoc_s; reflexivity|]. split.
  - repeat (apply Forall_cons || apply Forall_nil); repeat split; (apply fixed_free || apply print_int_free); assumption.
  - repeat split; ((apply fixed_written; lia) || apply print_int_spec).
Qed.
Lemma front_newline : forall f, free_of newline (print_front f).
Proof.
  intro f. destruct plain_chars as (_ & P & _). unfold print_front.
  repeat (apply free_app; [first [apply fixed_free, P|apply print_int_free, P|cbn; split; [discriminate|exact Logic.I]]|]). cbn. split; [discriminate|exact Logic.I].
Qed.
Lemma fronts_printed : forall l, exists ts, Forall2 front_text l ts /\ print_fronts true l = String.concat "|" ts /\ free_of newline (String.concat "|" ts).
Proof.
  intro l. exists (map print_front l). split; [induction l; constructor; [apply front_printed|assumption]|].
  assert (G : forall f l, (print_front f ++ print_fronts false l)%string = String.concat "|" (map print_front (f :: l))).
  { intros f r. revert f. induction r as [|g r IH]; intro f; [cbn [map String.concat print_fronts]; apply app_nil|]. change (print_fronts false (g :: r)) with ("|" ++ (print_front g ++ print_fronts false r))%string. rewrite IH. reflexivity. }
  split; [destruct l as [|f l]; [reflexivity|apply G]|]. induction l as [|f l IH]; [exact Logic.I|]. cbn [map String.concat]. destruct l as [|g l]; [apply front_newline|].
  cbn [map]. apply free_app; [apply front_newline|]. apply free_app; [split; [discriminate|exact Logic.I]|exact IH].
Qed.
Theorem layers_text : forall rs i, Forall (fun r => free_of newline (w_time r)) rs ->
  exists ls, print_layers i rs = file_of (concat (map (fun p => [fst p; snd p]) ls)) /\ List.length ls = List.length rs /\ Forall (fun p => free_of newline (fst p) /\ free_of newline (snd p)) ls /\
    forall k r p, nth_error rs k = Some r -> nth_error ls k = Some p -> layer_lines (i + Z.of_nat k) r (fst p) (snd p).
Proof.
  induction rs as [|r rs IH]; intros i F.
  - exists []. split; [reflexivity|]. split; [reflexivity|]. split; [constructor|]. intros [|k] ? ? E; discriminate.
  - inversion_clear F as [|? ? F1 F2]. destruct (IH (i + 1) F2) as (ls & E & L & FN & H). destruct (fronts_printed (w_fronts r)) as (ts & T1 & T2 & T3).
    set (l1 := ("# Timestep = " ++ print_int i ++ ", " ++ before_nul (w_time r) ++ " ")%string). set (l2 := ("[" ++ String.concat "|" ts ++ "]")%string).
    exists ((l1, l2) :: ls). split; [|split; [cbn; congruence|split]].
    + cbn [map concat List.app fst snd file_of print_layers]. rewrite <- E. unfold write_state, l1, l2. rewrite T2, cstring_is, !app_assoc_s. reflexivity.
    + constructor; [|exact FN]. cbn [fst snd]. destruct plain_chars as (_ & P & _). unfold l1, l2. split.
      * apply free_app; [cbn; repeat split; discriminate|]. apply free_app; [apply print_int_free, P|]. apply free_app; [cbn; repeat split; discriminate|]. apply free_app; [apply before_free, F1|]. cbn. repeat split; discriminate.
      * apply free_app; [cbn; repeat split; discriminate|]. apply free_app; [exact T3|]. cbn. repeat split; discriminate.
    + intros [|k] r' p' E1 E2.
      * injection E1 as <-. injection E2 as <-. cbn [fst snd]. replace (i + Z.of_nat 0) with i by lia. split; [exists (print_int i); split; [apply print_int_spec|reflexivity]|]. exists ts. auto.
      * replace (i + Z.of_nat (S k)) with (i + 1 + Z.of_nat k) by lia. apply H; assumption.
Qed.
Theorem run_layers : forall files texts junk ls res, simulate files texts junk ls = Ok res ->
  exists lines, data_layers (rs_rows res) = file_of (concat (map (fun p => [fst p; snd p]) lines)) /\ List.length lines = List.length (rs_rows res) /\
    Forall (fun p => free_of newline (fst p) /\ free_of newline (snd p)) lines /\
    forall k r p, nth_error (rs_rows res) k = Some r -> nth_error lines k = Some p -> layer_lines (Z.of_nat k) r (fst p) (snd p).
Proof.
  intros files texts junk ls res H. apply (layers_text (rs_rows res) 0). eapply Forall_impl; [|exact (run_rows _ _ _ _ _ H)]. cbn. intros r (_ & _ & _ & F). exact F.
Qed.
End Run.

(** ** Sums *)
Lemma abs_between : forall a b, (Rabs a <= b)%R -> (- b <= a <= b)%R.
Proof. intros a b H. pose proof (RRle_abs a). pose proof (RRle_abs (- a)). rewrite Rabs_Ropp in *. lra. Qed.
Lemma same_length : forall A B (P : A -> B -> Prop) l k, Forall2 P l k -> List.length l = List.length k.
Proof. induction 1; cbn; congruence. Qed.
Definition half : R := (/ 2 * / 10 ^ 15)%R.
Lemma cell_value : forall r c k x, data_cells r c -> nth_error (w_vars r) k = Some (D (Fin x)) -> exists n, nth_error c (S k) = Some (text n) /\ good_numeral n /\ (Rabs (value n - x) <= half)%R.
Proof.
  intros r c k x (fs & -> & _ & F) H. cbn [nth_error]. revert k H. induction F as [|v f vs fs (d & -> & W) F IH]; intros [|k] H; try discriminate; [|apply IH, H].
  cbn in H. injection H as ->. destruct W as (n & (G & _ & _ & _ & _ & C) & ->). exists n. auto.
Qed.
Lemma text_sums : forall k rs cs x, Forall2 data_cells rs cs -> sums_to k rs x -> exists y, text_sums_to k cs y /\ (Rabs (y - x) <= INR (List.length rs) * half)%R.
Proof.
  intros k rs cs x W. revert x. induction W as [|r c rs cs Wr W IH]; intros x (xs & E & S1).
  - destruct xs; [|discriminate]. exists 0%R. split; [exists []; repeat split; constructor|]. cbn in S1 |- *. subst x. rewrite Rminus_eq_0, Rabs_R0. lra.
  - destruct xs as [|v xs]; [discriminate|]. unfold column in E. cbn [map] in E. injection E as E1 E2. cbn [Rsum] in S1.
    destruct (IH (Rsum xs) (ex_intro _ xs (conj E2 eq_refl))) as (y & (ns & A & B & C) & D1). destruct (cell_value _ _ _ _ Wr E1) as (n & N1 & N2 & N3).
    exists (value n + y)%R. split.
    + exists (n :: ns). cbn [map]. rewrite N1, A. split; [reflexivity|]. split; [constructor; assumption|]. cbn [Rsum]. rewrite C. reflexivity.
    + cbn [List.length]. rewrite S_INR. subst x. replace (value n + y - (v + Rsum xs))%R with ((value n - v) + (y - Rsum xs))%R by ring. pose proof (Rabs_triang (value n - v) (y - Rsum xs)). lra.
Qed.
Lemma text_last : forall rs cs x, Forall2 data_cells rs cs -> last_storage rs x -> exists y, text_storage cs y /\ (Rabs (y - x) <= half)%R.
Proof.
  intros rs cs x W (r0 & r & -> & E). apply Forall2_app_inv_l in W as (c0 & c1 & _ & W & ->). inversion_clear W as [|? c ? ? W1 W2]. inversion_clear W2.
  destruct (cell_value _ _ _ _ W1 E) as (n & A & B & C). exists (value n). split; [exists c0, c, n; auto|exact C].
Qed.
Section Balance.
Context {cfg : Cfg}.
Local Existing Instance exact.
Theorem text_balance : forall files texts junk ls ts types gs psi dt fres max rows res g, good_config files ls ts types gs psi dt fres max rows ->
  simulate files texts junk ls = Ok res -> rs_rows res <> [] -> rs_printed res = Fin g ->
  exists cs s V0 P Ro A Rc V W C, data_variables (rs_rows res) = Ok (file_of (map csv (("Time" :: column_names) :: cs))) /\ Forall (fun c => line_cells (csv c) = c) cs /\
    Initialize files junk ls = Ok s /\ lgar_calc_mass_bal (p_cum (st_p s)) (st_head s) = Ok (Fin V0) /\
    text_sums_to 0 cs P /\ text_sums_to 3 cs Ro /\ text_sums_to 2 cs A /\ text_sums_to 8 cs Rc /\ text_storage cs V /\
    mb_on (st_mb (ob_s (rs_obj res))) = Fin W /\ mb_calib (st_mb (ob_s (rs_obj res))) = Fin C /\
    (Rabs (V0 / 100 + P - Ro - A - Rc - V - W / 100 + C / 100 - g / 100) <= (4 * INR (List.length cs) + 1) * (/ 2 * / 10 ^ 15))%R.
Proof.
  intros files texts junk ls ts types gs psi dt fres max rows res g G H N Hg. destruct (run_data _ _ _ _ _ H) as (cs & E & W & L).
  destruct (program_balance _ _ _ _ _ _ _ _ _ _ _ _ _ _ G H N Hg) as (s & V0 & P & Ro & A & Rc & V & Wt & C & I0 & I1 & S0 & S3 & S2 & S8 & SL & HW & HC & EQ).
  destruct (text_sums _ _ _ _ W S0) as (P' & T0 & D0). destruct (text_sums _ _ _ _ W S3) as (Ro' & T3 & D3). destruct (text_sums _ _ _ _ W S2) as (A' & T2 & D2).
  destruct (text_sums _ _ _ _ W S8) as (Rc' & T8 & D8). destruct (text_last _ _ _ W SL) as (V' & TL & DL). rewrite (same_length _ _ _ _ _ W) in *.
  exists cs, s, V0, P', Ro', A', Rc', V', Wt, C. repeat (split; [assumption|]). fold half. set (m := (INR (List.length cs) * half)%R) in *.
  replace ((4 * INR (List.length cs) + 1) * half)%R with (4 * m + half)%R by (unfold m; ring). rewrite <- EQ.
  apply abs_between in D0, D3, D2, D8, DL. apply Rabs_le. lra.
Qed.
End Balance.
