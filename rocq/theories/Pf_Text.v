(** Strings, numerals and lists of numbers. *)

From Coq Require Import String Ascii Reals Lra ZArith List Bool Lia.
From Verif Require Import Outcome Dbl Types State Config Lib Spec_Common Spec_Config.
Import ListNotations.
Open Scope string_scope.
Open Scope list_scope.

Lemma app_nil : forall s, (s ++ "")%string = s.
Proof. induction s as [|a s IH]; [reflexivity|]. cbn. rewrite IH. reflexivity. Qed.
Lemma app_assoc_s : forall a b c, ((a ++ b) ++ c)%string = (a ++ b ++ c)%string.
Proof. induction a as [|x a IH]; intros b c; [reflexivity|]. cbn. rewrite IH. reflexivity. Qed.

Lemma find_free : forall c s, free_of c s <-> find c s = None.
Proof.
  intros c. induction s as [|a s IH]; cbn; [tauto|]. destruct (Ascii.eqb_spec a c) as [->|N].
  - split; [intros [H _]; contradiction|discriminate].
  - destruct (find c s); cbn; split; try discriminate; try tauto. intros [_ H]. apply IH in H. discriminate.
Qed.
Lemma find_app : forall c a b, free_of c a -> find c (a ++ b) = option_map (plus (String.length a)) (find c b).
Proof.
  intros c. induction a as [|x a IH]; intros b F; cbn.
  - destruct (find c b); reflexivity.
  - destruct F as [F1 F2]. destruct (Ascii.eqb_spec x c); [contradiction|]. rewrite IH by assumption. destruct (find c b); reflexivity.
Qed.
Lemma find_here : forall c a b, free_of c a -> find c (a ++ String c b) = Some (String.length a).
Proof. intros. rewrite find_app by assumption. cbn. rewrite Ascii.eqb_refl. cbn. f_equal. lia. Qed.
Lemma find_split : forall c s i, find c s = Some i -> exists a b, s = (a ++ String c b)%string /\ free_of c a /\ String.length a = i.
Proof.
  intros c. induction s as [|x s IH]; intros i H; [discriminate|]. cbn in H. destruct (Ascii.eqb_spec x c) as [->|N].
  - injection H as <-. exists "", s. cbn. auto.
  - destruct (find c s) as [j|] eqn:E; [|discriminate]. injection H as <-. destruct (IH j eq_refl) as (a & b & -> & F & L).
    exists (String x a), b. cbn. rewrite L. auto.
Qed.
Lemma take_app : forall a b, take (String.length a) (a ++ b) = a.
Proof. induction a as [|x a IH]; intro b; [destruct b; reflexivity|]. cbn. rewrite IH. reflexivity. Qed.
Lemma take_more : forall a b k, take (String.length a + k) (a ++ b) = (a ++ take k b)%string.
Proof. induction a as [|x a IH]; intros b k; [reflexivity|]. cbn. rewrite IH. reflexivity. Qed.
Lemma take_all : forall a k, (String.length a <= k)%nat -> take k a = a.
Proof. induction a as [|x a IH]; intros [|k] H; cbn in *; try reflexivity; try lia. rewrite IH by lia. reflexivity. Qed.
Lemma drop_app : forall a b k, drop (String.length a + k) (a ++ b) = drop k b.
Proof. induction a as [|x a IH]; intros b k; [reflexivity|]. apply IH. Qed.
Lemma drop_len : forall a b, drop (String.length a) (a ++ b) = b.
Proof. intros. rewrite <- (Nat.add_0_r (String.length a)), drop_app. reflexivity. Qed.
Lemma length_app : forall a b, String.length (a ++ b) = (String.length a + String.length b)%nat.
Proof. induction a as [|x a IH]; intro b; [reflexivity|]. cbn. rewrite IH. reflexivity. Qed.
Lemma free_app : forall c a b, free_of c a -> free_of c b -> free_of c (a ++ b).
Proof. intros c. induction a as [|x a IH]; cbn; intros b Ha Hb; [assumption|]. destruct Ha. auto. Qed.
Lemma free_app_inv : forall c a b, free_of c (a ++ b) -> free_of c a /\ free_of c b.
Proof. intros c. induction a as [|x a IH]; cbn; intros b H; [auto|]. destruct H as [H1 H2]. apply IH in H2 as [H2 H3]. auto. Qed.

(** ** Lines *)

Lemma line_key_sets : forall k l, free_of "=" k -> (line_key l = k <-> line_sets k l).
Proof.
  intros k l F. unfold line_key, line_sets. split.
  - destruct (find "=" l) as [i|] eqn:E.
    + destruct (find_split _ _ _ E) as (a & b & -> & Fa & <-). rewrite take_app. intros <-. right. exists b. reflexivity.
    + intros ->. auto.
  - intros [->|[r ->]].
    + rewrite (proj1 (find_free _ _) F). reflexivity.
    + cbn. rewrite find_here by assumption. apply take_app.
Qed.
Lemma line_value_plain : forall k v, free_of "=" k -> free_of "[" k -> free_of "[" v -> line_value (k ++ "=" ++ v) = v.
Proof.
  intros k v Fk Fk' Fv. unfold line_value. cbn [append]. rewrite find_here by assumption.
  assert (F : find "[" (k ++ String "=" v) = None). { apply find_free. apply free_app; [assumption|]. cbn. split; [discriminate|assumption]. }
  rewrite F. replace (S (String.length k)) with (String.length k + 1)%nat by lia. rewrite drop_app. reflexivity.
Qed.
Lemma line_value_unit : forall k v u, free_of "=" k -> free_of "[" k -> free_of "[" v -> line_value (k ++ "=" ++ v ++ "[" ++ u) = v.
Proof.
  intros k v u Fk Fk' Fv. unfold line_value. cbn [append]. rewrite find_here by assumption.
  rewrite find_app by assumption.
  assert (F : find "[" (String "=" (v ++ String "[" u)) = Some (S (String.length v))). { cbn. rewrite find_here by assumption. reflexivity. }
  rewrite F. cbn [option_map]. destruct (Nat.ltb_spec (String.length k + S (String.length v)) (S (String.length k))); [lia|].
  replace (S (String.length k)) with (String.length k + 1)%nat by lia. rewrite drop_app. cbn [drop].
  replace (String.length k + S (String.length v) - (String.length k + 1))%nat with (String.length v) by lia. apply take_app.
Qed.
Lemma line_unit_none : forall l, free_of "[" l -> line_unit l = "".
Proof. intros l F. unfold line_unit. rewrite (proj1 (find_free _ _) F). reflexivity. Qed.
(** The unit starts at the bracket and goes on, behind the closing bracket, for as many characters as there are before the opening one. *)
Lemma line_unit_some : forall a u r, free_of "[" a -> free_of "]" a -> free_of "]" u ->
  line_unit (a ++ "[" ++ u ++ "]" ++ r) = ("[" ++ u ++ "]" ++ take (String.length a) r)%string.
Proof.
  intros a u r Fa Fa' Fu. unfold line_unit. cbn [append]. rewrite find_here by assumption. rewrite find_app by assumption.
  assert (F : find "]" (String "[" (u ++ String "]" r)) = Some (S (String.length u))). { cbn. rewrite find_here by assumption. reflexivity. }
  rewrite F. cbn [option_map]. rewrite drop_len.
  replace (S (String.length a + S (String.length u))) with (S (String.length u + S (String.length a))) by lia. cbn [take].
  rewrite take_more. cbn [take]. reflexivity.
Qed.
Lemma line_unit_open : forall a u, free_of "[" a -> free_of "]" a -> free_of "]" u -> line_unit (a ++ "[" ++ u) = "".
Proof.
  intros a u Fa Fa' Fu. unfold line_unit. cbn [append]. rewrite find_here by assumption. rewrite find_app by assumption.
  assert (F : find "]" (String "[" u) = None). { cbn. rewrite (proj1 (find_free _ _) Fu). reflexivity. }
  rewrite F. cbn [option_map]. destruct (drop _ _); reflexivity.
Qed.

(** ** Numerals *)

Lemma digit_char : forall d, (d < 10)%nat -> digit (ascii_of_nat (48 + d)) = Some (Z.of_nat d).
Proof. intros d H. do 10 (destruct d as [|d]; [reflexivity|]). lia. Qed.
Lemma sign_char : forall d r, (d < 10)%nat -> sign (String (ascii_of_nat (48 + d)) r) = (false, String (ascii_of_nat (48 + d)) r).
Proof. intros d r H. do 10 (destruct d as [|d]; [reflexivity|]). lia. Qed.

(** No digit at the start. *)
Definition no_digit (s : string) : Prop := match s with String c _ => digit c = None | EmptyString => True end.
Lemma digits_spec : forall l s acc k, Forall (fun d => (d < 10)%nat) l -> no_digit s ->
  digits (digits_text l ++ s) acc k = (fold_left (fun a d => 10 * a + Z.of_nat d)%Z l acc, (k + length l)%nat, s).
Proof.
  induction l as [|d l IH]; intros s acc k F N.
  - cbn. rewrite Nat.add_0_r. destruct s as [|c s]; [reflexivity|]. cbn in N. cbn [digits]. rewrite N. reflexivity.
  - inversion_clear F as [|? ? Hd Fl]. cbn [digits_text append digits]. rewrite digit_char by assumption. rewrite IH by assumption. cbn [fold_left length]. do 2 f_equal. lia.
Qed.

Lemma fold_whole : forall l a, IZR (fold_left (fun a d => 10 * a + Z.of_nat d)%Z l a) = fold_left (fun a d => 10 * a + INR d)%R l (IZR a).
Proof.
  induction l as [|d l IH]; intro a; [reflexivity|]. cbn [fold_left]. rewrite IH. f_equal. rewrite plus_IZR, mult_IZR, INR_IZR_INZ. reflexivity.
Qed.
Lemma fold_frac : forall l a, (fold_left (fun a d => 10 * a + INR d)%R l a = (a + fraction l) * 10 ^ length l)%R.
Proof.
  induction l as [|d l IH]; intro a; cbn [fold_left fraction length pow]; [lra|]. rewrite IH. field.
Qed.
Lemma fold_nat : forall l a, fold_left (fun a d => 10 * a + Z.of_nat d)%Z l (Z.of_nat a) = Z.of_nat (fold_left (fun a d => 10 * a + d)%nat l a).
Proof.
  induction l as [|d l IH]; intro a; [reflexivity|]. cbn [fold_left]. rewrite <- IH. f_equal. rewrite Nat2Z.inj_add, Nat2Z.inj_mul. reflexivity.
Qed.

(** What may follow a number in a line: nothing, or white space. *)
Definition stops (t : string) : Prop := match t with String c _ => is_space c = true | EmptyString => True end.
Lemma space_codes : forall c, is_space c = true -> digit c = None /\ Ascii.eqb (lower c) "e" = false /\ Ascii.eqb c "." = false.
Proof. intros [[|] [|] [|] [|] [|] [|] [|] [|]]; try (intro H; discriminate H); intro; repeat split. Qed.
Lemma stops_no_digit : forall t, stops t -> no_digit t.
Proof. intros [|c t] H; [exact I|]. apply (space_codes c H). Qed.

(** The exponent of a numeral. *)
Definition exp_text (u : bool) (e : option (option bool * list nat)) : string :=
  match e with Some (s, l) => ((if u then "E" else "e") ++ sign_text s ++ digits_text l)%string | None => "" end.
Definition exp_int (e : option (option bool * list nat)) : Z :=
  match e with
  | Some (s, l) => let k := Z.of_nat (fold_left (fun a d => 10 * a + d)%nat l 0%nat) in match s with Some true => - k | _ => k end
  | None => 0
  end%Z.
Lemma exp_spec : forall u e t, match e with Some (_, l) => Forall (fun d => (d < 10)%nat) l /\ l <> [] | None => True end -> stops t ->
  exponent (exp_text u e ++ t) = (exp_int e, t).
Proof.
  intros u [[s l]|] t H T.
  2: { cbn [exp_text append exp_int]. destruct t as [|c t]; [reflexivity|]. unfold exponent. rewrite (proj1 (proj2 (space_codes c T))). reflexivity. }
  destruct H as [F N]. unfold exp_text. rewrite !app_assoc_s.
  assert (E : sign (sign_text s ++ (digits_text l ++ t)) = (match s with Some true => true | _ => false end, digits_text l ++ t)%string).
  { destruct s as [[|]|]; [reflexivity|reflexivity|]. destruct l as [|d l]; [contradiction|]. cbn [sign_text append digits_text]. apply sign_char. inversion F; assumption. }
  assert (U : exponent ((if u then "E" else "e") ++ (sign_text s ++ (digits_text l ++ t))) =
    let '(neg, r') := sign (sign_text s ++ (digits_text l ++ t)) in
    let '(e, k, t') := digits r' 0 0 in
    match k with O => (0%Z, ((if u then "E" else "e") ++ (sign_text s ++ (digits_text l ++ t)))%string) | S _ => (if neg : bool then (- e)%Z else e, t') end)
    by (destruct u; reflexivity).
  rewrite U, E, digits_spec; [|assumption|apply stops_no_digit; assumption]. cbn [plus]. pose proof (fold_nat l 0) as FN. change (Z.of_nat 0) with 0%Z in FN. rewrite FN.
  destruct l as [|d l]; [contradiction|]. cbn [length]. unfold exp_int. destruct s as [[|]|]; reflexivity.
Qed.

(** The text of a numeral without its sign. *)
Definition body (n : numeral) : string :=
  (digits_text (nu_int n) ++ match nu_frac n with Some l => "." ++ digits_text l | None => "" end ++ exp_text (nu_upper n) (nu_exp n))%string.
Lemma text_body : forall n, text n = (sign_text (nu_sign n) ++ body n)%string.
Proof. reflexivity. Qed.

Lemma decimal_spec : forall n t, good_numeral n -> stops t ->
  decimal (body n ++ t)%string =
    Some (fold_left (fun a d => 10 * a + Z.of_nat d)%Z (match nu_frac n with Some l => l | None => [] end) (fold_left (fun a d => 10 * a + Z.of_nat d)%Z (nu_int n) 0%Z),
          (exp_int (nu_exp n) - Z.of_nat (length (match nu_frac n with Some l => l | None => [] end)))%Z, t).
Proof.
  intros [s i f e u] t (Gi & Gf & Ge & Gn) T. unfold body. cbn [nu_sign nu_int nu_frac nu_exp nu_upper] in *. unfold decimal. rewrite !app_assoc_s.
  assert (ND : no_digit (exp_text u e ++ t)).
  { destruct e as [[? ?]|]; [destruct u; reflexivity|]. apply stops_no_digit; assumption. }
  rewrite digits_spec; [|assumption|destruct f; [reflexivity|exact ND]]. cbn [plus].
  destruct f as [l|].
  - rewrite app_assoc_s. cbn [append]. change (Ascii.eqb "." ".") with true. cbv iota. rewrite digits_spec by assumption. cbn [plus].
    rewrite exp_spec by assumption. destruct (length i + length l)%nat eqn:E; [|reflexivity].
    exfalso. destruct Gn as [Gn|(d & l' & Gn)]; [destruct i; [contradiction|discriminate]|]. injection Gn as ->. cbn in E. lia.
  - cbn [append]. set (w := (exp_text u e ++ t)%string) in *.
    assert (E : (match w with EmptyString => (fold_left (fun a d => 10 * a + Z.of_nat d)%Z i 0%Z, 0%nat, w)
      | String c r1 => if Ascii.eqb c "." then digits r1 (fold_left (fun a d => 10 * a + Z.of_nat d)%Z i 0%Z) 0 else (fold_left (fun a d => 10 * a + Z.of_nat d)%Z i 0%Z, 0%nat, w) end)
      = (fold_left (fun a d => 10 * a + Z.of_nat d)%Z i 0%Z, 0%nat, w)).
    { unfold w. destruct e as [[? ?]|]; [destruct u; reflexivity|]. destruct t as [|c t]; [reflexivity|]. cbn [exp_text append]. rewrite (proj2 (proj2 (space_codes c T))). reflexivity. }
    rewrite E. unfold w. rewrite exp_spec by assumption. cbn [fold_left length]. destruct (length i + 0)%nat eqn:E'; [|reflexivity].
    exfalso. destruct Gn as [Gn|(d & l' & Gn)]; [destruct i; [contradiction|discriminate]|discriminate].
Qed.

Lemma powerRZ_int : forall e, powerRZ 10 (exp_int e) = match e with Some (s, l) => power10 s l | None => 1%R end.
Proof.
  intros [[s l]|]; [|reflexivity]. unfold exp_int, power10. set (k := fold_left _ l 0%nat). destruct s as [[|]|]; cbv zeta.
  - rewrite powerRZ_neg', <- pow_powerRZ. reflexivity.
  - rewrite <- pow_powerRZ. reflexivity.
  - rewrite <- pow_powerRZ. reflexivity.
Qed.

Lemma first_digit : forall n t, good_numeral n -> let s := (body n ++ t)%string in
  skip_space s = s /\ sign s = (false, s) /\ prefix_ci "infinity" s = false /\ prefix_ci "inf" s = false /\ prefix_ci "nan" s = false.
Proof.
  intros [sg i f e u] t (Gi & Gf & Ge & Gn). unfold body. cbn [nu_sign nu_int nu_frac nu_exp nu_upper] in *. cbv zeta.
  destruct i as [|d i].
  - destruct Gn as [Gn|(d & l' & ->)]; [contradiction|]. repeat split.
  - inversion_clear Gi as [|? ? Hd Fi]. cbn [digits_text append]. do 10 (destruct d as [|d]; [repeat split|]). lia.
Qed.

Section Fp.
Context {fp : Fp}.

(** The number that is rounded is the value of the numeral. *)
Lemma numeral_value : forall n, let l := match nu_frac n with Some l => l | None => [] end in
  ((if match nu_sign n with Some true => true | _ => false end then -1 else 1) *
      IZR (fold_left (fun a d => 10 * a + Z.of_nat d)%Z l (fold_left (fun a d => 10 * a + Z.of_nat d)%Z (nu_int n) 0%Z)) * powerRZ 10 (exp_int (nu_exp n) - Z.of_nat (length l)))%R = value n.
Proof.
  intros n l. rewrite !fold_whole, fold_frac. unfold Z.sub. rewrite powerRZ_add by lra. rewrite powerRZ_neg', <- pow_powerRZ. rewrite powerRZ_int.
  unfold value. fold (whole (nu_int n)).
  assert (F : fraction l = match nu_frac n with Some l => fraction l | None => 0%R end) by (unfold l; destruct (nu_frac n); reflexivity).
  rewrite <- F. set (p10 := match nu_exp n with Some (s, l0) => power10 s l0 | None => 1%R end).
  assert (P : (10 ^ length l <> 0)%R) by (apply pow_nonzero; lra).
  unfold signed. destruct (nu_sign n) as [[|]|]; field; assumption.
Qed.
Lemma signed_start : forall n t, good_numeral n ->
  sign (skip_space (text n ++ t)) = (match nu_sign n with Some true => true | _ => false end, body n ++ t)%string.
Proof.
  intros n t G. pose proof (first_digit n t G) as (S1 & S2 & _). rewrite text_body, app_assoc_s.
  destruct (nu_sign n) as [[|]|]; cbn [sign_text append]; [reflexivity|reflexivity|]. rewrite S1. exact S2.
Qed.

(** Reading a numeral gives its rounded value, or an exception if it is too large. *)
Lemma stod_text : forall n, good_numeral n -> stod (text n) = match rnd (value n) with Fin x => Ok (Fin x) | _ => Stop Throw end.
Proof.
  intros n G. pose proof (first_digit n "" G) as (_ & _ & _ & S3 & S4). pose proof (decimal_spec n "" G I) as D.
  pose proof (signed_start n "" G) as E. rewrite !app_nil in *.
  unfold stod. rewrite E, S3, S4, D. cbv iota. rewrite numeral_value. reflexivity.
Qed.

(** The same in a line of the soil table. *)
Lemma scan_text : forall n t, good_numeral n -> stops t -> scan_number (text n ++ t) = Some (rnd (value n), t).
Proof.
  intros n t G T. pose proof (first_digit n t G) as (_ & _ & S2 & S3 & S4). pose proof (decimal_spec n t G T) as D.
  unfold scan_number. rewrite signed_start by assumption. rewrite S2, S3, S4, D. rewrite numeral_value. reflexivity.
Qed.

(** ** Lists of numbers *)

Lemma read_concat : forall ts t k, Forall (free_of ",") (t :: ts) -> (String.length (String.concat "," (t :: ts)) <= k)%nat ->
  read_vector k (String.concat "," (t :: ts)) = each stod (t :: ts).
Proof.
  induction ts as [|t2 ts IH]; intros t k F L.
  - inversion_clear F as [|? ? Ft _]. cbn [String.concat each]. destruct k; cbn [read_vector]; rewrite (proj1 (find_free _ _) Ft); destruct (stod t); reflexivity.
  - inversion_clear F as [|? ? Ft Fr]. change (String.concat "," (t :: t2 :: ts)) with (t ++ "," ++ String.concat "," (t2 :: ts))%string in *.
    cbn [append] in *. rewrite length_app in L. cbn [String.length] in L. destruct k as [|k]; [lia|]. cbn [read_vector]. rewrite find_here by assumption.
    rewrite take_app. replace (S (String.length t)) with (String.length t + 1)%nat by lia. rewrite drop_app. cbn [drop].
    rewrite IH; [reflexivity|assumption|lia].
Qed.
Lemma ReadVector_concat : forall t ts, Forall (free_of ",") (t :: ts) -> ReadVectorData (String.concat "," (t :: ts)) = each stod (t :: ts).
Proof. intros. unfold ReadVectorData. apply read_concat; [assumption|lia]. Qed.

(** Every text is such a list. *)
Lemma split_commas : forall k s, (String.length s <= k)%nat -> exists t ts, s = String.concat "," (t :: ts) /\ Forall (free_of ",") (t :: ts).
Proof.
  induction k as [|k IH]; intros s L.
  - destruct s; [|cbn in L; lia]. exists "", []. split; [reflexivity|]. repeat constructor.
  - destruct (find "," s) as [i|] eqn:E.
    + destruct (find_split _ _ _ E) as (a & b & -> & F & _). rewrite length_app in L. cbn in L. destruct (IH b) as (t & ts & -> & G); [lia|].
      exists a, (t :: ts). split; [reflexivity|]. constructor; assumption.
    + exists s, []. split; [reflexivity|]. constructor; [apply find_free; assumption|constructor].
Qed.
Lemma ReadVector_any : forall s, exists t ts, s = String.concat "," (t :: ts) /\ Forall (free_of ",") (t :: ts) /\ ReadVectorData s = each stod (t :: ts).
Proof.
  intro s. destruct (split_commas _ s (le_n _)) as (t & ts & -> & F). exists t, ts. split; [reflexivity|]. split; [assumption|]. apply ReadVector_concat. assumption.
Qed.
End Fp.
