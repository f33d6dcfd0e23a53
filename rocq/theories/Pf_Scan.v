(** Reading the lines of a soil table. *)

From Coq Require Import String Ascii Reals ZArith List Lia Lra.
From Verif Require Import Outcome Dbl Types State Config Lib Spec_Common Spec_Config Pf_Text.
Import ListNotations.
Open Scope string_scope.
Open Scope list_scope.

Lemma blank_space : forall c, c = " "%char \/ c = ascii_of_nat 9 -> is_space c = true.
Proof. intros c [->| ->]; reflexivity. Qed.
Lemma no_space_char : forall c, nat_of_ascii c <> 32%nat -> ~ (9 <= nat_of_ascii c <= 13)%nat -> is_space c = false.
Proof.
  intros c A B. unfold is_space. cbv zeta. destruct (Nat.eqb_spec (nat_of_ascii c) 32); [contradiction|]. cbn [orb].
  destruct (Nat.leb_spec 9 (nat_of_ascii c)); [|reflexivity]. destruct (Nat.leb_spec (nat_of_ascii c) 13); [lia|reflexivity].
Qed.
Lemma skip_blanks : forall b s, blanks b -> skip_space (b ++ s) = skip_space s.
Proof. induction b as [|c b IH]; intros s B; [reflexivity|]. destruct B as [C B]. cbn [append skip_space]. rewrite blank_space by assumption. auto. Qed.
Lemma stops_blanks : forall b s, blanks b -> b <> "" -> stops (b ++ s).
Proof. intros [|c b] s B N; [contradiction|]. cbn. apply blank_space, B. Qed.
Lemma skip_all : forall b, blanks b -> skip_space b = "".
Proof. intros b B. rewrite <- (app_nil b), skip_blanks by assumption. reflexivity. Qed.
Lemma word_app : forall w t, no_space w -> stops t -> word (w ++ t) = (w, t).
Proof.
  induction w as [|c w IH]; intros t N T.
  - destruct t as [|c t]; [reflexivity|]. cbn in T |- *. rewrite T. reflexivity.
  - destruct N as (A & B & N). cbn [append word]. rewrite no_space_char by assumption. rewrite IH by assumption. reflexivity.
Qed.
Lemma skip_word : forall w t, w <> "" -> no_space w -> skip_space (w ++ t) = (w ++ t)%string.
Proof. intros [|c w] t N S; [contradiction|]. destruct S as (A & B & _). cbn [append skip_space]. rewrite no_space_char by assumption. reflexivity. Qed.

Section Fp.
Context {fp : Fp}.

Lemma scan_blanks : forall b s, blanks b -> scan_number (b ++ s) = scan_number s.
Proof. intros b s B. unfold scan_number. rewrite skip_blanks by assumption. reflexivity. Qed.
Lemma columns_stop : forall cs t, good_columns cs -> stops t -> stops (columns cs ++ t).
Proof.
  intros [|[b n] cs] t G T; [exact T|]. inversion_clear G as [|? ? (B & N & _) _]. cbn [columns]. rewrite app_assoc_s. apply stops_blanks; assumption.
Qed.
Lemma scan_columns : forall cs k t, good_columns cs -> stops t ->
  scan_numbers (length cs + k) (columns cs ++ t) = map (fun c => rnd (value (snd c))) cs ++ scan_numbers k t.
Proof.
  induction cs as [|[b n] cs IH]; intros k t G T; [reflexivity|]. inversion_clear G as [|? ? (B & N & Gn) G']. cbn [columns length plus scan_numbers map fst snd app] in *.
  rewrite !app_assoc_s, scan_blanks by assumption. rewrite scan_text; [|assumption|apply columns_stop; assumption]. rewrite IH by assumption. reflexivity.
Qed.

Lemma no_number_stops : forall t, no_number t -> stops t.
Proof.
  intros t [B|(b & c & r & -> & B & N & _)]; [destruct t as [|c t]; [exact I|]|apply stops_blanks; assumption]. cbn. apply blank_space, B.
Qed.
Lemma letter_cases : forall c, (97 <= nat_of_ascii c <= 122)%nat -> c <> "i"%char -> c <> "n"%char ->
  is_space c = false /\ digit c = None /\ Ascii.eqb c "-" = false /\ Ascii.eqb c "+" = false /\ Ascii.eqb c "." = false /\
  Ascii.eqb (lower c) "i" = false /\ Ascii.eqb (lower c) "n" = false.
Proof.
  intros c H I N. rewrite <- (ascii_nat_embedding c) in *. assert (B : (nat_of_ascii c < 256)%nat) by apply nat_ascii_bounded. rewrite nat_ascii_embedding in H by assumption.
  revert H I N. generalize (nat_of_ascii c). intros n H I N.
  assert (E : exists k, n = (97 + k)%nat /\ (k < 26)%nat) by (exists (n - 97)%nat; lia). destruct E as (k & -> & L). clear H.
  do 26 (destruct k as [|k]; [try (contradiction I; reflexivity); try (contradiction N; reflexivity); repeat split|]). lia.
Qed.
Lemma scan_none : forall t, no_number t -> scan_number t = None.
Proof.
  intros t [B|(b & c & r & -> & B & N & R & I & J)].
  - unfold scan_number. rewrite skip_all by assumption. reflexivity.
  - rewrite scan_blanks by assumption. destruct (letter_cases c R I J) as (A1 & A2 & A3 & A4 & A5 & A6 & A7).
    unfold scan_number. cbn [skip_space]. rewrite A1. cbn [sign]. rewrite A3, A4. cbn [prefix_ci]. rewrite A6, A7. cbn [andb].
    unfold decimal. cbn [digits]. rewrite A2, A5. destruct (exponent (String c r)). reflexivity.
Qed.

(** A line with a name and up to five numbers. *)
Lemma scan_line : forall b nm cs t, blanks b -> nm <> "" -> no_space nm -> good_columns cs -> (length cs <= 5)%nat -> (length cs < 5 -> no_number t)%nat -> stops t ->
  sscanf_row (b ++ nm ++ columns cs ++ t) = mkRow (Some nm) (map (fun c => rnd (value (snd c))) cs).
Proof.
  intros b nm cs t B N S G L T St.
  unfold sscanf_row. rewrite skip_blanks, skip_word by assumption. rewrite word_app; [|assumption|apply columns_stop; assumption].
  destruct nm as [|c nm]; [contradiction|]. f_equal. replace 5%nat with (length cs + (5 - length cs))%nat by lia. rewrite scan_columns by assumption.
  destruct (5 - length cs)%nat eqn:E; [apply app_nil_r|]. cbn [scan_numbers]. rewrite scan_none by (apply T; lia). apply app_nil_r.
Qed.
Lemma blank_stops : forall t, blank_next t -> stops t.
Proof.
  intros [|c t] H; [exact I|]. cbn in H |- *. unfold is_space. cbv zeta. destruct H as [->|[A B]]; [reflexivity|]. apply Nat.leb_le in A, B. rewrite A, B. apply Bool.orb_true_r.
Qed.
Lemma scan_row : forall b nm cs t, blanks b -> nm <> "" -> no_space nm -> good_columns cs -> (length cs <= 5)%nat -> (length cs < 5 -> no_number t)%nat -> blank_next t ->
  sscanf_row (b ++ nm ++ columns cs ++ t) = mkRow (Some nm) (map (fun c => rnd (value (snd c))) cs).
Proof. intros. apply scan_line; try assumption. apply blank_stops. assumption. Qed.
Lemma scan_blank : forall b, blanks b -> sscanf_row b = mkRow None [].
Proof. intros b B. unfold sscanf_row. rewrite skip_all by assumption. reflexivity. Qed.

(** ** Rows with missing items *)
Lemma fill_complete : forall p r, complete p -> (length (r_vals r) <= 5)%nat -> complete (fill p r).
Proof.
  intros p r [P Q] L. unfold fill. destruct (r_name r); [|split; assumption]. split; [discriminate|]. cbn. rewrite app_length, skipn_length. lia.
Qed.
Lemma over_fill : forall p v, (length v <= length p)%nat -> over v (map Some p) = map Some (v ++ skipn (length v) p).
Proof.
  induction p as [|x p IH]; intros [|y v] L; cbn in *; try reflexivity; try lia. f_equal. apply IH. lia.
Qed.
Lemma over_full : forall v q, length v = length q -> over v q = map Some v.
Proof. induction v as [|x v IH]; intros [|y q] L; cbn in *; try reflexivity; try discriminate. f_equal. apply IH. lia. Qed.
Lemma scan_fill : forall p r l, complete p -> (length (r_vals r) <= 5)%nat -> l = mkLoc (r_name p) (map Some (r_vals p)) ->
  scan r l = scan (fill p r) l /\ scan r l = mkLoc (r_name (fill p r)) (map Some (r_vals (fill p r))).
Proof.
  intros p r l [P Q] L ->. unfold fill, scan. destruct (r_name r) as [s|] eqn:E.
  - cbn [r_name r_vals l_vals]. rewrite over_fill by lia. rewrite over_full by (rewrite map_length, app_length, skipn_length; lia). auto.
  - destruct (r_name p) as [s|] eqn:E2; [|contradiction]. cbn [l_vals]. rewrite over_full by (rewrite map_length; reflexivity). auto.
Qed.
Lemma carried_rows : forall wp junk nst rs p l i tab, complete p -> Forall (fun r => length (r_vals r) <= 5)%nat rs -> l = mkLoc (r_name p) (map Some (r_vals p)) ->
  read_rows wp junk nst rs l i tab = read_rows wp junk nst (carried p rs) l i tab.
Proof.
  intros wp junk nst. induction rs as [|r rs IH]; intros p l i tab C F E; [reflexivity|]. inversion_clear F as [|? ? L F']. cbn [carried read_rows].
  destruct (scan_fill p r l C L E) as [S1 S2].
  assert (R : read_row wp junk r l i tab = read_row wp junk (fill p r) l i tab) by (unfold read_row; rewrite S1; reflexivity). rewrite R.
  destruct (read_row wp junk (fill p r) l i tab) as [[l' tab']|] eqn:Q; [|reflexivity]. cbn [bind]. destruct (nst =? i)%Z; [reflexivity|].
  apply IH; [apply fill_complete; assumption|assumption|].
  unfold read_row in Q. cbv zeta in Q. rewrite <- S1 in Q. bind_inv Q nm Enm.
  destruct (Z.leb_spec 30 (Z.of_nat (String.length nm))); [discriminate|]. destruct (Z.ltb_spec 25 (Z.of_nat (String.length nm))); [discriminate|].
  bind_inv Q q0 Eq0. destruct (Z.eqb_spec (Z.of_nat (String.length nm)) 25); [discriminate|].
  destruct (l_vals (scan r l)) as [|a0 [|a1 [|a2 [|a3 [|a4 [|? ?]]]]]]; try discriminate.
  bind_inv Q v0 Ev0. bind_inv Q v1 Ev1. bind_inv Q v2 Ev2. bind_inv Q v3 Ev3. bind_inv Q v4 Ev4. bind_inv Q en Een. bind_inv Q tb Etb. apply Ok_inj, pair_equal_spec in Q as [<- _]. exact S2.
Qed.
Lemma completed_rows : forall wp junk nst r rs i tab, complete r -> Forall (fun r => length (r_vals r) <= 5)%nat rs ->
  read_rows wp junk nst (r :: rs) loc0 i tab = read_rows wp junk nst (completed (r :: rs)) loc0 i tab.
Proof.
  intros wp junk nst r rs i tab C F. cbn [completed read_rows].
  destruct (read_row wp junk r loc0 i tab) as [[l' tab']|] eqn:Q; [|reflexivity]. cbn [bind]. destruct (nst =? i)%Z; [reflexivity|].
  apply carried_rows; [assumption|assumption|]. destruct C as [C1 C2].
  assert (S : scan r loc0 = mkLoc (r_name r) (map Some (r_vals r))). { unfold scan. destruct (r_name r); [|contradiction]. cbn [l_vals loc0]. rewrite over_full by assumption. reflexivity. }
  unfold read_row in Q. cbv zeta in Q. rewrite S in Q. bind_inv Q nm Enm.
  destruct (Z.leb_spec 30 (Z.of_nat (String.length nm))); [discriminate|]. destruct (Z.ltb_spec 25 (Z.of_nat (String.length nm))); [discriminate|].
  bind_inv Q q0 Eq0. destruct (Z.eqb_spec (Z.of_nat (String.length nm)) 25); [discriminate|].
  destruct (l_vals (mkLoc (r_name r) (map Some (r_vals r)))) as [|a0 [|a1 [|a2 [|a3 [|a4 [|? ?]]]]]]; try discriminate.
  bind_inv Q v0 Ev0. bind_inv Q v1 Ev1. bind_inv Q v2 Ev2. bind_inv Q v3 Ev3. bind_inv Q v4 Ev4. bind_inv Q en Een. bind_inv Q tb Etb. apply Ok_inj, pair_equal_spec in Q as [<- _]. reflexivity.
Qed.

(** Initialize sees the completed table. *)
Lemma Initialize_completed : forall files files' junk ls,
  (forall f, files f = files' f \/ exists r rs, files f = Some (r :: rs) /\ complete r /\ Forall (fun r => length (r_vals r) <= 5)%nat rs /\ files' f = Some (completed (r :: rs))) ->
  Initialize files junk ls = Initialize files' junk ls.
Proof.
  intros files files' junk ls F.
  assert (T : forall f nst wp tab, lgar_read_vG_param_file (files f) nst wp junk tab = lgar_read_vG_param_file (files' f) nst wp junk tab).
  { intros f nst wp tab. destruct (F f) as [E|(r & rs & E1 & C & L & E2)]; [rewrite E; reflexivity|]. rewrite E1, E2. unfold lgar_read_vG_param_file. apply completed_rows; assumption. }
  unfold Initialize, InitFromConfigFile. destruct (config_lines conf0 ls) as [c|]; [|reflexivity]. cbn [bind].
  assert (R : init_rest files junk c = init_rest files' junk c).
  { unfold init_rest. destruct (need (cf_stype c)); [|reflexivity]. cbn [bind].
    repeat (match goal with |- bind ?x _ = bind ?x _ => destruct x; [cbn [bind]|reflexivity] end). cbv zeta. rewrite T. reflexivity. }
  rewrite R. reflexivity.
Qed.
End Fp.
