(** Lemmas on reading the forcing file. *)

From Coq Require Import String Ascii Reals Lra ZArith List Bool Lia.
From Verif Require Import Outcome Dbl Types State Update Bmi Config Driver Lib Spec_Common Spec_Config Spec_Driver Pf_Text.
Import ListNotations.
Open Scope string_scope.
Open Scope list_scope.

(** ** Cells *)
Lemma find_take_drop : forall c a b, free_of c a -> find c (a ++ String c b) = Some (String.length a) /\ take (String.length a) (a ++ String c b) = a /\
  drop (S (String.length a)) (a ++ String c b) = b.
Proof.
  intros c a b F. split; [apply find_here; assumption|]. split; [apply take_app|].
  replace (S (String.length a)) with (String.length a + 1)%nat by lia. rewrite drop_app. reflexivity.
Qed.

Lemma getline_more : forall c old a b, free_of c a -> getline c old (opened (a ++ String c b)) = (a, opened b).
Proof. intros c old a b F. unfold getline, opened. cbn [sm_eof sm_fail sm_rest orb]. destruct (find_take_drop c a b F) as (E1 & E2 & E3). rewrite E1, E2, E3. reflexivity. Qed.
Lemma getline_last : forall c old a, free_of c a -> getline c old (opened a) = (a, mkStream "" true (String.eqb a "")).
Proof. intros c old a F. unfold getline, opened. cbn [sm_eof sm_fail sm_rest orb]. apply find_free in F. rewrite F. reflexivity. Qed.
Lemma getline_eof : forall c old r, getline c old (mkStream r true false) = (old, mkStream r true true).
Proof. reflexivity. Qed.

Lemma cells_csv : forall cs old k, Forall (free_of ",") cs -> last cs "x" <> "" -> (List.length cs < k)%nat -> cs <> [] -> cells k old (opened (csv cs)) = cs.
Proof.
  induction cs as [|c cs IH]; intros old k F L K N; [contradiction|]. destruct k as [|k]; [lia|]. inversion_clear F as [|? ? F1 F2]. destruct cs as [|c' cs].
  - cbn [cells csv String.concat]. unfold csv. cbn [String.concat]. rewrite getline_last by assumption. cbn in L.
    destruct (String.eqb_spec c "") as [->|D]; [contradiction|]. cbn [sm_fail]. destruct k as [|k]; [cbn in K; lia|]. cbn [cells]. rewrite getline_eof. reflexivity.
  - replace (csv (c :: c' :: cs)) with (c ++ String "," (csv (c' :: cs)))%string by reflexivity.
    cbn [cells]. rewrite getline_more by assumption. cbn [sm_fail opened]. f_equal. unfold opened in IH. apply IH; auto; [|discriminate]. cbn [List.length] in K |- *. lia.
Qed.
Lemma csv_length : forall cs, last cs "x" <> "" -> (List.length cs <= String.length (csv cs))%nat.
Proof.
  induction cs as [|c cs IH]; intro L; [cbn; lia|]. destruct cs as [|c' cs].
  - cbn in L |- *. unfold csv. cbn. destruct c; [contradiction|cbn; lia].
  - replace (csv (c :: c' :: cs)) with (c ++ String "," (csv (c' :: cs)))%string by reflexivity.
    assert (Q : (List.length (c' :: cs) <= String.length (csv (c' :: cs)))%nat) by (apply IH; exact L).
    cbn [List.length] in Q |- *. assert (A : forall a b, String.length (a ++ b) = (String.length a + String.length b)%nat) by (induction a; intros; cbn; auto).
    rewrite A. cbn [String.length]. lia.
Qed.
Lemma line_cells_csv : forall cs, good_cells cs -> line_cells (csv cs) = cs.
Proof.
  intros cs [F L]. destruct cs as [|c cs]; [reflexivity|]. unfold line_cells. apply cells_csv; [|assumption| |discriminate].
  - eapply Forall_impl; [|exact F]. intros a [H _]; exact H.
  - pose proof (csv_length _ L). lia.
Qed.

Lemma concat_free : forall c cs, c <> ","%char -> Forall (free_of c) cs -> free_of c (csv cs).
Proof.
  intros c cs D. induction cs as [|a cs IH]; intro F; [exact Logic.I|]. inversion_clear F as [|? ? F1 F2]. destruct cs as [|a' cs]; [exact F1|].
  replace (csv (a :: a' :: cs)) with (a ++ String "," (csv (a' :: cs)))%string by reflexivity. apply free_app; [assumption|]. cbn. split; [congruence|auto].
Qed.
Lemma csv_newline : forall cs, good_cells cs -> free_of newline (csv cs).
Proof. intros cs [F _]. apply concat_free; [intro H; discriminate H|]. eapply Forall_impl; [|exact F]. intros a [_ H]; exact H. Qed.

Section Forcing.
Context {fp : Fp}.

(** ** Lines *)
Fixpoint push_lines (ls : list string) (f : forcing) : outcome forcing :=
  match ls with [] => Ok f | l :: r => f <- push_cells (line_cells l) f ;; push_lines r f end.

Lemma len_app : forall a b, String.length (a ++ b) = (String.length a + String.length b)%nat.
Proof. induction a; intros; cbn; auto. Qed.

Lemma read_lines : forall ls k old f, Forall (free_of newline) ls -> (String.length (file_of ls) + 1 <= k)%nat ->
  read_loop k old (opened (file_of ls)) f = push_lines ls f.
Proof.
  induction ls as [|l ls IH]; intros k old f F K.
  - destruct k as [|k]; [cbn in K; lia|]. cbn [file_of push_lines read_loop opened sm_fail]. fold (opened ""). rewrite getline_last by exact Logic.I.
    cbn. destruct k; reflexivity.
  - destruct k as [|k]; [lia|]. inversion_clear F as [|? ? F1 F2]. cbn [file_of] in K |- *. cbn [read_loop]. replace (sm_fail (opened (l ++ lf ++ file_of ls))) with false by reflexivity.
    replace (l ++ lf ++ file_of ls)%string with (l ++ String newline (file_of ls))%string by reflexivity. rewrite getline_more by assumption.
    cbn [push_lines]. destruct (push_cells (line_cells l) f) as [f1|]; [|reflexivity]. cbn [bind]. apply IH; [assumption|].
    rewrite !len_app in K. cbn in K. lia.
Qed.
Lemma read_open : forall ls l k old f, Forall (free_of newline) ls -> free_of newline l -> l <> "" -> (String.length (file_of ls) + 2 <= k)%nat ->
  read_loop k old (opened (file_of ls ++ l)) f = push_lines (ls ++ [l; l]) f.
Proof.
  induction ls as [|a ls IH]; intros l k old f F Fl N K.
  - destruct k as [|[|k]]; [cbn in K; lia|cbn in K; lia|]. cbn [file_of String.append push_lines app]. cbn [read_loop]. replace (sm_fail (opened l)) with false by reflexivity.
    rewrite getline_last by assumption. destruct (String.eqb_spec l "") as [E|D]; [contradiction|].
    destruct (push_cells (line_cells l) f) as [f1|]; [|reflexivity]. cbn [bind]. cbn [sm_fail]. rewrite getline_eof.
    destruct (push_cells (line_cells l) f1) as [f2|]; [|reflexivity]. cbn [bind]. destruct k; reflexivity.
  - destruct k as [|k]; [lia|]. inversion_clear F as [|? ? F1 F2]. cbn [file_of] in K |- *.
    replace ((a ++ lf ++ file_of ls) ++ l)%string with (a ++ String newline (file_of ls ++ l))%string.
    2:{ clear. induction a as [|x a IHa]; [reflexivity|]. cbn [String.append]. f_equal. exact IHa. }
    cbn [read_loop]. replace (sm_fail (opened (a ++ String newline (file_of ls ++ l)))) with false by reflexivity. rewrite getline_more by assumption.
    cbn [app push_lines]. destruct (push_cells (line_cells a) f) as [f1|]; [|reflexivity]. cbn [bind]. apply IH; try assumption.
    rewrite !len_app in K. cbn in K. lia.
Qed.

Theorem text_lines : forall h ls, free_of newline h -> Forall (free_of newline) ls -> read_text (file_of (h :: ls)) = push_lines ls (mkForcing [] [] []).
Proof.
  intros h ls Fh F. unfold read_text. replace (file_of (h :: ls)) with (h ++ String newline (file_of ls))%string by reflexivity. rewrite getline_more by assumption.
  apply read_lines; [assumption|]. rewrite len_app. cbn. lia.
Qed.
Theorem text_open : forall h ls l, free_of newline h -> Forall (free_of newline) ls -> free_of newline l -> l <> "" ->
  read_text (file_of (h :: ls) ++ l) = push_lines (ls ++ [l; l]) (mkForcing [] [] []).
Proof.
  intros h ls l Fh F Fl N. unfold read_text.
  replace (file_of (h :: ls) ++ l)%string with (h ++ String newline (file_of ls ++ l))%string.
  2:{ cbn [file_of]. clear. induction h as [|x h IHh]; [reflexivity|]. cbn [String.append]. f_equal. exact IHh. }
  rewrite getline_more by assumption. apply read_open; try assumption. rewrite len_app. cbn [String.length]. rewrite len_app. lia.
Qed.

(** ** Rows *)
Definition plus_f (f g : forcing) : forcing := mkForcing (fo_time f ++ fo_time g) (fo_precip f ++ fo_precip g) (fo_pet f ++ fo_pet g).
Lemma push_app : forall a b f, push_lines (a ++ b) f = (g <- push_lines a f ;; push_lines b g).
Proof. induction a as [|l a IH]; intros b f; [reflexivity|]. cbn [app push_lines]. destruct (push_cells (line_cells l) f) as [f1|]; [|reflexivity]. cbn [bind]. apply IH. Qed.

Lemma stod_fin : forall n, good_numeral n -> finite (rnd (value n)) -> stod (text n) = Ok (rnd (value n)).
Proof. intros n G [x E]. rewrite stod_text by assumption. rewrite E. reflexivity. Qed.


Lemma push_row : forall r f, fine r -> push_cells (line_cells (csv (row_cells r))) f = Ok (plus_f f (forced [r])).
Proof.
  intros r f ((G1 & G2 & G3) & Q1 & Q2). rewrite line_cells_csv by assumption. unfold row_cells. cbn [push_cells]. rewrite !stod_fin by assumption. reflexivity.
Qed.
Lemma push_rows : forall rs f, Forall fine (complete_rows rs) -> push_lines (map row_line rs) f = Ok (plus_f f (forced (complete_rows rs))).
Proof.
  induction rs as [|[r|] rs IH]; intros f F.
  - cbn. unfold plus_f. cbn. rewrite !app_nil_r. destruct f; reflexivity.
  - cbn [complete_rows] in F |- *. inversion_clear F as [|? ? F1 F2]. cbn [map row_line push_lines]. rewrite push_row by assumption. cbn [bind]. rewrite IH by assumption.
    f_equal. unfold plus_f. cbn. rewrite <- !app_assoc. reflexivity.
  - cbn [complete_rows] in F |- *. cbn [map row_line push_lines]. change (line_cells "") with (@nil string). cbn [push_cells bind]. apply IH; assumption.
Qed.
Lemma rows_newline : forall rs, Forall good_row (complete_rows rs) -> Forall (free_of newline) (map row_line rs).
Proof.
  induction rs as [|[r|] rs IH]; intro F; cbn [map complete_rows] in *; constructor; auto.
  - inversion_clear F as [|? ? F1 F2]. apply csv_newline. apply F1.
  - inversion_clear F as [|? ? F1 F2]. auto.
  - exact Logic.I.
Qed.
Lemma fine_good : forall rs, Forall fine rs -> Forall good_row rs.
Proof. intros rs F. eapply Forall_impl; [|exact F]. intros r [H _]; exact H. Qed.

Theorem forcing_read : forall h rs, free_of newline h -> Forall fine (complete_rows rs) ->
  read_text (file_of (h :: map row_line rs)) = Ok (forced (complete_rows rs)).
Proof. intros h rs Fh F. rewrite text_lines; [|assumption|apply rows_newline, fine_good; assumption]. rewrite push_rows by assumption. reflexivity. Qed.

Theorem forcing_twice : forall h rs r, free_of newline h -> Forall fine (complete_rows rs) -> fine r ->
  read_text (file_of (h :: map row_line rs) ++ csv (row_cells r)) = Ok (forced (complete_rows rs ++ [r; r])).
Proof.
  intros h rs r Fh F Fr. rewrite text_open; [|assumption|apply rows_newline, fine_good; assumption|apply csv_newline, Fr|].
  2:{ unfold csv, row_cells. cbn [String.concat]. destruct (fr_time r); discriminate. }
  rewrite push_app, push_rows by assumption. cbn [bind push_lines]. rewrite push_row by assumption. cbn [bind]. rewrite push_row by assumption. cbn [bind]. f_equal.
  unfold plus_f, forced. cbn. rewrite !map_app, <- !app_assoc. reflexivity.
Qed.

Theorem forcing_shift : forall h a t n b, free_of newline h -> Forall fine (complete_rows a) -> Forall fine (complete_rows b) ->
  good_cells [t; text n] -> good_numeral n -> finite (rnd (value n)) ->
  exists f, read_text (file_of (h :: map row_line a ++ csv [t; text n] :: map row_line b)) = Ok f /\
    fo_time f = map fr_time (complete_rows a) ++ t :: map fr_time (complete_rows b) /\
    fo_precip f = fo_precip (forced (complete_rows a)) ++ rnd (value n) :: fo_precip (forced (complete_rows b)) /\
    fo_pet f = fo_pet (forced (complete_rows a)) ++ fo_pet (forced (complete_rows b)).
Proof.
  intros h a t n b Fh Fa Fb G Gn Qn. eexists. split.
  - rewrite text_lines; [|assumption|]. 2:{ apply Forall_app. split; [apply rows_newline, fine_good; assumption|]. constructor; [apply csv_newline; assumption|apply rows_newline, fine_good; assumption]. }
    rewrite push_app, push_rows by assumption. cbn [bind push_lines]. rewrite line_cells_csv by assumption. cbn [push_cells]. rewrite stod_fin by assumption. cbn [bind].
    rewrite push_rows by assumption. reflexivity.
  - cbn. rewrite <- !app_assoc. repeat split.
Qed.

(** ** Lengths *)
Lemma push_lengths : forall cs f g, push_cells cs f = Ok g -> (List.length (fo_pet f) <= List.length (fo_precip f) <= List.length (fo_time f))%nat ->
  (List.length (fo_pet g) <= List.length (fo_precip g) <= List.length (fo_time g))%nat.
Proof.
  intros [|t [|p [|e cs]]] f g H L; cbn [push_cells] in H.
  - apply Ok_inj in H. subst. assumption.
  - apply Ok_inj in H. subst. cbn. rewrite !app_length. cbn. lia.
  - bind_inv H x Ex. apply Ok_inj in H. subst. cbn. rewrite !app_length. cbn. lia.
  - bind_inv H x Ex. bind_inv H y Ey. apply Ok_inj in H. subst. cbn. rewrite !app_length. cbn. lia.
Qed.
Lemma loop_lengths : forall k line st f g, read_loop k line st f = Ok g -> (List.length (fo_pet f) <= List.length (fo_precip f) <= List.length (fo_time f))%nat ->
  (List.length (fo_pet g) <= List.length (fo_precip g) <= List.length (fo_time g))%nat.
Proof.
  induction k as [|k IH]; intros line st f g H L; cbn [read_loop] in H; destruct (sm_fail st); try discriminate; try (apply Ok_inj in H; subst; assumption).
  destruct (getline newline line st) as [line' st']. bind_inv H f1 Ef. eapply IH; [exact H|]. eapply push_lengths; eassumption.
Qed.
Theorem forcing_lengths : forall texts lines f, ReadForcingData texts lines = Ok f ->
  (List.length (fo_pet f) <= List.length (fo_precip f) <= List.length (fo_time f))%nat.
Proof.
  intros texts lines f H. unfold ReadForcingData in H. destruct (forcing_file lines) as [n|]; [|discriminate]. destruct (texts n) as [t|]; [|discriminate].
  unfold read_text in H. destruct (getline newline "" (opened t)) as [l st]. eapply loop_lengths; [exact H|]. cbn. lia.
Qed.

(** Reading ends: the budget is large enough for every text. *)
Lemma find_length : forall c s i, find c s = Some i -> (i < String.length s)%nat.
Proof.
  induction s as [|a s IH]; intros i H; [discriminate|]. cbn [find] in H. destruct (Ascii.eqb a c); [injection H as <-; cbn; lia|].
  destruct (find c s) as [j|]; [|discriminate]. injection H as <-. specialize (IH _ eq_refl). cbn. lia.
Qed.
Lemma drop_length : forall k s, String.length (drop k s) = (String.length s - k)%nat.
Proof. induction k as [|k IH]; intros [|a s]; cbn; auto. Qed.
Definition todo (st : stream) : nat := if sm_fail st then 0%nat else if sm_eof st then 1%nat else (String.length (sm_rest st) + 2)%nat.
Lemma getline_todo : forall c old st l st', sm_fail st = false -> getline c old st = (l, st') -> (todo st' < todo st)%nat.
Proof.
  intros c old [r e x] l st' Fx H. cbn in Fx. subst x. unfold getline in H. cbn [sm_eof sm_fail sm_rest] in H. destruct e; cbn [orb] in H.
  - apply pair_equal_spec in H as [_ <-]. cbn. lia.
  - destruct (find c r) as [i|] eqn:Ef.
    + apply find_length in Ef. apply pair_equal_spec in H as [_ <-]. unfold todo. cbn [sm_fail sm_eof sm_rest]. rewrite drop_length. lia.
    + apply pair_equal_spec in H as [_ <-]. unfold todo. cbn [sm_fail sm_eof sm_rest]. destruct (String.eqb r ""); lia.
Qed.
Lemma bind_not : forall A B (m : outcome A) (k : A -> outcome B) r, m <> Stop r -> (forall a, k a <> Stop r) -> bind m k <> Stop r.
Proof. intros A B [a|q] k r H K; cbn [bind]; [apply K|]. intro E. apply H. injection E as ->. reflexivity. Qed.
Lemma loop_fuel : forall k line st f, (todo st <= k)%nat -> read_loop k line st f <> Stop OutOfFuel.
Proof.
  induction k as [|k IH]; intros line st f K; cbn [read_loop]; destruct (sm_fail st) eqn:Ex; try discriminate.
  - unfold todo in K. rewrite Ex in K. destruct (sm_eof st); lia.
  - destruct (getline newline line st) as [line' st'] eqn:Eg. apply getline_todo in Eg; [|assumption].
    assert (P : push_cells (line_cells line') f <> Stop OutOfFuel).
    { assert (T : forall s, stod s <> Stop OutOfFuel).
      { intros s. unfold stod. destruct (sign (skip_space s)) as [neg r]. destruct (prefix_ci "inf" r); [discriminate|]. destruct (prefix_ci "nan" r); [discriminate|].
        destruct (decimal r) as [[[m e] q]|]; [|discriminate]. destruct (rnd _); discriminate. }
      destruct (line_cells line') as [|a [|b [|c cs]]]; cbn [push_cells]; try discriminate.
      - apply bind_not; [apply T|discriminate].
      - apply bind_not; [apply T|intro]. apply bind_not; [apply T|discriminate]. }
    apply bind_not; [exact P|intro]. apply IH. lia.
Qed.
Theorem reading_ends : forall t, read_text t <> Stop OutOfFuel.
Proof.
  intros t. unfold read_text. destruct (getline newline "" (opened t)) as [l st] eqn:E. apply getline_todo in E; [|reflexivity]. apply loop_fuel. unfold todo in E at 2. cbn in E. lia.
Qed.
End Forcing.

(** ** The name of the file *)
Lemma first_file : forall name ls, first_line "forcing_file" ("forcing_file=" ++ name) ls -> forcing_file ls = Some name.
Proof.
  intros name ls (_ & a & b & -> & N). assert (K : forall l, line_sets "forcing_file" l <-> line_key l = "forcing_file").
  { intro l. symmetry. apply line_key_sets. cbn. repeat split; discriminate. }
  induction a as [|x a IH]; cbn [app forcing_file].
  - assert (E : line_key ("forcing_file=" ++ name) = "forcing_file") by (apply K; right; exists name; reflexivity). rewrite E, String.eqb_refl.
    change ("forcing_file=" ++ name)%string with ("forcing_file" ++ String "=" name)%string. rewrite find_here by (cbn; repeat split; discriminate). reflexivity.
  - destruct (String.eqb_spec (line_key x) "forcing_file") as [E|_]; [|apply IH; intros y Hy; apply N; right; assumption]. exfalso. apply (N x); [left; reflexivity|]. apply K. exact E.
Qed.
Section File.
Context {fp : Fp}.
Theorem forcing_file_read : forall texts ls name h rs, first_line "forcing_file" ("forcing_file=" ++ name) ls -> texts name = Some (file_of (h :: map row_line rs)) ->
  free_of newline h -> Forall fine (complete_rows rs) -> ReadForcingData texts ls = Ok (forced (complete_rows rs)).
Proof. intros texts ls name h rs F T Fh G. unfold ReadForcingData. rewrite (first_file _ _ F), T. apply forcing_read; assumption. Qed.
Theorem forcing_file_twice : forall texts ls name h rs r, first_line "forcing_file" ("forcing_file=" ++ name) ls -> texts name = Some (file_of (h :: map row_line rs) ++ csv (row_cells r))%string ->
  free_of newline h -> Forall fine (complete_rows rs) -> fine r -> ReadForcingData texts ls = Ok (forced (complete_rows rs ++ [r; r])).
Proof. intros texts ls name h rs r F T Fh G Fr. unfold ReadForcingData. rewrite (first_file _ _ F), T. apply forcing_twice; assumption. Qed.
Theorem forcing_file_shift : forall texts ls name h a t n b, first_line "forcing_file" ("forcing_file=" ++ name) ls ->
  texts name = Some (file_of (h :: map row_line a ++ csv [t; text n] :: map row_line b)) ->
  free_of newline h -> Forall fine (complete_rows a) -> Forall fine (complete_rows b) -> good_cells [t; text n] -> good_numeral n -> finite (rnd (value n)) ->
  exists f, ReadForcingData texts ls = Ok f /\ fo_time f = map fr_time (complete_rows a) ++ t :: map fr_time (complete_rows b) /\
    fo_precip f = fo_precip (forced (complete_rows a)) ++ rnd (value n) :: fo_precip (forced (complete_rows b)) /\
    fo_pet f = fo_pet (forced (complete_rows a)) ++ fo_pet (forced (complete_rows b)).
Proof. intros texts ls name h a t n b F T Fh Ga Gb C N V. unfold ReadForcingData. rewrite (first_file _ _ F), T. apply forcing_shift; assumption. Qed.
End File.
