(** More about configuration files: unknown units, equal rows of the soil table, cells of the soil temperature. *)

From Coq Require Import String Ascii Reals ZArith List Lia Lra.
From Verif Require Import Outcome Dbl Types ListOps Soil Fronts State Update Config Exact Lib Spec_Common Spec_List Spec_Profile Spec_Soil Spec_Column Spec_Config
  Pf_Text Pf_Config Pf_Lines Pf_Init Pf_InitState Pf_Table Pf_InitExact Pf_ConfigThm.
Import ListNotations.
Open Scope string_scope.
Open Scope list_scope.

Section Any.
Context {fp : Fp}.

(** Lines with the same effect are interchangeable. *)
Lemma same_line : forall files junk a l l' b, (forall c, config_line c l = config_line c l') -> Initialize files junk (a ++ l :: b) = Initialize files junk (a ++ l' :: b).
Proof.
  intros files junk a l l' b H. unfold Initialize, InitFromConfigFile. do 2 f_equal. rewrite !lines_app. destruct (config_lines conf0 a); [|reflexivity]. cbn [bind config_lines]. rewrite H. reflexivity.
Qed.

(** Without a closing bracket the unit is ignored. *)
Lemma time_unclosed : forall files junk a b k n w, In k ["timestep"; "endtime"; "forcing_resolution"] -> good_numeral n -> free_of "]" w ->
  Initialize files junk (a ++ (k ++ "=" ++ text n ++ "[" ++ w)%string :: b) = Initialize files junk (a ++ (k ++ "=" ++ text n)%string :: b).
Proof.
  intros files junk a b k n w K G W. assert (Kk : In k keys) by (cbn in K |- *; tauto). destruct (unit_unclosed k (text n) w Kk (plain_text _ G) W) as (A & B & C).
  destruct (unit_table k n "" Kk G (or_introl eq_refl)) as (A' & B' & C'). rewrite app_nil in A', B', C'.
  apply same_line. intro c. unfold config_line. cbv zeta. rewrite A, B, C, A', B', C'. reflexivity.
Qed.

(** Soils with the same numbers in the table are the same. *)
Lemma same_numbers : forall wp junk tr te al n k nm nm' en en', derive wp junk tr te al n k nm = Ok en -> derive wp junk tr te al n k nm' = Ok en' -> en_soil en = en_soil en'.
Proof.
  intros wp junk tr te al n k nm nm' en en' H H'. unfold derive in H, H'. cbv zeta in H, H'. destruct (dltb (lit 1) n); [|discriminate].
  bind_inv H q0 Eq0. bind_inv H' q1 Eq1. apply Ok_inj in H, H'. subst en en'. reflexivity.
Qed.
Lemma same_rows : forall files junk ls s l f rows, last_line "soil_params_file" l ls -> assigns "soil_params_file" f l -> free_of "[" f -> files f = Some rows ->
  (forall r, In r rows -> exists nm tr te al n k, r = full_row nm tr te al n k) ->
  Initialize files junk ls = Ok s ->
  forall t t' r r' sl sl', nth_error rows (Z.to_nat (t - 1)) = Some r -> nth_error rows (Z.to_nat (t' - 1)) = Some r' -> r_vals r = r_vals r' ->
    uget (st_soils s) t = Ok sl -> uget (st_soils s) t' = Ok sl' -> sl = sl'.
Proof.
  intros files junk ls s l f rows L A Fr Fs Full H t t' r r' sl sl' N N' V U U'. destruct (init_inv _ _ _ _ H) as (c & st & rows' & tab & thick & psi & ord & I).
  destruct (in_rows _ _ _ _ _ _ _ _ _ _ _ I) as (file & F1 & F2). rewrite (conf_file _ _ _ _ L A Fr (in_conf _ _ _ _ _ _ _ _ _ _ _ I)) in F1. injection F1 as <-.
  rewrite Fs in F2. injection F2 as <-. destruct (in_s _ _ _ _ _ _ _ _ _ _ _ I) as (_ & S & _). rewrite S in U, U'.
  assert (E : forall t sl, uget (map (option_map en_soil) tab) t = Ok sl -> exists nm tr te al n k en, nth_error rows (Z.to_nat (t - 1)) = Some (full_row nm tr te al n k) /\
    derive (p_wilting (st_p s)) junk tr te al n k nm = Ok en /\ sl = en_soil en).
  { clear - I Full. intros t sl U. apply uget_Ok, aget_Ok in U as [P U]. rewrite nth_error_map in U. destruct (nth_error tab (Z.to_nat t)) as [[en|]|] eqn:E; try discriminate. injection U as <-.
    assert (U : uget tab t = Ok en). { unfold uget. assert (Q : aget tab t = Ok (Some en)) by (apply aget_Ok; auto). rewrite Q. reflexivity. }
    destruct (table_rows _ _ _ _ _ _ _ _ (in_tab _ _ _ _ _ _ _ _ _ _ _ I) Full eq_refl t en U) as [Q|(j & nm & tr & te & al & n & k & T & Nj & D)]; [exfalso; exact (uget_empty _ _ _ _ Q)|].
    exists nm, tr, te, al, n, k, en. replace (Z.to_nat (t - 1)) with j by lia. auto. }
  destruct (E t sl U) as (nm & tr & te & al & n & k & en & M & D & ->). destruct (E t' sl' U') as (nm' & tr' & te' & al' & n' & k' & en' & M' & D' & ->).
  rewrite N in M. rewrite N' in M'. injection M as ->. injection M' as ->. cbn in V. injection V as <- <- <- <- <-. eapply same_numbers; eassumption.
Qed.

(** The depths of the soil temperature cells. *)
Lemma read_cells : forall files junk ls s l n ns, last_line "soil_z" l ls -> assigns "soil_z" (numbers (n :: ns)) l -> Forall good_numeral (n :: ns) ->
  Initialize files junk ls = Ok s -> p_sft (st_p s) = true ->
  p_ncells (st_p s) = Z.of_nat (length (n :: ns)) /\ p_soilTz (st_p s) = map (fun n => rnd (value n)) (n :: ns) /\ p_soilT (st_p s) = repeat (Fin 0) (length (n :: ns)).
Proof.
  intros files junk ls s l n ns L A G H Sft. destruct (init_inv _ _ _ _ H) as (c & st & rows & tab & thick & psi & ord & I).
  destruct (conf_soilz _ _ _ _ _ L A G (in_conf _ _ _ _ _ _ _ _ _ _ _ I)) as [T _].
  assert (S : cf_sft c = true). { pose proof (in_p _ _ _ _ _ _ _ _ _ _ _ I) as P. repeat match goal with H : _ /\ _ |- _ => destruct H end. congruence. }
  pose proof (in_cells _ _ _ _ _ _ _ _ _ _ _ I) as Cl. rewrite S in Cl. destruct Cl as [C1 C2]. rewrite C1 in T. apply some_inj in T.
  destruct (in_p _ _ _ _ _ _ _ _ _ _ _ I) as (_ & _ & _ & _ & _ & _ & P7 & _). rewrite P7, C2, T, map_length. rewrite Nat2Z.id. auto.
Qed.

(** One front for each layer, with the configured head, whatever the rounding. *)
Lemma start_structure : forall files junk ls s l np, last_line "initial_psi" l ls -> assigns "initial_psi" (text np) l -> good_numeral np ->
  Initialize files junk ls = Ok s ->
  profile (p_nlayers (st_p s)) (p_cum (st_p s)) (st_head s) /\ listLength (st_head s) = p_nlayers (st_p s) /\
  forall i g, nth_error (st_head s) i = Some g -> f_num g = Z.of_nat (S i) /\ f_layer g = Z.of_nat (S i) /\ f_bottom g = true /\
    f_psi g = rnd (value np) /\ aget (p_cum (st_p s)) (Z.of_nat (S i)) = Ok (f_depth g) /\
    exists sl, soil_of (env_of s) (Z.of_nat (S i)) = Ok sl /\ f_theta g = theta_of_h sl (rnd (value np)).
Proof.
  intros files junk ls s l np L A G H. destruct (init_inv _ _ _ _ H) as (c & st & rows & tab & thick & psi & ord & I).
  pose proof (conf_psi _ _ _ _ L A G (in_conf _ _ _ _ _ _ _ _ _ _ _ I)) as P. rewrite (in_psi _ _ _ _ _ _ _ _ _ _ _ I) in P. apply some_inj in P. subst psi.
  split; [apply (init_profile _ _ _ _ _ _ _ _ _ _ _ I)|]. destruct (init_fronts _ _ _ _ _ _ _ _ _ _ _ I) as (N & Len & F). pose proof (init_nl _ _ _ _ _ _ _ _ _ _ _ I) as Nl.
  split; [unfold listLength; rewrite Len; symmetry; assumption|]. intros i g E. destruct (F i g E) as (t & en & d & ff & T & En & D & Ff & ->).
  assert (B : (i < length (st_head s))%nat) by (apply nth_error_Some; congruence).
  destruct (init_soil _ _ _ _ _ _ _ _ _ _ _ I (Z.of_nat (S i))) as (t' & en' & T' & En' & S); [lia|]. assert (t' = t) by congruence. subst t'. assert (en' = en) by congruence. subst en'.
  cbn. repeat split; try assumption; try reflexivity. exists (en_soil en). split; [exact S|reflexivity].
Qed.
End Any.

Section Exact.
Local Existing Instance exact.

(** An unknown unit, or text after the unit, means hours. *)
Lemma time_as_hours : forall files junk a b k n w r, In k ["timestep"; "forcing_resolution"] -> good_numeral n -> free_of "]" w ->
  ~ In ("[" ++ w ++ "]")%string (map fst unit_seconds) \/ r <> "" ->
  Initialize files junk (a ++ (k ++ "=" ++ text n ++ "[" ++ w ++ "]" ++ r)%string :: b) = Initialize files junk (a ++ (k ++ "=" ++ text n ++ "[h]")%string :: b).
Proof.
  intros files junk a b k n w r K G W U. assert (Kk : In k keys) by (cbn in K |- *; tauto). destruct (unit_parts k (text n) w r Kk (plain_text _ G) W) as (A & B & C).
  destruct (unit_table k n "[h]" Kk G) as (A' & B' & C'). { right. exists "h". split; [reflexivity|cbn; split; [discriminate|exact I]]. }
  set (u := ("[" ++ w ++ "]" ++ take (S (String.length k + String.length (text n))) r)%string) in *.
  assert (N : ~ In u (map fst unit_seconds)).
  { unfold u. destruct (string_dec r "") as [->|N]; [rewrite take_nil; destruct U; [assumption|contradiction]|]. apply unknown_after; [assumption|]. destruct r; [contradiction|]. discriminate. }
  assert (T : forall x, to_hours (Fin x) u = to_hours (Fin x) "[h]").
  { intro x. rewrite hours_of_unknown by assumption. unfold to_hours. cbn [is_in existsb String.eqb Ascii.eqb Bool.eqb orb].
    symmetry. change (ddiv (Fin x) (Fin 1) = Fin x). unfold ddiv. destruct (Req_EM_T 1 0); [lra|]. cbn. f_equal. field. }
  apply same_line. intro c. unfold config_line. cbv zeta. rewrite A, B, C, A', B', C'.
  cbn [In] in K. destruct K as [<-|[<-|[]]]; cbn [String.eqb Ascii.eqb Bool.eqb].
  - rewrite stod_text by assumption. cbn [rnd exact bind]. cbv zeta. rewrite T. reflexivity.
  - rewrite stod_text by assumption. cbn [rnd exact bind]. cbv zeta. rewrite T. reflexivity.
Qed.
End Exact.
