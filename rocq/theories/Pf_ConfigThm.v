(** From the text of a configuration file to the initial state. *)

From Coq Require Import String Ascii Reals Lra ZArith List Bool Lia Permutation.
From RecordUpdate Require Import RecordSet.
From Verif Require Import Outcome Dbl Exact Types ListOps Soil Giuh Fronts State Update Config Bmi Lib Spec_Common Spec_List Spec_Column Spec_Soil Spec_Profile Spec_Update Spec_Storage
  Spec_Bmi Spec_Config Pf_Giuh Pf_List Pf_Dbl Pf_Column Pf_Soil Pf_Profile Pf_Update Pf_Ledger Pf_Storage Pf_Text Pf_Config Pf_Lines Pf_Init Pf_InitState Pf_Table Pf_InitExact.
Import ListNotations.
Import RecordSetNotations.
Open Scope string_scope.
Open Scope list_scope.
Open Scope R_scope.

Section Any.
Context {fp : Fp}.

(** ** Vectors *)
Lemma read_thickness : forall files junk ls s l n ns, last_line "layer_thickness" l ls -> assigns "layer_thickness" (numbers (n :: ns)) l -> Forall good_numeral (n :: ns) ->
  Initialize files junk ls = Ok s ->
  p_nlayers (st_p s) = Z.of_nat (length (n :: ns)) /\ p_thick (st_p s) = Fin 0 :: map (fun n => rnd (value n)) (n :: ns) /\
  length (p_cum (st_p s)) = S (length (n :: ns)) /\ aget (p_cum (st_p s)) 0 = Ok (Fin 0) /\
  (forall k z t, (0 <= k)%Z -> aget (p_cum (st_p s)) k = Ok z -> aget (p_thick (st_p s)) (k + 1) = Ok t -> aget (p_cum (st_p s)) (k + 1) = Ok (z + t)%d).
Proof.
  intros files junk ls s l n ns L A G H. destruct (init_inv _ _ _ _ H) as (c & st & rows & tab & thick & psi & ord & I).
  destruct (conf_thick _ _ _ _ _ L A G (in_conf _ _ _ _ _ _ _ _ _ _ _ I)) as [T F]. rewrite (in_thick _ _ _ _ _ _ _ _ _ _ _ I) in T. injection T as ->.
  destruct (in_p _ _ _ _ _ _ _ _ _ _ _ I) as (P1 & P2 & P3 & _). rewrite P1, P2, P3. change (@length dbl) with (@List.length dbl) in *.
  split; [rewrite <- (map_length (fun n => rnd (value n)) (n :: ns)); reflexivity|]. split; [reflexivity|].
  split; [cbn [length]; rewrite running_length; cbn [map length]; rewrite map_length; reflexivity|]. split; [reflexivity|].
  set (v := map (fun n => rnd (value n)) (n :: ns)). clearbody v. clear.
  assert (Q : forall v z0 k z t, nth_error (z0 :: running z0 v) k = Some z -> nth_error v k = Some t -> nth_error (running z0 v) k = Some (z + t)%d).
  { induction v as [|a v IH]; intros z0 [|k] z t A B; cbn in *; try discriminate.
    - injection A as ->. injection B as ->. reflexivity.
    - apply (IH _ k); assumption. }
  intros k z t K A B. apply aget_Ok in A as [_ A], B as [_ B]. apply aget_Ok. split; [lia|].
  replace (Z.to_nat (k + 1)) with (S (Z.to_nat k)) in * by lia. cbn [nth_error] in B. cbn [nth_error]. apply Q; assumption.
Qed.
Lemma read_types : forall files junk ls s l n ns, last_line "layer_soil_type" l ls -> assigns "layer_soil_type" (numbers (n :: ns)) l -> Forall good_numeral (n :: ns) ->
  Initialize files junk ls = Ok s ->
  exists zs, p_stype (st_p s) = None :: map Some zs /\ each d2i (map (fun n => rnd (value n)) (n :: ns)) = Ok zs.
Proof.
  intros files junk ls s l n ns L A G H. destruct (init_inv _ _ _ _ H) as (c & st & rows & tab & thick & psi & ord & I).
  destruct (conf_stype _ _ _ _ _ L A G (in_conf _ _ _ _ _ _ _ _ _ _ _ I)) as (zs & Z & E). rewrite (in_st _ _ _ _ _ _ _ _ _ _ _ I) in Z. injection Z as ->.
  destruct (in_p _ _ _ _ _ _ _ _ _ _ _ I) as (_ & _ & _ & P4 & _). eauto.
Qed.

(** ** The unit hydrograph *)
Lemma read_giuh : forall files junk ls s l n ns, last_line "giuh_ordinates" l ls -> assigns "giuh_ordinates" (numbers (n :: ns)) l -> Forall good_numeral (n :: ns) ->
  Initialize files junk ls = Ok s ->
  exists factor, d2i (lit 1 / p_fres (st_p s))%d = Ok factor /\ (0 <= factor)%Z /\ g_N s = (factor * Z.of_nat (length (n :: ns)))%Z /\
    g_ord s = spread (Z.to_nat factor) (dofZ factor) (map (fun n => rnd (value n)) (n :: ns)).
Proof.
  intros files junk ls s l n ns L A G H. destruct (init_inv _ _ _ _ H) as (c & st & rows & tab & thick & psi & ord & I).
  destruct (conf_giuh _ _ _ _ _ L A G (in_conf _ _ _ _ _ _ _ _ _ _ _ I)) as [O F]. rewrite (in_giuh _ _ _ _ _ _ _ _ _ _ _ I) in O. injection O as ->.
  destruct (init_giuh _ _ _ _ _ _ _ _ _ _ _ I) as (factor & D & P & N & E). exists factor.
  split; [assumption|]. split; [assumption|]. split; [|assumption]. rewrite N. cbn [map length]. rewrite map_length. reflexivity.
Qed.
Lemma no_queue_no_update : forall (cfg : Cfg) s s' s'', g_N s = 0%Z -> p_invalid (st_p s) = false -> user_edit s s' -> Update s' <> Ok s''.
Proof.
  intros cfg s s' s'' N V E H. assert (V' : p_invalid (st_p s') = false /\ g_N s' = 0%Z) by (destruct E as (pr & pet & T & cal & out & nf & tw & dw & ->); auto). destruct V' as [V' N'].
  destruct (Update_inv _ _ V' H) as (s1 & vcal & volend & s2 & dt & n & s3 & a & E1 & _ & _ & _ & E5 & E6 & E7).
  destruct (prologue_inv _ _ _ E1) as (_ & _ & _ & _ & _ & N1 & _). destruct (steps_inv _ _ _ _ E5) as (_ & _ & ->).
  destruct (loop_runs _ _ _ _ _ _ E6) as (xs & R & _). destruct (runs_frame _ _ _ _ _ _ _ R) as (_ & _ & _ & _ & _ & _ & _ & _ & _ & N3 & _).
  destruct (finish_inv _ _ _ _ E7) as (g & q & mbl & Q & _). rewrite N3 in Q. change (g_N (s1 <| st_p := (st_p s1) <| p_timestep := dt |> <| p_finterval := n |> |>)) with (g_N s1) in Q.
  rewrite N1, N', giuh_zero_UB in Q. discriminate.
Qed.

(** ** Soil types *)
Lemma types_in_range : forall files junk ls s, Initialize files junk ls = Ok s ->
  p_invalid (st_p s) = false /\ forall k, (1 <= k <= p_nlayers (st_p s))%Z -> exists t, uget (p_stype (st_p s)) k = Ok t /\ (0 <= t <= 15)%Z.
Proof.
  intros files junk ls s H. destruct (init_inv _ _ _ _ H) as (c & st & rows & tab & thick & psi & ord & I). split; [apply (init_valid _ _ _ _ _ _ _ _ _ _ _ I)|].
  intros k K. destruct (init_soil _ _ _ _ _ _ _ _ _ _ _ I k K) as (t & en & A & B & _). exists t. split; [assumption|].
  apply uget_Ok, aget_Ok in B as [P B]. assert (Q : (Z.to_nat t < length tab)%nat) by (apply nth_error_Some; congruence).
  rewrite (read_length _ _ _ _ _ _ _ _ (in_tab _ _ _ _ _ _ _ _ _ _ _ I)), repeat_length in Q. pose proof (in_nst _ _ _ _ _ _ _ _ _ _ _ I).
  pose proof (bd_max _ (conf_bounded _ _ (in_conf _ _ _ _ _ _ _ _ _ _ _ I))) as M. destruct (cf_maxtypes c) as [z|]; [specialize (M z eq_refl)|]; lia.
Qed.
Lemma soil_rows : forall files junk ls s l f rows, last_line "soil_params_file" l ls -> assigns "soil_params_file" f l -> free_of "[" f -> files f = Some rows ->
  (forall r, In r rows -> exists nm tr te al n k, r = full_row nm tr te al n k) ->
  Initialize files junk ls = Ok s ->
  forall t sl, uget (st_soils s) t = Ok sl -> exists nm tr te al n k, (1 <= t)%Z /\ nth_error rows (Z.to_nat (t - 1)) = Some (full_row nm tr te al n k) /\
    s_theta_r sl = tr /\ s_theta_e sl = te /\ s_alpha sl = al /\ s_n sl = n /\ s_m sl = (lit 1 - lit 1 / n)%d /\ s_Ksat sl = k /\
    dgtb n (lit 1) = true /\ dgtb (s_psib sl) (Fin 0) = true.
Proof.
  intros files junk ls s l f rows L A Fr Fs Full H t sl U. destruct (init_inv _ _ _ _ H) as (c & st & rows' & tab & thick & psi & ord & I).
  destruct (in_rows _ _ _ _ _ _ _ _ _ _ _ I) as (file & F1 & F2). rewrite (conf_file _ _ _ _ L A Fr (in_conf _ _ _ _ _ _ _ _ _ _ _ I)) in F1. injection F1 as <-.
  rewrite Fs in F2. injection F2 as <-. destruct (in_s _ _ _ _ _ _ _ _ _ _ _ I) as (_ & S & _). rewrite S in U.
  apply uget_Ok, aget_Ok in U as [P U]. rewrite nth_error_map in U. destruct (nth_error tab (Z.to_nat t)) as [[en|]|] eqn:E; try discriminate. injection U as <-.
  assert (U : uget tab t = Ok en). { unfold uget. assert (Q : aget tab t = Ok (Some en)) by (apply aget_Ok; auto). rewrite Q. reflexivity. }
  destruct (table_rows _ _ _ _ _ _ _ _ (in_tab _ _ _ _ _ _ _ _ _ _ _ I) Full eq_refl t en U) as [Q|(j & nm & tr & te & al & n & k & T & Nj & D)]; [exfalso; exact (uget_empty _ _ _ _ Q)|].
  exists nm, tr, te, al, n, k. replace (Z.to_nat (t - 1)) with j by lia. destruct (derive_fields _ _ _ _ _ _ _ _ _ D) as (D0 & _ & D1 & D2 & D3 & D4 & D5 & D6 & D7 & _).
  repeat match goal with |- _ /\ _ => split end; try assumption. lia.
Qed.

(** ** Units *)
Lemma timestep_of_unit : forall files junk ls s l n u, last_line "timestep" l ls -> line_key l = "timestep" -> line_value l = text n -> line_unit l = u -> good_numeral n ->
  Initialize files junk ls = Ok s -> p_timestep (st_p s) = to_hours (rnd (value n)) u.
Proof.
  intros files junk ls s l n u L K V U G H. destruct (init_inv _ _ _ _ H) as (c & st & rows & tab & thick & psi & ord & I).
  assert (Kk : In "timestep" keys) by (cbn; tauto). destruct (last_decides _ _ _ _ _ Kk L (in_conf _ _ _ _ _ _ _ _ _ _ _ I)) as (ca & cb & Q & Ag).
  destruct (line_timestep _ _ _ _ _ K V U G Q) as (E & _ & _).
  assert (T : cf_timestep c = Some (to_hours (rnd (value n)) u)). { rewrite <- E. symmetry. unfold agree in Ag. repeat match goal with H : _ /\ _ |- _ => destruct H end. auto. }
  rewrite (in_dt _ _ _ _ _ _ _ _ _ _ _ I) in T. congruence.
Qed.
Lemma fres_of_unit : forall files junk ls s l n u, last_line "forcing_resolution" l ls -> line_key l = "forcing_resolution" -> line_value l = text n -> line_unit l = u -> good_numeral n ->
  Initialize files junk ls = Ok s -> p_fres (st_p s) = to_hours (rnd (value n)) u.
Proof.
  intros files junk ls s l n u L K V U G H. destruct (init_inv _ _ _ _ H) as (c & st & rows & tab & thick & psi & ord & I).
  assert (Kk : In "forcing_resolution" keys) by (cbn; tauto). destruct (last_decides _ _ _ _ _ Kk L (in_conf _ _ _ _ _ _ _ _ _ _ _ I)) as (ca & cb & Q & Ag).
  destruct (line_fres _ _ _ _ _ K V U G Q) as (E & _ & _).
  assert (T : cf_fres c = Some (to_hours (rnd (value n)) u)). { rewrite <- E. symmetry. unfold agree in Ag. repeat match goal with H : _ /\ _ |- _ => destruct H end. auto. }
  rewrite (in_fres _ _ _ _ _ _ _ _ _ _ _ I) in T. congruence.
Qed.
Lemma endtime_of_unit : forall files junk ls s l n u, last_line "endtime" l ls -> line_key l = "endtime" -> line_value l = text n -> line_unit l = u -> good_numeral n ->
  Initialize files junk ls = Ok s -> exists old, endtime_of old (text n) u = Ok (Some (p_endtime (st_p s))).
Proof.
  intros files junk ls s l n u L K V U G H. destruct (init_inv _ _ _ _ H) as (c & st & rows & tab & thick & psi & ord & I).
  assert (Kk : In "endtime" keys) by (cbn; tauto). destruct (last_decides _ _ _ _ _ Kk L (in_conf _ _ _ _ _ _ _ _ _ _ _ I)) as (ca & cb & Q & Ag).
  unfold config_line in Q. cbv zeta in Q. rewrite K, V, U in Q. cbn [String.eqb Ascii.eqb Bool.eqb] in Q.
  bind_inv Q e Ee. destruct e as [e|]; [|discriminate]. bind_inv Q q0 Eq0. apply Ok_inj in Q.
  assert (T : cf_endtime c = Some e). { unfold agree in Ag. repeat match goal with H : _ /\ _ |- _ => destruct H end. subst cb. symmetry. auto. }
  rewrite (in_end _ _ _ _ _ _ _ _ _ _ _ I) in T. injection T as <-. eauto.
Qed.
Lemma is_in_bracket : forall w l, (forall u, In u l -> exists v, u = bracket v) -> is_in (bracket w) l = true <-> In (bracket w) l.
Proof.
  intros w l _. unfold is_in. rewrite existsb_exists. split; [intros (x & A & B); apply String.eqb_eq in B; subst; assumption|intro A; exists (bracket w); split; [assumption|apply String.eqb_refl]].
Qed.
Lemma is_in_true : forall u l, is_in u l = true <-> In u l.
Proof. intros u l. unfold is_in. rewrite existsb_exists. split; [intros (x & A & B); apply String.eqb_eq in B; subst; assumption|intro A; exists u; split; [assumption|apply String.eqb_refl]]. Qed.
Lemma is_in_false : forall u l, is_in u l = false <-> ~ In u l.
Proof. intros u l. rewrite <- is_in_true. destruct (is_in u l); intuition congruence. Qed.
Lemma hours_of_unknown : forall v u, ~ In u (map fst unit_seconds) -> to_hours v u = v.
Proof.
  intros v u N. unfold to_hours.
  assert (A : is_in u ["[s]"; "[sec]"; ""] = false) by (apply is_in_false; intro Q; apply N; cbn in *; intuition).
  assert (B : is_in u ["[min]"; "[minute]"] = false) by (apply is_in_false; intro Q; apply N; cbn in *; intuition).
  assert (C : is_in u ["[h]"; "[hr]"] = false) by (apply is_in_false; intro Q; apply N; cbn in *; intuition).
  rewrite A, B, C. reflexivity.
Qed.
Lemma after_bracket : forall w u x, free_of "]" w -> free_of "]" u -> (w ++ "]" ++ x = u ++ "]")%string -> x = "".
Proof.
  induction w as [|a w IH]; intros [|b u] x F1 F2 E; cbn in *.
  - injection E as ->. reflexivity.
  - injection E as E1 E2. destruct F2 as [F2 _]. exfalso. apply F2. auto.
  - injection E as E1 E2. destruct F1 as [F1 _]. exfalso. apply F1. auto.
  - injection E as _ E. eapply IH; [apply F1|apply F2|exact E].
Qed.
Lemma unknown_after : forall w x, free_of "]" w -> x <> "" -> ~ In ("[" ++ w ++ "]" ++ x)%string (map fst unit_seconds).
Proof.
  intros w x F N H. assert (Q : exists u, ("[" ++ w ++ "]" ++ x)%string = ("[" ++ u ++ "]")%string /\ free_of "]" u).
  { cbn [unit_seconds map fst In] in H.
    destruct H as [H|[H|[H|[H|[H|[H|[H|[]]]]]]]]; [discriminate H| | | | | |].
    - exists "s". split; [symmetry; exact H|cbn; repeat split; discriminate].
    - exists "sec". split; [symmetry; exact H|cbn; repeat split; discriminate].
    - exists "min". split; [symmetry; exact H|cbn; repeat split; discriminate].
    - exists "minute". split; [symmetry; exact H|cbn; repeat split; discriminate].
    - exists "h". split; [symmetry; exact H|cbn; repeat split; discriminate].
    - exists "hr". split; [symmetry; exact H|cbn; repeat split; discriminate]. }
  destruct Q as (u & E & Fu). injection E as E. apply N. eapply after_bracket; [exact F|exact Fu|exact E].
Qed.
End Any.

Section Exactly.
Local Existing Instance exact.

Lemma some_inj : forall A (x y : A), Some x = Some y -> x = y.
Proof. congruence. Qed.

Lemma hours_exact : forall x u sec, In (u, sec) unit_seconds -> to_hours (Fin x) u = Fin (x * sec / 3600).
Proof.
  intros x u sec H. assert (D : forall y, y <> 0 -> (Fin x / lit y)%d = Fin (x / y)).
  { intros y Y. unfold ddiv, lit. cbn. destruct (Req_EM_T y 0); [contradiction|reflexivity]. }
  cbn [unit_seconds In] in H. destruct H as [H|[H|[H|[H|[H|[H|[H|[]]]]]]]]; apply pair_equal_spec in H as [<- <-]; unfold to_hours; cbn [is_in existsb String.eqb Ascii.eqb Bool.eqb orb];
    rewrite D by lra; f_equal; field.
Qed.
Lemma known_unit : forall u sec, In (u, sec) (unit_seconds ++ [("[d]", 86400); ("[day]", 86400)]) -> u = "" \/ exists w, u = bracket w /\ free_of "]" w.
Proof.
  intros u sec H. cbn [unit_seconds app In] in H.
  destruct H as [H|[H|[H|[H|[H|[H|[H|[H|[H|[]]]]]]]]]]; apply pair_equal_spec in H as [<- _]; [left; reflexivity|..]; right.
  - exists "s"; split; [reflexivity|cbn; repeat split; discriminate].
  - exists "sec"; split; [reflexivity|cbn; repeat split; discriminate].
  - exists "min"; split; [reflexivity|cbn; repeat split; discriminate].
  - exists "minute"; split; [reflexivity|cbn; repeat split; discriminate].
  - exists "h"; split; [reflexivity|cbn; repeat split; discriminate].
  - exists "hr"; split; [reflexivity|cbn; repeat split; discriminate].
  - exists "d"; split; [reflexivity|cbn; repeat split; discriminate].
  - exists "day"; split; [reflexivity|cbn; repeat split; discriminate].
Qed.

Lemma timestep_units : forall files junk ls s n u sec, good_numeral n -> In (u, sec) unit_seconds -> last_line "timestep" ("timestep=" ++ text n ++ u)%string ls ->
  Initialize files junk ls = Ok s -> p_timestep (st_p s) = Fin (value n * sec / 3600).
Proof.
  intros files junk ls s n u sec G U L H. assert (K : In "timestep" keys) by (cbn; tauto).
  destruct (unit_table "timestep" n u K G (known_unit u sec (in_or_app _ _ _ (or_introl U)))) as (A & B & C).
  rewrite (timestep_of_unit _ _ _ _ _ _ _ L A B C G H). apply hours_exact. assumption.
Qed.
Lemma fres_units : forall files junk ls s n u sec, good_numeral n -> In (u, sec) unit_seconds -> last_line "forcing_resolution" ("forcing_resolution=" ++ text n ++ u)%string ls ->
  Initialize files junk ls = Ok s -> p_fres (st_p s) = Fin (value n * sec / 3600).
Proof.
  intros files junk ls s n u sec G U L H. assert (K : In "forcing_resolution" keys) by (cbn; tauto).
  destruct (unit_table "forcing_resolution" n u K G (known_unit u sec (in_or_app _ _ _ (or_introl U)))) as (A & B & C).
  rewrite (fres_of_unit _ _ _ _ _ _ _ L A B C G H). apply hours_exact. assumption.
Qed.
Lemma endtime_units : forall files junk ls s n u sec, good_numeral n -> In (u, sec) (unit_seconds ++ [("[d]", 86400); ("[day]", 86400)]) ->
  last_line "endtime" ("endtime=" ++ text n ++ u)%string ls -> Initialize files junk ls = Ok s -> p_endtime (st_p s) = Fin (value n * sec).
Proof.
  intros files junk ls s n u sec G U L H. assert (K : In "endtime" keys) by (cbn; tauto).
  destruct (unit_table "endtime" n u K G (known_unit u sec U)) as (A & B & C).
  destruct (endtime_of_unit _ _ _ _ _ _ _ L A B C G H) as (old & E). clear - E U G.
  cbn [unit_seconds app In] in U.
  destruct U as [U|[U|[U|[U|[U|[U|[U|[U|[U|[]]]]]]]]]]; apply pair_equal_spec in U as [<- <-]; unfold endtime_of in E; cbn [is_in existsb String.eqb Ascii.eqb Bool.eqb orb] in E;
    bind_inv E v Ev; apply Ok_inj in E; destruct (read_number _ _ G Ev) as [-> _]; injection E as <-; cbn; f_equal; ring.
Qed.

(** Any other text in brackets is ignored: the number is taken as hours. *)
Lemma timestep_unknown : forall files junk ls s n w r, good_numeral n -> free_of "]" w ->
  ~ In ("[" ++ w ++ "]")%string (map fst unit_seconds) \/ r <> "" ->
  last_line "timestep" ("timestep=" ++ text n ++ "[" ++ w ++ "]" ++ r)%string ls -> Initialize files junk ls = Ok s -> p_timestep (st_p s) = Fin (value n).
Proof.
  intros files junk ls s n w r G W U L H. assert (K : In "timestep" keys) by (cbn; tauto).
  destruct (unit_parts "timestep" (text n) w r K (plain_text _ G) W) as (A & B & C).
  rewrite (timestep_of_unit _ _ _ _ _ _ _ L A B C G H). apply hours_of_unknown.
  destruct (string_dec r "") as [->|N].
  - rewrite take_nil. destruct U as [U|U]; [exact U|contradiction].
  - apply unknown_after; [assumption|]. destruct r; [contradiction|]. discriminate.
Qed.
Lemma endtime_unknown : forall files junk ls s n w r a b, good_numeral n -> free_of "]" w ->
  ~ In ("[" ++ w ++ "]")%string ["[s]"; "[sec]"; "[min]"; "[minute]"; "[h]"; "[hr]"; "[d]"; "[day]"] ->
  r = "" -> ls = a ++ ("endtime=" ++ text n ++ "[" ++ w ++ "]" ++ r)%string :: b -> (forall x, In x a -> ~ line_sets "endtime" x) -> Initialize files junk ls <> Ok s.
Proof.
  intros files junk ls s n w r a b G W U -> -> N H. assert (K : In "endtime" keys) by (cbn; tauto).
  destruct (unit_parts "endtime" (text n) w "" K (plain_text _ G) W) as (A & B & C). rewrite take_nil in C.
  destruct (init_inv _ _ _ _ H) as (c & st & rows & tab & thick & psi & ord & I). pose proof (in_conf _ _ _ _ _ _ _ _ _ _ _ I) as L.
  rewrite lines_app in L. bind_inv L ca Eca. cbn [config_lines] in L. bind_inv L cb Ecb.
  pose proof (rest_agree _ _ _ _ K N Eca) as Ag. assert (Z : cf_endtime ca = None). { unfold agree in Ag. repeat match goal with H : _ /\ _ |- _ => destruct H end. symmetry. auto. }
  unfold config_line in Ecb. cbv zeta in Ecb. change ("endtime=" ++ text n ++ "[" ++ w ++ "]" ++ "")%string with ("endtime" ++ "=" ++ text n ++ "[" ++ w ++ "]" ++ "")%string in Ecb. rewrite A, B, C in Ecb. cbn [String.eqb Ascii.eqb Bool.eqb] in Ecb.
  unfold endtime_of in Ecb. rewrite Z in Ecb.
  assert (X : forall l, (forall u, In u l -> In u ["[s]"; "[sec]"; ""; "[min]"; "[minute]"; "[h]"; "[hr]"; "[d]"; "[day]"]) -> is_in ("[" ++ w ++ "]" ++ "")%string l = false).
  { intros l Q. apply is_in_false. intro V. apply Q in V. change ("[" ++ w ++ "]" ++ "")%string with ("[" ++ w ++ "]")%string in V. apply U. cbn [In] in V |- *. intuition (try discriminate). }
  rewrite !X in Ecb by (cbn [In]; intuition). discriminate.
Qed.
Lemma timestep_unclosed : forall files junk ls s n w, good_numeral n -> free_of "]" w ->
  last_line "timestep" ("timestep=" ++ text n ++ "[" ++ w)%string ls -> Initialize files junk ls = Ok s -> p_timestep (st_p s) = Fin (value n / 3600).
Proof.
  intros files junk ls s n w G W L H. assert (K : In "timestep" keys) by (cbn; tauto).
  destruct (unit_unclosed "timestep" (text n) w K (plain_text _ G) W) as (A & B & C).
  rewrite (timestep_of_unit _ _ _ _ _ _ _ L A B C G H). transitivity (Fin (value n * 1 / 3600)); [apply hours_exact; cbn; tauto|]. f_equal. field.
Qed.

(** ** Depths *)
Lemma depths : forall files junk ls s l n ns, last_line "layer_thickness" l ls -> assigns "layer_thickness" (numbers (n :: ns)) l -> Forall good_numeral (n :: ns) ->
  Initialize files junk ls = Ok s -> p_thick (st_p s) = Fin 0 :: map Fin (map value (n :: ns)) /\ p_cum (st_p s) = map Fin (boundaries 0 (map value (n :: ns))) /\
  aget (p_cum (st_p s)) (p_nlayers (st_p s)) = Ok (Fin (Rsum (map value (n :: ns)))).
Proof.
  intros files junk ls s l n ns L A G H. destruct (init_inv _ _ _ _ H) as (c & st & rows & tab & thick & psi & ord & I).
  destruct (conf_thick _ _ _ _ _ L A G (in_conf _ _ _ _ _ _ _ _ _ _ _ I)) as [T F]. rewrite (in_thick _ _ _ _ _ _ _ _ _ _ _ I) in T. apply some_inj in T; subst thick.
  rewrite value_exact in I. destruct (in_p _ _ _ _ _ _ _ _ _ _ _ I) as (P1 & P2 & P3 & _). rewrite cum_exact in P3.
  split; [assumption|]. split; [assumption|]. rewrite P1, P3. apply aget_Ok. split; [lia|]. rewrite Nat2Z.id, nth_error_map, map_length.
  rewrite boundaries_nth by lia. rewrite firstn_all. cbn [option_map]. do 2 f_equal. ring.
Qed.

(** ** The unit hydrograph *)
Lemma spread_sum : forall (k : nat) v, (0 < k)%nat -> Rsum (map val (spread k (Fin (INR k)) (map Fin v))) = Rsum v /\ Forall finite (spread k (Fin (INR k)) (map Fin v)).
Proof.
  intros k v K. assert (P : 0 < INR k) by (apply lt_0_INR; assumption).
  assert (D : forall x, (Fin x / Fin (INR k))%d = Fin (x / INR k)). { intro x. unfold ddiv. destruct (Req_EM_T (INR k) 0); [lra|reflexivity]. }
  induction v as [|x v [IH1 IH2]]; [split; [reflexivity|constructor]|]. unfold spread in *. cbn [map flat_map].
  rewrite map_app, Rsum_app, IH1. split.
  - cbn [Rsum]. f_equal. rewrite D. transitivity (INR k * (x / INR k)); [|field; lra]. generalize (x / INR k). clear. intro y.
    induction k as [|k IH]; [cbn; ring|]. cbn [repeat map Rsum]. rewrite IH, S_INR. cbn [val]. ring.
  - apply Forall_app. split; [|assumption]. rewrite D. apply Forall_forall. intros y Hy. apply repeat_spec in Hy. subst y. eexists. reflexivity.
Qed.
Lemma trunc_ge1 : forall x, 1 <= x -> (1 <= trunc x)%Z.
Proof. intros x H. unfold trunc. destruct (Rlt_dec x 0); [lra|]. destruct (base_Int_part x) as [A B]. assert (Q : 0 < IZR (Int_part x)) by lra. apply lt_IZR in Q. lia. Qed.
Lemma giuh_total : forall files junk ls s l n ns x, last_line "giuh_ordinates" l ls -> assigns "giuh_ordinates" (numbers (n :: ns)) l -> Forall good_numeral (n :: ns) ->
  Initialize files junk ls = Ok s -> p_fres (st_p s) = Fin x -> x <= 1 ->
  (1 <= g_N s)%Z /\ Z.of_nat (length (g_ord s)) = g_N s /\ Forall finite (g_ord s) /\ Rsum (map val (g_ord s)) = Rsum (map value (n :: ns)).
Proof.
  intros files junk ls s l n ns x L A G H Fx X. destruct (read_giuh _ _ _ _ _ _ _ L A G H) as (factor & D & P & N & E).
  assert (X0 : 0 < x).
  { destruct (init_inv _ _ _ _ H) as (c & st & rows & tab & thick & psi & ord & I). pose proof (fres_pos _ _ _ _ _ _ _ _ _ _ _ I) as Q. rewrite Fx in Q. apply Rltb_true in Q. assumption. }
  assert (F1 : (1 <= factor)%Z).
  { rewrite Fx in D. change (lit 1) with (Fin 1) in D. unfold ddiv in D. destruct (Req_EM_T x 0); [lra|]. cbn [rnd exact] in D. unfold d2i in D. destruct (_ && _)%bool; [|discriminate]. apply Ok_inj in D. subst factor.
    apply trunc_ge1. apply Rmult_le_reg_r with x; [assumption|]. replace (1 / x * x) with 1 by (field; lra). lra. }
  rewrite value_exact in E. unfold dofZ in E. cbn [rnd exact] in E. replace (IZR factor) with (INR (Z.to_nat factor)) in E by (rewrite INR_IZR_INZ, Z2Nat.id by lia; reflexivity).
  destruct (spread_sum (Z.to_nat factor) (map value (n :: ns)) ltac:(lia)) as [S F].
  rewrite E. split; [rewrite N; cbn [length]; nia|]. split; [|split; assumption].
  rewrite spread_length, map_length, map_length, N. nia.
Qed.
Lemma giuh_coarse : forall files junk ls s x, Initialize files junk ls = Ok s -> p_fres (st_p s) = Fin x -> 1 < x -> g_N s = 0%Z /\ g_ord s = [] /\
  forall (cfg : Cfg) s' s'', user_edit s s' -> Update s' <> Ok s''.
Proof.
  intros files junk ls s x H Fx X. destruct (init_inv _ _ _ _ H) as (c & st & rows & tab & thick & psi & ord & I).
  destruct (init_giuh _ _ _ _ _ _ _ _ _ _ _ I) as (factor & D & P & N & E).
  assert (F0 : factor = 0%Z).
  { rewrite Fx in D. change (lit 1) with (Fin 1) in D. unfold ddiv in D. destruct (Req_EM_T x 0); [lra|]. cbn [rnd exact] in D. unfold d2i in D. destruct (_ && _)%bool; [|discriminate]. apply Ok_inj in D. subst factor.
    assert (Q : 0 < 1 / x < 1). { unfold Rdiv. rewrite Rmult_1_l. split; [apply Rinv_0_lt_compat; lra|]. rewrite <- Rinv_1. apply Rinv_lt_contravar; lra. }
    unfold trunc. destruct (Rlt_dec (1 / x) 0); [lra|]. destruct (base_Int_part (1 / x)) as [B1 B2].
    assert (Q1 : -1 < IZR (Int_part (1 / x))) by lra. assert (Q2 : IZR (Int_part (1 / x)) < 1) by lra. apply lt_IZR in Q1, Q2. lia. }
  subst factor. rewrite Z.mul_0_l in N. split; [assumption|]. split.
  - rewrite E. apply length_zero_iff_nil. rewrite spread_length. reflexivity.
  - intros cfg s' s'' U. eapply no_queue_no_update; [exact N|apply (init_valid _ _ _ _ _ _ _ _ _ _ _ I)|exact U].
Qed.

(** ** The initial column *)
Lemma first_state : forall files junk ls s l n ns lp np lf f rows,
  last_line "layer_thickness" l ls -> assigns "layer_thickness" (numbers (n :: ns)) l -> Forall good_numeral (n :: ns) ->
  last_line "initial_psi" lp ls -> assigns "initial_psi" (text np) lp -> good_numeral np -> 0 <= value np ->
  last_line "soil_params_file" lf ls -> assigns "soil_params_file" f lf -> free_of "[" f -> files f = Some rows -> Forall physical_row rows ->
  Initialize files junk ls = Ok s ->
  exists ss ths, column (env_of s) (map value (n :: ns)) ss /\ hydrostatic (map value (n :: ns)) (value np) ss ths (st_head s) /\
    mb_start (st_mb s) = Fin (layer_storage (map value (n :: ns)) ths).
Proof.
  intros files junk ls s l n ns lp np lf f rows L A G Lp Ap Gp Wet Lf Af Ff Fs Ph H.
  destruct (init_inv _ _ _ _ H) as (c & st & rows' & tab & thick & psi & ord & I). pose proof (in_conf _ _ _ _ _ _ _ _ _ _ _ I) as C.
  destruct (conf_thick _ _ _ _ _ L A G C) as [T F]. rewrite (in_thick _ _ _ _ _ _ _ _ _ _ _ I) in T. apply some_inj in T; subst thick.
  pose proof (conf_psi _ _ _ _ Lp Ap Gp C) as P. rewrite (in_psi _ _ _ _ _ _ _ _ _ _ _ I) in P. apply some_inj in P; subst psi.
  destruct (in_rows _ _ _ _ _ _ _ _ _ _ _ I) as (file & F1 & F2). rewrite (conf_file _ _ _ _ Lf Af Ff C) in F1. injection F1 as <-. rewrite Fs in F2. injection F2 as <-.
  change (rnd (value np)) with (Fin (value np)) in I. rewrite value_exact in I.
  exists (soils_of s (map value (n :: ns))), (thetas s). split; [eapply init_column; eassumption|]. split; [eapply init_hydrostatic; eassumption|]. eapply init_storage; eassumption.
Qed.
Lemma first_ready : forall files junk ls s l n ns lp np lf f rows lg g gs x dt,
  last_line "layer_thickness" l ls -> assigns "layer_thickness" (numbers (n :: ns)) l -> Forall good_numeral (n :: ns) ->
  last_line "initial_psi" lp ls -> assigns "initial_psi" (text np) lp -> good_numeral np -> 0 <= value np ->
  last_line "soil_params_file" lf ls -> assigns "soil_params_file" f lf -> free_of "[" f -> files f = Some rows -> Forall physical_row rows ->
  last_line "giuh_ordinates" lg ls -> assigns "giuh_ordinates" (numbers (g :: gs)) lg -> Forall good_numeral (g :: gs) ->
  Initialize files junk ls = Ok s ->
  Forall (fun n => 0 < value n) (n :: ns) -> Forall (fun n => 0 <= value n) (g :: gs) -> p_timestep (st_p s) = Fin dt -> p_fres (st_p s) = Fin x -> x <= 1 ->
  sound_state s /\ fresh s /\ signs s /\ p_invalid (st_p s) = false /\ within_soils (env_of s) (st_head s) /\ arrays_ok (mkObj s (repeat None 11)) /\
  (p_calib (st_p s) = true -> (p_nfronts (st_p s) <= listLength (st_head s))%Z).
Proof.
  intros files junk ls s l n ns lp np lf f rows lg g gs x dt L A G Lp Ap Gp Wet Lf Af Ff Fs Ph Lg Ag Gg H Pos Nn Dt Fx X.
  destruct (giuh_total _ _ _ _ _ _ _ _ Lg Ag Gg H Fx X) as (N1 & _).
  destruct (init_inv _ _ _ _ H) as (c & st & rows' & tab & thick & psi & ord & I). pose proof (in_conf _ _ _ _ _ _ _ _ _ _ _ I) as C.
  destruct (conf_thick _ _ _ _ _ L A G C) as [T F]. rewrite (in_thick _ _ _ _ _ _ _ _ _ _ _ I) in T. apply some_inj in T; subst thick.
  pose proof (conf_psi _ _ _ _ Lp Ap Gp C) as P. rewrite (in_psi _ _ _ _ _ _ _ _ _ _ _ I) in P. apply some_inj in P; subst psi.
  destruct (in_rows _ _ _ _ _ _ _ _ _ _ _ I) as (file & F1 & F2). rewrite (conf_file _ _ _ _ Lf Af Ff C) in F1. injection F1 as <-. rewrite Fs in F2. injection F2 as <-.
  destruct (conf_giuh _ _ _ _ _ Lg Ag Gg C) as [O _]. rewrite (in_giuh _ _ _ _ _ _ _ _ _ _ _ I) in O. apply some_inj in O; subst ord.
  change (rnd (value np)) with (Fin (value np)) in I. rewrite value_exact in I.
  split; [eapply init_sound_exact; [exact I| |eexists; exact Dt|eexists; exact Fx|exact N1]; rewrite Forall_map; exact Pos|].
  split; [eapply init_fresh; eassumption|]. split.
  { eapply init_signs; [exact I|]. rewrite value_exact, map_map, Forall_map. eapply Forall_impl; [|exact Nn]. intros q Q. apply nn_Fin. exact Q. }
  split; [eapply init_valid; exact I|]. split; [eapply init_within; eassumption|]. split; [eapply init_arrays; exact I|].
  intro Ca. apply (init_ready_calib _ _ _ _ _ _ _ _ _ _ _ I Ca).
Qed.
End Exactly.
