(** The shipped soil table and configuration files, and small variants. *)

From Coq Require Import String Ascii Bool Reals ZArith List Lia Lra.
From Verif Require Import Outcome Dbl Types Soil State Update Config Exact Lib Spec_Common Spec_Soil Spec_Column Spec_Update Spec_Config Pf_Text Pf_Config Pf_Scan Pf_InitTotal Pf_Table Pf_ConfigThm Pf_ConfigMore.
Import ListNotations.
Open Scope string_scope.
Open Scope list_scope.

(** The numeral with a given text: digits, a point and digits, an exponent. *)
Fixpoint take_digits (s : string) : list nat * string :=
  match s with
  | String c r => let k := nat_of_ascii c in if ((48 <=? k) && (k <=? 57))%nat%bool then let '(l, t) := take_digits r in ((k - 48)%nat :: l, t) else ([], s)
  | EmptyString => ([], s)
  end.
Definition take_sign (s : string) : option bool * string :=
  match s with String "-" r => (Some true, r) | String "+" r => (Some false, r) | _ => (None, s) end.
Definition num (s : string) : numeral :=
  let '(sg, s) := take_sign s in
  let '(i, s) := take_digits s in
  let '(f, s) := match s with String "." r => let '(f, t) := take_digits r in (Some f, t) | _ => (None, s) end in
  match s with
  | String c r => let '(es, r) := take_sign r in mkNum sg i f (Some (es, fst (take_digits r))) (Ascii.eqb c "E")
  | EmptyString => mkNum sg i f None false
  end.

(** data/vG_default_params.dat *)
Definition shipped_table : list string := [
  """Texture	        theta_r	theta_e	alpha (cm^-1)	n	Ks (cm/h)""";
  """Clay""	                0.1	0.46	1.00E-02	1.25	0.612";
  """Clay-loam""	        0.08	0.44	2.00E-02	1.42	0.3348";
  """Loam""	                0.06	0.4	1.00E-02	1.47	0.504";
  """Loamy-sand""	        0.05	0.39	3.00E-02	1.75	4.32";
  """Sand""	                0.05	0.38	4.00E-02	3.18	26.64";
  """Sandy-clay""	        0.12	0.39	3.00E-02	1.21	0.468";
  """Sandy-clay loam""	0.06	0.38	2.00E-02	1.33	0.54";
  """Sandy-loam""	        0.04	0.39	3.00E-02	1.45	1.584";
  """Silt""	                0.05	0.49	1.00E-02	1.68	1.836";
  """Silty-clay""	        0.11	0.48	2.00E-02	1.32	0.432";
  """Silty-clay loam""	0.09	0.48	1.00E-02	1.52	0.468";
  """Silt-loam""	        0.07	0.44	1.00E-02	1.66	0.756";
  """P-1""                   0.0648	0.4513	0.0031297	1.6858  0.45";
  """P-2""    		0.0831 	0.4773 	0.0083272 	1.299 	 0.07";
  """P-3"" 			0.0668 	0.4617 	0.0037454 	1.6151 	 0.45";
  """B-1""                	0.0649	0.4481	0.009567	1.3579	0.07";
  """B-2""    		0.0672 	0.4760 	0.005288 	1.5276 	 0.02";
  """B-3"" 			0.0823 	0.4782 	0.004467 	1.4585 	 0.20"].

(** Name, numbers and remaining text of its lines. *)
Definition shipped_parts : list (string * list (string * numeral) * string) := [
  ("""Clay""", [("	                ", num "0.1"); ("	", num "0.46"); ("	", num "1.00E-02"); ("	", num "1.25"); ("	", num "0.612")], "");
  ("""Clay-loam""", [("	        ", num "0.08"); ("	", num "0.44"); ("	", num "2.00E-02"); ("	", num "1.42"); ("	", num "0.3348")], "");
  ("""Loam""", [("	                ", num "0.06"); ("	", num "0.4"); ("	", num "1.00E-02"); ("	", num "1.47"); ("	", num "0.504")], "");
  ("""Loamy-sand""", [("	        ", num "0.05"); ("	", num "0.39"); ("	", num "3.00E-02"); ("	", num "1.75"); ("	", num "4.32")], "");
  ("""Sand""", [("	                ", num "0.05"); ("	", num "0.38"); ("	", num "4.00E-02"); ("	", num "3.18"); ("	", num "26.64")], "");
  ("""Sandy-clay""", [("	        ", num "0.12"); ("	", num "0.39"); ("	", num "3.00E-02"); ("	", num "1.21"); ("	", num "0.468")], "");
  ("""Sandy-clay", [], " loam""	0.06	0.38	2.00E-02	1.33	0.54");
  ("""Sandy-loam""", [("	        ", num "0.04"); ("	", num "0.39"); ("	", num "3.00E-02"); ("	", num "1.45"); ("	", num "1.584")], "");
  ("""Silt""", [("	                ", num "0.05"); ("	", num "0.49"); ("	", num "1.00E-02"); ("	", num "1.68"); ("	", num "1.836")], "");
  ("""Silty-clay""", [("	        ", num "0.11"); ("	", num "0.48"); ("	", num "2.00E-02"); ("	", num "1.32"); ("	", num "0.432")], "");
  ("""Silty-clay", [], " loam""	0.09	0.48	1.00E-02	1.52	0.468");
  ("""Silt-loam""", [("	        ", num "0.07"); ("	", num "0.44"); ("	", num "1.00E-02"); ("	", num "1.66"); ("	", num "0.756")], "");
  ("""P-1""", [("                   ", num "0.0648"); ("	", num "0.4513"); ("	", num "0.0031297"); ("	", num "1.6858"); ("  ", num "0.45")], "");
  ("""P-2""", [("    		", num "0.0831"); (" 	", num "0.4773"); (" 	", num "0.0083272"); (" 	", num "1.299"); (" 	 ", num "0.07")], "");
  ("""P-3""", [(" 			", num "0.0668"); (" 	", num "0.4617"); (" 	", num "0.0037454"); (" 	", num "1.6151"); (" 	 ", num "0.45")], "");
  ("""B-1""", [("                	", num "0.0649"); ("	", num "0.4481"); ("	", num "0.009567"); ("	", num "1.3579"); ("	", num "0.07")], "");
  ("""B-2""", [("    		", num "0.0672"); (" 	", num "0.4760"); (" 	", num "0.005288"); (" 	", num "1.5276"); (" 	 ", num "0.02")], "");
  ("""B-3""", [(" 			", num "0.0823"); (" 	", num "0.4782"); (" 	", num "0.004467"); (" 	", num "1.4585"); (" 	 ", num "0.20")], "")].

(** configs/config_lasam_Phillipsburg.txt *)
Definition phillipsburg : list string := [
  "verbosity=none";
  "forcing_file=./forcing/forcing_data_resampled_uniform_Phillipsburg.csv";
  "soil_params_file=./data/vG_default_params.dat";
  "layer_thickness=44.0,131.0,25.0[cm]";
  "initial_psi=2000.0[cm]";
  "timestep=300[sec]";
  "endtime=7500.0[hr]";
  "forcing_resolution=3600[sec]";
  "ponded_depth_max=2[cm]";
  "use_closed_form_G=false";
  "layer_soil_type=13,14,15";
  "max_valid_soil_types=25";
  "wilting_point_psi=15495.0[cm]";
  "field_capacity_psi=340.9[cm]";
  "giuh_ordinates=0.06,0.51,0.28,0.12,0.03";
  "adaptive_timestep=true"].

(** configs/config_lasam_Bushland.txt *)
Definition bushland : list string := [
  "verbosity=none";
  "forcing_file=./forcing/forcing_data_resampled_uniform_Bushland.csv";
  "soil_params_file=./data/vG_default_params.dat";
  "layer_thickness=18.0,76.0,135.0[cm]";
  "initial_psi=2000.0[cm]";
  "timestep=300[sec]";
  "endtime=8333.0[hr]";
  "forcing_resolution=3600[sec]";
  "ponded_depth_max=0[cm]";
  "use_closed_form_G=false";
  "layer_soil_type=16,17,18";
  "max_valid_soil_types=25";
  "wilting_point_psi=15495.0[cm]";
  "field_capacity_psi=340.9[cm]";
  "giuh_ordinates=0.06,0.51,0.28,0.12,0.03";
  "adaptive_timestep=true"].

(** configs/config_lasam_sft_ngen.txt *)
Definition sft_ngen : list string := [
  "verbosity=none";
  "forcing_file=./forcing/forcing_data_resampled_uniform_Phillipsburg.csv";
  "soil_params_file=./data/vG_default_params.dat";
  "layer_thickness=44.0,131.0,25.0[cm]";
  "initial_psi=2000.0[cm]";
  "timestep=300[sec]";
  "endtime=7500.0[hr]";
  "forcing_resolution=3600[sec]";
  "ponded_depth_max=2[cm]";
  "use_closed_form_G=false";
  "layer_soil_type=13,14,15";
  "max_valid_soil_types=25";
  "wilting_point_psi=15495.0[cm]";
  "field_capacity_psi=340.9[cm]";
  "giuh_ordinates=0.06,0.51,0.28,0.12,0.03";
  "sft_coupled=true";
  "soil_z=10,20,30,40,50,60,70,80,90,100.0,110.,120,130.,140.,150.,160.,170.,180.,190.,200.0[cm]";
  "adaptive_timestep=true"].

(** tests/configs/unittest.txt *)
Definition unittest : list string := [
  "verbosity=none";
  "forcing_file=../forcing/forcing_data_Phillipsburg.csv";
  "soil_params_file=../data/vG_default_params.dat";
  "layer_thickness=44.0,131.0,25.0[cm]";
  "initial_psi=2000.0[cm]";
  "timestep=300[sec]";
  "endtime=1.0[hr]";
  "forcing_resolution=3600[sec]";
  "ponded_depth_max=0[cm]";
  "layer_soil_type=13,14,15";
  "max_valid_soil_types=15";
  "wilting_point_psi=15495.0[cm]";
  "field_capacity_psi=340.9[cm]";
  "giuh_ordinates=0.06,0.51,0.28,0.12,0.03";
  "calib_params=true"].

(** ** Checking numerals and text *)
Definition good_numeralb (n : numeral) : bool :=
  (forallb (fun d => d <? 10)%nat (nu_int n) &&
   match nu_frac n with Some l => forallb (fun d => d <? 10)%nat l | None => true end &&
   match nu_exp n with Some (_, l) => forallb (fun d => d <? 10)%nat l && negb (length l =? 0)%nat | None => true end &&
   (negb (length (nu_int n) =? 0)%nat || match nu_frac n with Some (_ :: _) => true | _ => false end))%bool.
Lemma digits_good : forall l, forallb (fun d => d <? 10)%nat l = true -> Forall (fun d => (d < 10)%nat) l.
Proof. intros l H. rewrite forallb_forall in H. apply Forall_forall. intros d D. apply Nat.ltb_lt, H, D. Qed.
Lemma nonempty_length : forall (A : Type) (l : list A), negb (length l =? 0)%nat = true -> l <> [].
Proof. intros A [|x l] H; discriminate. Qed.
Lemma good_numeral_check : forall n, good_numeralb n = true -> good_numeral n.
Proof.
  intros n H. unfold good_numeralb in H. apply andb_prop in H as [H Q4]. apply andb_prop in H as [H Q3]. apply andb_prop in H as [Q1 Q2].
  split; [apply digits_good; assumption|]. split; [destruct (nu_frac n); [apply digits_good; assumption|exact I]|]. split.
  - destruct (nu_exp n) as [[s l]|]; [|exact I]. apply andb_prop in Q3 as [A B]. split; [apply digits_good; assumption|apply nonempty_length; assumption].
  - apply orb_prop in Q4 as [A|A]; [left; apply nonempty_length; assumption|right]. destruct (nu_frac n) as [[|d l]|]; try discriminate. eauto.
Qed.
Fixpoint blanksb (s : string) : bool := match s with EmptyString => true | String c r => ((Ascii.eqb c " " || Ascii.eqb c (ascii_of_nat 9)) && blanksb r)%bool end.
Lemma blanks_check : forall s, blanksb s = true -> blanks s.
Proof.
  induction s as [|c s IH]; intro H; [exact I|]. cbn in H. apply andb_prop in H as [A B]. split; [|auto]. apply orb_prop in A as [A|A]; apply Ascii.eqb_eq in A; auto.
Qed.
Fixpoint no_spaceb (s : string) : bool := match s with EmptyString => true | String c r => (negb (is_space c) && no_spaceb r)%bool end.
Lemma no_space_check : forall s, no_spaceb s = true -> no_space s.
Proof.
  induction s as [|c s IH]; intro H; [exact I|]. cbn in H. apply andb_prop in H as [A B]. unfold is_space in A. cbv zeta in A. apply negb_true_iff, orb_false_elim in A as [A1 A2].
  split; [apply Nat.eqb_neq; assumption|]. split; [|auto]. intros [L1 L2]. apply Nat.leb_le in L1, L2. rewrite L1, L2 in A2. discriminate.
Qed.
Definition good_columnsb (cs : list (string * numeral)) : bool :=
  forallb (fun c => blanksb (fst c) && negb (String.eqb (fst c) "") && good_numeralb (snd c))%bool cs.
Lemma good_columns_check : forall cs, good_columnsb cs = true -> good_columns cs.
Proof.
  intros cs H. unfold good_columnsb in H. rewrite forallb_forall in H. apply Forall_forall. intros c C. specialize (H c C). apply andb_prop in H as [H Q3]. apply andb_prop in H as [Q1 Q2].
  split; [apply blanks_check; assumption|]. split; [apply negb_true_iff, String.eqb_neq in Q2; assumption|apply good_numeral_check; assumption].
Qed.
Ltac nums := repeat match goal with |- context [num ?s] => let v := eval vm_compute in (num s) in change (num s) with v end.
Ltac values := nums; unfold value, whole, signed, power10; cbn [nu_sign nu_int nu_frac nu_exp fold_left fraction Nat.mul Nat.add pow]; simpl INR.

(** ** The shipped soil table *)
Section Fp.
Context {fp : Fp}.
(** The rows that sscanf finds. *)
Definition part_row (x : string * list (string * numeral) * string) : row := let '(nm, cs, _) := x in mkRow (Some nm) (map (fun c => rnd (value (snd c))) cs).
Definition part_line (x : string * list (string * numeral) * string) : string := let '(nm, cs, t) := x in (nm ++ columns cs ++ t)%string.
Lemma shipped_lines : tl shipped_table = map part_line shipped_parts.
Proof. vm_compute. reflexivity. Qed.
Lemma shipped_rows : table_of shipped_table = map part_row shipped_parts.
Proof.
  unfold table_of. rewrite shipped_lines, map_map. apply map_ext_in. intros [[nm cs] t] H.
  assert (B : (negb (String.eqb nm "") && no_spaceb nm && good_columnsb cs && (length cs <=? 5)%nat)%bool = true /\
    (t = "" /\ length cs = 5%nat \/ (cs = [] /\ exists r, t = (" loam" ++ r)%string))).
  { unfold shipped_parts in H. cbn [In] in H.
    repeat (destruct H as [H|H]; [apply pair_equal_spec in H as [H <-]; apply pair_equal_spec in H as [<- <-]; split; [vm_compute; reflexivity|]; first [left; split; reflexivity|right; split; [reflexivity|eexists; reflexivity]]|]).
    contradiction. }
  destruct B as [B T]. apply andb_prop in B as [B B4]. apply andb_prop in B as [B B3]. apply andb_prop in B as [B1 B2].
  apply negb_true_iff, String.eqb_neq in B1. apply no_space_check in B2. apply good_columns_check in B3. apply Nat.leb_le in B4.
  unfold part_line, part_row. change (nm ++ columns cs ++ t)%string with ("" ++ nm ++ columns cs ++ t)%string.
  apply scan_line; try assumption; [exact I|..].
  - intro L. destruct T as [[_ T]|[_ (r & ->)]]; [lia|]. right. exists " ", "l"%char, ("oam" ++ r)%string. split; [reflexivity|]. split; [cbn; auto|]. split; [discriminate|]. split; [cbn; lia|]. split; discriminate.
  - destruct T as [[-> _]|[_ (r & ->)]]; [exact I|reflexivity].
Qed.
End Fp.

(** ** Checking lines *)
Lemma last_check : forall k ls i l, In k keys -> nth_error ls i = Some l -> line_key l = k ->
  forallb (fun x => negb (String.eqb (line_key x) k)) (skipn (S i) ls) = true -> last_line k l ls.
Proof.
  intros k ls i l K N L F. split; [apply sets_key; assumption|]. exists (firstn i ls), (skipn (S i) ls). split.
  - rewrite <- (firstn_skipn i ls) at 1. f_equal. clear - N. revert ls N. induction i as [|i IH]; intros [|x ls] N; try discriminate; [injection N as ->; reflexivity|]. apply IH. assumption.
  - intros x X S. rewrite forallb_forall in F. specialize (F x X). apply sets_key in S; [|assumption]. rewrite S in F. rewrite String.eqb_refl in F. discriminate.
Qed.
Lemma comment_check : forall l, existsb (String.eqb (line_key l)) keys = false -> comment_line l.
Proof.
  intros l H k K S. apply sets_key in S; [|assumption]. enough (Q : existsb (String.eqb (line_key l)) keys = true) by congruence.
  apply existsb_exists. exists k. split; [assumption|]. apply String.eqb_eq. assumption.
Qed.
Lemma unset_check : forall k ls, In k keys -> forallb (fun x => negb (String.eqb (line_key x) k)) ls = true -> forall l, In l ls -> ~ line_sets k l.
Proof.
  intros k ls K F l L S. rewrite forallb_forall in F. specialize (F l L). apply sets_key in S; [|assumption]. rewrite S, String.eqb_refl in F. discriminate.
Qed.
Lemma required_check : forall ls, forallb (fun k => existsb (fun l => String.eqb (line_key l) k) ls) required_keys = true ->
  forall k, In k required_keys -> exists l, In l ls /\ line_sets k l.
Proof.
  intros ls H k K. rewrite forallb_forall in H. specialize (H k K). apply existsb_exists in H as (l & L & E). exists l. split; [assumption|].
  apply sets_key; [apply in_or_app; auto|]. apply String.eqb_eq. assumption.
Qed.
Definition naturalb (n : numeral) (k : nat) : bool :=
  (good_numeralb n && match nu_sign n, nu_frac n, nu_exp n with None, None, None => true | _, _, _ => false end &&
   (fold_left (fun a d => 10 * a + d)%nat (nu_int n) 0 =? k))%nat%bool.
Lemma natural_check : forall n k, naturalb n k = true -> natural n k.
Proof.
  intros n k H. unfold naturalb in H. apply andb_prop in H as [H C]. apply andb_prop in H as [A B]. apply good_numeral_check in A. apply Nat.eqb_eq in C.
  destruct (nu_sign n) eqn:?, (nu_frac n) eqn:?, (nu_exp n) eqn:?; try discriminate. repeat split; try assumption; apply A.
Qed.
Ltac chk := vm_compute; reflexivity.
Ltac good := apply good_numeral_check; chk.
Ltac goods := repeat (constructor; [good|]); constructor.
Ltac key := cbn; tauto.
Ltac unitless := left; chk.
Ltac in_cm := right; exists "cm]"; chk.
Ltac assigned := first [unitless|in_cm].
Ltac a_vector k n ns := apply (gl_vector k _ (num n) (map num ns)); [key|assigned|goods].
Ltac a_number k n := apply (gl_number k _ (num n)); [key|assigned|good].
Ltac a_flag k b := change (good_line (k ++ "=" ++ (if b : bool then "true" else "false"))); apply gl_flag; key.
Ltac a_comment := apply gl_comment, comment_check; chk.
Ltac a_file f := apply (gl_file _ f); [assigned|cbn; repeat split; discriminate].
Ltac a_time k n u s := apply (gl_time k (num n) u s); [key|cbn; tauto|good|values; lra].
Ltac a_last i := apply (last_check _ _ i); [key|reflexivity|chk|chk].

(** ** The Phillipsburg configuration *)
Section Exact.
Local Existing Instance exact.

Definition data_file : string := "./data/vG_default_params.dat".
(** The files of the repository: the soil table. *)
Definition repository : string -> option (list row) := fun f => if String.eqb f data_file then Some (table_of shipped_table) else None.
Definition seen : list row := completed (map part_row shipped_parts).
Definition repository' : string -> option (list row) := fun f => if String.eqb f data_file then Some seen else None.
Lemma repository_seen : forall junk ls, Initialize repository junk ls = Initialize repository' junk ls.
Proof.
  intros junk ls. apply Initialize_completed. intro f. unfold repository, repository', seen. destruct (String.eqb f data_file); [|auto]. right. rewrite shipped_rows.
  eexists _, _. split; [reflexivity|]. split; [split; [discriminate|reflexivity]|]. split; [repeat constructor|reflexivity].
Qed.
Ltac a_row nm tr te al n k := exists nm, (value (num tr)), (value (num te)), (value (num al)), (value (num n)), (value (num k));
  split; [reflexivity|split; [apply Nat.leb_le; reflexivity|split; [values; lra|split; [values; lra|split; [values; lra|values; lra]]]]].
Lemma seen_physical : Forall physical_row seen.
Proof.
  unfold seen. cbn [completed carried fill map part_row shipped_parts r_name r_vals app length skipn fst snd].
  repeat (constructor; [match goal with |- physical_row (mkRow (Some ?nm) [rnd (value (num ?a)); rnd (value (num ?b)); rnd (value (num ?c)); rnd (value (num ?d)); rnd (value (num ?e))]) => a_row nm a b c d e end|]).
  constructor.
Qed.

Ltac a_natural := match goal with |- exists k, natural ?m k /\ _ => let k := eval vm_compute in (fold_left (fun a d => 10 * a + d)%nat (nu_int m) 0%nat) in exists k; split; [apply natural_check; chk|lia] end.
Ltac a_types n ns := apply (gl_types _ (num n) (map num ns)); [assigned|cbn [map]; repeat (apply Forall_cons; [a_natural|]); apply Forall_nil].

Lemma phillipsburg_basic : basic_config repository' phillipsburg (map num ["44.0"; "131.0"; "25.0"]) (map num ["13"; "14"; "15"]) (map num ["0.06"; "0.51"; "0.28"; "0.12"; "0.03"]) (num "2000.0") (1 / 12) 1 15 seen.
Proof.
  constructor.
  - unfold phillipsburg.
    apply Forall_cons; [a_comment|]. apply Forall_cons; [a_comment|]. apply Forall_cons; [a_file data_file|].
    apply Forall_cons; [a_vector "layer_thickness" "44.0" ["131.0"; "25.0"]|]. apply Forall_cons; [a_number "initial_psi" "2000.0"|].
    apply Forall_cons; [a_time "timestep" "300" "[sec]" 1%R|]. apply Forall_cons; [a_time "endtime" "7500.0" "[hr]" 3600%R|].
    apply Forall_cons; [a_time "forcing_resolution" "3600" "[sec]" 1%R|]. apply Forall_cons; [a_number "ponded_depth_max" "2"|].
    apply Forall_cons; [a_flag "use_closed_form_G" false|]. apply Forall_cons; [a_types "13" ["14"; "15"]|].
    apply Forall_cons; [apply (gl_max _ (num "25") 25); [assigned|apply natural_check; chk|lia]|].
    apply Forall_cons; [a_number "wilting_point_psi" "15495.0"|]. apply Forall_cons; [a_number "field_capacity_psi" "340.9"|].
    apply Forall_cons; [a_vector "giuh_ordinates" "0.06" ["0.51"; "0.28"; "0.12"; "0.03"]|]. apply Forall_cons; [a_flag "adaptive_timestep" true|]. apply Forall_nil.
  - apply required_check. chk.
  - exists "layer_thickness=44.0,131.0,25.0[cm]". split; [a_last 3%nat|]. split; [assigned|]. split; [discriminate|]. split; [goods|]. cbn [map]. repeat (constructor; [values; lra|]). constructor.
  - exists "layer_soil_type=13,14,15". split; [a_last 10%nat|]. split; [assigned|]. split; [discriminate|]. goods.
  - exists "giuh_ordinates=0.06,0.51,0.28,0.12,0.03". split; [a_last 14%nat|]. split; [assigned|]. split; [discriminate|]. split; [goods|]. cbn [map]. repeat (constructor; [values; lra|]). constructor.
  - exists "initial_psi=2000.0[cm]". split; [a_last 4%nat|]. split; [assigned|]. split; [good|]. values. lra.
  - exists "soil_params_file=./data/vG_default_params.dat", data_file. split; [a_last 2%nat|]. split; [assigned|]. split; [cbn; repeat split; discriminate|]. split; [reflexivity|exact seen_physical].
  - exists (num "300"), "[sec]", 1%R. split; [change (last_line "timestep" "timestep=300[sec]" phillipsburg); a_last 5%nat|]. split; [key|]. split; [good|]. values. lra.
  - exists (num "3600"), "[sec]", 1%R. split; [change (last_line "forcing_resolution" "forcing_resolution=3600[sec]" phillipsburg); a_last 7%nat|]. split; [key|]. split; [good|]. values. lra.
  - lra.
  - left. exists "max_valid_soil_types=25", (num "25"), 25%nat. split; [a_last 11%nat|]. split; [assigned|]. split; [apply natural_check; chk|]. split; [lia|reflexivity].
  - lia.
  - right; cbn; intuition discriminate.
Qed.

Lemma phillipsburg_good : good_config repository' phillipsburg (map num ["44.0"; "131.0"; "25.0"]) (map num ["13"; "14"; "15"]) (map num ["0.06"; "0.51"; "0.28"; "0.12"; "0.03"]) (num "2000.0") (1 / 12) 1 15 seen.
Proof.
  split; [|lra]. split; [exact phillipsburg_basic|]. intros i L. cbn in L.
  destruct i as [|[|[|i]]]; [exists (num "13"), 13%nat|exists (num "14"), 14%nat|exists (num "15"), 15%nat|lia]; (split; [reflexivity|]; split; [apply natural_check; chk|]; cbn; lia).
Qed.

(** ** The configuration coupled to soil freeze-thaw *)
Lemma sft_ngen_basic : basic_config repository' sft_ngen (map num ["44.0"; "131.0"; "25.0"]) (map num ["13"; "14"; "15"]) (map num ["0.06"; "0.51"; "0.28"; "0.12"; "0.03"]) (num "2000.0") (1 / 12) 1 15 seen.
Proof.
  constructor.
  - unfold sft_ngen.
    apply Forall_cons; [a_comment|]. apply Forall_cons; [a_comment|]. apply Forall_cons; [a_file data_file|].
    apply Forall_cons; [a_vector "layer_thickness" "44.0" ["131.0"; "25.0"]|]. apply Forall_cons; [a_number "initial_psi" "2000.0"|].
    apply Forall_cons; [a_time "timestep" "300" "[sec]" 1%R|]. apply Forall_cons; [a_time "endtime" "7500.0" "[hr]" 3600%R|].
    apply Forall_cons; [a_time "forcing_resolution" "3600" "[sec]" 1%R|]. apply Forall_cons; [a_number "ponded_depth_max" "2"|].
    apply Forall_cons; [a_flag "use_closed_form_G" false|]. apply Forall_cons; [a_types "13" ["14"; "15"]|].
    apply Forall_cons; [apply (gl_max _ (num "25") 25); [assigned|apply natural_check; chk|lia]|].
    apply Forall_cons; [a_number "wilting_point_psi" "15495.0"|]. apply Forall_cons; [a_number "field_capacity_psi" "340.9"|].
    apply Forall_cons; [a_vector "giuh_ordinates" "0.06" ["0.51"; "0.28"; "0.12"; "0.03"]|]. apply Forall_cons; [a_flag "sft_coupled" true|].
    apply Forall_cons; [a_vector "soil_z" "10" ["20"; "30"; "40"; "50"; "60"; "70"; "80"; "90"; "100.0"; "110."; "120"; "130."; "140."; "150."; "160."; "170."; "180."; "190."; "200.0"]|]. apply Forall_cons; [a_flag "adaptive_timestep" true|]. apply Forall_nil.
  - apply required_check. chk.
  - exists "layer_thickness=44.0,131.0,25.0[cm]". split; [a_last 3%nat|]. split; [assigned|]. split; [discriminate|]. split; [goods|]. cbn [map]. repeat (constructor; [values; lra|]). constructor.
  - exists "layer_soil_type=13,14,15". split; [a_last 10%nat|]. split; [assigned|]. split; [discriminate|]. goods.
  - exists "giuh_ordinates=0.06,0.51,0.28,0.12,0.03". split; [a_last 14%nat|]. split; [assigned|]. split; [discriminate|]. split; [goods|]. cbn [map]. repeat (constructor; [values; lra|]). constructor.
  - exists "initial_psi=2000.0[cm]". split; [a_last 4%nat|]. split; [assigned|]. split; [good|]. values. lra.
  - exists "soil_params_file=./data/vG_default_params.dat", data_file. split; [a_last 2%nat|]. split; [assigned|]. split; [cbn; repeat split; discriminate|]. split; [reflexivity|exact seen_physical].
  - exists (num "300"), "[sec]", 1%R. split; [change (last_line "timestep" "timestep=300[sec]" sft_ngen); a_last 5%nat|]. split; [key|]. split; [good|]. values. lra.
  - exists (num "3600"), "[sec]", 1%R. split; [change (last_line "forcing_resolution" "forcing_resolution=3600[sec]" sft_ngen); a_last 7%nat|]. split; [key|]. split; [good|]. values. lra.
  - lra.
  - left. exists "max_valid_soil_types=25", (num "25"), 25%nat. split; [a_last 11%nat|]. split; [assigned|]. split; [apply natural_check; chk|]. split; [lia|reflexivity].
  - lia.
  - left. exists (nth 16 sft_ngen ""). split; [cbn; tauto|]. apply sets_key; [key|chk].
Qed.

Lemma sft_ngen_good : good_config repository' sft_ngen (map num ["44.0"; "131.0"; "25.0"]) (map num ["13"; "14"; "15"]) (map num ["0.06"; "0.51"; "0.28"; "0.12"; "0.03"]) (num "2000.0") (1 / 12) 1 15 seen.
Proof.
  split; [|lra]. split; [exact sft_ngen_basic|]. intros i L. cbn in L.
  destruct i as [|[|[|i]]]; [exists (num "13"), 13%nat|exists (num "14"), 14%nat|exists (num "15"), 15%nat|lia]; (split; [reflexivity|]; split; [apply natural_check; chk|]; cbn; lia).
Qed.

(** ** The Bushland configuration *)
Lemma bushland_basic : basic_config repository' bushland (map num ["18.0"; "76.0"; "135.0"]) (map num ["16"; "17"; "18"]) (map num ["0.06"; "0.51"; "0.28"; "0.12"; "0.03"]) (num "2000.0") (1 / 12) 1 15 seen.
Proof.
  constructor.
  - unfold bushland.
    apply Forall_cons; [a_comment|]. apply Forall_cons; [a_comment|]. apply Forall_cons; [a_file data_file|].
    apply Forall_cons; [a_vector "layer_thickness" "18.0" ["76.0"; "135.0"]|]. apply Forall_cons; [a_number "initial_psi" "2000.0"|].
    apply Forall_cons; [a_time "timestep" "300" "[sec]" 1%R|]. apply Forall_cons; [a_time "endtime" "8333.0" "[hr]" 3600%R|].
    apply Forall_cons; [a_time "forcing_resolution" "3600" "[sec]" 1%R|]. apply Forall_cons; [a_number "ponded_depth_max" "0"|].
    apply Forall_cons; [a_flag "use_closed_form_G" false|]. apply Forall_cons; [a_types "16" ["17"; "18"]|].
    apply Forall_cons; [apply (gl_max _ (num "25") 25); [assigned|apply natural_check; chk|lia]|].
    apply Forall_cons; [a_number "wilting_point_psi" "15495.0"|]. apply Forall_cons; [a_number "field_capacity_psi" "340.9"|].
    apply Forall_cons; [a_vector "giuh_ordinates" "0.06" ["0.51"; "0.28"; "0.12"; "0.03"]|]. apply Forall_cons; [a_flag "adaptive_timestep" true|]. apply Forall_nil.
  - apply required_check. chk.
  - exists "layer_thickness=18.0,76.0,135.0[cm]". split; [a_last 3%nat|]. split; [assigned|]. split; [discriminate|]. split; [goods|]. cbn [map]. repeat (constructor; [values; lra|]). constructor.
  - exists "layer_soil_type=16,17,18". split; [a_last 10%nat|]. split; [assigned|]. split; [discriminate|]. goods.
  - exists "giuh_ordinates=0.06,0.51,0.28,0.12,0.03". split; [a_last 14%nat|]. split; [assigned|]. split; [discriminate|]. split; [goods|]. cbn [map]. repeat (constructor; [values; lra|]). constructor.
  - exists "initial_psi=2000.0[cm]". split; [a_last 4%nat|]. split; [assigned|]. split; [good|]. values. lra.
  - exists "soil_params_file=./data/vG_default_params.dat", data_file. split; [a_last 2%nat|]. split; [assigned|]. split; [cbn; repeat split; discriminate|]. split; [reflexivity|exact seen_physical].
  - exists (num "300"), "[sec]", 1%R. split; [change (last_line "timestep" "timestep=300[sec]" bushland); a_last 5%nat|]. split; [key|]. split; [good|]. values. lra.
  - exists (num "3600"), "[sec]", 1%R. split; [change (last_line "forcing_resolution" "forcing_resolution=3600[sec]" bushland); a_last 7%nat|]. split; [key|]. split; [good|]. values. lra.
  - lra.
  - left. exists "max_valid_soil_types=25", (num "25"), 25%nat. split; [a_last 11%nat|]. split; [assigned|]. split; [apply natural_check; chk|]. split; [lia|reflexivity].
  - lia.
  - right; cbn; intuition discriminate.
Qed.

Lemma bushland_bad : bad_type (map num ["16"; "17"; "18"]) 15 seen 0.
Proof. split; [intros j J; lia|]. exists (num "16"), 16%nat. split; [reflexivity|]. split; [apply natural_check; chk|lia]. Qed.


(** ** Variants: a time step of five hours, and a forcing resolution of two hours *)
Definition change_line (i : nat) (l : string) (ls : list string) : list string := firstn i ls ++ l :: skipn (S i) ls.
Definition five_hours : list string := Eval cbn in change_line 5 "timestep=5[h]" phillipsburg.
Definition five_mins : list string := Eval cbn in change_line 5 "timestep=5[mins]" phillipsburg.
Definition five_min_blank : list string := Eval cbn in change_line 5 "timestep=5[min] " phillipsburg.
Definition two_hours : list string := Eval cbn in change_line 7 "forcing_resolution=2[h]" phillipsburg.
Definition days : list string := Eval cbn in change_line 6 "endtime=300[days]" phillipsburg.
Definition no_thickness : list string := Eval cbn in firstn 3 phillipsburg ++ skipn 4 phillipsburg.
Lemma five_hours_basic : basic_config repository' five_hours (map num ["44.0"; "131.0"; "25.0"]) (map num ["13"; "14"; "15"]) (map num ["0.06"; "0.51"; "0.28"; "0.12"; "0.03"]) (num "2000.0") 5 1 15 seen.
Proof.
  constructor.
  - unfold five_hours.
    apply Forall_cons; [a_comment|]. apply Forall_cons; [a_comment|]. apply Forall_cons; [a_file data_file|].
    apply Forall_cons; [a_vector "layer_thickness" "44.0" ["131.0"; "25.0"]|]. apply Forall_cons; [a_number "initial_psi" "2000.0"|].
    apply Forall_cons; [a_time "timestep" "5" "[h]" 3600%R|]. apply Forall_cons; [a_time "endtime" "7500.0" "[hr]" 3600%R|].
    apply Forall_cons; [a_time "forcing_resolution" "3600" "[sec]" 1%R|]. apply Forall_cons; [a_number "ponded_depth_max" "2"|].
    apply Forall_cons; [a_flag "use_closed_form_G" false|]. apply Forall_cons; [a_types "13" ["14"; "15"]|].
    apply Forall_cons; [apply (gl_max _ (num "25") 25); [assigned|apply natural_check; chk|lia]|].
    apply Forall_cons; [a_number "wilting_point_psi" "15495.0"|]. apply Forall_cons; [a_number "field_capacity_psi" "340.9"|].
    apply Forall_cons; [a_vector "giuh_ordinates" "0.06" ["0.51"; "0.28"; "0.12"; "0.03"]|]. apply Forall_cons; [a_flag "adaptive_timestep" true|]. apply Forall_nil.
  - apply required_check. chk.
  - exists "layer_thickness=44.0,131.0,25.0[cm]". split; [a_last 3%nat|]. split; [assigned|]. split; [discriminate|]. split; [goods|]. cbn [map]. repeat (constructor; [values; lra|]). constructor.
  - exists "layer_soil_type=13,14,15". split; [a_last 10%nat|]. split; [assigned|]. split; [discriminate|]. goods.
  - exists "giuh_ordinates=0.06,0.51,0.28,0.12,0.03". split; [a_last 14%nat|]. split; [assigned|]. split; [discriminate|]. split; [goods|]. cbn [map]. repeat (constructor; [values; lra|]). constructor.
  - exists "initial_psi=2000.0[cm]". split; [a_last 4%nat|]. split; [assigned|]. split; [good|]. values. lra.
  - exists "soil_params_file=./data/vG_default_params.dat", data_file. split; [a_last 2%nat|]. split; [assigned|]. split; [cbn; repeat split; discriminate|]. split; [reflexivity|exact seen_physical].
  - exists (num "5"), "[h]", 3600%R. split; [change (last_line "timestep" "timestep=5[h]" five_hours); a_last 5%nat|]. split; [key|]. split; [good|]. values. lra.
  - exists (num "3600"), "[sec]", 1%R. split; [change (last_line "forcing_resolution" "forcing_resolution=3600[sec]" five_hours); a_last 7%nat|]. split; [key|]. split; [good|]. values. lra.
  - lra.
  - left. exists "max_valid_soil_types=25", (num "25"), 25%nat. split; [a_last 11%nat|]. split; [assigned|]. split; [apply natural_check; chk|]. split; [lia|reflexivity].
  - lia.
  - right; cbn; intuition discriminate.
Qed.

Lemma five_hours_good : good_config repository' five_hours (map num ["44.0"; "131.0"; "25.0"]) (map num ["13"; "14"; "15"]) (map num ["0.06"; "0.51"; "0.28"; "0.12"; "0.03"]) (num "2000.0") 5 1 15 seen.
Proof.
  split; [|lra]. split; [exact five_hours_basic|]. intros i L. cbn in L.
  destruct i as [|[|[|i]]]; [exists (num "13"), 13%nat|exists (num "14"), 14%nat|exists (num "15"), 15%nat|lia]; (split; [reflexivity|]; split; [apply natural_check; chk|]; cbn; lia).
Qed.

Lemma two_hours_basic : basic_config repository' two_hours (map num ["44.0"; "131.0"; "25.0"]) (map num ["13"; "14"; "15"]) (map num ["0.06"; "0.51"; "0.28"; "0.12"; "0.03"]) (num "2000.0") (1 / 12) 2 15 seen.
Proof.
  constructor.
  - unfold two_hours.
    apply Forall_cons; [a_comment|]. apply Forall_cons; [a_comment|]. apply Forall_cons; [a_file data_file|].
    apply Forall_cons; [a_vector "layer_thickness" "44.0" ["131.0"; "25.0"]|]. apply Forall_cons; [a_number "initial_psi" "2000.0"|].
    apply Forall_cons; [a_time "timestep" "300" "[sec]" 1%R|]. apply Forall_cons; [a_time "endtime" "7500.0" "[hr]" 3600%R|].
    apply Forall_cons; [a_time "forcing_resolution" "2" "[h]" 3600%R|]. apply Forall_cons; [a_number "ponded_depth_max" "2"|].
    apply Forall_cons; [a_flag "use_closed_form_G" false|]. apply Forall_cons; [a_types "13" ["14"; "15"]|].
    apply Forall_cons; [apply (gl_max _ (num "25") 25); [assigned|apply natural_check; chk|lia]|].
    apply Forall_cons; [a_number "wilting_point_psi" "15495.0"|]. apply Forall_cons; [a_number "field_capacity_psi" "340.9"|].
    apply Forall_cons; [a_vector "giuh_ordinates" "0.06" ["0.51"; "0.28"; "0.12"; "0.03"]|]. apply Forall_cons; [a_flag "adaptive_timestep" true|]. apply Forall_nil.
  - apply required_check. chk.
  - exists "layer_thickness=44.0,131.0,25.0[cm]". split; [a_last 3%nat|]. split; [assigned|]. split; [discriminate|]. split; [goods|]. cbn [map]. repeat (constructor; [values; lra|]). constructor.
  - exists "layer_soil_type=13,14,15". split; [a_last 10%nat|]. split; [assigned|]. split; [discriminate|]. goods.
  - exists "giuh_ordinates=0.06,0.51,0.28,0.12,0.03". split; [a_last 14%nat|]. split; [assigned|]. split; [discriminate|]. split; [goods|]. cbn [map]. repeat (constructor; [values; lra|]). constructor.
  - exists "initial_psi=2000.0[cm]". split; [a_last 4%nat|]. split; [assigned|]. split; [good|]. values. lra.
  - exists "soil_params_file=./data/vG_default_params.dat", data_file. split; [a_last 2%nat|]. split; [assigned|]. split; [cbn; repeat split; discriminate|]. split; [reflexivity|exact seen_physical].
  - exists (num "300"), "[sec]", 1%R. split; [change (last_line "timestep" "timestep=300[sec]" two_hours); a_last 5%nat|]. split; [key|]. split; [good|]. values. lra.
  - exists (num "2"), "[h]", 3600%R. split; [change (last_line "forcing_resolution" "forcing_resolution=2[h]" two_hours); a_last 7%nat|]. split; [key|]. split; [good|]. values. lra.
  - lra.
  - left. exists "max_valid_soil_types=25", (num "25"), 25%nat. split; [a_last 11%nat|]. split; [assigned|]. split; [apply natural_check; chk|]. split; [lia|reflexivity].
  - lia.
  - right; cbn; intuition discriminate.
Qed.

Lemma two_hours_usable : usable_config repository' two_hours (map num ["44.0"; "131.0"; "25.0"]) (map num ["13"; "14"; "15"]) (map num ["0.06"; "0.51"; "0.28"; "0.12"; "0.03"]) (num "2000.0") (1 / 12) 2 15 seen.
Proof.
  split; [exact two_hours_basic|]. intros i L. cbn in L.
  destruct i as [|[|[|i]]]; [exists (num "13"), 13%nat|exists (num "14"), 14%nat|exists (num "15"), 15%nat|lia]; (split; [reflexivity|]; split; [apply natural_check; chk|]; cbn; lia).
Qed.


(** ** What Initialize does with them *)
Lemma phillipsburg_starts : forall junk, exists s, Initialize repository junk phillipsburg = Ok s /\ p_nlayers (st_p s) = 3%Z /\ p_timestep (st_p s) = Fin (1 / 12) /\ p_fres (st_p s) = Fin 1.
Proof.
  intro junk. rewrite repository_seen. destruct (configured repository' junk _ _ _ _ _ _ _ _ _ phillipsburg_good) as (s & H & _ & _ & _ & _ & _ & _ & N & D & F). exists s. auto.
Qed.
Lemma bushland_stops : forall junk, Initialize repository junk bushland = Stop (UB OutOfBounds).
Proof.
  intro junk. rewrite repository_seen. apply (invalid_type _ _ _ _ _ _ _ _ _ _ _ 0%nat bushland_basic); [|cbn; lia|exact bushland_bad].
  intros j L. cbn in L. destruct j as [|[|[|j]]]; [exists (num "16"), 16%nat|exists (num "17"), 17%nat|exists (num "18"), 18%nat|lia]; (split; [reflexivity|split; [apply natural_check; chk|lia]]).
Qed.
Lemma no_thickness_undefined : forall junk, Initialize repository junk no_thickness = Stop (UB Uninit).
Proof.
  intro junk. rewrite repository_seen.
  apply (missing_thickness repository' junk (firstn 3 phillipsburg) "layer_thickness=44.0,131.0,25.0[cm]" (skipn 4 phillipsburg) _ _ _ _ _ _ _ _ phillipsburg_basic).
  - right. eexists. reflexivity.
  - apply unset_check; [key|chk].
Qed.
Lemma five_mins_is_hours : forall junk, exists s, Initialize repository junk five_mins = Ok s /\ p_timestep (st_p s) = Fin 5.
Proof.
  intro junk.
  assert (E : Initialize repository junk five_mins = Initialize repository junk five_hours).
  { apply (time_as_hours repository junk (firstn 5 phillipsburg) (skipn 6 phillipsburg) "timestep" (num "5") "mins" ""); [key|good|cbn; repeat split; discriminate|].
    left. cbn. intuition discriminate. }
  rewrite E, repository_seen. destruct (configured repository' junk _ _ _ _ _ _ _ _ _ five_hours_good) as (s & H & _ & _ & _ & _ & _ & _ & _ & D & _). eauto.
Qed.
Lemma blank_is_hours : forall junk, exists s, Initialize repository junk five_min_blank = Ok s /\ p_timestep (st_p s) = Fin 5.
Proof.
  intro junk.
  assert (E : Initialize repository junk five_min_blank = Initialize repository junk five_hours).
  { apply (time_as_hours repository junk (firstn 5 phillipsburg) (skipn 6 phillipsburg) "timestep" (num "5") "min" " "); [key|good|cbn; repeat split; discriminate|].
    right. discriminate. }
  rewrite E, repository_seen. destruct (configured repository' junk _ _ _ _ _ _ _ _ _ five_hours_good) as (s & H & _ & _ & _ & _ & _ & _ & _ & D & _). eauto.
Qed.
Lemma days_stops : forall junk s, Initialize repository junk days <> Ok s.
Proof.
  intros junk s. apply (endtime_unknown repository junk days s (num "300") "days" "" (firstn 6 phillipsburg) (skipn 7 phillipsburg)); [good|cbn; repeat split; discriminate|cbn; intuition discriminate|reflexivity|reflexivity|].
  apply unset_check; [key|chk].
Qed.
Lemma two_hours_starts : forall junk, exists s, Initialize repository junk two_hours = Ok s /\ p_fres (st_p s) = Fin 2 /\ g_N s = 0%Z /\
  forall (cfg : Cfg) s' s'', user_edit s s' -> Update s' <> Ok s''.
Proof.
  intro junk. rewrite repository_seen. destruct (init_total repository' junk _ _ _ _ _ _ _ _ _ two_hours_usable) as (s & H & _ & F & _). exists s. split; [assumption|]. split; [assumption|].
  destruct (giuh_coarse _ _ _ _ 2 H F) as (N & _ & U); [lra|]. auto.
Qed.

(** ** Soils 7 and 11 of the shipped table *)
Lemma seen_full : forall r, In r seen -> exists nm tr te al n k, r = full_row nm tr te al n k.
Proof.
  intros r H. pose proof seen_physical as P. rewrite Forall_forall in P. destruct (P r H) as (nm & tr & te & al & n & k & E & _). eauto 10.
Qed.
Lemma shipped_soils : forall junk ls s l, last_line "soil_params_file" l ls -> assigns "soil_params_file" data_file l -> Initialize repository junk ls = Ok s ->
  (forall a b, uget (st_soils s) 7 = Ok a -> uget (st_soils s) 6 = Ok b -> a = b /\ s_theta_e a = Fin (value (num "0.39"))) /\
  (forall a b, uget (st_soils s) 11 = Ok a -> uget (st_soils s) 10 = Ok b -> a = b /\ s_n a = Fin (value (num "1.32"))).
Proof.
  intros junk ls s l L A H. rewrite repository_seen in H. assert (F : free_of "[" data_file) by (cbn; repeat split; discriminate).
  assert (R : repository' data_file = Some seen) by reflexivity. split; intros a b Ua Ub.
  - split.
    + eapply (same_rows repository' junk ls s l data_file seen L A F R seen_full H 7 6); [reflexivity|reflexivity|reflexivity|exact Ua|exact Ub].
    + destruct (soil_rows repository' junk ls s l data_file seen L A F R seen_full H 7 a Ua) as (nm & tr & te & al & n & k & _ & N & _ & E & _). rewrite E. cbn in N. injection N as _ _ <- _ _ _. reflexivity.
  - split.
    + eapply (same_rows repository' junk ls s l data_file seen L A F R seen_full H 11 10); [reflexivity|reflexivity|reflexivity|exact Ua|exact Ub].
    + destruct (soil_rows repository' junk ls s l data_file seen L A F R seen_full H 11 a Ua) as (nm & tr & te & al & n & k & _ & N & _ & _ & _ & E & _). rewrite E. cbn in N. injection N as _ _ _ _ <- _. reflexivity.
Qed.

Lemma shipped_soils_exist : forall junk, exists s a b c d, Initialize repository junk phillipsburg = Ok s /\
  uget (st_soils s) 7 = Ok a /\ uget (st_soils s) 6 = Ok b /\ uget (st_soils s) 11 = Ok c /\ uget (st_soils s) 10 = Ok d.
Proof.
  intro junk. rewrite repository_seen. destruct phillipsburg_good as [G _]. destruct (init_total repository' junk _ _ _ _ _ _ _ _ _ G) as (s & H & _ & _ & S).
  destruct (S 7%nat) as [a A]; [lia|cbn; lia|]. destruct (S 6%nat) as [b B]; [lia|cbn; lia|]. destruct (S 11%nat) as [c C]; [lia|cbn; lia|]. destruct (S 10%nat) as [d D]; [lia|cbn; lia|].
  exists s, a, b, c, d. auto.
Qed.

(** ** The water content at the wilting point *)
(** alpha = 1/cm, n = 2, wilting point 1 cm, water contents from 0.1 to 0.4: with the exponent 1 - 1/n this is 0.1 + 0.3 / sqrt 2. *)
Lemma wilting_point_junk : exists en0 en1,
  derive (Fin 1) (Fin 0) (Fin (1 / 10)) (Fin (4 / 10)) (Fin 1) (Fin 2) (Fin 1) "soil" = Ok en0 /\
  derive (Fin 1) (Fin 1) (Fin (1 / 10)) (Fin (4 / 10)) (Fin 1) (Fin 2) (Fin 1) "soil" = Ok en1 /\
  en_theta_wp en0 = Fin (4 / 10) /\ en_theta_wp en1 = Fin (25 / 100).
Proof.
  destruct (derive_is (Fin 1) (Fin 0) (1 / 10) (4 / 10) 1 2 1 "soil") as (en0 & _ & _ & D0 & _); [lra|lra|].
  destruct (derive_is (Fin 1) (Fin 1) (1 / 10) (4 / 10) 1 2 1 "soil") as (en1 & _ & _ & D1 & _); [lra|lra|].
  exists en0, en1. split; [assumption|]. split; [assumption|].
  destruct (derive_fields _ _ _ _ _ _ _ _ _ D0) as (_ & _ & _ & _ & _ & _ & _ & _ & _ & ->). destruct (derive_fields _ _ _ _ _ _ _ _ _ D1) as (_ & _ & _ & _ & _ & _ & _ & _ & _ & ->).
  unfold calc_theta_from_h. change (lit 1) with (Fin 1).
  assert (P : dpow (Fin 1 * Fin 1)%d (Fin 2) = Fin 1).
  { unfold dpow. cbn. unfold Reqb. destruct (Req_EM_T 2 0); [lra|]. destruct (Req_EM_T (1 * 1) 1); [reflexivity|lra]. }
  rewrite P. cbn [dadd rnd exact].
  assert (Z : dpow (Fin (1 + 1)) (Fin 0) = Fin 1). { unfold dpow. cbn. unfold Reqb. destruct (Req_EM_T 0 0); [reflexivity|lra]. }
  assert (O : dpow (Fin (1 + 1)) (Fin 1) = Fin 2).
  { unfold dpow. cbn. unfold Reqb. destruct (Req_EM_T 1 0); [lra|]. destruct (Req_EM_T (1 + 1) 1); [lra|]. destruct (Rlt_dec 0 (1 + 1)); [|lra]. rewrite Rpower_1 by lra. reflexivity. }
  rewrite Z, O. unfold ddiv. destruct (Req_EM_T 1 0); [lra|]. destruct (Req_EM_T 2 0); [lra|]. cbn. split; f_equal; lra.
Qed.
End Exact.
