(** What the lines of the configuration file set. *)

From Coq Require Import String Ascii Reals Lra ZArith List Bool Lia.
From RecordUpdate Require Import RecordSet.
From Verif Require Import Outcome Dbl Types ListOps State Config Lib Spec_Common Spec_Config Pf_Text Pf_Config.
Import ListNotations.
Import RecordSetNotations.
Open Scope string_scope.
Open Scope list_scope.

(** ** Text of numerals *)
Definition plain (s : string) : Prop := free_of "=" s /\ free_of "[" s /\ free_of "," s /\ free_of "]" s.
Lemma plain_app : forall a b, plain a -> plain b -> plain (a ++ b).
Proof. intros a b (A & B & C & D) (E & F & G & H). repeat split; apply free_app; assumption. Qed.
Lemma plain_sign : forall s, plain (sign_text s).
Proof. intros [[]|]; cbn; unfold plain; cbn; repeat split; discriminate. Qed.
Lemma plain_digits : forall l, Forall (fun d => (d < 10)%nat) l -> plain (digits_text l).
Proof.
  induction 1 as [|d l H _ IH]; [unfold plain; cbn; auto|]. cbn [digits_text]. destruct IH as (A & B & C & D).
  unfold plain. cbn [free_of]. repeat split; try assumption;
  do 10 (destruct d as [|d]; [vm_compute; discriminate|]); lia.
Qed.
Lemma plain_text : forall n, good_numeral n -> plain (text n).
Proof.
  intros [s i f e u] (A & B & C & _). cbn [nu_sign nu_int nu_frac nu_exp nu_upper] in *. unfold text. cbn [nu_sign nu_int nu_frac nu_exp nu_upper].
  apply plain_app; [apply plain_sign|]. apply plain_app; [apply plain_digits; assumption|]. apply plain_app.
  - destruct f as [l|]; [|unfold plain; cbn; auto]. apply plain_app; [unfold plain; cbn; repeat split; discriminate|apply plain_digits; assumption].
  - destruct e as [[t l]|]; [|unfold plain; cbn; auto]. apply plain_app; [destruct u; unfold plain; cbn; repeat split; discriminate|]. apply plain_app; [apply plain_sign|apply plain_digits; apply C].
Qed.
Lemma free_concat : forall c l, c <> ","%char -> Forall (free_of c) l -> free_of c (String.concat "," l).
Proof.
  intros c l N F. induction F as [|x l H F IH]; [cbn; auto|]. destruct l as [|y l]; [assumption|].
  change (String.concat "," (x :: y :: l)) with (x ++ "," ++ String.concat "," (y :: l))%string. apply free_app; [assumption|]. cbn [free_of append]. split; [congruence|assumption].
Qed.

Section Lines.
Context {fp : Fp}.

Lemma each_map : forall A B C (f : B -> outcome C) (g : A -> B) l, each f (map g l) = each (fun x => f (g x)) l.
Proof. intros A B C f g l. induction l as [|x l IH]; [reflexivity|]. cbn. destruct (f (g x)); [|reflexivity]. cbn. rewrite IH. reflexivity. Qed.
Lemma read_number : forall n d, good_numeral n -> stod (text n) = Ok d -> d = rnd (value n) /\ finite d.
Proof. intros n d G H. rewrite stod_text in H by assumption. destruct (rnd (value n)) as [x| | |]; try discriminate. apply Ok_inj in H. subst d. split; [reflexivity|exists x; reflexivity]. Qed.
Lemma read_each : forall ns v, Forall good_numeral ns -> each stod (map text ns) = Ok v -> v = map (fun n => rnd (value n)) ns /\ Forall finite v.
Proof.
  induction ns as [|n ns IH]; intros v G H; [apply Ok_inj in H; subst v; split; constructor|]. inversion_clear G as [|? ? G1 G2]. cbn [map each] in H.
  bind_inv H d Ed. bind_inv H r Er. apply Ok_inj in H. subst v. destruct (read_number _ _ G1 Ed) as [-> Fd]. destruct (IH _ G2 Er) as [-> Fr]. split; [reflexivity|constructor; assumption].
Qed.
Lemma read_numbers : forall n ns v, Forall good_numeral (n :: ns) -> ReadVectorData (numbers (n :: ns)) = Ok v ->
  v = map (fun n => rnd (value n)) (n :: ns) /\ Forall finite v.
Proof.
  intros n ns v G H. unfold numbers in H. cbn [map] in H. rewrite ReadVector_concat in H; [apply read_each; assumption|].
  change (Forall (free_of ",") (map text (n :: ns))). rewrite Forall_map. eapply Forall_impl; [|exact G]. intros m Gm. apply plain_text. assumption.
Qed.
Lemma plain_numbers : forall ns, Forall good_numeral ns -> free_of "=" (numbers ns) /\ free_of "[" (numbers ns).
Proof.
  intros ns G. split; (apply free_concat; [discriminate|]; rewrite Forall_map; eapply Forall_impl; [|exact G]; intros m Gm; apply plain_text; assumption).
Qed.

Lemma keys_bracket : forall k, In k keys -> free_of "[" k.
Proof.
  intros k H. assert (F : Forall (free_of "[") keys) by (repeat constructor; cbn; repeat split; discriminate).
  rewrite Forall_forall in F. auto.
Qed.
Lemma assigns_value : forall k v l, In k keys -> free_of "[" v -> assigns k v l -> line_value l = v /\ line_key l = k.
Proof.
  intros k v l K F A. pose proof (keys_free _ K). pose proof (keys_bracket _ K).
  destruct A as [->|[u ->]]; (split; [|apply line_key_sets; [assumption|right; eexists; reflexivity]]).
  - apply line_value_plain; assumption.
  - apply line_value_unit; assumption.
Qed.

(** ** The last line decides *)
Definition agree (k : string) (c d : conf) : Prop :=
  (k = "layer_thickness" -> cf_thick c = cf_thick d) /\ (k = "layer_soil_type" -> cf_stype c = cf_stype d) /\ (k = "giuh_ordinates" -> cf_giuh c = cf_giuh d) /\
  (k = "soil_z" -> cf_soilz c = cf_soilz d) /\ (k = "initial_psi" -> cf_psi c = cf_psi d) /\ (k = "max_valid_soil_types" -> cf_maxtypes c = cf_maxtypes d) /\
  (k = "soil_params_file" -> cf_file c = cf_file d) /\ (k = "wilting_point_psi" -> cf_wp c = cf_wp d) /\ (k = "field_capacity_psi" -> cf_fc c = cf_fc d) /\
  (k = "use_closed_form_G" -> cf_closed c = cf_closed d) /\ (k = "adaptive_timestep" -> cf_adaptive c = cf_adaptive d) /\ (k = "timestep" -> cf_timestep c = cf_timestep d) /\
  (k = "endtime" -> cf_endtime c = cf_endtime d) /\ (k = "forcing_resolution" -> cf_fres c = cf_fres d) /\ (k = "sft_coupled" -> cf_sft c = cf_sft d) /\
  (k = "ponded_depth_max" -> cf_pmax c = cf_pmax d) /\ (k = "calib_params" -> cf_calib c = cf_calib d).
Lemma agree_refl : forall k c, agree k c c.
Proof. intros. unfold agree. repeat split; reflexivity. Qed.
Lemma agree_apply : forall k x c d, slot x <> k -> agree k c d -> agree k c (apply x d).
Proof.
  intros k x c d N A. unfold agree in *. repeat match goal with H : _ /\ _ |- _ => destruct H end.
  destruct x; cbn [apply slot] in *; repeat split; intro E; subst k; try (exfalso; apply N; reflexivity);
    match goal with |- ?f _ = _ => match goal with H : _ -> f _ = _ |- _ => exact (H eq_refl) end end.
Qed.
Lemma rest_agree : forall ls c d k, In k keys -> (forall x, In x ls -> ~ line_sets k x) -> config_lines c ls = Ok d -> agree k c d.
Proof.
  intros ls c d k K. assert (G : forall ls c c0 d, (forall x, In x ls -> ~ line_sets k x) -> agree k c0 c -> config_lines c ls = Ok d -> agree k c0 d).
  { clear ls c d. induction ls as [|l ls IH]; intros c c0 d N A H; cbn in H; [apply Ok_inj in H; subst d; assumption|]. bind_inv H e Ee.
    destruct (line_effect _ _ _ Ee) as (x & -> & Kx & _). eapply IH; [intros y Hy; apply N; right; exact Hy| |exact H]. apply agree_apply; [|assumption].
    intro Q. apply (N l (or_introl eq_refl)). apply sets_key; [assumption|]. destruct Kx as [[-> _]|(_ & Kx & _)]; [|congruence].
    exfalso. subst k. revert K. cbn. intuition discriminate. }
  intros N H. eapply G; [exact N|apply agree_refl|exact H].
Qed.
Lemma last_decides : forall ls l k c c0, In k keys -> last_line k l ls -> config_lines c0 ls = Ok c ->
  exists c1 c2, config_line c1 l = Ok c2 /\ agree k c2 c.
Proof.
  intros ls l k c c0 K (_ & a & b & -> & N) H. rewrite lines_app in H. bind_inv H ca Eca. cbn in H. bind_inv H cb Ecb.
  exists ca, cb. split; [assumption|]. eapply rest_agree; eassumption.
Qed.

(** ** Values of the keys *)
Ltac pick A := unfold agree in A; repeat match goal with H : _ /\ _ |- _ => destruct H end; match goal with |- ?f ?c = _ => match goal with H : _ -> f _ = f c |- _ => rewrite <- (H eq_refl) end end.
Ltac enter H K V := unfold config_line in H; cbv zeta in H; rewrite K, V in H; cbn [String.eqb Ascii.eqb Bool.eqb] in H.

Lemma conf_thick : forall ls l n ns c, last_line "layer_thickness" l ls -> assigns "layer_thickness" (numbers (n :: ns)) l -> Forall good_numeral (n :: ns) ->
  config_lines conf0 ls = Ok c -> cf_thick c = Some (map (fun n => rnd (value n)) (n :: ns)) /\ Forall finite (map (fun n => rnd (value n)) (n :: ns)).
Proof.
  intros ls l n ns c L A G H. assert (K : In "layer_thickness" keys) by (cbn; tauto).
  destruct (last_decides _ _ _ _ _ K L H) as (c1 & c2 & Q & Ag). destruct (assigns_value _ _ _ K (proj2 (plain_numbers _ G)) A) as [V Kl].
  enter Q Kl V. bind_inv Q v Ev. apply Ok_inj in Q. destruct (read_numbers _ _ _ G Ev) as [E F]. subst v. split; [|assumption]. pick Ag. subst c2. reflexivity.
Qed.
Lemma conf_giuh : forall ls l n ns c, last_line "giuh_ordinates" l ls -> assigns "giuh_ordinates" (numbers (n :: ns)) l -> Forall good_numeral (n :: ns) ->
  config_lines conf0 ls = Ok c -> cf_giuh c = Some (map (fun n => rnd (value n)) (n :: ns)) /\ Forall finite (map (fun n => rnd (value n)) (n :: ns)).
Proof.
  intros ls l n ns c L A G H. assert (K : In "giuh_ordinates" keys) by (cbn; tauto).
  destruct (last_decides _ _ _ _ _ K L H) as (c1 & c2 & Q & Ag). destruct (assigns_value _ _ _ K (proj2 (plain_numbers _ G)) A) as [V Kl].
  enter Q Kl V. bind_inv Q v Ev. apply Ok_inj in Q. destruct (read_numbers _ _ _ G Ev) as [E F]. subst v. split; [|assumption]. pick Ag. subst c2. reflexivity.
Qed.
Lemma conf_soilz : forall ls l n ns c, last_line "soil_z" l ls -> assigns "soil_z" (numbers (n :: ns)) l -> Forall good_numeral (n :: ns) ->
  config_lines conf0 ls = Ok c -> cf_soilz c = Some (map (fun n => rnd (value n)) (n :: ns)) /\ Forall finite (map (fun n => rnd (value n)) (n :: ns)).
Proof.
  intros ls l n ns c L A G H. assert (K : In "soil_z" keys) by (cbn; tauto).
  destruct (last_decides _ _ _ _ _ K L H) as (c1 & c2 & Q & Ag). destruct (assigns_value _ _ _ K (proj2 (plain_numbers _ G)) A) as [V Kl].
  enter Q Kl V. bind_inv Q v Ev. apply Ok_inj in Q. destruct (read_numbers _ _ _ G Ev) as [E F]. subst v. split; [|assumption]. pick Ag. subst c2. reflexivity.
Qed.
Lemma to_ints_each : forall v zs, to_ints v = Ok zs -> each d2i v = Ok zs.
Proof. induction v as [|x v IH]; intros zs H; [assumption|]. cbn in *. bind_inv H z Ez. bind_inv H r Er. rewrite Ez. cbn. rewrite (IH _ Er). exact H. Qed.
Lemma conf_stype : forall ls l n ns c, last_line "layer_soil_type" l ls -> assigns "layer_soil_type" (numbers (n :: ns)) l -> Forall good_numeral (n :: ns) ->
  config_lines conf0 ls = Ok c -> exists zs, cf_stype c = Some zs /\ each d2i (map (fun n => rnd (value n)) (n :: ns)) = Ok zs.
Proof.
  intros ls l n ns c L A G H. assert (K : In "layer_soil_type" keys) by (cbn; tauto).
  destruct (last_decides _ _ _ _ _ K L H) as (c1 & c2 & Q & Ag). destruct (assigns_value _ _ _ K (proj2 (plain_numbers _ G)) A) as [V Kl].
  enter Q Kl V. bind_inv Q v Ev. bind_inv Q zs Ez. apply Ok_inj in Q. destruct (read_numbers _ _ _ G Ev) as [E F]. subst v. exists zs. split; [|apply to_ints_each; assumption]. pick Ag. subst c2. reflexivity.
Qed.
Lemma conf_psi : forall ls l n c, last_line "initial_psi" l ls -> assigns "initial_psi" (text n) l -> good_numeral n ->
  config_lines conf0 ls = Ok c -> cf_psi c = Some (rnd (value n)).
Proof.
  intros ls l n c L A G H. assert (K : In "initial_psi" keys) by (cbn; tauto). destruct (plain_text _ G) as (_ & P & _).
  destruct (last_decides _ _ _ _ _ K L H) as (c1 & c2 & Q & Ag). destruct (assigns_value _ _ _ K P A) as [V Kl].
  enter Q Kl V. bind_inv Q v Ev. apply Ok_inj in Q. destruct (read_number _ _ G Ev) as [-> _]. pick Ag. subst c2. reflexivity.
Qed.
Lemma conf_file : forall ls l f c, last_line "soil_params_file" l ls -> assigns "soil_params_file" f l -> free_of "[" f ->
  config_lines conf0 ls = Ok c -> cf_file c = Some f.
Proof.
  intros ls l f c L A G H. assert (K : In "soil_params_file" keys) by (cbn; tauto).
  destruct (last_decides _ _ _ _ _ K L H) as (c1 & c2 & Q & Ag). destruct (assigns_value _ _ _ K G A) as [V Kl].
  enter Q Kl V. apply Ok_inj in Q. pick Ag. subst c2. reflexivity.
Qed.

(** ** Units *)
Lemma sapp_assoc : forall a b c : string, ((a ++ b) ++ c = a ++ (b ++ c))%string.
Proof. induction a as [|x a IH]; intros b c; cbn; [reflexivity|rewrite IH; reflexivity]. Qed.
Lemma sapp_nil : forall a : string, (a ++ "")%string = a.
Proof. induction a as [|x a IH]; cbn; [reflexivity|rewrite IH; reflexivity]. Qed.
Lemma take_nil : forall k, take k "" = "".
Proof. destruct k; reflexivity. Qed.

(** A unit in brackets. *)
Definition bracket (w : string) : string := ("[" ++ w ++ "]")%string.
Lemma keys_close : forall k, In k keys -> free_of "]" k.
Proof.
  intros k H. assert (F : Forall (free_of "]") keys) by (repeat constructor; cbn; repeat split; discriminate).
  rewrite Forall_forall in F. auto.
Qed.
Lemma unit_parts : forall k v w r, In k keys -> plain v -> free_of "]" w ->
  let l := (k ++ "=" ++ v ++ "[" ++ w ++ "]" ++ r)%string in
  line_key l = k /\ line_value l = v /\ line_unit l = ("[" ++ w ++ "]" ++ take (S (String.length k + String.length v)) r)%string.
Proof.
  intros k v w r K (P1 & P2 & P3 & P4) W l. pose proof (keys_free _ K). pose proof (keys_bracket _ K). pose proof (keys_close _ K).
  assert (A : assigns k v l) by (right; eexists; reflexivity). destruct (assigns_value _ _ _ K P2 A) as [V Kl]. split; [assumption|split; [assumption|]].
  unfold l. replace (k ++ "=" ++ v ++ "[" ++ w ++ "]" ++ r)%string with ((k ++ "=" ++ v) ++ "[" ++ w ++ "]" ++ r)%string by (rewrite !sapp_assoc; reflexivity).
  rewrite line_unit_some; [do 3 f_equal; f_equal; rewrite length_app; cbn [append String.length]; lia| | |assumption].
  - apply free_app; [assumption|]. cbn. split; [discriminate|assumption].
  - apply free_app; [assumption|]. cbn. split; [discriminate|assumption].
Qed.
Lemma unit_none : forall k v, In k keys -> plain v -> let l := (k ++ "=" ++ v)%string in line_key l = k /\ line_value l = v /\ line_unit l = "".
Proof.
  intros k v K (P1 & P2 & P3 & P4) l. assert (A : assigns k v l) by (left; reflexivity). destruct (assigns_value _ _ _ K P2 A) as [V Kl]. split; [assumption|split; [assumption|]].
  apply line_unit_none. unfold l. apply free_app; [apply keys_bracket; assumption|]. cbn. split; [discriminate|assumption].
Qed.
Lemma unit_unclosed : forall k v w, In k keys -> plain v -> free_of "]" w -> let l := (k ++ "=" ++ v ++ "[" ++ w)%string in
  line_key l = k /\ line_value l = v /\ line_unit l = "".
Proof.
  intros k v w K (P1 & P2 & P3 & P4) W l. pose proof (keys_free _ K). pose proof (keys_bracket _ K). pose proof (keys_close _ K).
  assert (A : assigns k v l) by (right; eexists; reflexivity). destruct (assigns_value _ _ _ K P2 A) as [V Kl]. split; [assumption|split; [assumption|]].
  unfold l. replace (k ++ "=" ++ v ++ "[" ++ w)%string with ((k ++ "=" ++ v) ++ "[" ++ w)%string by (rewrite !sapp_assoc; reflexivity).
  apply line_unit_open; [| |assumption]; (apply free_app; [assumption|]; cbn; split; [discriminate|assumption]).
Qed.

(** The line gives the number [n] and the text [u] in brackets, or none. *)
Lemma unit_table : forall k n u, In k keys -> good_numeral n -> (u = "" \/ exists w, u = bracket w /\ free_of "]" w) ->
  let l := (k ++ "=" ++ text n ++ u)%string in line_key l = k /\ line_value l = text n /\ line_unit l = u.
Proof.
  intros k n u K G U. pose proof (plain_text _ G) as P. destruct U as [->|(w & -> & W)].
  - cbv zeta. rewrite sapp_nil. apply unit_none; assumption.
  - cbv zeta. unfold bracket. replace (text n ++ "[" ++ w ++ "]")%string with (text n ++ "[" ++ w ++ "]" ++ "")%string by reflexivity.
    destruct (unit_parts k (text n) w "" K P W) as (A & B & C). cbv zeta in *. split; [assumption|split; [assumption|]]. rewrite C, take_nil. reflexivity.
Qed.

Lemma line_timestep : forall l c d n u, line_key l = "timestep" -> line_value l = text n -> line_unit l = u -> good_numeral n ->
  config_line c l = Ok d -> cf_timestep d = Some (to_hours (rnd (value n)) u) /\ (to_hours (rnd (value n)) u >? Fin 0)%d = true /\ finite (rnd (value n)).
Proof.
  intros l c d n u K V U G H. unfold config_line in H. cbv zeta in H. rewrite K, V, U in H. cbn [String.eqb Ascii.eqb Bool.eqb] in H.
  bind_inv H v Ev. bind_inv H q0 Eq0. apply Ok_inj in H. apply cassert_Ok in Eq0. destruct (read_number _ _ G Ev) as [-> F]. subst d. auto.
Qed.
Lemma line_fres : forall l c d n u, line_key l = "forcing_resolution" -> line_value l = text n -> line_unit l = u -> good_numeral n ->
  config_line c l = Ok d -> cf_fres d = Some (to_hours (rnd (value n)) u) /\ (to_hours (rnd (value n)) u >? Fin 0)%d = true /\ finite (rnd (value n)).
Proof.
  intros l c d n u K V U G H. unfold config_line in H. cbv zeta in H. rewrite K, V, U in H. cbn [String.eqb Ascii.eqb Bool.eqb] in H.
  bind_inv H v Ev. bind_inv H q0 Eq0. apply Ok_inj in H. apply cassert_Ok in Eq0. destruct (read_number _ _ G Ev) as [-> F]. subst d. auto.
Qed.
End Lines.
