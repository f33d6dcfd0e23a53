(** Keys of the configuration file: which are needed, which lines matter, and that their order does not. *)

From Coq Require Import String Ascii Reals Lra ZArith List Bool Lia Permutation.
From RecordUpdate Require Import RecordSet.
From Verif Require Import Outcome Dbl Types ListOps State Config Lib Spec_Common Spec_Config Pf_Text.
Import ListNotations.
Import RecordSetNotations.
Open Scope string_scope.
Open Scope list_scope.

(** ** The effect of a line *)

Inductive setting : Type :=
| SThick (v : list dbl) | SStype (v : list Z) | SGiuh (v : list dbl) | SSoilz (v : list dbl) | SPsi (v : dbl) | SMax (v : Z) | SFile (v : string) | SWp (v : dbl) | SFc (v : dbl)
| SClosed (v : bool) | SAdaptive (v : bool) | STimestep (v : dbl) | SEndtime (v : dbl) | SFres (v : dbl) | SSft (v : bool) | SPmax (v : dbl) | SCalib (v : bool) | SNone.
Definition apply (x : setting) (c : conf) : conf :=
  match x with
  | SThick v => c <| cf_thick := Some v |> | SStype v => c <| cf_stype := Some v |> | SGiuh v => c <| cf_giuh := Some v |> | SSoilz v => c <| cf_soilz := Some v |>
  | SPsi v => c <| cf_psi := Some v |> | SMax v => c <| cf_maxtypes := Some v |> | SFile v => c <| cf_file := Some v |> | SWp v => c <| cf_wp := Some v |>
  | SFc v => c <| cf_fc := Some v |> | SClosed v => c <| cf_closed := v |> | SAdaptive v => c <| cf_adaptive := v |> | STimestep v => c <| cf_timestep := Some v |>
  | SEndtime v => c <| cf_endtime := Some v |> | SFres v => c <| cf_fres := Some v |> | SSft v => c <| cf_sft := v |> | SPmax v => c <| cf_pmax := Some v |>
  | SCalib v => c <| cf_calib := v |> | SNone => c
  end.
Definition slot (x : setting) : string :=
  match x with
  | SThick _ => "layer_thickness" | SStype _ => "layer_soil_type" | SGiuh _ => "giuh_ordinates" | SSoilz _ => "soil_z" | SPsi _ => "initial_psi" | SMax _ => "max_valid_soil_types"
  | SFile _ => "soil_params_file" | SWp _ => "wilting_point_psi" | SFc _ => "field_capacity_psi" | SClosed _ => "use_closed_form_G" | SAdaptive _ => "adaptive_timestep"
  | STimestep _ => "timestep" | SEndtime _ => "endtime" | SFres _ => "forcing_resolution" | SSft _ => "sft_coupled" | SPmax _ => "ponded_depth_max" | SCalib _ => "calib_params" | SNone => ""
  end.

Definition keys : list string := required_keys ++ optional_keys.
Lemma keys_free : forall k, In k keys -> free_of "=" k.
Proof.
  intros k H. assert (F : Forall (free_of "=") keys) by (repeat constructor; cbn; repeat split; discriminate).
  rewrite Forall_forall in F. auto.
Qed.
Lemma sets_key : forall k l, In k keys -> (line_sets k l <-> line_key l = k).
Proof. intros. symmetry. apply line_key_sets. apply keys_free. assumption. Qed.

Section Config.
Context {fp : Fp}.

Lemma line_effect : forall c l c', config_line c l = Ok c' ->
  exists x, c' = apply x c /\ (x = SNone /\ ~ In (line_key l) keys \/ x <> SNone /\ slot x = line_key l /\ In (line_key l) keys) /\
    forall d, (line_key l = "endtime" -> cf_endtime d = cf_endtime c) -> config_line d l = Ok (apply x d).
Proof.
  intros c l c' H. unfold config_line in H |- *. cbv zeta in H |- *.
  set (k := line_key l) in *. set (v := line_value l) in *. set (u := line_unit l) in *. clearbody k v u.
  destruct (String.eqb_spec k "layer_thickness") as [->|N1].
  { bind_inv H w Ew. apply Ok_inj in H. exists (SThick w). split; [symmetry; exact H|]. split; [right; split; [discriminate|split; [reflexivity|cbn; tauto]]|]. intros d _. rewrite Ew. reflexivity. }
  destruct (String.eqb_spec k "layer_soil_type") as [->|N2].
  { bind_inv H w Ew. bind_inv H z Ez. apply Ok_inj in H. exists (SStype z). split; [symmetry; exact H|]. split; [right; split; [discriminate|split; [reflexivity|cbn; tauto]]|]. intros d _. rewrite Ew. cbn [bind]. rewrite Ez. reflexivity. }
  destruct (String.eqb_spec k "giuh_ordinates") as [->|N3].
  { bind_inv H w Ew. apply Ok_inj in H. exists (SGiuh w). split; [symmetry; exact H|]. split; [right; split; [discriminate|split; [reflexivity|cbn; tauto]]|]. intros d _. rewrite Ew. reflexivity. }
  destruct (String.eqb_spec k "soil_z") as [->|N4].
  { bind_inv H w Ew. apply Ok_inj in H. exists (SSoilz w). split; [symmetry; exact H|]. split; [right; split; [discriminate|split; [reflexivity|cbn; tauto]]|]. intros d _. rewrite Ew. reflexivity. }
  destruct (String.eqb_spec k "initial_psi") as [->|N5].
  { bind_inv H w Ew. apply Ok_inj in H. exists (SPsi w). split; [symmetry; exact H|]. split; [right; split; [discriminate|split; [reflexivity|cbn; tauto]]|]. intros d _. rewrite Ew. reflexivity. }
  destruct (String.eqb_spec k "max_valid_soil_types") as [->|N6].
  { bind_inv H w Ew. apply Ok_inj in H. exists (SMax (Z.min w 15)). split; [symmetry; exact H|]. split; [right; split; [discriminate|split; [reflexivity|cbn; tauto]]|]. intros d _. rewrite Ew. reflexivity. }
  destruct (String.eqb_spec k "soil_params_file") as [->|N7].
  { apply Ok_inj in H. exists (SFile v). split; [symmetry; exact H|]. split; [right; split; [discriminate|split; [reflexivity|cbn; tauto]]|]. intros d _. reflexivity. }
  destruct (String.eqb_spec k "wilting_point_psi") as [->|N8].
  { bind_inv H w Ew. apply Ok_inj in H. exists (SWp w). split; [symmetry; exact H|]. split; [right; split; [discriminate|split; [reflexivity|cbn; tauto]]|]. intros d _. rewrite Ew. reflexivity. }
  destruct (String.eqb_spec k "field_capacity_psi") as [->|N9].
  { bind_inv H w Ew. apply Ok_inj in H. exists (SFc w). split; [symmetry; exact H|]. split; [right; split; [discriminate|split; [reflexivity|cbn; tauto]]|]. intros d _. rewrite Ew. reflexivity. }
  destruct (String.eqb_spec k "use_closed_form_G") as [->|N10].
  { destruct (String.eqb v "false"); [apply Ok_inj in H; exists (SClosed false)|destruct (String.eqb v "true"); [|discriminate]; apply Ok_inj in H; exists (SClosed true)];
      (split; [symmetry; exact H|]; split; [right; split; [discriminate|split; [reflexivity|cbn; tauto]]|]; intros d _; reflexivity). }
  destruct (String.eqb_spec k "adaptive_timestep") as [->|N11].
  { destruct (is_in v ["false"; "0"]); [apply Ok_inj in H; exists (SAdaptive false)|destruct (is_in v ["true"; "1"]); [|discriminate]; apply Ok_inj in H; exists (SAdaptive true)];
      (split; [symmetry; exact H|]; split; [right; split; [discriminate|split; [reflexivity|cbn; tauto]]|]; intros d _; reflexivity). }
  destruct (String.eqb_spec k "timestep") as [->|N12].
  { bind_inv H w Ew. bind_inv H t Et. apply Ok_inj in H. exists (STimestep (to_hours w u)). split; [symmetry; exact H|]. split; [right; split; [discriminate|split; [reflexivity|cbn; tauto]]|].
    intros d _. rewrite Ew. cbn [bind]. rewrite Et. reflexivity. }
  destruct (String.eqb_spec k "endtime") as [->|N13].
  { bind_inv H e Ee. destruct e as [e|]; [|discriminate]. bind_inv H t Et. apply Ok_inj in H. exists (SEndtime e). split; [symmetry; exact H|].
    split; [right; split; [discriminate|split; [reflexivity|cbn; tauto]]|]. intros d D. rewrite (D eq_refl), Ee. cbn [bind]. rewrite Et. reflexivity. }
  destruct (String.eqb_spec k "forcing_resolution") as [->|N14].
  { bind_inv H w Ew. bind_inv H t Et. apply Ok_inj in H. exists (SFres (to_hours w u)). split; [symmetry; exact H|]. split; [right; split; [discriminate|split; [reflexivity|cbn; tauto]]|].
    intros d _. rewrite Ew. cbn [bind]. rewrite Et. reflexivity. }
  destruct (String.eqb_spec k "sft_coupled") as [->|N15].
  { destruct (String.eqb v "true"); [apply Ok_inj in H; exists (SSft true)|destruct (String.eqb v "false"); [|discriminate]; apply Ok_inj in H; exists (SSft false)];
      (split; [symmetry; exact H|]; split; [right; split; [discriminate|split; [reflexivity|cbn; tauto]]|]; intros d _; reflexivity). }
  destruct (String.eqb_spec k "ponded_depth_max") as [->|N16].
  { bind_inv H w Ew. apply Ok_inj in H. exists (SPmax (dfmax w (Fin 0))). split; [symmetry; exact H|]. split; [right; split; [discriminate|split; [reflexivity|cbn; tauto]]|]. intros d _. rewrite Ew. reflexivity. }
  destruct (String.eqb_spec k "calib_params") as [->|N17].
  { destruct (String.eqb v "true"); [apply Ok_inj in H; exists (SCalib true)|destruct (String.eqb v "false"); [|discriminate]; apply Ok_inj in H; exists (SCalib false)];
      (split; [symmetry; exact H|]; split; [right; split; [discriminate|split; [reflexivity|cbn; tauto]]|]; intros d _; reflexivity). }
  apply Ok_inj in H. exists SNone. split; [symmetry; exact H|]. split; [left; split; [reflexivity|]|reflexivity].
  cbn. intuition congruence.
Qed.

(** Settings of different keys commute. *)
Lemma apply_comm : forall x y c, slot x <> slot y -> apply x (apply y c) = apply y (apply x c).
Proof. intros x y c N. destruct c, x, y; try reflexivity; exfalso; apply N; reflexivity. Qed.
Lemma apply_endtime : forall x c, slot x <> "endtime" -> cf_endtime (apply x c) = cf_endtime c.
Proof. intros x c N. destruct x; try reflexivity. exfalso. apply N. reflexivity. Qed.

Lemma swap : forall c a b c1 c2, line_key a <> line_key b \/ ~ In (line_key a) keys -> config_line c a = Ok c1 -> config_line c1 b = Ok c2 ->
  exists c1', config_line c b = Ok c1' /\ config_line c1' a = Ok c2.
Proof.
  intros c a b c1 c2 D Ha Hb.
  destruct (line_effect _ _ _ Ha) as (x & -> & Kx & Rx). destruct (line_effect _ _ _ Hb) as (y & -> & Ky & Ry).
  destruct Kx as [[-> Nx]|(Nx & Sx & Ix)].
  { cbn [apply] in *. exists (apply y c). split; [assumption|]. rewrite Rx; [reflexivity|]. intro E. exfalso. apply Nx. rewrite E. cbn. tauto. }
  destruct D as [D|D]; [|contradiction].
  destruct Ky as [[-> Ny]|(Ny & Sy & Iy)].
  { exists c. cbn [apply] in *. split; [|rewrite Rx; reflexivity]. rewrite Ry; [reflexivity|]. intro E. exfalso. apply Ny. rewrite E. cbn. tauto. }
  exists (apply y c). split.
  - apply Ry. intro E. symmetry. apply apply_endtime. congruence.
  - rewrite Rx; [f_equal; apply apply_comm; congruence|]. intro E. apply apply_endtime. congruence.
Qed.

(** ** Lines that do not matter *)
Lemma comment_effect : forall l c, comment_line l -> config_line c l = Ok c.
Proof.
  intros l c H. assert (N : forall k, In k keys -> line_key l <> k).
  { intros k Hk E. apply (H k Hk). apply sets_key; assumption. }
  unfold config_line. cbv zeta.
  repeat match goal with |- context [String.eqb (line_key l) ?b] => destruct (String.eqb_spec (line_key l) b) as [E|_]; [exfalso; refine (N _ _ E); cbn; tauto|] end.
  reflexivity.
Qed.
Lemma lines_app : forall a b c, config_lines c (a ++ b) = bind (config_lines c a) (fun d => config_lines d b).
Proof. induction a as [|l a IH]; intros b c; [reflexivity|]. cbn. destruct (config_line c l); [apply IH|reflexivity]. Qed.
Lemma comment_irrelevant : forall files junk a l b, comment_line l -> Initialize files junk (a ++ l :: b) = Initialize files junk (a ++ b).
Proof.
  intros files junk a l b H. unfold Initialize, InitFromConfigFile. do 2 f_equal. rewrite !lines_app. destruct (config_lines conf0 a); [|reflexivity]. cbn [bind config_lines].
  rewrite comment_effect by assumption. reflexivity.
Qed.

(** ** Order *)
Definition differ (a b : string) : Prop := line_key a <> line_key b \/ ~ In (line_key a) keys.
Lemma lines_perm : forall ls ls', Permutation ls ls' -> ForallOrdPairs differ ls -> forall c c', config_lines c ls = Ok c' -> config_lines c ls' = Ok c' /\ ForallOrdPairs differ ls'.
Proof.
  assert (Sy : forall a b, differ a b -> differ b a).
  { intros a b [D|D]; [left; congruence|]. destruct (string_dec (line_key a) (line_key b)) as [E|E]; [right; congruence|left; congruence]. }
  induction 1 as [|x l l' P IH|x y l|l l' l'' P1 IH1 P2 IH2]; intros O c c' H.
  - auto.
  - inversion_clear O as [|? ? O1 O2]. cbn in H. bind_inv H d Ed. destruct (IH O2 _ _ H) as [H1 H2]. split; [cbn; rewrite Ed; exact H1|].
    constructor; [|assumption]. rewrite Forall_forall in O1 |- *. intros z Hz. apply O1. eapply Permutation_in; [apply Permutation_sym; exact P|exact Hz].
  - inversion_clear O as [|? ? O1 O2]. inversion_clear O2 as [|? ? O3 O4]. inversion_clear O1 as [|? ? O5 O6].
    cbn in H. bind_inv H d Ed. bind_inv H e Ee. destruct (swap _ _ _ _ _ O5 Ed Ee) as (d' & A & B). split; [cbn; rewrite A; cbn [bind]; rewrite B; exact H|].
    constructor; [constructor; [apply Sy; assumption|assumption]|]. constructor; assumption.
  - destruct (IH1 O _ _ H) as [A B]. exact (IH2 B _ _ A).
Qed.
Lemma once_differ : forall ls, once ls -> ForallOrdPairs differ ls.
Proof.
  intros ls H. assert (G : forall i j a b, (i < j)%nat -> nth_error ls i = Some a -> nth_error ls j = Some b -> differ a b).
  { intros i j a b L A B. unfold differ. destruct (string_dec (line_key a) (line_key b)) as [E|E]; [|auto]. destruct (in_dec string_dec (line_key a) keys) as [K|K]; [|auto].
    exfalso. assert (i = j); [|lia]. apply (H (line_key a) i j a b K A B); apply sets_key; auto. }
  clear H. induction ls as [|a ls IH]; [constructor|]. constructor.
  - apply Forall_forall. intros b Hb. apply In_nth_error in Hb as [j Hj]. exact (G 0%nat (S j) a b ltac:(lia) eq_refl Hj).
  - apply IH. intros i j x y L A B. exact (G (S i) (S j) x y ltac:(lia) A B).
Qed.
Lemma order_irrelevant : forall files junk ls ls' s, Permutation ls ls' -> once ls -> Initialize files junk ls = Ok s -> Initialize files junk ls' = Ok s.
Proof.
  intros files junk ls ls' s P O H. unfold Initialize, InitFromConfigFile in *. bind_inv H z Ez. bind_inv Ez c Ec. destruct (lines_perm _ _ P (once_differ _ O) _ _ Ec) as [-> _]. cbn [bind].
  rewrite Ez. cbn [bind]. exact H.
Qed.

(** ** Keys that are needed *)
Definition set_in (c : conf) (k : string) : Prop :=
  (k = "layer_thickness" -> cf_thick c <> None) /\ (k = "layer_soil_type" -> cf_stype c <> None) /\ (k = "giuh_ordinates" -> cf_giuh c <> None) /\
  (k = "soil_z" -> cf_soilz c <> None) /\ (k = "initial_psi" -> cf_psi c <> None) /\ (k = "soil_params_file" -> cf_file c <> None) /\
  (k = "wilting_point_psi" -> cf_wp c <> None) /\ (k = "field_capacity_psi" -> cf_fc c <> None) /\ (k = "timestep" -> cf_timestep c <> None) /\
  (k = "endtime" -> cf_endtime c <> None) /\ (k = "forcing_resolution" -> cf_fres c <> None).
Lemma set_apply : forall x c k, slot x <> k -> set_in (apply x c) k -> set_in c k.
Proof.
  intros x c k N (A1 & A2 & A3 & A4 & A5 & A6 & A7 & A8 & A9 & A10 & A11). unfold set_in.
  destruct x; cbn [apply slot] in *; repeat split; intro E; subst k; try (exfalso; apply N; reflexivity);
    first [apply A1; reflexivity|apply A2; reflexivity|apply A3; reflexivity|apply A4; reflexivity|apply A5; reflexivity|apply A6; reflexivity
          |apply A7; reflexivity|apply A8; reflexivity|apply A9; reflexivity|apply A10; reflexivity|apply A11; reflexivity].
Qed.
Lemma lines_set : forall ls c c' k, k <> "" -> config_lines c ls = Ok c' -> set_in c' k -> set_in c k \/ exists l, In l ls /\ line_key l = k.
Proof.
  induction ls as [|l ls IH]; intros c c' k Nk H S; cbn in H; [apply Ok_inj in H; subst; auto|]. bind_inv H d Ed.
  destruct (IH _ _ _ Nk H S) as [Q|(l' & I' & K')]; [|right; exists l'; split; [right|]; assumption].
  destruct (line_effect _ _ _ Ed) as (x & -> & K & _). destruct (string_dec (slot x) k) as [E|E]; [|left; eapply set_apply; eassumption].
  right. exists l. split; [left; reflexivity|]. destruct K as [[-> _]|(_ & K & _)]; [exfalso; apply Nk; symmetry; exact E|]. congruence.
Qed.
Lemma need_Ok : forall (A : Type) (x : option A) v, need x = Ok v -> x = Some v.
Proof. intros A [y|] v H; [apply Ok_inj in H; subst; reflexivity|discriminate]. Qed.
Lemma known_Ok : forall (A : Type) (x : option A) v, known x = Ok v -> x = Some v.
Proof. intros A [y|] v H; [apply Ok_inj in H; subst; reflexivity|discriminate]. Qed.
End Config.

Section Config.
Context {fp : Fp}.

(** What a successful initialisation has computed. *)
Lemma rest_inv : forall files junk c z, init_rest files junk c = Ok z ->
  exists st file rows tab thick psi dt endtime wp fc fres ord n ords ncells tz fint head vol,
    let nst := match cf_maxtypes c with Some z => z | None => 15 end%Z in
    let stype := None :: map Some st in
    let cum := Fin 0 :: running (Fin 0) thick in
    let frozen := repeat (lit 1) (S (length thick)) in
    let nl := Z.of_nat (length thick) in
    cf_stype c = Some st /\ cf_file c = Some file /\ (0 <= nst + 1)%Z /\ files file = Some rows /\
    read_rows wp junk nst rows loc0 1 (repeat None (Z.to_nat (nst + 1))) = Ok tab /\ cf_thick c = Some thick /\
    (exists invalid, any_invalid (length thick) 1 stype nst = Ok invalid /\
    cf_psi c = Some psi /\ cf_timestep c = Some dt /\ cf_endtime c = Some endtime /\ cf_wp c = Some wp /\ cf_fc c = Some fc /\ cf_fres c = Some fres /\
    cf_giuh c = Some ord /\ resample fres ord = Ok (n, ords) /\
    (if cf_sft c then cf_soilz c = Some tz /\ ncells = Z.of_nat (length tz) else ncells = 1%Z /\ tz = [Fin 0]) /\
    d2i (fres / dt + lit (1 / 100000000))%d = Ok fint /\
    InitializeWettingFronts nl psi stype cum frozen tab = Ok head /\ Fronts.lgar_calc_mass_bal cum head = Ok vol /\ nl = listLength head /\
    z = mkStart c
      (mkParams nl (Fin 0 :: thick) cum stype frozen nl ncells (repeat (Fin 0) (Z.to_nat ncells)) tz [] [] dt fres dt fint wp fc (cf_closed c) (cf_adaptive c)
         (match cf_pmax c with Some v => v | None => Fin 0 end) (Fin 0) 120 (Fin 0) endtime 0 (cf_sft c) (cf_calib c) invalid)
      head tab vol n ords).
Proof.
  intros files junk c z H. unfold init_rest in H. cbv zeta in H.
  bind_inv H st Est. bind_inv H file Efile. bind_inv H q0 Eq0. bind_inv H tab Etab. bind_inv H thick Ethick. bind_inv H invalid Einv.
  bind_inv H psi Epsi. bind_inv H dt Edt. bind_inv H endt Eend. bind_inv H wp Ewp. bind_inv H fc Efc. bind_inv H fres Efres. bind_inv H ord Eord.
  bind_inv H q1 Eres. destruct q1 as [n ords]. bind_inv H q2 Ecells. destruct q2 as [ncells tz]. bind_inv H fint Efint. bind_inv H hd1 Ehead. bind_inv H vol Evol. bind_inv H q3 Easr.
  apply Ok_inj in H. subst z.
  apply need_Ok in Est, Efile, Epsi, Edt, Eend, Ewp, Efc, Efres, Eord. apply known_Ok in Ethick.
  unfold lgar_read_vG_param_file in Etab. destruct (files file) as [rows|] eqn:Er; [|discriminate].
  rewrite Ewp in Etab.
  exists st, file, rows, tab, thick, psi, dt, endt, wp, fc, fres, ord, n, ords, ncells, tz, fint, hd1, vol. cbv zeta.
  split; [assumption|]. split; [assumption|]. split; [destruct (Z.ltb_spec (match cf_maxtypes c with Some z => z | None => 15%Z end + 1) 0); [discriminate|lia]|].
  split; [assumption|]. split; [assumption|]. split; [assumption|]. exists invalid. do 9 (split; [assumption|]). split.
  { destruct (cf_sft c); [bind_inv Ecells tz' Etz|]; apply Ok_inj, pair_equal_spec in Ecells as [<- <-]; [apply known_Ok in Etz|]; auto. }
  split; [assumption|]. split; [assumption|]. split; [assumption|]. split; [|reflexivity].
  unfold cassert in Easr. destruct (Z.eqb_spec (Z.of_nat (length thick)) (listLength hd1)); [assumption|discriminate].
Qed.

Lemma need_all : forall files junk ls s, Initialize files junk ls = Ok s ->
  (forall k, In k required_keys -> exists l, In l ls /\ line_sets k l) /\
  (p_sft (st_p s) = true -> exists l, In l ls /\ line_sets "soil_z" l).
Proof.
  intros files junk ls s H. unfold Initialize, InitFromConfigFile in H. bind_inv H z Ez. bind_inv Ez c Ec.
  destruct (rest_inv _ _ _ _ Ez) as (st & file & rows & tab & thick & psi & dt & endt & wp & fc & fres & ord & n & ords & ncells & tz & fint & head & vol & R).
  cbv zeta in R. destruct R as (R1 & R2 & _ & _ & _ & R3 & inv & _ & R4 & R5 & R6 & R7 & R8 & R9 & R10 & _ & R11 & _ & _ & _ & _ & ->). cbv zeta in H. cbn [sr_p sr_N] in H.
  bind_inv H vs Evs. bind_inv H os Eos. apply Ok_inj in H. subst s.
  assert (K : forall k, In k keys -> k <> "" -> set_in c k -> (~ set_in conf0 k) -> exists l, In l ls /\ line_sets k l).
  { intros k Ik Nk S N. destruct (lines_set _ _ _ _ Nk Ec S) as [Q|(l & Il & Kl)]; [contradiction|]. exists l. split; [assumption|]. apply sets_key; assumption. }
  split.
  - intros k Hk. apply K; [unfold keys; apply in_or_app; left; exact Hk|intro E; subst k; cbn in Hk; intuition discriminate| |].
    + repeat match goal with H : In _ (_ :: _) |- _ => destruct H as [<-|H] | H : In _ [] |- _ => contradiction | H : In _ required_keys |- _ => unfold required_keys in H end;
        (unfold set_in; repeat split; intro E; first [discriminate E|congruence]).
    + unfold set_in, conf0. cbn. repeat match goal with H : In _ (_ :: _) |- _ => destruct H as [<-|H] | H : In _ [] |- _ => contradiction | H : In _ required_keys |- _ => unfold required_keys in H end; intuition congruence.
  - intro S. change (cf_sft c = true) in S. rewrite S in R11. apply K; [cbn; tauto|discriminate| |].
    + unfold set_in. repeat split; intro E; first [discriminate E|destruct R11; congruence].
    + unfold set_in, conf0. cbn. intuition congruence.
Qed.

End Config.
