(** Every well-formed configuration is accepted. *)

From Coq Require Import String Ascii Reals Lra ZArith List Bool Lia.
From RecordUpdate Require Import RecordSet.
From Verif Require Import Outcome Dbl Exact Types ListOps Soil Fronts State Update Config Bmi Lib Spec_Common Spec_List Spec_Column Spec_Soil Spec_Profile Spec_Update Spec_Storage
  Spec_Bmi Spec_Config Pf_List Pf_Dbl Pf_Soil Pf_Profile Pf_Text Pf_Config Pf_Lines Pf_Init Pf_InitState Pf_Table Pf_InitExact Pf_ConfigThm.
Import ListNotations.
Import RecordSetNotations.
Open Scope string_scope.
Open Scope list_scope.
Open Scope R_scope.

Local Existing Instance exact.

Ltac pick A := unfold agree in A; repeat match goal with H : _ /\ _ |- _ => destruct H end; match goal with |- ?f ?c = _ => match goal with H : _ -> f _ = f c |- _ => rewrite <- (H eq_refl) end end.
Ltac enter H K V := unfold config_line in H; cbv zeta in H; rewrite K, V in H; cbn [String.eqb Ascii.eqb Bool.eqb] in H.

(** ** Reading *)
Lemma stod_total : forall n, good_numeral n -> stod (text n) = Ok (Fin (value n)).
Proof. intros n G. rewrite stod_text by assumption. reflexivity. Qed.
Lemma each_total : forall ns, Forall good_numeral ns -> each stod (map text ns) = Ok (map Fin (map value ns)).
Proof. induction 1 as [|n ns G _ IH]; [reflexivity|]. cbn [map each]. rewrite stod_total by assumption. cbn [bind]. rewrite IH. reflexivity. Qed.
Lemma vector_total : forall n ns, Forall good_numeral (n :: ns) -> ReadVectorData (numbers (n :: ns)) = Ok (map Fin (map value (n :: ns))).
Proof.
  intros n ns G. unfold numbers. cbn [map]. rewrite ReadVector_concat; [apply (each_total (n :: ns)); assumption|].
  change (text n :: map text ns) with (map text (n :: ns)). rewrite Forall_map. eapply Forall_impl; [|exact G]. intros m Gm. destruct (plain_text _ Gm) as (_ & _ & C & _). assumption.
Qed.
Lemma natural_value : forall n k, natural n k -> value n = INR k.
Proof.
  intros [sg i f e u] k (G & S & F & X & V). cbn [nu_sign nu_int nu_frac nu_exp] in S, F, X, V. subst sg f e. unfold value. cbn [nu_sign nu_int nu_frac nu_exp signed]. rewrite Rplus_0_r, Rmult_1_r.
  unfold whole. transitivity (IZR (fold_left (fun a d => 10 * a + Z.of_nat d)%Z i 0%Z)); [symmetry; apply (fold_whole i 0)|].
  pose proof (fold_nat i 0) as W. change (Z.of_nat 0) with 0%Z in W. rewrite W, V. rewrite <- INR_IZR_INZ. reflexivity.
Qed.
Lemma trunc_nat : forall k, trunc (INR k) = Z.of_nat k.
Proof.
  intro k. unfold trunc. pose proof (pos_INR k). destruct (Rlt_dec (INR k) 0); [lra|]. rewrite INR_IZR_INZ.
  destruct (base_Int_part (IZR (Z.of_nat k))) as [A B]. assert (C : -1 < IZR (Int_part (IZR (Z.of_nat k))) - IZR (Z.of_nat k)) by lra.
  apply le_IZR in A. assert (D : IZR (Z.of_nat k) < IZR (Int_part (IZR (Z.of_nat k)) + 1)) by (rewrite plus_IZR; lra). apply lt_IZR in D. lia.
Qed.
Lemma d2i_nat : forall k, (k <= 1000)%nat -> d2i (Fin (INR k)) = Ok (Z.of_nat k).
Proof.
  intros k L. unfold d2i. rewrite trunc_nat. destruct (Z.leb_spec (-2147483648) (Z.of_nat k)); [|lia]. destruct (Z.leb_spec (Z.of_nat k) 2147483647); [reflexivity|lia].
Qed.
Lemma ints_total : forall ns, Forall (fun m => exists k, natural m k /\ (k <= 1000)%nat) ns -> exists zs, to_ints (map Fin (map value ns)) = Ok zs.
Proof.
  induction 1 as [|n ns (k & N & L) _ [zs IH]]; [exists []; reflexivity|]. exists (Z.of_nat k :: zs). cbn [map to_ints]. rewrite (natural_value _ _ N), d2i_nat by assumption. cbn [bind]. rewrite IH. reflexivity.
Qed.
Lemma stoi_natural : forall n k, natural n k -> (k <= 1000)%nat -> stoi (text n) = Ok (Z.of_nat k).
Proof.
  intros [sg i f e u] k (G & S & F & X & V) L. cbn [nu_sign nu_int nu_frac nu_exp] in S, F, X, V. subst sg f e. pose proof (first_digit _ "" G) as (A & B & _). rewrite app_nil in A, B. unfold body in A, B. cbn [nu_int nu_frac nu_exp nu_upper exp_text] in A, B.
  unfold stoi, text. cbn [nu_sign nu_int nu_frac nu_exp nu_upper sign_text]. cbn [append] in A, B |- *. rewrite A, B. destruct G as (Gi & _ & _ & Gn). cbn in Gi, Gn.
  rewrite digits_spec by (try assumption; exact Logic.I). pose proof (fold_nat i 0) as W. change (Z.of_nat 0) with 0%Z in W. rewrite W, V.
  destruct i as [|d i]; [destruct Gn as [Q|(d & l & Q)]; [contradiction|discriminate]|]. cbn [length plus]. cbv zeta.
  destruct (Z.leb_spec (-2147483648) (Z.of_nat k)); [|lia]. destruct (Z.leb_spec (Z.of_nat k) 2147483647); [reflexivity|lia].
Qed.

Lemma natural_good : forall ns, Forall (fun m => exists k, natural m k /\ (k <= 1000)%nat) ns -> Forall good_numeral ns.
Proof. intros ns H. eapply Forall_impl; [|exact H]. intros m (k & (G & _) & _). assumption. Qed.

Lemma line_total : forall l, good_line l -> forall c, exists c', config_line c l = Ok c'.
Proof.
  intros l H c. destruct H as [l C|k l n ns K A G|l n ns A G|l n m A N L|k l n K A G|k n u sec K U G P|l f A F|k b K].
  - exists c. apply comment_effect. assumption.
  - assert (Kk : In k keys) by (cbn in K |- *; tauto). destruct (assigns_value _ _ _ Kk (proj2 (plain_numbers _ G)) A) as [V Kl].
    unfold config_line. cbv zeta. rewrite Kl, V, (vector_total _ _ G). cbn [In] in K. destruct K as [<-|[<-|[<-|[]]]]; cbn [String.eqb Ascii.eqb Bool.eqb bind]; eexists; reflexivity.
  - assert (Kk : In "layer_soil_type" keys) by (cbn; tauto). pose proof (natural_good _ G) as G'. destruct (assigns_value _ _ _ Kk (proj2 (plain_numbers _ G')) A) as [V Kl].
    destruct (ints_total _ G) as [zs Z].
    unfold config_line. cbv zeta. rewrite Kl, V, (vector_total _ _ G'). cbn [String.eqb Ascii.eqb Bool.eqb bind]. rewrite Z. eexists. reflexivity.
  - assert (Kk : In "max_valid_soil_types" keys) by (cbn; tauto). destruct (plain_text _ (proj1 N)) as (_ & Q & _). destruct (assigns_value _ _ _ Kk Q A) as [V Kl].
    unfold config_line. cbv zeta. rewrite Kl, V, (stoi_natural _ _ N L). eexists. reflexivity.
  - assert (Kk : In k keys) by (cbn in K |- *; tauto). destruct (plain_text _ G) as (_ & Q & _). destruct (assigns_value _ _ _ Kk Q A) as [V Kl].
    unfold config_line. cbv zeta. rewrite Kl, V, (stod_total _ G). cbn [In] in K. destruct K as [<-|[<-|[<-|[<-|[]]]]]; cbn [String.eqb Ascii.eqb Bool.eqb bind]; eexists; reflexivity.
  - assert (Kk : In k keys) by (cbn in K |- *; tauto). destruct (unit_table k n u Kk G (known_unit u sec (in_or_app _ _ _ (or_introl U)))) as (B1 & B2 & B3).
    assert (Sp : 0 < sec). { cbn [unit_seconds In] in U. destruct U as [U|[U|[U|[U|[U|[U|[U|[]]]]]]]]; apply pair_equal_spec in U as [_ <-]; lra. }
    assert (Hp : 0 < value n * sec / 3600) by (assert (0 < value n * sec) by (apply Rmult_lt_0_compat; assumption); lra).
    unfold config_line. cbv zeta. rewrite B1, B2, B3, (stod_total _ G). cbn [In] in K. destruct K as [<-|[<-|[<-|[]]]]; cbn [String.eqb Ascii.eqb Bool.eqb bind].
    + rewrite (hours_exact _ _ _ U). unfold dgtb. cbn [dltb]. rewrite (proj2 (Rltb_true _ _) Hp). eexists. reflexivity.
    + assert (Ep : exists e, endtime_of (cf_endtime c) (text n) u = Ok (Some (Fin e)) /\ 0 < e).
      { clear - U G P. cbn [unit_seconds In] in U.
        destruct U as [U|[U|[U|[U|[U|[U|[U|[]]]]]]]]; apply pair_equal_spec in U as [<- <-]; unfold endtime_of; cbn [is_in existsb String.eqb Ascii.eqb Bool.eqb orb]; rewrite (stod_total _ G); cbn [bind];
          eexists; (split; [reflexivity|cbn; lra]). }
      destruct Ep as (e & E & E0). rewrite E. cbn [bind]. unfold dgtb. cbn [dltb]. rewrite (proj2 (Rltb_true _ _) E0). eexists. reflexivity.
    + rewrite (hours_exact _ _ _ U). unfold dgtb. cbn [dltb]. rewrite (proj2 (Rltb_true _ _) Hp). eexists. reflexivity.
  - assert (Kk : In "soil_params_file" keys) by (cbn; tauto). destruct (assigns_value _ _ _ Kk F A) as [V Kl].
    unfold config_line. cbv zeta. rewrite Kl. eexists. reflexivity.
  - assert (Kk : In k keys) by (cbn in K |- *; tauto).
    assert (Fb : free_of "[" (if b : bool then "true" else "false")) by (destruct b; cbn; repeat split; discriminate).
    destruct (assigns_value k (if b : bool then "true" else "false") (k ++ "=" ++ (if b : bool then "true" else "false")) Kk Fb (or_introl eq_refl)) as [V Kl].
    unfold config_line. cbv zeta. rewrite Kl, V. cbn [In] in K. destruct K as [<-|[<-|[<-|[<-|[]]]]], b; cbn; eexists; reflexivity.
Qed.
Lemma lines_total : forall ls, Forall good_line ls -> forall c, exists c', config_lines c ls = Ok c'.
Proof. induction 1 as [|l ls G _ IH]; intro c; [exists c; reflexivity|]. cbn. destruct (line_total l G c) as [d ->]. apply IH. Qed.

(** ** Keys that are set *)
Lemma set_self : forall x c, x <> SNone -> set_in (apply x c) (slot x).
Proof. intros x c N. destruct x; try contradiction; cbn [apply slot]; unfold set_in; repeat split; intro E; try discriminate E; discriminate. Qed.
Lemma set_keep : forall x c k, set_in c k -> set_in (apply x c) k.
Proof.
  intros x c k (A1 & A2 & A3 & A4 & A5 & A6 & A7 & A8 & A9 & A10 & A11). unfold set_in.
  destruct x; cbn [apply]; repeat split; intro E; try discriminate; auto.
Qed.
Lemma lines_keep : forall ls c c' k, config_lines c ls = Ok c' -> set_in c k -> set_in c' k.
Proof.
  induction ls as [|l ls IH]; intros c c' k H S; cbn in H; [apply Ok_inj in H; subst; assumption|]. bind_inv H d Ed. destruct (line_effect _ _ _ Ed) as (x & -> & _).
  eapply IH; [exact H|]. apply set_keep. assumption.
Qed.
Lemma is_set : forall ls c k l, config_lines conf0 ls = Ok c -> In k keys -> In l ls -> line_sets k l -> set_in c k.
Proof.
  intros ls c k l H K Il S. apply in_split in Il as (a & b & ->). rewrite lines_app in H. bind_inv H ca Eca. cbn in H. bind_inv H cb Ecb.
  apply (lines_keep _ _ _ _ H). destruct (line_effect _ _ _ Ecb) as (x & -> & Kx & _). apply sets_key in S; [|assumption].
  destruct Kx as [[_ N]|(N & Sl & _)]; [exfalso; apply N; rewrite S; assumption|]. rewrite <- S, <- Sl. apply set_self. assumption.
Qed.
Lemma some_of : forall A (x : option A), x <> None -> exists v, x = Some v.
Proof. intros A [v|] N; [eauto|contradiction]. Qed.

Lemma conf_max : forall ls l n k c, last_line "max_valid_soil_types" l ls -> assigns "max_valid_soil_types" (text n) l -> natural n k -> config_lines conf0 ls = Ok c ->
  (k <= 1000)%nat -> cf_maxtypes c = Some (Z.min (Z.of_nat k) 15).
Proof.
  intros ls l n k c L A N H B. assert (K : In "max_valid_soil_types" keys) by (cbn; tauto). destruct (plain_text _ (proj1 N)) as (_ & P & _).
  destruct (last_decides _ _ _ _ _ K L H) as (c1 & c2 & Q & Ag). destruct (assigns_value _ _ _ K P A) as [V Kl].
  enter Q Kl V. rewrite (stoi_natural _ _ N B) in Q. cbn [bind] in Q. apply Ok_inj in Q. pick Ag. subst c2. reflexivity.
Qed.

(** ** The table *)
Lemma rows_total : forall wp junk nst rs l i tab, Forall physical_row rs -> length (l_vals l) = 5%nat -> (1 <= i <= nst)%Z -> Z.of_nat (length tab) = (nst + 1)%Z ->
  exists tab', read_rows wp junk nst rs l i tab = Ok tab' /\
    (forall t en, uget tab t = Ok en -> exists en', uget tab' t = Ok en') /\
    forall t, (i <= t <= nst)%Z -> (t < i + Z.of_nat (length rs))%Z -> exists en, uget tab' t = Ok en.
Proof.
  intros wp junk nst. induction rs as [|r rs IH]; intros l i tab P V R L.
  - exists tab. split; [reflexivity|]. split; [eauto|]. cbn. intros. lia.
  - inversion_clear P as [|? ? P1 P2]. destruct P1 as (nm & tr & te & al & n & k & -> & Nm & _ & Al & N & _).
    destruct (derive_is wp junk tr te al n k nm Al N) as (en & psib & hmin & D & _).
    set (l1 := scan (full_row nm (Fin tr) (Fin te) (Fin al) (Fin n) (Fin k)) l).
    assert (V1 : l_vals l1 = [Some (Fin tr); Some (Fin te); Some (Fin al); Some (Fin n); Some (Fin k)]).
    { unfold l1. cbn. destruct (l_vals l) as [|? [|? [|? [|? [|? [|? ?]]]]]]; try discriminate V. reflexivity. }
    assert (N1 : l_name l1 = Some nm) by reflexivity.
    destruct (aget_in_range _ tab i ltac:(lia)) as [x0 X0].
    assert (As : aset tab i (Some en) = Ok (lset tab (Z.to_nat i) (Some en))) by (apply aset_Ok; split; [lia|reflexivity]).
    set (tab1 := lset tab (Z.to_nat i) (Some en)) in *.
    assert (Row : read_row wp junk (full_row nm (Fin tr) (Fin te) (Fin al) (Fin n) (Fin k)) l i tab = Ok (l1, tab1)).
    { unfold read_row. fold l1. rewrite N1. cbn [known bind]. destruct (Z.leb_spec 30 (Z.of_nat (String.length nm))); [lia|]. destruct (Z.ltb_spec 25 (Z.of_nat (String.length nm))); [lia|].
      rewrite X0. cbn [bind]. destruct (Z.eqb_spec (Z.of_nat (String.length nm)) 25); [lia|]. rewrite V1. cbn [known bind]. rewrite D. cbn [bind]. rewrite As. reflexivity. }
    assert (Here : uget tab1 i = Ok en).
    { unfold uget, tab1. assert (Q : aget (lset tab (Z.to_nat i) (Some en)) i = Ok (Some en)). { apply aget_Ok. split; [lia|]. apply nth_error_lset_eq. lia. } rewrite Q. reflexivity. }
    assert (Keep : forall t en0, uget tab t = Ok en0 -> exists en', uget tab1 t = Ok en').
    { intros t en0 U. destruct (Z.eq_dec t i) as [->|Ne]; [eauto|]. exists en0. apply uget_Ok, aget_Ok in U as [U0 U]. unfold uget, tab1.
      assert (Q : aget (lset tab (Z.to_nat i) (Some en)) t = Ok (Some en0)). { apply aget_Ok. split; [lia|]. rewrite nth_error_lset_neq by lia. assumption. } rewrite Q. reflexivity. }
    assert (L1 : length tab1 = length tab) by apply lset_length.
    cbn [read_rows]. rewrite Row. cbn [bind]. destruct (Z.eqb_spec nst i) as [E|E].
    + exists tab1. split; [reflexivity|]. split; [exact Keep|]. intros t T _. assert (t = i) by lia. subst t. eauto.
    + destruct (IH l1 (i + 1)%Z tab1 P2) as (tab' & R1 & R2 & R3); [rewrite V1; reflexivity|lia|lia|]. exists tab'. split; [assumption|]. split.
      * intros t en0 U. destruct (Keep t en0 U) as [en1 U1]. exact (R2 t en1 U1).
      * intros t T1 T2. destruct (Z.eq_dec t i) as [->|Ne]; [exact (R2 i en Here)|]. apply R3; [lia|cbn [length] in T2; lia].
Qed.

(** ** Fronts, balance, arrays *)
Lemma invalid_total : forall k layer stype nst, (forall j, (j < k)%nat -> exists t, uget stype (layer + Z.of_nat j) = Ok t) -> exists b, any_invalid k layer stype nst = Ok b.
Proof.
  induction k as [|k IH]; intros layer stype nst H; [exists false; reflexivity|]. cbn. destruct (H 0%nat ltac:(lia)) as [t T]. rewrite Z.add_0_r in T. rewrite T. cbn [bind].
  destruct (nst <? t)%Z; [eexists; reflexivity|]. apply IH. intros j J. replace (layer + 1 + Z.of_nat j)%Z with (layer + Z.of_nat (S j))%Z by lia. apply H. lia.
Qed.
Lemma resample_total : forall x ord, 0 < x -> 1 / x < 2147483647 -> exists f, (0 <= f)%Z /\ resample (Fin x) ord = Ok ((f * Z.of_nat (length ord))%Z, None :: map Some (spread (Z.to_nat f) (dofZ f) ord)).
Proof.
  intros x ord X B. assert (P : 0 < 1 / x) by (apply Rdiv_lt_0_compat; lra). exists (trunc (1 / x)).
  assert (T : (0 <= trunc (1 / x) <= 2147483647)%Z).
  { unfold trunc. destruct (Rlt_dec (1 / x) 0); [lra|]. destruct (base_Int_part (1 / x)) as [A C]. split.
    - assert (Q : -1 < IZR (Int_part (1 / x))) by lra. apply lt_IZR in Q. lia.
    - apply le_IZR. lra. }
  split; [lia|]. unfold resample. assert (D : d2i (lit 1 / Fin x)%d = Ok (trunc (1 / x))).
  { change (lit 1) with (Fin 1). unfold ddiv. destruct (Req_EM_T x 0); [lra|]. cbn [rnd exact]. unfold d2i. destruct (Z.leb_spec (-2147483648) (trunc (1 / x))); [|lia]. destruct (Z.leb_spec (trunc (1 / x)) 2147483647); [reflexivity|lia]. }
  rewrite D. cbn [bind]. set (f := trunc (1 / x)) in *. clearbody f.
  pose proof (resample_loop (Z.to_nat f) (dofZ f) ord [] ord eq_refl) as Q. cbn [length spread flat_map map app] in Q.
  change (None :: repeat None (Z.to_nat f * length ord)) with (repeat (@None dbl) (S (Z.to_nat f * length ord))) in Q.
  replace (S (Z.to_nat f * length ord)) with (Z.to_nat (f * Z.of_nat (length ord) + 1)) in Q by nia.
  rewrite Z2Nat.id in Q by lia. change (Z.of_nat 0) with 0%Z in Q. rewrite Q. reflexivity.
Qed.
Lemma fronts_total : forall psi stype cum frozen tab k (l : list front), numbered l ->
  (forall j, (length l <= j < length l + k)%nat -> (exists t en, uget stype (Z.of_nat (S j)) = Ok t /\ uget tab t = Ok en) /\ (exists d, aget cum (Z.of_nat (S j)) = Ok d) /\ exists d, aget frozen (Z.of_nat (S j)) = Ok d) ->
  exists l', zfor (Z.of_nat (S (length l))) k (fun layer head =>
    t <- uget stype layer ;;
    en <- uget tab t ;;
    let s := en_soil en in
    let theta := theta_of_h s psi in
    depth <- aget cum layer ;;
    '(head, cur) <- listInsertFront NaN NaN depth theta layer layer true head ;;
    match cur with
    | None => Stop (UB NullDeref)
    | Some i =>
        f <- lget head i ;;
        ff <- aget frozen layer ;;
        let Se := Se_of_theta s (f_theta f) in
        Ok (lset head i (set_K (set_psi f psi) (K_of_Se s Se (ff * s_Ksat s)%d)))
    end) l = Ok l'.
Proof.
  intros psi stype cum frozen tab. induction k as [|k IH]; intros l N H; cbn [zfor]; [exists l; reflexivity|].
  destruct (H (length l) ltac:(lia)) as ((t & en & Et & Een) & (d & Ed) & (ff & Ef)). rewrite Et. cbn [bind]. rewrite Een. cbn [bind]. cbv zeta. rewrite Ed. cbn [bind].
  rewrite insert_last by assumption. cbn [bind]. set (nf := mkF _ _ _ _ _ _ _ _).
  assert (L : lget (l ++ [nf]) (length l) = Ok nf). { apply lget_Ok. rewrite nth_error_app2 by lia. rewrite Nat.sub_diag. reflexivity. }
  rewrite L. cbn [bind]. rewrite Ef. cbn [bind]. rewrite lset_snoc. set (g := set_K _ _).
  assert (Ng : numbered (l ++ [g])) by (apply numbered_snoc; [assumption|reflexivity]).
  replace (Z.of_nat (S (length l)) + 1)%Z with (Z.of_nat (S (length (l ++ [g])))) by (rewrite app_length; cbn [length]; lia).
  apply IH; [assumption|]. intros j J. apply H. rewrite app_length in J. cbn [length] in J. lia.
Qed.
Lemma mass_total : forall cum l sum, (forall f, In f l -> (1 <= f_layer f <= Z.of_nat (length cum))%Z) -> exists v, mass_loop cum l sum = Ok v.
Proof.
  intros cum. induction l as [|c l IH]; intros sum H; [eexists; reflexivity|]. cbn [mass_loop].
  destruct (aget_in_range _ cum (f_layer c - 1)%Z) as [b ->]. { specialize (H c (or_introl eq_refl)). lia. }
  cbn [bind]. destruct l as [|n l]; [eexists; reflexivity|]. apply IH. intros f F. apply H. right. assumption.
Qed.
Lemma values_total : forall k layer stype tab head, length head = k -> (forall j, (j < k)%nat -> exists t en, uget stype (layer + Z.of_nat j) = Ok t /\ uget tab t = Ok en) ->
  exists vs, layer_values k layer stype tab head = Ok vs.
Proof.
  induction k as [|k IH]; intros layer stype tab [|f head] L H; try discriminate; [exists []; reflexivity|]. cbn [layer_values].
  destruct (H 0%nat ltac:(lia)) as (t & en & T & E). rewrite Z.add_0_r in T. rewrite T. cbn [bind]. rewrite E. cbn [bind].
  destruct (IH (layer + 1)%Z stype tab head) as [vs ->]; [injection L as L; assumption| |eexists; reflexivity].
  intros j J. replace (layer + 1 + Z.of_nat j)%Z with (layer + Z.of_nat (S j))%Z by lia. apply H. lia.
Qed.

(** The last line that sets a key. *)
Lemma last_exists : forall k ls l, In k keys -> In l ls -> line_sets k l -> exists l', last_line k l' ls /\ In l' ls.
Proof.
  intros k ls. induction ls as [|a ls IH]; intros l K Il S; [contradiction|].
  destruct (Exists_dec (fun x => line_key x = k) ls (fun x => string_dec (line_key x) k)) as [Ex|Nx].
  - apply Exists_exists in Ex as (x & Ix & Sx). destruct (IH x K Ix (proj2 (sets_key _ _ K) Sx)) as (l' & (S' & p & q & E & N) & I'). exists l'. split; [|right; assumption].
    split; [assumption|]. exists (a :: p), q. rewrite E. auto.
  - assert (Q : a = l). { destruct Il as [E|Il]; [assumption|]. exfalso. apply Nx. apply Exists_exists. exists l. split; [assumption|]. apply sets_key; assumption. }
    subst a. exists l. split; [|left; reflexivity]. split; [assumption|]. exists [], ls. split; [reflexivity|]. intros x Ix Sx. apply Nx. apply Exists_exists. exists x. split; [assumption|]. apply sets_key; assumption.
Qed.

(** Coupling to the soil freeze-thaw model is only switched on by a line. *)
Lemma sft_line : forall l c d, good_line l -> config_line c l = Ok d -> cf_sft d = true -> cf_sft c = true \/ l = "sft_coupled=true".
Proof.
  intros l c d G H S. destruct (line_effect _ _ _ H) as (x & -> & Kx & _).
  destruct (string_dec (slot x) "sft_coupled") as [E|E]; [|left; destruct x; try exact S; exfalso; apply E; reflexivity].
  assert (Kl : line_key l = "sft_coupled"). { destruct Kx as [[-> _]|(_ & Q & _)]; [discriminate E|congruence]. }
  clear Kx E. destruct G as [l C|k l n ns K A G|l n ns A G|l n m A N L|k l n K A G|k n u sec K U G P|l f A F|k b K].
  - exfalso. apply (C "sft_coupled"); [cbn; tauto|]. apply sets_key; [cbn; tauto|assumption].
  - exfalso. assert (Kk : In k keys) by (cbn in K |- *; tauto). destruct (assigns_value _ _ _ Kk (proj2 (plain_numbers _ G)) A) as [_ Q]. rewrite Q in Kl. subst k. cbn in K. intuition discriminate.
  - exfalso. assert (Kk : In "layer_soil_type" keys) by (cbn; tauto). pose proof (natural_good _ G) as G'. destruct (assigns_value _ _ _ Kk (proj2 (plain_numbers _ G')) A) as [_ Q]. rewrite Q in Kl. discriminate.
  - exfalso. assert (Kk : In "max_valid_soil_types" keys) by (cbn; tauto). destruct (plain_text _ (proj1 N)) as (_ & Q & _). destruct (assigns_value _ _ _ Kk Q A) as [_ Q']. rewrite Q' in Kl. discriminate.
  - exfalso. assert (Kk : In k keys) by (cbn in K |- *; tauto). destruct (plain_text _ G) as (_ & Q & _). destruct (assigns_value _ _ _ Kk Q A) as [_ Q']. rewrite Q' in Kl. subst k. cbn in K. intuition discriminate.
  - exfalso. assert (Kk : In k keys) by (cbn in K |- *; tauto). destruct (unit_table k n u Kk G (known_unit u sec (in_or_app _ _ _ (or_introl U)))) as (B1 & _). rewrite B1 in Kl. subst k. cbn in K. intuition discriminate.
  - exfalso. assert (Kk : In "soil_params_file" keys) by (cbn; tauto). destruct (assigns_value _ _ _ Kk F A) as [_ Q]. rewrite Q in Kl. discriminate.
  - assert (Kk : In k keys) by (cbn in K |- *; tauto).
    assert (Fb : free_of "[" (if b : bool then "true" else "false")) by (destruct b; cbn; repeat split; discriminate).
    destruct (assigns_value k (if b : bool then "true" else "false") (k ++ "=" ++ (if b : bool then "true" else "false")) Kk Fb (or_introl eq_refl)) as [V Q].
    rewrite Q in Kl. subst k. destruct b; [right; reflexivity|]. cbn in H. apply Ok_inj in H. rewrite <- H in S. discriminate S.
Qed.
Lemma sft_lines : forall ls c d, Forall good_line ls -> config_lines c ls = Ok d -> cf_sft d = true -> cf_sft c = true \/ In "sft_coupled=true" ls.
Proof.
  induction ls as [|l ls IH]; intros c d G H S; cbn in H; [apply Ok_inj in H; subst; auto|]. inversion_clear G as [|? ? G1 G2]. bind_inv H e Ee.
  destruct (IH _ _ G2 H S) as [Q|Q]; [|right; right; assumption]. destruct (sft_line _ _ _ G1 Ee Q) as [R|R]; [auto|right; left; auto].
Qed.
Lemma no_max : forall ls c, (forall l, In l ls -> ~ line_sets "max_valid_soil_types" l) -> config_lines conf0 ls = Ok c -> cf_maxtypes c = None.
Proof.
  intros ls c N H. assert (K : In "max_valid_soil_types" keys) by (cbn; tauto). pose proof (rest_agree _ _ _ _ K N H) as Ag.
  unfold agree in Ag. repeat match goal with H : _ /\ _ |- _ => destruct H end. symmetry. auto.
Qed.
Lemma each_types : forall ns zs, each d2i (map (fun n => @rnd exact (value n)) ns) = Ok zs -> length zs = length ns /\ forall i m k, nth_error ns i = Some m -> natural m k -> (k <= 1000)%nat -> nth_error zs i = Some (Z.of_nat k).
Proof.
  induction ns as [|n ns IH]; intros zs H; cbn [map each] in H; [apply Ok_inj in H; subst; split; [reflexivity|]; intros [|i] m k Q; discriminate|].
  bind_inv H z Ez. bind_inv H r Er. apply Ok_inj in H. subst zs. destruct (IH _ Er) as [L P]. split; [cbn; congruence|]. intros [|i] m k Q N B; cbn in Q |- *; [|eapply P; eassumption].
  injection Q as ->. change (rnd (value m)) with (Fin (value m)) in Ez. rewrite (natural_value _ _ N), d2i_nat in Ez by assumption. apply Ok_inj in Ez. congruence.
Qed.
Lemma uget_nth : forall A (l : list A) i x, nth_error l i = Some x -> uget (None :: map Some l) (Z.of_nat (S i)) = Ok x.
Proof.
  intros A l i x H. unfold uget. assert (Q : aget (None :: map Some l) (Z.of_nat (S i)) = Ok (Some x)). { apply aget_Ok. split; [lia|]. rewrite Nat2Z.id. cbn [nth_error]. rewrite nth_error_map, H. reflexivity. }
  rewrite Q. reflexivity.
Qed.

Lemma fronts_bad : forall psi stype cum frozen tab k (l : list front) q, numbered l -> (length l <= q < length l + k)%nat ->
  (forall j, (length l <= j < q)%nat -> (exists t en, uget stype (Z.of_nat (S j)) = Ok t /\ uget tab t = Ok en) /\ (exists d, aget cum (Z.of_nat (S j)) = Ok d) /\ exists d, aget frozen (Z.of_nat (S j)) = Ok d) ->
  (exists t, uget stype (Z.of_nat (S q)) = Ok t /\ (Z.of_nat (length tab) <= t)%Z) ->
  zfor (Z.of_nat (S (length l))) k (fun layer head =>
    t <- uget stype layer ;;
    en <- uget tab t ;;
    let s := en_soil en in
    let theta := theta_of_h s psi in
    depth <- aget cum layer ;;
    '(head, cur) <- listInsertFront NaN NaN depth theta layer layer true head ;;
    match cur with
    | None => Stop (UB NullDeref)
    | Some i =>
        f <- lget head i ;;
        ff <- aget frozen layer ;;
        let Se := Se_of_theta s (f_theta f) in
        Ok (lset head i (set_K (set_psi f psi) (K_of_Se s Se (ff * s_Ksat s)%d)))
    end) l = Stop (UB OutOfBounds).
Proof.
  intros psi stype cum frozen tab. induction k as [|k IH]; intros l q N Q H B; [lia|]. cbn [zfor].
  destruct (Nat.eq_dec q (length l)) as [->|Nq].
  - destruct B as (t & T & Bt). rewrite T. cbn [bind]. unfold uget at 1. unfold aget. destruct (Z.ltb_spec t 0); [lia|].
    assert (E : nth_error tab (Z.to_nat t) = None) by (apply nth_error_None; lia). rewrite E. reflexivity.
  - destruct (H (length l) ltac:(lia)) as ((t & en & Et & Een) & (d & Ed) & (ff & Ef)). rewrite Et. cbn [bind]. rewrite Een. cbn [bind]. cbv zeta. rewrite Ed. cbn [bind].
    rewrite insert_last by assumption. cbn [bind]. set (nf := mkF _ _ _ _ _ _ _ _).
    assert (L : lget (l ++ [nf]) (length l) = Ok nf). { apply lget_Ok. rewrite nth_error_app2 by lia. rewrite Nat.sub_diag. reflexivity. }
    rewrite L. cbn [bind]. rewrite Ef. cbn [bind]. rewrite lset_snoc. set (g := set_K _ _).
    assert (Ng : numbered (l ++ [g])) by (apply numbered_snoc; [assumption|reflexivity]).
    replace (Z.of_nat (S (length l)) + 1)%Z with (Z.of_nat (S (length (l ++ [g])))) by (rewrite app_length; cbn [length]; lia).
    apply (IH _ q); [assumption|rewrite app_length; cbn [length]; lia| |assumption]. intros j J. apply H. rewrite app_length in J. cbn [length] in J. lia.
Qed.

(** What InitFromConfigFile has before the fronts are created. *)
Lemma before_fronts : forall files junk ls ts types gs psi dt fres max rows, basic_config files ls ts types gs psi dt fres max rows ->
  (forall i, (i < length ts)%nat -> exists m k, nth_error types i = Some m /\ natural m k /\ (k <= 1000)%nat) ->
  exists c zs tab inv N os nc tz fi wp fc en,
    let nl := length ts in let ths := map (fun n => @rnd exact (value n)) ts in let cum := Fin 0 :: running (Fin 0) ths in let frozen := repeat (lit 1) (S nl) in
    config_lines conf0 ls = Ok c /\ (max <= 15)%nat /\
    (forall i m k, nth_error types i = Some m -> natural m k -> (k <= 1000)%nat -> uget (None :: map Some zs) (Z.of_nat (S i)) = Ok (Z.of_nat k)) /\
    length tab = S max /\ (forall k, (1 <= k <= max)%nat -> (k <= length rows)%nat -> exists e, uget tab (Z.of_nat k) = Ok e) /\
    zfor 0 (Z.to_nat N) (fun i a => o <- uget (None :: map Some os) (i + 1) ;; Ok (a ++ [o])) [] = Ok os /\
    init_rest files junk c =
      (head <- InitializeWettingFronts (Z.of_nat nl) (@rnd exact (value psi)) (None :: map Some zs) cum frozen tab ;;
       vol <- lgar_calc_mass_bal cum head ;;
       _ <- cassert (Z.of_nat nl =? listLength head)%Z ;;
       Ok (mkStart c (mkParams (Z.of_nat nl) (Fin 0 :: ths) cum (None :: map Some zs) frozen (Z.of_nat nl) nc (repeat (Fin 0) (Z.to_nat nc)) tz [] [] (Fin dt) (Fin fres) (Fin dt) fi wp fc (cf_closed c) (cf_adaptive c)
         (match cf_pmax c with Some v => v | None => Fin 0 end) (Fin 0) 120 (Fin 0) en 0 (cf_sft c) (cf_calib c) inv) head tab vol N (None :: map Some os))).
Proof.
  intros files junk ls ts types gs psi dt fres max rows [GL GR (lt & Lt & At & Nt & Gt & Pt) (ly & Ly & Ay & Ny & Gy) (lg & Lg & Ag & Ng & Gg & Pg) (lp & Lp & Ap & Gp & Pp) (lf & f & Lf & Af & Ff & Fs & Ph)
    (nd & ud & sd & Ld & Ud & Gd & Dd) (nf & uf & sf & Lr & Uf & Gf & Df) (R1 & R2 & R3 & R4) Mx Mpos Cl] Ty.
  destruct (lines_total _ GL conf0) as [c C].
  destruct ts as [|t0 ts]; [contradiction|]. destruct types as [|y0 types]; [contradiction|]. destruct gs as [|g0 gs]; [contradiction|].
  pose proof (conf_thick _ _ _ _ _ Lt At Gt C) as [C1 _]. pose proof (conf_stype _ _ _ _ _ Ly Ay Gy C) as (zs & C2 & C2'). pose proof (conf_giuh _ _ _ _ _ Lg Ag Gg C) as [C3 _].
  pose proof (conf_psi _ _ _ _ Lp Ap Gp C) as C4. pose proof (conf_file _ _ _ _ Lf Af Ff C) as C5.
  assert (C6 : cf_timestep c = Some (Fin dt)).
  { assert (Kk : In "timestep" keys) by (cbn; tauto). destruct (unit_table "timestep" nd ud Kk Gd (known_unit _ _ (in_or_app _ _ _ (or_introl Ud)))) as (B1 & B2 & B3).
    destruct (last_decides _ _ _ _ _ Kk Ld C) as (ca & cb & Q & Agr). destruct (line_timestep _ _ _ _ _ B1 B2 B3 Gd Q) as (E & _ & _).
    assert (T : cf_timestep c = Some (to_hours (rnd (value nd)) ud)). { rewrite <- E. symmetry. unfold agree in Agr. repeat match goal with H : _ /\ _ |- _ => destruct H end. auto. }
    rewrite T, Dd. f_equal. apply hours_exact. assumption. }
  assert (C7 : cf_fres c = Some (Fin fres)).
  { assert (Kk : In "forcing_resolution" keys) by (cbn; tauto). destruct (unit_table "forcing_resolution" nf uf Kk Gf (known_unit _ _ (in_or_app _ _ _ (or_introl Uf)))) as (B1 & B2 & B3).
    destruct (last_decides _ _ _ _ _ Kk Lr C) as (ca & cb & Q & Agr). destruct (line_fres _ _ _ _ _ B1 B2 B3 Gf Q) as (E & _ & _).
    assert (T : cf_fres c = Some (to_hours (rnd (value nf)) uf)). { rewrite <- E. symmetry. unfold agree in Agr. repeat match goal with H : _ /\ _ |- _ => destruct H end. auto. }
    rewrite T, Df. f_equal. apply hours_exact. assumption. }
  assert (Req : forall k, In k required_keys -> set_in c k).
  { intros k K. destruct (GR k K) as (l & Il & S). apply (is_set _ _ _ _ C (in_or_app _ _ _ (or_introl K)) Il S). }
  assert (C8 : exists v, cf_endtime c = Some v) by (apply some_of; apply (Req "endtime"); [cbn; tauto|reflexivity]).
  assert (C9 : exists v, cf_wp c = Some v) by (apply some_of; apply (Req "wilting_point_psi"); [cbn; tauto|reflexivity]).
  assert (C10 : exists v, cf_fc c = Some v) by (apply some_of; apply (Req "field_capacity_psi"); [cbn; tauto|reflexivity]).
  destruct C8 as [en C8], C9 as [wp C9], C10 as [fc C10].
  assert (C11 : cf_sft c = true -> exists v, cf_soilz c = Some v).
  { intro S. destruct Cl as [(l & Il & Sl)|N].
    - apply some_of. assert (Kk : In "soil_z" keys) by (cbn; tauto). apply (is_set _ _ _ _ C Kk Il Sl). reflexivity.
    - destruct (sft_lines _ _ _ GL C S) as [Q|Q]; [discriminate Q|contradiction]. }
  assert (C12 : match cf_maxtypes c with Some z => z | None => 15%Z end = Z.of_nat max).
  { destruct Mx as [(lm & nm & km & Lm & Am & Nm & Bm & ->)|[-> N]].
    - rewrite (conf_max _ _ _ _ _ Lm Am Nm C Bm). lia.
    - rewrite (no_max _ _ N C). reflexivity. }
  assert (M15 : (max <= 15)%nat) by (destruct Mx as [(lm & nm & km & _ & _ & _ & _ & ->)|[-> _]]; lia).
  destruct (each_types _ _ C2') as [Lz Pz]. set (ths := map (fun n => @rnd exact (value n)) (t0 :: ts)) in *. assert (Lths : length ths = length (t0 :: ts)) by apply map_length. set (nl := length (t0 :: ts)) in *.
  destruct (rows_total wp junk (Z.of_nat max) rows loc0 1 (repeat None (Z.to_nat (Z.of_nat max + 1))) Ph eq_refl ltac:(lia)) as (tab & T1 & _ & T2). { rewrite repeat_length. lia. }
  destruct (invalid_total nl 1 (None :: map Some zs) (Z.of_nat max)) as [inv Inv]. { intros j J. destruct (Ty j J) as (m & k & Nm & Nk & B). exists (Z.of_nat k). replace (1 + Z.of_nat j)%Z with (Z.of_nat (S j)) by lia. apply uget_nth. eapply Pz; eassumption. }
  destruct (resample_total fres (map (fun n => @rnd exact (value n)) (g0 :: gs)) R2 R3) as (fac & Fac & Res).
  assert (D2 : exists fi, d2i (Fin fres / Fin dt + lit (1 / 100000000))%d = Ok fi).
  { change (lit (1 / 100000000)) with (Fin (1 / 100000000)). assert (E : (Fin fres / Fin dt)%d = Fin (fres / dt)) by (unfold ddiv; destruct (Req_EM_T dt 0); [lra|reflexivity]). rewrite E.
    change (Fin (fres / dt) + Fin (1 / 100000000))%d with (Fin (fres / dt + 1 / 100000000)). set (x := fres / dt + 1 / 100000000).
    assert (X : 0 < x < 2147483647) by (assert (0 < fres / dt) by (apply Rdiv_lt_0_compat; lra); unfold x; lra). clearbody x. exists (trunc x).
    assert (T : (0 <= trunc x <= 2147483647)%Z). { unfold trunc. destruct (Rlt_dec x 0); [lra|]. destruct (base_Int_part x) as [A B]. split; [assert (Q : -1 < IZR (Int_part x)) by lra; apply lt_IZR in Q; lia|apply le_IZR; lra]. }
    unfold d2i. destruct (Z.leb_spec (-2147483648) (trunc x)); [|lia]. destruct (Z.leb_spec (trunc x) 2147483647); [reflexivity|lia]. }
  destruct D2 as [fi D2]. set (cum := Fin 0 :: running (Fin 0) ths). set (frozen := repeat (lit 1) (S nl)). set (pv := @rnd exact (value psi)) in *.
  set (os := spread (Z.to_nat fac) (dofZ fac) (map (fun n => @rnd exact (value n)) (g0 :: gs))) in *.
  set (N := (fac * Z.of_nat (length (map (fun n => @rnd exact (value n)) (g0 :: gs))))%Z) in *.
  assert (Copy : zfor 0 (Z.to_nat N) (fun i a => o <- uget (None :: map Some os) (i + 1) ;; Ok (a ++ [o])) [] = Ok os).
  { apply (copy_loop (Z.to_nat N) os []); [|reflexivity]. unfold os. rewrite spread_length. unfold N. nia. }
  assert (Cells : exists q, (if cf_sft c then z <- known (cf_soilz c) ;; Ok (Z.of_nat (length z), z) else Ok (1%Z, [Fin 0])) = Ok q).
  { destruct (cf_sft c); [|eauto]. destruct (C11 eq_refl) as [z ->]. cbn. eauto. }
  destruct Cells as [[nc tz] Cells].
  exists c, zs, tab, inv, N, os, nc, tz, fi, wp, fc, en. cbv zeta. split; [assumption|]. split; [assumption|]. split; [intros i m k Nm Nk B; apply uget_nth; eapply Pz; eassumption|].
  split; [rewrite (read_length _ _ _ _ _ _ _ _ T1), repeat_length; lia|]. split; [intros k B1 B2; apply T2; lia|]. split; [assumption|].
  unfold init_rest. cbv zeta. rewrite C2. cbn [need bind]. rewrite C5. cbn [need bind]. rewrite C12. destruct (Z.ltb_spec (Z.of_nat max + 1) 0); [lia|]. cbn [bind].
  rewrite C9. unfold lgar_read_vG_param_file. rewrite Fs, T1. cbn [bind]. rewrite C1. cbn [known bind]. rewrite Lths, Inv. cbn [bind]. rewrite C4. cbn [need bind]. rewrite C6. cbn [need bind]. rewrite C8. cbn [need bind].
  rewrite C10. cbn [need bind]. rewrite C7. cbn [need bind]. rewrite C3. cbn [need bind]. rewrite Res. cbn [bind]. rewrite Cells. cbn [bind]. rewrite D2. cbn [bind]. reflexivity.
Qed.

Theorem init_total : forall files junk ls ts types gs psi dt fres max rows, usable_config files ls ts types gs psi dt fres max rows -> exists s, Initialize files junk ls = Ok s /\
  p_timestep (st_p s) = Fin dt /\ p_fres (st_p s) = Fin fres /\ forall k, (1 <= k <= max)%nat -> (k <= length rows)%nat -> exists sl, uget (st_soils s) (Z.of_nat k) = Ok sl.
Proof.
  intros files junk ls ts types gs psi dt fres max rows [G Ty].
  destruct (before_fronts files junk _ _ _ _ _ _ _ _ _ G) as (c & zs & tab & inv & N & os & nc & tz & fi & wp & fc & en & C & M15 & Pz & Lt & T2 & Copy & Rest).
  { intros i L. destruct (Ty i L) as (m & k & A & B & D & _). exists m, k. split; [assumption|]. split; [assumption|].
    destruct G as [_ _ _ _ _ _ _ _ _ _ Mx _ _]. destruct Mx as [(lm & nm & km & _ & _ & _ & _ & ->)|[-> _]]; lia. }
  cbv zeta in Rest. set (nl := length ts) in *. set (ths := map (fun n => @rnd exact (value n)) ts) in *. assert (Lths : length ths = nl) by apply map_length.
  assert (Ent : forall i, (i < nl)%nat -> exists t e, uget (None :: map Some zs) (Z.of_nat (S i)) = Ok t /\ uget tab t = Ok e).
  { intros i L. destruct (Ty i L) as (m & k & Nm & Nk & B1 & B2). destruct (T2 k B1 B2) as [e E]. exists (Z.of_nat k), e. split; [|assumption]. eapply Pz; [exact Nm|exact Nk|lia]. }
  set (cum := Fin 0 :: running (Fin 0) ths) in *. set (frozen := repeat (lit 1) (S nl)) in *. set (pv := @rnd exact (value psi)) in *.
  assert (Lcum : length cum = S nl) by (unfold cum; cbn [length]; rewrite running_length, Lths; reflexivity).
  destruct (fronts_total pv (None :: map Some zs) cum frozen tab nl []) as [head Hd].
  { intros [|i] g Q; discriminate. }
  { intros j J. cbn [length] in J. split; [apply Ent; lia|]. split; apply aget_in_range; [rewrite Lcum|unfold frozen; rewrite repeat_length]; lia. }
  assert (Hd' : InitializeWettingFronts (Z.of_nat nl) pv (None :: map Some zs) cum frozen tab = Ok head) by (unfold InitializeWettingFronts; rewrite Nat2Z.id; exact Hd). clear Hd.
  destruct (fronts_are _ _ _ _ _ _ _ Hd') as (_ & Lh & Fr).
  destruct (mass_total cum head (Fin 0)) as [vol Vol].
  { intros g Hg. apply In_nth_error in Hg as [i Hi]. destruct (Fr i g Hi) as (t & e & d & ff & _ & _ & _ & _ & ->). cbn [init_front f_layer]. assert (i < length head)%nat by (apply nth_error_Some; congruence). lia. }
  destruct (values_total nl 1 (None :: map Some zs) tab head Lh) as [vs Vs]. { intros j J. replace (1 + Z.of_nat j)%Z with (Z.of_nat (S j)) by lia. apply Ent. assumption. }
  rewrite Hd' in Rest. cbn [bind] in Rest. unfold lgar_calc_mass_bal in Rest. rewrite Vol in Rest. cbn [bind] in Rest.
  assert (Q : (Z.of_nat nl =? listLength head)%Z = true) by (apply Z.eqb_eq; unfold listLength; rewrite Lh; reflexivity). rewrite Q in Rest. cbn [cassert bind] in Rest.
  set (p := mkParams _ _ _ _ _ _ _ _ _ _ _ _ _ _ _ _ _ _ _ _ _ _ _ _ _ _ _ _) in Rest.
  eexists. split; [|split; [|split]].
  - unfold Initialize, InitFromConfigFile. rewrite C. cbn [bind]. rewrite Rest. cbn [bind]. cbv zeta. cbn [sr_p sr_N sr_ord sr_tab sr_head sr_vol].
    change (p_nlayers p) with (Z.of_nat nl). change (p_stype p) with (None :: map Some zs). rewrite Nat2Z.id, Vs. cbn [bind]. rewrite Copy. cbn [bind]. reflexivity.
  - reflexivity.
  - reflexivity.
  - intros k B1 B2. destruct (T2 k B1 B2) as [e E]. exists (en_soil e). cbn [st_soils]. apply uget_Ok, aget_Ok in E as [P E]. unfold uget.
    assert (Q' : aget (map (option_map en_soil) tab) (Z.of_nat k) = Ok (Some (en_soil e))). { apply aget_Ok. split; [assumption|]. rewrite nth_error_map, E. reflexivity. }
    rewrite Q'. reflexivity.
Qed.

Theorem configured : forall files junk ls ts types gs psi dt fres max rows, good_config files ls ts types gs psi dt fres max rows -> exists s, Initialize files junk ls = Ok s /\
  sound_state s /\ fresh s /\ signs s /\ p_invalid (st_p s) = false /\ within_soils (env_of s) (st_head s) /\ arrays_ok (mkObj s (repeat None 11)) /\
  p_nlayers (st_p s) = Z.of_nat (length ts) /\ p_timestep (st_p s) = Fin dt /\ p_fres (st_p s) = Fin fres.
Proof.
  intros files junk ls ts types gs psi dt fres max rows G. destruct G as [G Fine]. destruct (init_total files junk _ _ _ _ _ _ _ _ _ G) as (s & H & Dt & Fr & _). exists s. split; [assumption|].
  destruct G as [[GL GR (lt & Lt & At & Nt & Gt & Pt) _ (lg & Lg & Ag & Ng & Gg & Pg) (lp & Lp & Ap & Gp & Pp) (lf & f & Lf & Af & Ff & Fs & Ph) _ _ (R1 & R2 & R3 & R4) _ _ _] _].
  destruct ts as [|t0 ts]; [contradiction|]. destruct gs as [|g0 gs]; [contradiction|].
  destruct (first_ready files junk ls s lt t0 ts lp psi lf f rows lg g0 gs fres dt) as (Q1 & Q2 & Q3 & Q4 & Q5 & Q6 & _); try assumption; try lra.
  destruct (read_thickness _ _ _ _ _ _ _ Lt At Gt H) as (Nl & _). repeat (split; [assumption|]). assumption.
Qed.

(** A soil type above the number of valid types is not reported: the table is read past its end. *)
Theorem invalid_type : forall files junk ls ts types gs psi dt fres max rows i, basic_config files ls ts types gs psi dt fres max rows ->
  (forall j, (j < length ts)%nat -> exists m k, nth_error types j = Some m /\ natural m k /\ (k <= 1000)%nat) -> (i < length ts)%nat -> bad_type types max rows i ->
  Initialize files junk ls = Stop (UB OutOfBounds).
Proof.
  intros files junk ls ts types gs psi dt fres max rows i G Ty Li (Gd & m & k & Nm & Nk & B).
  destruct (before_fronts files junk _ _ _ _ _ _ _ _ _ G Ty) as (c & zs & tab & inv & N & os & nc & tz & fi & wp & fc & en & C & M15 & Pz & Lt & T2 & Copy & Rest).
  cbv zeta in Rest. set (nl := length ts) in *. set (ths := map (fun n => @rnd exact (value n)) ts) in *. assert (Lths : length ths = nl) by apply map_length.
  set (cum := Fin 0 :: running (Fin 0) ths) in *. set (frozen := repeat (lit 1) (S nl)) in *. set (pv := @rnd exact (value psi)) in *.
  assert (Lcum : length cum = S nl) by (unfold cum; cbn [length]; rewrite running_length, Lths; reflexivity).
  assert (Hd : InitializeWettingFronts (Z.of_nat nl) pv (None :: map Some zs) cum frozen tab = Stop (UB OutOfBounds)).
  { unfold InitializeWettingFronts. rewrite Nat2Z.id. apply (fronts_bad pv (None :: map Some zs) cum frozen tab nl [] i).
    - intros [|q] g Q; discriminate.
    - cbn [length]. lia.
    - intros j J. cbn [length] in J. split; [|split; apply aget_in_range; [rewrite Lcum|unfold frozen; rewrite repeat_length]; lia].
      destruct (Gd j ltac:(lia)) as (m' & k' & Nm' & Nk' & B1 & B2). destruct (T2 k' B1 B2) as [e E]. exists (Z.of_nat k'), e. split; [|assumption]. eapply Pz; [exact Nm'|exact Nk'|lia].
    - exists (Z.of_nat k). split; [eapply Pz; [exact Nm|exact Nk|lia]|lia]. }
  unfold Initialize, InitFromConfigFile. rewrite C. cbn [bind]. rewrite Rest, Hd. reflexivity.
Qed.


(** ** Without layer_thickness *)
Lemma split_twice : forall (A : Type) (p q a b : list A) x l, p ++ x :: q = a ++ l :: b -> x <> l ->
  (exists m, a = p ++ x :: m /\ q = m ++ l :: b) \/ (exists m, p = a ++ l :: m /\ b = m ++ x :: q).
Proof.
  induction p as [|y p IH]; intros q [|z a] b x l E N; cbn in E; injection E as E1 E2.
  - contradiction.
  - subst. left. exists a. auto.
  - subst. right. exists p. auto.
  - subst z. destruct (IH q a b x l E2 N) as [(m & -> & ->)|(m & -> & ->)]; [left|right]; exists m; auto.
Qed.
Lemma last_without : forall k x l a b, last_line k x (a ++ l :: b) -> ~ line_sets k l -> last_line k x (a ++ b).
Proof.
  intros k x l a b (S & p & q & E & F) N. split; [assumption|]. symmetry in E. destruct (split_twice _ _ _ _ _ _ _ E) as [(m & -> & ->)|(m & -> & ->)].
  - intro Q. subst. contradiction.
  - exists p, (m ++ b). split; [rewrite <- app_assoc; reflexivity|]. intros y Y. apply F. apply in_app_or in Y as [Y|Y]; apply in_or_app; [auto|right; right; assumption].
  - exists (a ++ m), q. split; [rewrite <- app_assoc; reflexivity|assumption].
Qed.
Theorem missing_thickness : forall files junk a l b ts types gs psi dt fres max rows, basic_config files (a ++ l :: b) ts types gs psi dt fres max rows ->
  line_sets "layer_thickness" l -> (forall x, In x (a ++ b) -> ~ line_sets "layer_thickness" x) -> Initialize files junk (a ++ b) = Stop (UB Uninit).
Proof.
  intros files junk a l b ts types gs psi dt fres max rows [GL GR _ (ly & Ly & Ay & Ny & Gy) _ _ (lf & f & Lf & Af & Ff & Fs & Ph) _ _ _ Mx Mpos _] Sl No.
  assert (Kt : In "layer_thickness" keys) by (cbn; tauto).
  assert (Other : forall k, In k keys -> k <> "layer_thickness" -> ~ line_sets k l).
  { intros k K N S. apply sets_key in S; [|assumption]. apply sets_key in Sl; [|assumption]. congruence. }
  assert (GL' : Forall good_line (a ++ b)).
  { apply Forall_app in GL as [GA GB]. inversion_clear GB as [|? ? _ GB']. apply Forall_app. auto. }
  destruct (lines_total _ GL' conf0) as [c C]. destruct types as [|y0 types]; [contradiction|].
  pose proof (last_without _ _ _ _ _ Ly (Other "layer_soil_type" ltac:(cbn; tauto) ltac:(discriminate))) as Ly'.
  pose proof (last_without _ _ _ _ _ Lf (Other "soil_params_file" ltac:(cbn; tauto) ltac:(discriminate))) as Lf'.
  pose proof (conf_stype _ _ _ _ _ Ly' Ay Gy C) as (zs & C2 & C2'). pose proof (conf_file _ _ _ _ Lf' Af Ff C) as C5.
  assert (C1 : cf_thick c = None). { pose proof (rest_agree _ _ _ _ Kt No C) as Ag. unfold agree in Ag. repeat match goal with H : _ /\ _ |- _ => destruct H end. symmetry. auto. }
  assert (M15 : (max <= 15)%nat) by (destruct Mx as [(lm & nm & km & _ & _ & _ & _ & ->)|[-> _]]; lia).
  assert (C12 : match cf_maxtypes c with Some z => z | None => 15%Z end = Z.of_nat max).
  { destruct Mx as [(lm & nm & km & Lm & Am & Nm & Bm & ->)|[-> N]].
    - pose proof (last_without _ _ _ _ _ Lm (Other "max_valid_soil_types" ltac:(cbn; tauto) ltac:(discriminate))) as Lm'. rewrite (conf_max _ _ _ _ _ Lm' Am Nm C Bm). lia.
    - rewrite (no_max (a ++ b) c); [reflexivity| |assumption]. intros x X. apply N. apply in_app_or in X as [X|X]; apply in_or_app; [auto|right; right; assumption]. }
  set (wp := match cf_wp c with Some v => v | None => junk end).
  destruct (rows_total wp junk (Z.of_nat max) rows loc0 1 (repeat None (Z.to_nat (Z.of_nat max + 1))) Ph eq_refl ltac:(lia)) as (tab & T1 & _ & T2). { rewrite repeat_length. lia. }
  unfold Initialize, InitFromConfigFile. rewrite C. cbn [bind].
  unfold init_rest. cbv zeta. rewrite C2. cbn [need bind]. rewrite C5. cbn [need bind]. rewrite C12. destruct (Z.ltb_spec (Z.of_nat max + 1) 0); [lia|]. cbn [bind].
  unfold lgar_read_vG_param_file. fold wp. rewrite Fs, T1. cbn [bind]. rewrite C1. reflexivity.
Qed.
