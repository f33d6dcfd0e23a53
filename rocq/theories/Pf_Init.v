(** What a successful Initialize leaves behind. *)

From Coq Require Import String Ascii Reals Lra ZArith List Bool Lia.
From RecordUpdate Require Import RecordSet.
From Verif Require Import Outcome Dbl Exact Types ListOps Soil Fronts State Config Bmi Lib Spec_Common Spec_List Spec_Profile Spec_Update Spec_Bmi Spec_Config
  Pf_List Pf_Dbl Pf_Profile Pf_Text Pf_Config Pf_Lines.
Import ListNotations.
Import RecordSetNotations.
Open Scope string_scope.
Open Scope list_scope.

Section Init.
Context {fp : Fp}.

Record initialised (files : string -> option (list row)) (junk : dbl) (ls : list string) (s : state)
  (c : conf) (st : list Z) (rows : list row) (tab : list (option entry)) (thick : list dbl) (psi : dbl) (ord : list dbl) : Prop := mkInit {
  in_conf : config_lines conf0 ls = Ok c;
  in_st : cf_stype c = Some st;
  in_rows : exists file, cf_file c = Some file /\ files file = Some rows;
  in_nst : (0 <= match cf_maxtypes c with Some z => z | None => 15 end + 1)%Z;
  in_tab : read_rows (p_wilting (st_p s)) junk (match cf_maxtypes c with Some z => z | None => 15 end)%Z rows loc0 1
             (repeat None (Z.to_nat (match cf_maxtypes c with Some z => z | None => 15 end + 1))) = Ok tab;
  in_thick : cf_thick c = Some thick;
  in_invalid : any_invalid (length thick) 1 (p_stype (st_p s)) (match cf_maxtypes c with Some z => z | None => 15 end)%Z = Ok (p_invalid (st_p s));
  in_psi : cf_psi c = Some psi;
  in_dt : cf_timestep c = Some (p_timestep (st_p s));
  in_end : cf_endtime c = Some (p_endtime (st_p s));
  in_wp : cf_wp c = Some (p_wilting (st_p s));
  in_fc : cf_fc c = Some (p_fc (st_p s));
  in_fres : cf_fres c = Some (p_fres (st_p s));
  in_giuh : cf_giuh c = Some ord;
  in_ords : exists ords, resample (p_fres (st_p s)) ord = Ok (g_N s, ords) /\
    zfor 0 (Z.to_nat (g_N s)) (fun i a => o <- uget ords (i + 1) ;; Ok (a ++ [o])) [] = Ok (g_ord s);
  in_cells : if cf_sft c then cf_soilz c = Some (p_soilTz (st_p s)) /\ p_ncells (st_p s) = Z.of_nat (length (p_soilTz (st_p s)))
             else p_ncells (st_p s) = 1%Z /\ p_soilTz (st_p s) = [Fin 0];
  in_fint : d2i (p_fres (st_p s) / p_timestep (st_p s) + lit (1 / 100000000))%d = Ok (p_finterval (st_p s));
  in_head : InitializeWettingFronts (Z.of_nat (length thick)) psi (p_stype (st_p s)) (p_cum (st_p s)) (p_frozen (st_p s)) tab = Ok (st_head s);
  in_vol : lgar_calc_mass_bal (p_cum (st_p s)) (st_head s) = Ok (mb_start (st_mb s));
  in_len : Z.of_nat (length thick) = listLength (st_head s);
  in_vals : exists vs, layer_values (length thick) 1 (p_stype (st_p s)) tab (st_head s) = Ok vs /\
    p_theta_wf (st_p s) = map (fun v => f_theta (fst v)) vs /\ p_depth_wf (st_p s) = map (fun v => (f_depth (fst v) * lit (1 / 100))%d) vs /\
    st_cal s = mkCal (map (fun v => s_theta_e (snd v)) vs) (map (fun v => s_theta_r (snd v)) vs) (map (fun v => s_n (snd v)) vs)
                 (map (fun v => s_alpha (snd v)) vs) (map (fun v => s_Ksat (snd v)) vs) (p_fc (st_p s)) (p_pmax (st_p s));
  in_p : p_nlayers (st_p s) = Z.of_nat (length thick) /\ p_thick (st_p s) = Fin 0 :: thick /\ p_cum (st_p s) = Fin 0 :: running (Fin 0) thick /\
    p_stype (st_p s) = None :: map Some st /\ p_frozen (st_p s) = repeat (lit 1) (S (length thick)) /\ p_nfronts (st_p s) = Z.of_nat (length thick) /\
    p_soilT (st_p s) = repeat (Fin 0) (Z.to_nat (p_ncells (st_p s))) /\ p_mints (st_p s) = p_timestep (st_p s) /\ p_closed (st_p s) = cf_closed c /\
    p_adaptive (st_p s) = cf_adaptive c /\ p_pmax (st_p s) = match cf_pmax c with Some v => v | None => Fin 0 end /\ p_precip_prev (st_p s) = Fin 0 /\ p_nint (st_p s) = 120%Z /\
    p_time (st_p s) = Fin 0 /\ p_timesteps (st_p s) = 0%Z /\ p_sft (st_p s) = cf_sft c /\ p_calib (st_p s) = cf_calib c;
  in_s : st_prev s = [] /\ st_soils s = map (option_map en_soil) tab /\ st_precip s = Fin (-1) /\ st_pet s = Fin (-1) /\ st_out s = None /\
    g_queue s = repeat (Fin 0) (Z.to_nat (g_N s + 1)) /\
    st_mb s = mkMB (Fin 0) (mb_start (st_mb s)) (Fin 0) (Fin 0) (Fin 0) (Fin 0) (Fin 0) (Fin 0) (Fin 0) (Fin 0) (Fin 0) (Fin 0) (Fin 0) None
}.

Lemma init_inv : forall files junk ls s, Initialize files junk ls = Ok s -> exists c st rows tab thick psi ord, initialised files junk ls s c st rows tab thick psi ord.
Proof.
  intros files junk ls s H. unfold Initialize, InitFromConfigFile in H. bind_inv H z Ez. bind_inv Ez c Ec.
  destruct (rest_inv _ _ _ _ Ez) as (st & file & rows & tab & thick & psi & dt & endt & wp & fc & fres & ord & n & ords & ncells & tz & fint & head & vol & R).
  cbv zeta in R. destruct R as (R1 & R2 & R3 & R4 & R5 & R6 & inv & R7 & R8 & R9 & R10 & R11 & R12 & R13 & R14 & R15 & R16 & R17 & R18 & R19 & R20 & ->).
  cbv zeta in H. cbn [sr_p sr_N sr_ord sr_tab sr_head sr_vol p_nlayers p_stype p_fc p_pmax] in H. rewrite Nat2Z.id in H.
  bind_inv H vs Evs. bind_inv H os Eos. apply Ok_inj in H. subst s.
  exists c, st, rows, tab, thick, psi, ord.
  constructor; cbn [st_p st_head st_prev st_soils st_mb st_precip st_pet st_cal st_out g_N g_ord g_queue]; try assumption; try reflexivity.
  - exists file. auto.
  - exists ords. split; assumption.
  - exists vs. split; [exact Evs|]. repeat split; reflexivity.
  - repeat split; reflexivity.
  - repeat split; reflexivity.
Qed.

(** ** The initial profile *)
Definition init_front (psi : dbl) (s : soil) (depth factor : dbl) (layer : Z) : front :=
  let theta := theta_of_h s psi in
  mkF depth theta psi (K_of_Se s (Se_of_theta s theta) (factor * s_Ksat s)%d) layer layer true (Fin 0).
Definition at_layer (psi : dbl) (stype : list (option Z)) (cum frozen : list dbl) (tab : list (option entry)) (layer : Z) (f : front) : Prop :=
  exists t en depth ff, uget stype layer = Ok t /\ uget tab t = Ok en /\ aget cum layer = Ok depth /\ aget frozen layer = Ok ff /\
    f = init_front psi (en_soil en) depth ff layer.

Lemma insert_last : forall gp gK d t lay b l, numbered l -> listInsertFront gp gK d t (Z.of_nat (S (length l))) lay b l =
  Ok (l ++ [mkF d t gp gK lay (Z.of_nat (S (length l))) b (Fin 0)], Some (length l)).
Proof.
  intros gp gK d t lay b l N. unfold listInsertFront. destruct l as [|f r]; [reflexivity|].
  replace (Z.of_nat (S (length (f :: r))) - 1)%Z with (Z.of_nat (S (length r))) by (cbn [length]; lia).
  rewrite pos_of_numbered; [|assumption|cbn [length]; lia]. rewrite skipn_all2 by (cbn [length]; lia). reflexivity.
Qed.
Lemma numbered_snoc : forall l f, numbered l -> f_num f = Z.of_nat (S (length l)) -> numbered (l ++ [f]).
Proof.
  intros l f N E i g H. destruct (Nat.lt_ge_cases i (length l)).
  - rewrite nth_error_app1 in H by assumption. apply N. assumption.
  - rewrite nth_error_app2 in H by assumption. destruct (i - length l)%nat as [|q] eqn:Q; [|destruct q; discriminate]. injection H as <-. rewrite E. f_equal. lia.
Qed.
Lemma lset_snoc : forall (l : list front) x y, lset (l ++ [x]) (length l) y = l ++ [y].
Proof. intros. apply lset_app. Qed.

Lemma fronts_loop : forall psi stype cum frozen tab k (l l' : list front), numbered l ->
  zfor (Z.of_nat (S (length l))) k (fun layer head =>
    t <- uget stype layer ;;
    en <- uget tab t ;;
    let s := en_soil en in
    let theta := theta_of_h s psi in
    depth <- aget cum layer ;;
    '(head, cur) <- listInsertFront NaN NaN depth theta layer layer true head ;;
    match cur with
    | None => Stop (UB NullDeref)
    | Some i =>
        f <- lget head i ;;
        ff <- aget frozen layer ;;
        let Se := Se_of_theta s (f_theta f) in
        Ok (lset head i (set_K (set_psi f psi) (K_of_Se s Se (ff * s_Ksat s)%d)))
    end) l = Ok l' ->
  numbered l' /\ exists new, l' = l ++ new /\ length new = k /\
    forall i f, nth_error new i = Some f -> at_layer psi stype cum frozen tab (Z.of_nat (S (length l + i))) f.
Proof.
  intros psi stype cum frozen tab. induction k as [|k IH]; intros l l' N H; cbn [zfor] in H.
  - apply Ok_inj in H. subst l'. split; [assumption|]. exists []. rewrite app_nil_r. repeat split. intros [|i] f Q; discriminate.
  - bind_inv H lx Ex. bind_inv Ex t Et. bind_inv Ex en Een. cbv zeta in Ex. bind_inv Ex depth Ed.
    rewrite insert_last in Ex by assumption. cbn [bind] in Ex.
    set (nf := mkF _ _ _ _ _ _ _ _) in Ex.
    assert (L : lget (l ++ [nf]) (length l) = Ok nf).
    { apply lget_Ok. rewrite nth_error_app2 by lia. rewrite Nat.sub_diag. reflexivity. }
    rewrite L in Ex. cbn [bind] in Ex. bind_inv Ex ff Ef. apply Ok_inj in Ex. rewrite lset_snoc in Ex. subst lx.
    set (g := set_K _ _) in H.
    assert (Eg : g = init_front psi (en_soil en) depth ff (Z.of_nat (S (length l)))) by reflexivity.
    assert (Ng : numbered (l ++ [g])) by (apply numbered_snoc; [assumption|reflexivity]).
    replace (Z.of_nat (S (length l)) + 1)%Z with (Z.of_nat (S (length (l ++ [g])))) in H by (rewrite app_length; cbn [length]; lia).
    destruct (IH _ _ Ng H) as (N' & new & -> & Ln & P). split; [assumption|].
    exists (g :: new). rewrite <- app_assoc. split; [reflexivity|]. split; [cbn; lia|].
    intros [|i] f Q; cbn in Q.
    + injection Q as <-. rewrite Nat.add_0_r. exists t, en, depth, ff. repeat split; assumption.
    + specialize (P i f Q). rewrite app_length in P. cbn [length] in P. replace (length l + S i)%nat with (length l + 1 + i)%nat by lia. exact P.
Qed.
Lemma fronts_are : forall nl psi stype cum frozen tab l, InitializeWettingFronts (Z.of_nat nl) psi stype cum frozen tab = Ok l ->
  numbered l /\ length l = nl /\ forall i f, nth_error l i = Some f -> at_layer psi stype cum frozen tab (Z.of_nat (S i)) f.
Proof.
  intros nl psi stype cum frozen tab l H. unfold InitializeWettingFronts in H. rewrite Nat2Z.id in H.
  assert (N0 : numbered []) by (intros [|i] f Q; discriminate).
  destruct (fronts_loop psi stype cum frozen tab nl [] l N0 H) as (N & new & E & L & P). cbn in E. subst new. auto.
Qed.

(** ** Structure, for every rounding *)
Lemma running_length : forall ts z, length (running z ts) = length ts.
Proof. induction ts as [|t ts IH]; intros z; cbn; [reflexivity|rewrite IH; reflexivity]. Qed.

Lemma layered_profile : forall psi stype cum frozen tab l, l <> [] -> numbered l ->
  (forall i f, nth_error l i = Some f -> at_layer psi stype cum frozen tab (Z.of_nat (S i)) f) -> profile (Z.of_nat (length l)) cum l.
Proof.
  intros psi stype cum frozen tab l Ne N P.
  assert (Q : forall i f, nth_error l i = Some f -> f_layer f = Z.of_nat (S i) /\ f_bottom f = true /\ aget cum (Z.of_nat (S i)) = Ok (f_depth f)).
  { intros i f H. destruct (P i f H) as (t & en & d & ff & _ & _ & C & _ & ->). auto. }
  constructor.
  - assumption.
  - intros i f H. destruct (Q i f H) as (-> & _). assert (i < length l)%nat by (apply nth_error_Some; congruence). lia.
  - intros i j f g L H1 H2. destruct (Q i f H1) as (-> & _). destruct (Q j g H2) as (-> & _). lia.
  - intros k K. destruct (nth_error l (Z.to_nat (k - 1))) as [f|] eqn:E; [|apply nth_error_None in E; lia].
    exists (Z.to_nat (k - 1)), f. destruct (Q _ _ E) as (A & B & C). replace (Z.of_nat (S (Z.to_nat (k - 1)))) with k in * by lia.
    split; [assumption|]. split; [assumption|]. split; [assumption|]. split; [assumption|].
    intros j g Hj Gj. destruct (Q _ _ Hj) as (Lj & _). split; [lia|intro; lia].
Qed.
End Init.
