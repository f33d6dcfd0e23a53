(** The state that Initialize leaves for a column of several layers. *)

From Coq Require Import String Reals Lra ZArith List Bool Lia.
From RecordUpdate Require Import RecordSet.
From Verif Require Import Outcome Dbl Exact Types ListOps Soil Giuh Fronts Infil Move State Update Config Bmi Lib Spec_Common Spec_Soil Spec_List Spec_Column Spec_Update Spec_Profile Spec_Storage Spec_Velocity
  Spec_Calib Spec_Config Spec_Advance Spec_Balance Spec_Shares Spec_Physical Spec_Layered Spec_Rest Pf_Dbl Pf_Pow Pf_Soil Pf_Update Pf_Structure Pf_Shares Pf_Physical Pf_Physical4
  Pf_Text Pf_Config Pf_Lines Pf_Init Pf_InitState Pf_Table Pf_InitExact Pf_ConfigThm Pf_InitTotal Pf_OneConfig Pf_Drier.
Import ListNotations.
Open Scope string_scope.
Open Scope R_scope.
Local Existing Instance exact.

Lemma parts_exist : forall (ts : list R) (ss : list soil), List.length ss = List.length ts -> Forall (fun s => exists r te a n m k, vg_soil s r te a n m k) ss ->
  exists qs, map pt_z qs = ts /\ Forall2 (fun s q => exists ks, vg_soil s (pt_r q) (pt_e q) (pt_a q) (pt_n q) (pt_m q) ks) ss qs.
Proof.
  induction ts as [|t ts IH]; intros [|s ss] L H; try discriminate; [exists []; split; [reflexivity|constructor]|].
  apply Forall_cons_iff in H as [(r & te & a & n & m & k & V) H]. injection L as L. destruct (IH ss L H) as (qs & E & F). exists (mkPart t 0 r te a n m :: qs). split; [cbn; f_equal; exact E|]. constructor; [exists k; exact V|exact F].
Qed.

Theorem layered_start : forall files junk ls ts types gs psi dt fres max rows, good_config files ls ts types gs psi dt fres max rows -> ~ In "calib_params=true" ls ->
  exists s M qs, Initialize files junk ls = Ok s /\ layered M qs s /\ fresh s /\ map pt_z qs = map value ts /\ List.length (st_head s) = List.length ts /\ hydrostatic qs (value psi) (st_head s) /\ dry s /\ no_demand s.
Proof.
  intros files junk ls ts types gs psi dt fres max rows GC CA.
  destruct (start_physical files junk _ _ _ _ _ _ _ _ _ GC) as (s & H & SS & VC & (M & HM) & PH). destruct (PH M HM) as [[PF PZ PS] _].
  destruct (configured files junk _ _ _ _ _ _ _ _ _ GC) as (s' & H' & _ & FR & _ & VA & WI & _ & NL & DT & FS). rewrite H in H'. apply Ok_inj in H'. subst s'.
  pose proof GC as [[[GL GR (lt & Lt & At & Nt & Gt & Pt) (ly & Ly & Ay & Ny & Gy) (lg & Lg & Ag & Ng & Gg & Pg) (lp & Lp & Ap & Gp & Pp) (lf & f & Lf & Af & Ff & Fs & Ph) _ _ (R1 & R2 & R3 & R4) _ _ _] TY] FR1].
  destruct ts as [|n ns]; [contradiction|].
  destruct (init_inv _ _ _ _ H) as (c & st & rows' & tab & thick & ps & ord & I). pose proof (in_conf _ _ _ _ _ _ _ _ _ _ _ I) as C.
  destruct (conf_thick _ _ _ _ _ Lt At Gt C) as [T F]. rewrite (in_thick _ _ _ _ _ _ _ _ _ _ _ I) in T. apply some_inj in T; subst thick.
  pose proof (conf_psi _ _ _ _ Lp Ap Gp C) as P. rewrite (in_psi _ _ _ _ _ _ _ _ _ _ _ I) in P. apply some_inj in P; subst ps.
  destruct (in_rows _ _ _ _ _ _ _ _ _ _ _ I) as (file & F1 & F2). rewrite (conf_file _ _ _ _ Lf Af Ff C) in F1. injection F1 as <-. rewrite Fs in F2. injection F2 as <-.
  change (rnd (value psi)) with (Fin (value psi)) in I. rewrite value_exact in I. set (tsv := map value (n :: ns)) in *.
  pose proof (head_length _ _ _ _ _ _ _ _ _ _ _ I) as HL.
  pose proof (init_column _ _ _ _ _ _ _ _ _ _ _ I) as HC. 
  assert (NL' : p_nlayers (st_p s) = Z.of_nat (List.length tsv)) by (rewrite NL; unfold tsv; rewrite map_length; reflexivity).
  assert (VS : Forall (fun s => exists r te a n m k, vg_soil s r te a n m k) (soils_of s tsv)).
  { apply Forall_forall. intros x Hx. apply In_nth_error in Hx as (i & Ei). assert (Li : (i < List.length (soils_of s tsv))%nat) by (apply nth_error_Some; congruence). pose proof (col_ss _ _ _ HC) as CS.
    apply (VC (Z.of_nat (S i))); [cbn [env_of e_nlayers]; lia|]. exact (col_soil _ _ _ HC _ _ Ei). }
  destruct (parts_exist tsv (soils_of s tsv) (col_ss _ _ _ HC) VS) as (qs & Eqs & F2q).
  assert (ST : strata (env_of s) qs).
  { split; [intros ->; discriminate Eqs|]. split; [|exists (soils_of s tsv); rewrite Eqs; split; [exact HC|exact F2q]].
    assert (Q : Forall (fun z => 0 < z) (map pt_z qs)) by (rewrite Eqs; unfold tsv; apply Forall_map; exact Pt). rewrite Forall_map in Q. exact Q. }
  destruct (in_p _ _ _ _ _ _ _ _ _ _ _ I) as (_ & _ & CU & SY & FO & _ & _ & MI & _ & _ & PM & _ & NI & _ & _ & SF & CB).
  destruct (in_s _ _ _ _ _ _ _ _ _ _ _ I) as (_ & _ & PR & PE & _ & GQ & MB).
  assert (FI : forall i g, nth_error (st_head s) i = Some g -> exists en r te a n0 m k, soil_of (env_of s) (Z.of_nat (S i)) = Ok (en_soil en) /\ vg_soil (en_soil en) r te a n0 m k /\
     f_layer g = Z.of_nat (S i) /\ f_bottom g = true /\ f_dzdt g = Fin 0 /\ f_depth g = Fin (Rsum (firstn (S i) tsv)) /\ f_psi g = Fin (value psi) /\ f_theta g = Fin (vg_theta r te a n0 m (value psi))).
  { intros i g Ei. destruct (front_is _ _ _ _ _ _ _ _ _ _ _ I Ph Pp i g Ei) as (t & en & r & te & a & n0 & m & k & _ & _ & E1 & V & _ & E2 & E3 & E4 & E5 & E6 & E7 & _). exists en, r, te, a, n0, m, k. auto 10. }
  assert (POS : Forall (fun z => 0 < z) tsv) by (unfold tsv; apply Forall_map; exact Pt).
  exists s, M, qs. split; [exact H|]. split; [|split; [exact FR|split; [exact Eqs|split; [rewrite HL; unfold tsv; rewrite map_length; reflexivity|split; [|split]]]]].
  2: { assert (LQ : List.length qs = List.length tsv) by (rewrite <- Eqs, map_length; reflexivity).
    constructor; [exact Pp|rewrite HL, LQ; reflexivity|]. intros i g q Ei Eq. destruct (FI i g Ei) as (en & r & te & a & n0 & m & k & E1 & V & E2 & E3 & E4 & E5 & E6 & E7).
    assert (Li : (i < List.length tsv)%nat) by (rewrite <- HL; apply nth_error_Some; congruence).
    split; [exact E2|]. split; [exact E3|]. split; [exact E4|]. split.
    { rewrite E5. f_equal. unfold top_of. replace (Z.to_nat (Z.of_nat (S i) - 1)) with i by lia. rewrite <- firstn_map, Eqs.
      assert (X : nth_error tsv i = Some (pt_z q)) by (rewrite <- Eqs; apply map_nth_error; exact Eq). clear - X. revert i X. induction tsv as [|z l IH]; intros [|i] X; try discriminate; cbn in X |- *; [injection X as ->; ring|]. rewrite <- Rplus_assoc || idtac. specialize (IH i X). cbn in IH. rewrite IH. ring. }
    split; [exact E6|]. rewrite E7. f_equal.
    destruct (soil_at (env_of s) qs ST (Z.of_nat (S i)) q ltac:(lia)) as (sl & ks & Eo & V'); [replace (Z.to_nat (Z.of_nat (S i) - 1)) with i by lia; exact Eq|]. rewrite Eo in E1. apply Ok_inj in E1. subst sl.
    destruct V as [Vr Ve Va Vn Vm Vk _ _ _ _ _]. destruct V' as [Vr' Ve' Va' Vn' Vm' Vk' _ _ _ _ _].
    rewrite Vr in Vr'. rewrite Ve in Ve'. rewrite Va in Va'. rewrite Vn in Vn'. rewrite Vm in Vm'. unfold pt_theta. injection Vr' as <-. injection Ve' as <-. injection Va' as <-. injection Vn' as <-. injection Vm' as <-. reflexivity. }
  2: { split; [rewrite PR; exists (-1); split; [reflexivity|lra]|rewrite PE; eexists; reflexivity]. }
  2: { exists (-1). split; [exact PE|lra]. }
  constructor.
  - exact VA.
  - destruct (p_calib (st_p s)) eqn:EC; [|reflexivity]. exfalso. apply CA. symmetry in CB. destruct (calib_lines _ _ _ GL C CB) as [Z|Z]; [discriminate Z|exact Z].
  - constructor; [exact (ss_env _ SS)|exact VC|exact HM|exact PZ| |exact ST].
    intros k Hk. exists 1. split; [|lra]. cbn [env_of e_frozen e_nlayers] in *. rewrite FO. apply aget_Ok. split; [lia|]. rewrite map_length. apply nth_error_repeat. lia.
  - constructor; [exact (ss_profile _ SS)|exact (ss_rest _ SS)|exact PF| | | |].
    + apply Forall_forall. intros g Hg. apply In_nth_error in Hg as (i & Ei). destruct (FI i g Ei) as (en & r & te & a & n0 & m & k & E1 & V & E2 & E3 & E4 & E5 & E6 & E7).
      assert (Li : (i < List.length tsv)%nat) by (rewrite <- HL; apply nth_error_Some; congruence).
      split; [exists (value psi); exact E6|]. exists (Rsum (firstn i tsv)). split.
      * rewrite E2. replace (Z.of_nat (S i) - 1)%Z with (Z.of_nat i) by lia. exact (aget_cum _ _ _ _ _ _ _ _ _ _ _ I i ltac:(lia)).
      * rewrite E5. cbn [val]. clear - POS Li. revert i Li. induction POS as [|z l Hz POS IH]; intros i Li; [cbn in Li; lia|]. destruct i as [|i]; cbn; [lra|]. cbn in Li. specialize (IH i ltac:(lia)). cbn in IH. lra.
    + apply Forall_forall. intros g Hg. apply In_nth_error in Hg as (i & Ei). destruct (FI i g Ei) as (en & r & te & a & n0 & m & k & E1 & V & E2 & E3 & E4 & E5 & E6 & E7).
      eexists. exists 0. split; [exact E5|]. split; [exact E4|]. split; [lra|]. rewrite E3. discriminate.
    + apply dn_iff. intros i g h Eg Eh L. destruct (FI i g Eg) as (? & ? & ? & ? & ? & ? & ? & _ & _ & E2 & _). destruct (FI (S i) h Eh) as (? & ? & ? & ? & ? & ? & ? & _ & _ & E2' & _). lia.
    + intros i g h sl Eg Eh B Es. destruct (FI i g Eg) as (en & r & te & a & n0 & m & k & E1 & V & E2 & _ & _ & _ & E6 & E7). destruct (FI (S i) h Eh) as (? & ? & ? & ? & ? & ? & ? & _ & _ & _ & _ & _ & _ & E6' & _).
      split; [congruence|]. rewrite E2, E1 in Es. apply Ok_inj in Es. subst sl. rewrite E7, E6'. symmetry. apply (theta_of_h_is _ _ _ _ _ _ _ _ V Pp).
  - unfold capillary. rewrite NI. destruct (p_closed (st_p s)); [|lia]. intros k s0 Hk Es. cbn [env_of e_nlayers] in Hk.
    destruct (init_soil _ _ _ _ _ _ _ _ _ _ _ I k Hk) as (t & en & A & B & D). rewrite D in Es. apply Ok_inj in Es. subst s0.
    destruct (entry_row _ _ _ _ _ _ _ _ _ _ _ I Ph _ _ B) as (nm & tr & te' & al & n' & k' & B1 & B2 & B3 & B4 & B5 & B6 & B7).
    destruct (derive_is (p_wilting (st_p s)) junk tr te' al n' k' nm B4 B5) as (en' & psib & hmin & D' & S & MM & PB & _). rewrite B7 in D'. apply Ok_inj in D'. subst en'.
    rewrite S. exists (n' - 1), psib. cbn. repeat split; lra.
  - rewrite PM. destruct (cf_pmax c) as [v|] eqn:EP; [|exists 0; split; [reflexivity|lra]]. eapply pond_lines; [exact GL|exact C|intros w X; discriminate X|exact EP].
  - exists dt, dt, fres. rewrite MI. repeat split; assumption.
  - rewrite MB. exists 0. split; [reflexivity|lra].
  - rewrite PR. eexists. reflexivity.
Qed.
