(** Programs whose configurations put the same soils into the layers, by the numbers in the soil tables. *)

From Coq Require Import String Ascii Reals ZArith List Bool Lia.
From RecordUpdate Require Import RecordSet.
From Verif Require Import Outcome Dbl Exact Types ListOps State Update Bmi Config Driver Lib Spec_Config Pf_Config Pf_Lines Pf_Table Pf_Init Pf_InitState Pf_ConfigThm Pf_InitTotal Pf_OneConfig Spec_Relayer Pf_Relayer Pf_Relayer2.
From Verif Require Import Update.
Import ListNotations.
Import RecordSetNotations.
Open Scope list_scope.

Section Rows.
Context {fp : Fp}.

(** The soil of a row depends on its five numbers only. *)
Lemma derive_same : forall wp junk wp' junk' tr te al n k nm nm' e e', derive wp junk tr te al n k nm = Ok e -> derive wp' junk' tr te al n k nm' = Ok e' -> en_soil e = en_soil e'.
Proof.
  intros wp junk wp' junk' tr te al n k nm nm' e e' H H'. unfold derive in H, H'. cbv zeta in H, H'. destruct (lit 1 <? n)%d; [|discriminate].
  destruct (cassert _); [|discriminate]. cbn [bind] in H, H'. apply Ok_inj in H, H'. subst e e'. reflexivity.
Qed.
Lemma soil_derived : forall files junk ls s l f rows, last_line "soil_params_file"%string l ls -> assigns "soil_params_file"%string f l -> free_of "["%char f -> files f = Some rows ->
  (forall r, In r rows -> exists nm tr te al n k, r = full_row nm tr te al n k) -> Initialize files junk ls = Ok s ->
  forall t sl, uget (st_soils s) t = Ok sl -> exists nm tr te al n k e, (1 <= t)%Z /\ nth_error rows (Z.to_nat (t - 1)) = Some (full_row nm tr te al n k) /\
    derive (p_wilting (st_p s)) junk tr te al n k nm = Ok e /\ sl = en_soil e.
Proof.
  intros files junk ls s l f rows L A Fr Fs Full H t sl U. destruct (init_inv _ _ _ _ H) as (c & st & rows' & tab & thick & psi & ord & I).
  destruct (in_rows _ _ _ _ _ _ _ _ _ _ _ I) as (file & F1 & F2). rewrite (conf_file _ _ _ _ L A Fr (in_conf _ _ _ _ _ _ _ _ _ _ _ I)) in F1. injection F1 as <-.
  rewrite Fs in F2. injection F2 as <-. destruct (in_s _ _ _ _ _ _ _ _ _ _ _ I) as (_ & S & _). rewrite S in U.
  apply uget_Ok, aget_Ok in U as [P U]. rewrite nth_error_map in U. destruct (nth_error tab (Z.to_nat t)) as [[en|]|] eqn:E; try discriminate. injection U as <-.
  assert (U : uget tab t = Ok en). { unfold uget. assert (Q : aget tab t = Ok (Some en)) by (apply aget_Ok; auto). rewrite Q. reflexivity. }
  destruct (table_rows _ _ _ _ _ _ _ _ (in_tab _ _ _ _ _ _ _ _ _ _ _ I) Full eq_refl t en U) as [Q|(j & nm & tr & te & al & n & k & T & Nj & D)]; [exfalso; exact (uget_empty _ _ _ _ Q)|].
  exists nm, tr, te, al, n, k, en. replace (Z.to_nat (t - 1)) with j by lia. repeat split; try assumption. lia.
Qed.

(** The forcing file is the same. *)
Lemma forcing_relayer : forall texts ls ls', Forall2 other_soils ls ls' -> ReadForcingData texts ls = ReadForcingData texts ls'.
Proof.
  intros texts ls ls' F. unfold ReadForcingData. assert (E : forcing_file ls = forcing_file ls'); [|rewrite E; reflexivity].
  assert (K : forall l, In (line_key l) soil_keys -> String.eqb (line_key l) "forcing_file" = false) by (intros l [Q|[Q|[Q|[]]]]; rewrite <- Q; reflexivity).
  induction F as [|l l' ls ls' [<-|[H H']] F IH]; cbn [forcing_file]; [reflexivity| |].
  - rewrite IH. reflexivity.
  - rewrite (K _ H), (K _ H'). exact IH.
Qed.
End Rows.

Section Exact.
Local Existing Instance exact.
Context {cfg : Cfg}.

(** What a good configuration puts into the arrays of soils. *)
Lemma good_layers : forall files junk ls ts types gs psi dt fres max rows s, good_config files ls ts types gs psi dt fres max rows -> length types = length ts -> Initialize files junk ls = Ok s ->
  exists zs, p_stype (st_p s) = None :: map Some zs /\ length zs = length ts /\
    forall i m k r, (i < length ts)%nat -> nth_error types i = Some m -> natural m k -> nth_error rows (k - 1) = Some r -> exists nm tr te al n ks e,
      nth_error zs i = Some (Z.of_nat k) /\ uget (st_soils s) (Z.of_nat k) = Ok (en_soil e) /\ r = full_row nm tr te al n ks /\ derive (p_wilting (st_p s)) junk tr te al n ks nm = Ok e.
Proof.
  intros files junk ls ts types gs psi dt fres max rows s [[G Ty] Fine] Len H.
  assert (Mx : (max <= 15)%nat). { destruct (gc_max _ _ _ _ _ _ _ _ _ _ G) as [(l & n & k & _ & _ & _ & _ & ->)|[-> _]]; lia. }
  pose proof (gc_types _ _ _ _ _ _ _ _ _ _ G) as (ly & Ly & Ay & Ny & Gy). pose proof (gc_file _ _ _ _ _ _ _ _ _ _ G) as (lf & f & Lf & Af & Ff & Fs & Ph).
  destruct (init_total files junk _ _ _ _ _ _ _ _ _ (conj G Ty)) as (s0 & H0 & _ & _ & Soils). rewrite H in H0. apply Ok_inj in H0. subst s0.
  destruct types as [|y0 types]; [contradiction|]. destruct (read_types _ _ _ _ _ _ _ Ly Ay Gy H) as (zs & Z1 & Z2). destruct (each_types _ _ Z2) as [Lz Pz].
  exists zs. split; [exact Z1|]. split; [rewrite Lz; exact Len|]. intros i m k r Hi M N R.
  destruct (Ty i Hi) as (m0 & k0 & M0 & N0 & B1 & B2). rewrite M in M0. injection M0 as <-. assert (k0 = k). { destruct N as (_ & _ & _ & _ & <-), N0 as (_ & _ & _ & _ & <-). reflexivity. } subst k0.
  destruct (Soils k B1 B2) as (sl & Sl).
  assert (Full : forall r, In r rows -> exists nm tr te al n k, r = full_row nm tr te al n k).
  { intros r' Hr. rewrite Forall_forall in Ph. destruct (Ph r' Hr) as (nm & tr & te & al & n & kk & -> & _). do 6 eexists. reflexivity. }
  destruct (soil_derived _ _ _ _ _ _ _ Lf Af Ff Fs Full H _ _ Sl) as (nm & tr & te & al & n & ks & e & _ & R' & D & ->).
  replace (Z.to_nat (Z.of_nat k - 1)) with (k - 1)%nat in R' by lia. rewrite R in R'. injection R' as ->.
  exists nm, tr, te, al, n, ks, e. split; [apply (Pz i m); [assumption|assumption|lia]|]. split; [assumption|]. split; [reflexivity|assumption].
Qed.

Lemma uget_tail : forall (zs : list Z) k, uget (None :: map Some zs) k =
  if (k <? 0)%Z then Stop (UB OutOfBounds) else if (k =? 0)%Z then Stop (UB Uninit) else match nth_error zs (Z.to_nat (k - 1)) with Some z => Ok z | None => Stop (UB OutOfBounds) end.
Proof.
  intros zs k. unfold uget, aget. destruct (Z.ltb_spec k 0); [reflexivity|]. destruct (Z.eqb_spec k 0) as [->|]; [reflexivity|].
  replace (Z.to_nat k) with (S (Z.to_nat (k - 1))) by lia. cbn [nth_error]. rewrite nth_error_map. destruct (nth_error zs _); reflexivity.
Qed.

Theorem rows_relayer : forall files files' junk junk' ls ls' ts types types' gs psi dt fres max max' rows rows' s s',
  good_config files ls ts types gs psi dt fres max rows -> good_config files' ls' ts types' gs psi dt fres max' rows' ->
  length types = length ts -> length types' = length ts -> same_rows (length ts) types rows types' rows' ->
  Initialize files junk ls = Ok s -> Initialize files' junk' ls' = Ok s' ->
  same_layers (p_stype (st_p s)) (st_soils s) (p_stype (st_p s')) (st_soils s').
Proof.
  intros files files' junk junk' ls ls' ts types types' gs psi dt fres max max' rows rows' s s' G G' L L' SR H H'.
  destruct (good_layers _ junk _ _ _ _ _ _ _ _ _ _ G L H) as (zs & Z1 & Z2 & Z3). destruct (good_layers _ junk' _ _ _ _ _ _ _ _ _ _ G' L' H') as (zs' & Z1' & Z2' & Z3').
  intro k. rewrite Z1, Z1', !uget_tail. destruct (k <? 0)%Z; [reflexivity|]. destruct (k =? 0)%Z; [reflexivity|]. set (i := Z.to_nat (k - 1)).
  destruct (Nat.lt_ge_cases i (length ts)) as [Hi|Hi].
  - destruct (SR i Hi) as (m & q & m' & q' & r & r' & M & N & M' & N' & R & R' & V).
    destruct (Z3 i m q r Hi M N R) as (nm & tr & te & al & n & ks & e & A1 & A2 & -> & A3).
    destruct (Z3' i m' q' r' Hi M' N' R') as (nm' & tr' & te' & al' & n' & ks' & e' & A1' & A2' & -> & A3').
    cbn in V. injection V as <- <- <- <- <-. rewrite A1, A1', A2, A2'. f_equal. exact (derive_same _ _ _ _ _ _ _ _ _ _ _ _ _ A3 A3').
  - assert (E : nth_error zs i = None) by (apply nth_error_None; lia). assert (E' : nth_error zs' i = None) by (apply nth_error_None; lia). rewrite E, E'. reflexivity.
Qed.

Theorem program_relayer : forall files files' texts junk junk' ls ls' ts types types' gs psi dt fres max max' rows rows',
  good_config files ls ts types gs psi dt fres max rows -> good_config files' ls' ts types' gs psi dt fres max' rows' ->
  Forall2 other_soils ls ls' -> ~ In "calib_params=true"%string ls ->
  length types = length ts -> length types' = length ts -> same_rows (length ts) types rows types' rows' ->
  both same_result (simulate files texts junk ls) (simulate files' texts junk' ls').
Proof.
  intros files files' texts junk junk' ls ls' ts types types' gs psi dt fres max max' rows rows' G G' F NC L L' SR.
  destruct (configured files junk _ _ _ _ _ _ _ _ _ G) as (s & H & _). destruct (configured files' junk' _ _ _ _ _ _ _ _ _ G') as (s' & H' & _).
  apply (simulate_relayer files junk files' junk' texts texts ls ls' s s' F H H').
  - exact (rows_relayer _ _ junk junk' _ _ _ _ _ _ _ _ _ _ _ _ _ _ _ G G' L L' SR H H').
  - intro C. exfalso. destruct (init_inv _ _ _ _ H) as (c & st & rw & tab & thick & ps & ord & I). pose proof (in_p _ _ _ _ _ _ _ _ _ _ _ I) as P. repeat match type of P with _ /\ _ => destruct P as [_ P] end.
    rewrite P in C. destruct G as [[G _] _]. destruct (calib_lines _ _ _ (gc_lines _ _ _ _ _ _ _ _ _ _ G) (in_conf _ _ _ _ _ _ _ _ _ _ _ I) C) as [Q|Q]; [discriminate Q|contradiction].
  - apply forcing_relayer. exact F.
Qed.
End Exact.
