(** A configuration of one layer leads to the state that the theorems about one layer speak of. *)

From Coq Require Import String Ascii Reals Lra ZArith List Bool Lia.
From RecordUpdate Require Import RecordSet.
From Verif Require Import Outcome Dbl Exact Types ListOps Soil Giuh Fronts Infil State Update Config Bmi Lib Spec_Common Spec_List Spec_Column Spec_Soil Spec_Profile Spec_Update Spec_Storage
  Spec_Bmi Spec_Config Spec_Velocity Spec_Single Spec_SubSingle Spec_OneLayer Spec_OneConfig
  Pf_List Pf_Dbl Pf_Column Pf_Soil Pf_Profile Pf_Text Pf_Config Pf_Lines Pf_Init Pf_InitState Pf_Table Pf_InitExact Pf_ConfigThm Pf_InitTotal Pf_Update Pf_Ledger Pf_Pow Pf_Structure Pf_SafeUpdate Pf_Single Pf_OneLayer.
Import ListNotations.
Import RecordSetNotations.
Open Scope string_scope.
Open Scope list_scope.
Open Scope R_scope.
Local Existing Instance exact.

Lemma conf_wp : forall ls l n c, last_line "wilting_point_psi" l ls -> assigns "wilting_point_psi" (text n) l -> good_numeral n ->
  config_lines conf0 ls = Ok c -> cf_wp c = Some (rnd (value n)).
Proof.
  intros ls l n c L A G H. assert (K : In "wilting_point_psi" keys) by (cbn; tauto). destruct (plain_text _ G) as (_ & P & _).
  destruct (last_decides _ _ _ _ _ K L H) as (c1 & c2 & Q & Ag). destruct (assigns_value _ _ _ K P A) as [V Kl].
  enter Q Kl V. bind_inv Q v Ev. apply Ok_inj in Q. destruct (read_number _ _ G Ev) as [-> _]. pick Ag. subst c2. reflexivity.
Qed.
Lemma conf_fc : forall ls l n c, last_line "field_capacity_psi" l ls -> assigns "field_capacity_psi" (text n) l -> good_numeral n ->
  config_lines conf0 ls = Ok c -> cf_fc c = Some (rnd (value n)).
Proof.
  intros ls l n c L A G H. assert (K : In "field_capacity_psi" keys) by (cbn; tauto). destruct (plain_text _ G) as (_ & P & _).
  destruct (last_decides _ _ _ _ _ K L H) as (c1 & c2 & Q & Ag). destruct (assigns_value _ _ _ K P A) as [V Kl].
  enter Q Kl V. bind_inv Q v Ev. apply Ok_inj in Q. destruct (read_number _ _ G Ev) as [-> _]. pick Ag. subst c2. reflexivity.
Qed.

(** The calibration is only switched on by a line. *)
Lemma calib_line : forall l c d, good_line l -> config_line c l = Ok d -> cf_calib d = true -> cf_calib c = true \/ l = "calib_params=true".
Proof.
  intros l c d G H S. destruct (line_effect _ _ _ H) as (x & -> & Kx & _).
  destruct (string_dec (slot x) "calib_params") as [E|E]; [|left; destruct x; try exact S; exfalso; apply E; reflexivity].
  assert (Kl : line_key l = "calib_params"). { destruct Kx as [[-> _]|(_ & Q & _)]; [discriminate E|congruence]. }
  clear Kx E. destruct G as [l C|k l n ns K A G|l n ns A G|l n m A N L|k l n K A G|k n u sec K U G P|l f A F|k b K].
  - exfalso. apply (C "calib_params"); [cbn; tauto|]. apply sets_key; [cbn; tauto|assumption].
  - exfalso. assert (Kk : In k keys) by (cbn in K |- *; tauto). destruct (assigns_value _ _ _ Kk (proj2 (plain_numbers _ G)) A) as [_ Q]. rewrite Q in Kl. subst k. cbn in K. intuition discriminate.
  - exfalso. assert (Kk : In "layer_soil_type" keys) by (cbn; tauto). pose proof (natural_good _ G) as G'. destruct (assigns_value _ _ _ Kk (proj2 (plain_numbers _ G')) A) as [_ Q]. rewrite Q in Kl. discriminate.
  - exfalso. assert (Kk : In "max_valid_soil_types" keys) by (cbn; tauto). destruct (plain_text _ (proj1 N)) as (_ & Q & _). destruct (assigns_value _ _ _ Kk Q A) as [_ Q']. rewrite Q' in Kl. discriminate.
  - exfalso. assert (Kk : In k keys) by (cbn in K |- *; tauto). destruct (plain_text _ G) as (_ & Q & _). destruct (assigns_value _ _ _ Kk Q A) as [_ Q']. rewrite Q' in Kl. subst k. cbn in K. intuition discriminate.
  - exfalso. assert (Kk : In k keys) by (cbn in K |- *; tauto). destruct (unit_table k n u Kk G (known_unit u sec (in_or_app _ _ _ (or_introl U)))) as (B1 & _). rewrite B1 in Kl. subst k. cbn in K. intuition discriminate.
  - exfalso. assert (Kk : In "soil_params_file" keys) by (cbn; tauto). destruct (assigns_value _ _ _ Kk F A) as [_ Q]. rewrite Q in Kl. discriminate.
  - assert (Kk : In k keys) by (cbn in K |- *; tauto).
    assert (Fb : free_of "[" (if b : bool then "true" else "false")) by (destruct b; cbn; repeat split; discriminate).
    destruct (assigns_value k (if b : bool then "true" else "false") (k ++ "=" ++ (if b : bool then "true" else "false")) Kk Fb (or_introl eq_refl)) as [V Q].
    rewrite Q in Kl. subst k. destruct b; [right; reflexivity|]. cbn in H. apply Ok_inj in H. rewrite <- H in S. discriminate S.
Qed.
Lemma calib_lines : forall ls c d, Forall good_line ls -> config_lines c ls = Ok d -> cf_calib d = true -> cf_calib c = true \/ In "calib_params=true" ls.
Proof.
  induction ls as [|l ls IH]; intros c d G H S; cbn in H; [apply Ok_inj in H; subst; auto|]. inversion_clear G as [|? ? G1 G2]. bind_inv H e Ee.
  destruct (IH _ _ G2 H S) as [Q|Q]; [|right; right; assumption]. destruct (calib_line _ _ _ G1 Ee Q) as [R|R]; [auto|right; left; auto].
Qed.

(** The largest ponded depth is a number that is not negative. *)
Definition pond_fine (c : conf) : Prop := forall v, cf_pmax c = Some v -> exists x, v = Fin x /\ 0 <= x.
Lemma pond_line : forall l c d, good_line l -> config_line c l = Ok d -> pond_fine c -> pond_fine d.
Proof.
  intros l c d G H P. destruct (line_effect _ _ _ H) as (x & E & Kx & _). subst d.
  destruct (string_dec (slot x) "ponded_depth_max") as [Sx|Sx]; [|destruct x; try exact P; exfalso; apply Sx; reflexivity].
  assert (Kl : line_key l = "ponded_depth_max"). { destruct Kx as [[-> _]|(_ & Q & _)]; [discriminate Sx|congruence]. }
  clear Kx. destruct G as [l C|k l n ns K A G|l n ns A G|l n m A N L|k l n K A G|k n u sec K U G Pz|l f A F|k b K].
  - exfalso. apply (C "ponded_depth_max"); [cbn; tauto|]. apply sets_key; [cbn; tauto|assumption].
  - exfalso. assert (Kk : In k keys) by (cbn in K |- *; tauto). destruct (assigns_value _ _ _ Kk (proj2 (plain_numbers _ G)) A) as [_ Q]. rewrite Q in Kl. subst k. cbn in K. intuition discriminate.
  - exfalso. assert (Kk : In "layer_soil_type" keys) by (cbn; tauto). pose proof (natural_good _ G) as G'. destruct (assigns_value _ _ _ Kk (proj2 (plain_numbers _ G')) A) as [_ Q]. rewrite Q in Kl. discriminate.
  - exfalso. assert (Kk : In "max_valid_soil_types" keys) by (cbn; tauto). destruct (plain_text _ (proj1 N)) as (_ & Q & _). destruct (assigns_value _ _ _ Kk Q A) as [_ Q']. rewrite Q' in Kl. discriminate.
  - assert (Kk : In k keys) by (cbn in K |- *; tauto). destruct (plain_text _ G) as (_ & Q & _). destruct (assigns_value _ _ _ Kk Q A) as [V Q']. rewrite Q' in Kl. subst k.
    clear Sx. intros v Ev. enter H Q' V. bind_inv H w Ew. apply Ok_inj in H. destruct (read_number _ _ G Ew) as [-> _]. rewrite <- H in Ev. assert (Ev2 : v = dfmax (@rnd exact (value n)) (Fin 0)) by (cbn in Ev |- *; congruence). rewrite Ev2.
    change (@rnd exact (value n)) with (Fin (value n)). rewrite fmax_fin. exists (Rmax (value n) 0). split; [reflexivity|apply Rmax_r].
  - exfalso. assert (Kk : In k keys) by (cbn in K |- *; tauto). destruct (unit_table k n u Kk G (known_unit u sec (in_or_app _ _ _ (or_introl U)))) as (B1 & _). rewrite B1 in Kl. subst k. cbn in K. intuition discriminate.
  - exfalso. assert (Kk : In "soil_params_file" keys) by (cbn; tauto). destruct (assigns_value _ _ _ Kk F A) as [_ Q]. rewrite Q in Kl. discriminate.
  - exfalso. assert (Kk : In k keys) by (cbn in K |- *; tauto).
    assert (Fb : free_of "[" (if b : bool then "true" else "false")) by (destruct b; cbn; repeat split; discriminate).
    destruct (assigns_value k (if b : bool then "true" else "false") (k ++ "=" ++ (if b : bool then "true" else "false")) Kk Fb (or_introl eq_refl)) as [V Q].
    rewrite Q in Kl. subst k. cbn in K. intuition discriminate.
Qed.
Lemma pond_lines : forall ls c d, Forall good_line ls -> config_lines c ls = Ok d -> pond_fine c -> pond_fine d.
Proof.
  induction ls as [|l ls IH]; intros c d G H P; cbn in H; [apply Ok_inj in H; subst; auto|]. inversion_clear G as [|? ? G1 G2]. bind_inv H e Ee.
  exact (IH _ _ G2 H (pond_line _ _ _ G1 Ee P)).
Qed.

(** ** The state after Initialize *)
Theorem single_start : forall files junk ls t types gs psi wp fc dt fres max rows, single_config files ls t types gs psi wp fc dt fres max rows ->
  exists s sl r te a n K, Initialize files junk ls = Ok s /\ one_layer sl r te (value t) s /\ fresh s /\ soil_row types rows r te a n K /\
    (exists m, vg_soil sl r te a n m K) /\ sound_state s /\ p_mints (st_p s) = Fin dt /\ p_timestep (st_p s) = Fin dt /\ p_fres (st_p s) = Fin fres /\ p_sft (st_p s) = false /\ length (st_head s) = 1%nat.
Proof.
  intros files junk ls t types gs psi wp fc dt fres max rows [GC (lw & Lw & Aw & Gw & Pw) (lc & Lc & Ac & Gc & Pc) DM ST RS CA FZ].
  destruct (configured files junk _ _ _ _ _ _ _ _ _ GC) as (s & H & SS & FR & _ & VA & WI & _ & NL & DT & FS). 
  pose proof GC as [[[GL GR (lt & Lt & At & Nt & Gt & Pt) (ly & Ly & Ay & Ny & Gy) (lg & Lg & Ag & Ng & Gg & Pg) (lp & Lp & Ap & Gp & Pp) (lf & f & Lf & Af & Ff & Fs & Ph) _ _ (R1 & R2 & R3 & R4) _ _ _] TY] FR1].
  destruct (init_inv _ _ _ _ H) as (c & st & rows' & tab & thick & ps & ord & I). pose proof (in_conf _ _ _ _ _ _ _ _ _ _ _ I) as C.
  destruct (conf_thick _ _ _ _ _ Lt At Gt C) as [T F]. rewrite (in_thick _ _ _ _ _ _ _ _ _ _ _ I) in T. apply some_inj in T; subst thick.
  pose proof (conf_psi _ _ _ _ Lp Ap Gp C) as P. rewrite (in_psi _ _ _ _ _ _ _ _ _ _ _ I) in P. apply some_inj in P; subst ps.
  destruct (in_rows _ _ _ _ _ _ _ _ _ _ _ I) as (file & F1 & F2). rewrite (conf_file _ _ _ _ Lf Af Ff C) in F1. injection F1 as <-. rewrite Fs in F2. injection F2 as <-.
  change (rnd (value psi)) with (Fin (value psi)) in I. rewrite value_exact in I.
  pose proof (conf_wp _ _ _ _ Lw Aw Gw C) as W. rewrite (in_wp _ _ _ _ _ _ _ _ _ _ _ I) in W. apply some_inj in W.
  pose proof (conf_fc _ _ _ _ Lc Ac Gc C) as Q. rewrite (in_fc _ _ _ _ _ _ _ _ _ _ _ I) in Q. apply some_inj in Q.
  destruct gs as [|g0 gs]; [contradiction|]. destruct (giuh_total _ _ _ _ _ _ _ _ Lg Ag Gg H FS FR1) as (_ & _ & GO & _).
  destruct types as [|y0 types]; [contradiction|].
  pose proof (head_length _ _ _ _ _ _ _ _ _ _ _ I) as HL. destruct (st_head s) as [|fr [|? ?]] eqn:EH; try discriminate HL.
  destruct (front_is _ _ _ _ _ _ _ _ _ _ _ I Ph Pp 0 fr) as (ty & en & r & te & a & n & m & K & U1 & U2 & SO & VG & N1 & N2 & N3 & N4 & N5 & N6 & N7 & N8 & N9 & N10); [rewrite EH; reflexivity|].
  destruct (entry_row _ _ _ _ _ _ _ _ _ _ _ I Ph _ _ U2) as (nm & tr & te' & al & n' & k' & B1 & B2 & B3 & B4 & B5 & B6 & B7).
  destruct (derive_is (p_wilting (st_p s)) junk tr te' al n' k' nm B4 B5) as (en' & psib & hmin & D' & S & M & PB & _). rewrite B7 in D'. apply Ok_inj in D'. subst en'.
  pose proof VG as [Vr Ve Va Vn Vm Vk Vre Va0 Vn1 Vm01 Vk0]. rewrite S in Vr, Ve, Va, Vn, Vm, Vk. cbn in Vr, Ve, Va, Vn, Vm, Vk. injection Vr as <-. injection Ve as <-. injection Va as <-. injection Vn as <-. injection Vm as <-. injection Vk as <-.
  destruct (in_p _ _ _ _ _ _ _ _ _ _ _ I) as (_ & _ & CU & SY & FO & _ & _ & MI & _ & _ & PM & _ & NI & _ & _ & SF & CB).
  destruct (in_s _ _ _ _ _ _ _ _ _ _ _ I) as (_ & _ & PR & PE & _ & GQ & MB).
  exists s, (en_soil en), tr, te', al, n', k'. split; [exact H|].
  assert (T1 : Rsum (firstn 1 (map value [t])) = value t) by (cbn; ring). rewrite T1 in N5.
  assert (E1' : p_nlayers (st_p s) = 1%Z) by (rewrite NL; reflexivity).
  pose proof (aget_cum _ _ _ _ _ _ _ _ _ _ _ I 0 ltac:(cbn; lia)) as C0. pose proof (aget_cum _ _ _ _ _ _ _ _ _ _ _ I 1 ltac:(cbn; lia)) as C1. rewrite T1 in C1.
  assert (PT : 0 < value t) by (inversion_clear Pt; assumption).
  assert (SG : single (env_of s) (en_soil en) tr te' (value t)).
  { constructor; [exact (ss_env _ SS)|exact E1'|exact C0|exact C1|exact SO|exists al, n', (1 - / n'), k'; exact VG|].
    exists 1. split; [|lra]. change (aget (p_frozen (st_p s)) 1 = Ok (Fin 1)). rewrite FO. reflexivity. }
  assert (ME : measured [fr]) by (constructor; [split; eexists; [exact N5|exact N7]|constructor]).
  assert (TR0 : 0 <= tr). { rewrite Forall_forall in RS. eapply RS; [eapply nth_error_In; exact B2|reflexivity]. }
  split; [|split; [exact FR|split; [|split; [eexists; exact VG|]]]].
  - constructor.
    + exact VA.
    + destruct (p_calib (st_p s)) eqn:EC; [|reflexivity]. exfalso. apply CA. symmetry in CB. destruct (calib_lines _ _ _ GL C CB) as [Z|Z]; [discriminate Z|exact Z].
    + exact SG.
    + exact TR0.
    + rewrite EH. constructor.
      * constructor.
        -- rewrite <- EH. exact (ss_profile _ SS).
        -- rewrite <- EH. exact (ss_rest _ SS).
        -- exact ME.
        -- exact WI.
        -- exact Logic.I.
        -- constructor.
        -- constructor.
        -- intros x X. injection X as <-. left. rewrite N5. cbn. lra.
        -- constructor; [|constructor]. split; [eexists; split; [exact N9|apply N10]|right; eexists; split; [exact N6|exact Pp]].
      * constructor; [rewrite N5; exact PT|constructor].
      * constructor; [intro X; congruence|constructor].
    + rewrite EH. constructor; [|constructor]. intros _. exists (value psi). split; [exact Pp|]. split; [exact N6|]. rewrite N7. symmetry. apply (theta_of_h_is _ _ _ _ _ _ _ _ VG Pp).
    + unfold capillary. rewrite NI. destruct (p_closed (st_p s)); [|lia]. intros k s0 Hk Es. change (e_nlayers (env_of s)) with (p_nlayers (st_p s)) in Hk. rewrite E1' in Hk. replace k with 1%Z in Es by lia.
      change (Z.of_nat (Datatypes.S 0)) with 1%Z in SO. rewrite SO in Es. apply Ok_inj in Es. subst s0. rewrite S. exists (n' - 1), psib. cbn. repeat split; lra.
    + rewrite PM. destruct (cf_pmax c) as [v|] eqn:EP; [|exists 0; split; [reflexivity|lra]]. eapply pond_lines; [exact GL|exact C|intros w X; discriminate X|exact EP].
    + exists (value wp), (value fc). rewrite W, Q. repeat split; try assumption. lra.
    + exists dt, dt, fres. rewrite MI. repeat split; assumption.
    + rewrite MB. exists 0. split; [reflexivity|lra].
    + split; [rewrite PR|rewrite PE]; eexists; reflexivity.
    + split; [exact GO|]. rewrite GQ. apply Forall_forall. intros x X. apply repeat_spec in X. subst x. eexists. reflexivity.
  - destruct (TY 0%nat ltac:(cbn; lia)) as (m0 & k0 & Nm & Nk & Bk1 & Bk2).
    pose proof (conf_stype _ _ _ _ _ Ly Ay Gy C) as (zs & C2 & C2'). rewrite (in_st _ _ _ _ _ _ _ _ _ _ _ I) in C2. apply some_inj in C2. subst zs.
    assert (MX : (max <= 15)%nat). { destruct (gc_max _ _ _ _ _ _ _ _ _ _ (proj1 (proj1 GC))) as [(lm & nm' & km & _ & _ & _ & _ & ->)|[-> _]]; lia. }
    destruct (each_types _ _ C2') as [_ ET]. pose proof (ET 0%nat m0 k0 Nm Nk ltac:(lia)) as EZ.
    exists m0, k0, nm. split; [exact Nm|]. split; [exact Nk|]. rewrite SY in U1. destruct st as [|z0 st]; [discriminate EZ|]. cbn in EZ. injection EZ as ->.
    change (Ok (Z.of_nat k0) = Ok ty) in U1. apply Ok_inj in U1. subst ty. replace (k0 - 1)%nat with (Z.to_nat (Z.of_nat k0 - 1)) by lia. exact B2.
  - split; [exact SS|]. split; [rewrite MI; exact DT|]. split; [exact DT|]. split; [exact FS|].
    split; [|rewrite EH; reflexivity]. destruct (p_sft (st_p s)) eqn:EC; [|reflexivity]. exfalso. apply FZ. symmetry in SF. destruct (sft_lines _ _ _ GL C SF) as [Z|Z]; [discriminate Z|exact Z].
Qed.

(** ** The settings that decide whether an Update can start *)
Section Run.
Context {cfg : Cfg}.
Definition steady (dt fres : R) (s : state) : Prop :=
  p_mints (st_p s) = Fin dt /\ p_fres (st_p s) = Fin fres /\ (p_adaptive (st_p s) = false -> p_timestep (st_p s) = Fin dt) /\ p_sft (st_p s) = false /\
  ((1 <= g_N s)%Z /\ (g_N s <= Z.of_nat (length (g_ord s)))%Z /\ (g_N s < Z.of_nat (length (g_queue s)))%Z).

Lemma runs_sft : forall u s a xs s' a', runs u s a xs s' a' -> p_sft (st_p s') = p_sft (st_p s).
Proof.
  intros u s a xs s' a' H. apply (runs_ind_inv (fun s' _ => p_sft (st_p s') = p_sft (st_p s)) u) in H; auto. intros t1 b1 t2 b2 HI E.
  destruct (substep_inv _ _ _ _ _ E) as (v1 & b & v2 & mbl & p1 & p2 & p3 & p4 & _ & _ & _ & _ & _ & _ & _ & _ & _ & -> & _). exact HI.
Qed.
Lemma prologue_sft : forall s s1 v, update_prologue s = Ok (s1, v) -> p_calib (st_p s) = false -> p_sft (st_p s1) = p_sft (st_p s).
Proof.
  intros s s1 v E1 C. unfold update_prologue in E1. bind_inv E1 p Ep. cbv zeta in E1. assert (Hp : p_calib p = false /\ p_sft p = p_sft (st_p s)).
  { destruct (p_sft (st_p s)) eqn:ES; [bind_inv Ep fr Efr|]; apply Ok_inj in Ep; subst p; split; try reflexivity; try exact C; exact ES. }
  destruct Hp as [Hp1 Hp2]. rewrite Hp1 in E1. apply Ok_inj, pair_equal_spec in E1 as [<- _]. exact Hp2.
Qed.
Lemma executed_steady : forall dt fres s u xs s', p_invalid (st_p s) = false -> p_calib (st_p s) = false -> steady dt fres s -> executed s u xs s' -> steady dt fres s'.
Proof.
  intros dt fres s u xs s' V C (H1 & H2 & H3 & H4 & H5 & H6 & H7) [_ X]. rewrite V in X. destruct X as (s1 & vcal & volend & s2 & n & s3 & a & E1 & _ & E3 & _ & E5 & _ & E6).
  destruct (prologue_inv _ _ _ E1) as (_ & _ & _ & _ & _ & G1 & G2 & G3 & _ & _ & M1 & M2 & M3 & M4 & _). pose proof (prologue_sft _ _ _ E1 C) as SF.
  destruct (steps_inv _ _ _ _ E3) as (D & _ & ->).
  destruct (runs_frame _ _ _ _ _ _ _ E5) as (_ & _ & _ & _ & _ & _ & _ & _ & _ & F1 & F2 & F3 & _ & _ & F4 & F5 & F6 & _ & _ & F7). pose proof (runs_sft _ _ _ _ _ _ E5) as SR.
  cbn in F1, F2, F3, F4, F5, F6, F7, SR. destruct (finish_inv _ _ _ _ E6) as (g & q & mbl & GI & _ & ->).
  unfold steady. cbn. rewrite F4, F5, F6, F7, SR, F1, F2, M2, M3, M4, SF, G1, G2.
  split; [exact H1|]. split; [exact H2|]. split; [intro Z; rewrite D, M4, Z, M1; apply H3; exact Z|]. split; [exact H4|]. split; [exact H5|]. split; [exact H6|].
  destruct (giuh_ok (a_runoff a) (g_N s3) (g_ord s3) (g_queue s3)) as (o & q' & Eg & L); [rewrite F1, G1; exact H5|rewrite F1, F2, G1, G2; exact H6|rewrite F1, F3, G1, G3; exact H7|].
  rewrite Eg in GI. apply Ok_inj, pair_equal_spec in GI as [_ <-]. rewrite L, F3, G3. exact H7.
Qed.
Lemma edit_steady : forall dt fres s s', steady dt fres s -> user_edit s s' -> steady dt fres s'.
Proof. intros dt fres s s' H (pr & pet & T & cal & out & nf & tw & dw & ->). exact H. Qed.

(** The number of sub-steps is an int and at least one. *)
Lemma steps_some : forall dt fres s, steady dt fres s -> 0 < dt -> dt <= fres -> fres / dt + 1 < 2147483647 -> exists s2 d n, update_steps s = Ok (s2, d, n) /\ (1 <= n)%Z /\ IZR n <= fres / dt + 1.
Proof.
  intros dt fres s (H1 & H2 & H3 & _) P L B. unfold update_steps. cbv zeta.
  set (d := if p_adaptive (st_p s) then adaptive_step (st_p s) (st_precip s) (mb_on_ts (st_mb s)) else p_timestep (st_p s)).
  assert (D : exists x, d = Fin x /\ dt <= x <= fres).
  { unfold d. destruct (p_adaptive (st_p s)) eqn:A.
    - unfold adaptive_step. rewrite H1, H2. change (Fin dt * lit 2)%d with (Fin (dt * 2)).
      assert (Q : exists y, (if ((st_precip s >? lit 10) || (mb_on_ts (st_mb s) >? Fin 0))%d then Fin dt else if (st_precip s >? Fin 0)%d then Fin (dt * 2) else Fin fres) = Fin y /\ dt <= y).
      { destruct (_ || _)%bool; [exists dt; split; [reflexivity|lra]|]. destruct (_ >? _)%d; eexists; (split; [reflexivity|lra]). }
      destruct Q as (y & -> & Hy). rewrite fmin_fin. exists (Rmin y fres). split; [reflexivity|]. split; [apply Rmin_glb; lra|apply Rmin_r].
    - exists dt. split; [apply H3; reflexivity|lra]. }
  destruct D as (x & D & Dx).
  change (exists s2 d' n, bind (d2i (p_fres (st_p s) / d + lit (1 / 100000000))%d) (fun n => Ok (s <| st_p := (st_p s) <| p_timestep := d |> <| p_finterval := n |> |>, d, n)) = Ok (s2, d', n) /\ (1 <= n)%Z /\ IZR n <= fres / dt + 1).
  rewrite D, H2. rewrite div_fin by lra. change (Fin (fres / x) + lit (1 / 100000000))%d with (Fin (fres / x + 1 / 100000000)).
  assert (X0 : 0 < x) by lra. assert (Y1 : 1 <= fres / x). { apply Rmult_le_reg_r with x; [exact X0|]. unfold Rdiv. rewrite Rmult_assoc, Rinv_l by lra. lra. }
  assert (Y2 : fres / x <= fres / dt). { apply Rmult_le_compat_l; [lra|]. apply Rinv_le_contravar; lra. }
  assert (T1 : (1 <= trunc (fres / x + 1 / 100000000))%Z) by (apply trunc_ge1; lra).
  assert (T3 : IZR (trunc (fres / x + 1 / 100000000)) <= fres / dt + 1).
  { unfold trunc. destruct (Rlt_dec _ 0); [lra|]. destruct (base_Int_part (fres / x + 1 / 100000000)) as [Q1 Q2]. lra. }
  assert (T2 : (trunc (fres / x + 1 / 100000000) <= 2147483647)%Z) by (apply le_IZR; lra).
  unfold d2i. assert (Q1 : (-2147483648 <=? trunc (fres / x + 1 / 100000000))%Z = true) by (apply Z.leb_le; lia). assert (Q2 : (trunc (fres / x + 1 / 100000000) <=? 2147483647)%Z = true) by (apply Z.leb_le; lia).
  rewrite Q1, Q2. cbn [andb bind]. do 3 eexists. split; [reflexivity|]. split; [exact T1|exact T3].
Qed.
Lemma steady_prepared : forall dt fres s, steady dt fres s -> 0 < dt -> dt <= fres -> fres / dt + 1 < 2147483647 -> not_below_zero s -> prepared s.
Proof.
  intros dt fres s H P L B [N1 N2]. destruct (steps_some _ _ _ H P L B) as (s2 & d & n & S1 & S2 & _). destruct H as (H1 & H2 & H3 & H4 & H5). constructor; [exact N1|exact N2|exists s2, d, n; auto|exact H5|congruence].
Qed.

Lemma executed_few : forall dt fres s u xs s', steady dt fres s -> 0 < dt -> dt <= fres -> fres / dt + 1 < 2147483647 -> executed s u xs s' -> p_invalid (st_p s) = false -> p_calib (st_p s) = false -> INR (length xs) <= fres / dt + 1.
Proof.
  intros dt fres s u xs s' ST P L B [_ X] V C. rewrite V in X. destruct X as (s1 & vcal & volend & s2 & n & s3 & a & E1 & _ & E3 & _ & E5 & E4 & _).
  assert (ST1 : steady dt fres s1).
  { destruct (prologue_inv _ _ _ E1) as (_ & _ & _ & _ & _ & G1 & G2 & G3 & _ & _ & M1 & M2 & M3 & M4 & _). pose proof (prologue_sft _ _ _ E1 C) as SF. unfold steady. rewrite M1, M2, M3, M4, SF, G1, G2, G3. exact ST. }
  destruct (steps_some _ _ _ ST1 P L B) as (s2' & d' & n' & S1 & S2 & S3). rewrite E3 in S1. apply Ok_inj in S1. apply pair_equal_spec in S1 as [_ <-].
  eapply Rle_trans; [|exact S3]. rewrite INR_IZR_INZ. apply IZR_le. destruct E4 as [Q|(_ & Q & _)]; lia.
Qed.

Lemma history_steady : forall dt fres sl r te D s0 xs s, one_layer sl r te D s0 -> steady dt fres s0 -> history known_weather s0 xs s -> steady dt fres s.
Proof.
  intros dt fres sl r te D s0 xs s O H0 H. induction H as [|xs s s' H IH E F|xs s u ys s' H IH E].
  - exact H0.
  - exact (edit_steady _ _ _ _ IH E).
  - destruct (history_single _ _ _ _ _ _ _ O H) as [I _]. exact (executed_steady _ _ _ _ _ _ (ol_valid _ _ _ _ _ I) (ol_calib _ _ _ _ _ I) IH E).
Qed.

(** From the configuration file to every later Update. *)
Theorem simulated : forall files junk ls t types gs psi wp fc dt fres max rows, single_config files ls t types gs psi wp fc dt fres max rows ->
  exists s0 sl r te a n K, Initialize files junk ls = Ok s0 /\ soil_row types rows r te a n K /\ (exists m, vg_soil sl r te a n m K) /\
    forall xs s, history known_weather s0 xs s -> Forall (kept_step sl te (value t)) xs /\
      (forall u ys s', executed s u ys s' -> Forall (kept_step sl te (value t)) ys /\ exists g, global_error (st_mb s') = Fin g /\ Rabs g <= Rsum (map (fun x => slack (st_head (x_s x)) + 1 / 1000000000000) (xs ++ ys))) /\
      (not_below_zero s -> ends (fun why => exists u s2 a2 zs s3 a3, runs u s2 a2 zs s3 a3 /\ st_head s2 = st_head s /\ u_closed u = p_closed (st_p s) /\ substep u s3 a3 = Stop why /\ substep_stops (p_closed (st_p s)) (st_head s3) why)
                                published (Update s)).
Proof.
  intros files junk ls t types gs psi wp fc dt fres max rows SC. destruct (single_start files junk _ _ _ _ _ _ _ _ _ _ _ SC) as (s0 & sl & r & te & a & n & K & H & OL & FR & SR & VG & SS & E1 & E2 & E3 & E4 & _).
  exists s0, sl, r, te, a, n, K. split; [exact H|]. split; [exact SR|]. split; [exact VG|]. intros xs s HI.
  assert (ST0 : steady dt fres s0) by (repeat split; auto; apply (ss_giuh _ SS)).
  destruct (history_single _ _ _ _ _ _ _ OL HI) as [O1 O2]. split; [exact O2|]. split.
  - intros u ys s' X. destruct (executed_single _ _ _ _ _ _ _ _ O1 X) as (_ & J & _). split; [exact J|]. exact (simulation_balance _ _ _ _ _ _ _ _ _ _ OL FR HI X).
  - intro NB. pose proof (history_steady _ _ _ _ _ _ _ _ _ OL ST0 HI) as ST.
    destruct (gc_range _ _ _ _ _ _ _ _ _ _ (proj1 (proj1 (sc_good _ _ _ _ _ _ _ _ _ _ _ _ SC)))) as (R1 & R2 & R3 & R4).
    pose proof (update_single _ _ _ _ _ O1 (steady_prepared _ _ _ ST R1 (sc_step _ _ _ _ _ _ _ _ _ _ _ _ SC) R4 NB)) as Q. eapply ends_mono; [| |exact Q]; [auto|]. intros s' [_ Z]. exact Z.
Qed.
End Run.
