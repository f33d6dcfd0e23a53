(** Programs that drive a model with a given configuration. *)

From Coq Require Import String Reals Lra ZArith List Bool Lia.
From RecordUpdate Require Import RecordSet.
From Verif Require Import Outcome Dbl Types ListOps Soil Giuh Fronts Infil Move State Update Bmi Config Exact Lib Spec_Common Spec_List Spec_Column Spec_Update Spec_Bmi
  Spec_Profile Spec_Config Spec_Run Pf_Update Pf_Clock Pf_Structure Pf_SafeUpdate Pf_SafeHistory Pf_Bmi Pf_BmiMem Pf_BmiRun Pf_Run Pf_Config Pf_Lines Pf_Init Pf_InitState
  Pf_Column Pf_InitExact Pf_ConfigThm Pf_ConfigMore Pf_InitTotal.
Import ListNotations.
Import RecordSetNotations.
Open Scope string_scope.
Open Scope Z_scope.
Open Scope list_scope.
Local Existing Instance exact.

Section Run.
Context {cfg : Cfg}.
Variables dt fres : R.
Hypothesis Hdt : (0 < dt)%R.
Hypothesis Hfine : (dt <= fres)%R.
Hypothesis Hint : (fres / dt + 1 < 2147483647)%R.

Record serving (o : obj) : Prop := {
  sv_arrays : arrays_ok o;
  sv_sound : sound_state (ob_s o);
  sv_valid : p_invalid (st_p (ob_s o)) = false;
  sv_mints : p_mints (st_p (ob_s o)) = Fin dt;
  sv_fres : p_fres (st_p (ob_s o)) = Fin fres;
  sv_step : p_adaptive (st_p (ob_s o)) = false -> p_timestep (st_p (ob_s o)) = Fin dt;
  sv_calib : p_calib (st_p (ob_s o)) = true -> (p_nfronts (st_p (ob_s o)) <= listLength (st_head (ob_s o)))%Z;
  sv_cells : p_sft (st_p (ob_s o)) = true ->
    covered (p_nlayers (st_p (ob_s o))) (p_cum (st_p (ob_s o))) (p_soilTz (st_p (ob_s o))) (p_soilT (st_p (ob_s o))) (p_ncells (st_p (ob_s o)))
}.

Lemma step_count : forall d, (dt <= d <= fres)%R -> exists n, d2i (Fin fres / Fin d + lit (1 / 100000000))%d = Ok n /\ 1 <= n.
Proof.
  intros d [D1 D2]. assert (P : (0 < d)%R) by lra. change (lit (1 / 100000000)) with (Fin (1 / 100000000)).
  assert (E : (Fin fres / Fin d + Fin (1 / 100000000))%d = Fin (fres / d + 1 / 100000000)).
  { cbn. destruct (Req_EM_T d 0); [lra|]. reflexivity. }
  rewrite E. unfold d2i.
  assert (Q1 : (1 <= fres / d)%R) by (apply (Rmult_le_reg_r d); [lra|]; unfold Rdiv; rewrite Rmult_assoc, Rinv_l by lra; lra).
  assert (Q2 : (fres / d <= fres / dt)%R).
  { unfold Rdiv. apply Rmult_le_compat_l; [lra|]. apply Rinv_le_contravar; lra. }
  pose proof (trunc_ge_1 (fres / d + 1 / 100000000) ltac:(lra)) as T1.
  assert (T2 : trunc (fres / d + 1 / 100000000) <= 2147483647).
  { unfold trunc. destruct (Rlt_dec _ 0); [lra|]. apply le_IZR. destruct (base_Int_part (fres / d + 1 / 100000000)) as [B _]. lra. }
  destruct (Z.leb_spec (-2147483648) (trunc (fres / d + 1 / 100000000))); [|lia]. destruct (Z.leb_spec (trunc (fres / d + 1 / 100000000)) 2147483647); [|lia].
  cbn [andb]. eauto.
Qed.
Lemma serving_ready : forall o, serving o -> ready (ob_s o).
Proof.
  intros o [A S V M F T C Z]. constructor.
  - set (p := st_p (ob_s o)) in *.
    assert (D : exists d, (if p_adaptive p then adaptive_step p (st_precip (ob_s o)) (mb_on_ts (st_mb (ob_s o))) else p_timestep p) = Fin d /\ (dt <= d <= fres)%R).
    { destruct (p_adaptive p); [|exists dt; split; [auto|lra]]. unfold adaptive_step. rewrite M, F.
      assert (X : forall x, (dt <= x)%R -> exists d, dfmin (Fin x) (Fin fres) = Fin d /\ (dt <= d <= fres)%R).
      { intros x Hx. unfold dfmin. destruct (dltb (Fin x) (Fin fres)) eqn:L; cbn in L; unfold Rltb in L; cbn; unfold Rltb; destruct (Rlt_dec x fres); try discriminate; eexists; (split; [reflexivity|lra]). }
      destruct (_ || _)%bool; [apply X; lra|]. destruct (_ >? _)%d; [|apply X; lra].
      change (Fin dt * lit 2)%d with (Fin (dt * 2)). apply X. lra. }
    destruct D as (d & Ed & Bd). destruct (step_count d Bd) as (n & En & Pn). exists ((ob_s o) <| st_p := p <| p_timestep := Fin d |> <| p_finterval := n |> |>), (Fin d), n.
    split; [|exact Pn]. unfold update_steps. cbv zeta. fold p. rewrite Ed.
    change (p_fres (p <| p_timestep := Fin d |>)) with (p_fres p). change (p_timestep (p <| p_timestep := Fin d |>)) with (Fin d). rewrite F, En. reflexivity.
  - intros Hc. split; [auto|]. destruct A. repeat constructor; lia.
  - intros Hs u. apply frozen_inside; [auto| |].
    + intros k Hk. destruct (se_cum _ (ss_env _ S) k) as (z & E & _); [cbn; lia|]. exists (Fin z). exact E.
    + intros k Hk. apply (se_frozen _ (ss_env _ S) k). exact Hk.
Qed.
Lemma serving_update : forall o s', serving o -> ~ update_tie (ob_s o) -> Update (ob_s o) = Ok s' -> serving (mkObj s' (ob_pre o)).
Proof.
  intros o s' I T H. pose proof I as [A S V M F Tm C Z]. destruct (Update_settings _ _ H) as ((K1 & K2 & K3 & K4 & _) & K5 & K6). destruct (K6 V) as [_ K7].
  destruct (Update_static _ _ H) as [(S1 & S2 & S3 & S4 & S5 & _ & _ & S6 & _) _].
  constructor; cbn [ob_s]; try congruence.
  - apply update_arrays; assumption.
  - eapply update_sound; eassumption.
  - intros Q. rewrite K4 in Q. rewrite K5 by assumption. auto.
  - intros Q. rewrite K1 in Q. rewrite S1, S2, S3, S4, S5. auto.
Qed.
Lemma serving_store : forall o o' name l ix v, serving o -> GetValuePtr name = Ok l -> ~ In name structural -> store o l ix v = Ok o' -> serving o'.
Proof.
  intros o o' name l ix v I El N H. pose proof I as [A S V M F Tm C Z]. pose proof (name_of_ptr _ _ El) as En. pose proof (ptr_good _ _ El) as G.
  assert (N1 : l <> LNum) by (intros ->; apply N; subst name; cbn; tauto). assert (N2 : l <> LCum) by (intros ->; apply N; subst name; cbn; tauto).
  pose proof (store_arrays _ _ _ _ _ G N1 A H) as A'.
  destruct (store_spec _ _ _ _ _ G (ar_pre _ A) H) as (_ & _ & _ & _ & _ & _ & P1 & P2 & P3 & U). specialize (P3 N1). specialize (U N2).
  pose proof (edit_sound _ _ S U) as S'. destruct U as (pr & pet & T & cal & out & nf & tw & dw & E). destruct o as [s pre], o' as [s1 pre1]. cbn [ob_s] in *.
  constructor; cbn [ob_s]; try assumption.
  - rewrite E. exact V.
  - rewrite E. exact M.
  - rewrite E. exact F.
  - rewrite E. exact Tm.
  - rewrite P3, E. exact C.
  - pose proof (ar_temp _ A') as L. cbn [ob_s] in L. intros Q. rewrite E in Q. specialize (Z Q). destruct Z as (Z1 & Z2 & Z3 & Z4). rewrite E. unfold covered.
    split; [exact Z1|]. split; [exact Z2|]. split; [|exact Z4]. rewrite E in L. exact L.
Qed.

Lemma readable_out : forall name l o, GetValuePtr name = Ok l -> readable o name -> forall j, at_pos (load o l) j <> Some None.
Proof.
  intros name l o El Rd j. assert (D1 : forall a, at_pos (doubles a) j <> Some None).
  { intros a Q. unfold at_pos, doubles in Q. destruct (j <? 0); [discriminate|]. rewrite nth_error_map in Q. destruct (nth_error a _); discriminate. }
  pose proof (ptr_good _ _ El) as G. pose proof (name_of_ptr _ _ El) as En. destruct l; try apply D1.
  - unfold load. cbv zeta. assert (In name flux_names).
    { subst name. cbn in G. do 11 (destruct i as [|i]; [cbn; tauto|]). lia. }
    destruct (st_out (ob_s o)) eqn:So; [|exfalso; exact (Rd H So)]. destruct (nth_error _ _); [apply D1|]. unfold at_pos. destruct (j <? 0); [discriminate|]. destruct (Z.to_nat j); discriminate.
  - cbn. unfold at_pos. destruct (j <? 0); [discriminate|]. destruct (Z.to_nat j) as [|[|?]]; discriminate.
Qed.
Lemma fetch_readable : forall name l o ix, arrays_ok o -> GetValuePtr name = Ok l -> readable o name ->
  Forall (fun i => 0 <= i < loc_cells l o) ix -> exists v, fetch (load o l) ix = Ok v.
Proof.
  intros name l o ix A El Rd B. pose proof (ptr_good _ _ El) as G. destruct (arrays_cells _ _ A G) as [C1 C2].
  destruct (fetch_total (load o l) ix) as [E|[(i & Ii & Pi) _]]; [|assumption|].
  - eapply Forall_impl; [|exact B]. intros i Hi. cbn beta in Hi. destruct l; lia.
  - exfalso. exact (readable_out _ _ _ El Rd i Pi).
Qed.

Lemma call_safe : forall c o, serving o -> proper o c -> untied o c -> ends memory_safe serving (do_call c o).
Proof.
  intros c o I P U. pose proof (sv_arrays _ I) as A.
  assert (Upd : ~ update_tie (ob_s o) -> ends memory_safe serving (bmi_Update o)).
  { intros T. unfold bmi_Update. pose proof (update_safe _ (sv_sound _ I) (serving_ready _ I) T) as E. destruct (Update (ob_s o)) as [s'|r] eqn:Eu; cbn [bind ends] in *; [|exact E].
    apply serving_update; assumption. }
  assert (Th : forall x : reason, x = Throw -> memory_safe x) by (intros x -> u; discriminate).
  destruct c as [|t|name|name inds|name v|name inds v]; cbn [proper untied do_call] in *.
  - auto.
  - unfold bmi_UpdateUntil, UpdateUntil. destruct (t >? Fin 0)%d; [|intros u; discriminate]. cbn [cassert bind]. apply Upd. assumption.
  - destruct (known_dec name) as [K|K]; [|rewrite GetValue_unknown by assumption; apply Th; reflexivity].
    destruct (ptr_known _ K) as [l El]. rewrite (GetValue_eq _ _ _ El). destruct (arrays_cells _ _ A (ptr_good _ _ El)) as [C1 _].
    destruct (Z.ltb_spec (loc_cells l o) 0); [lia|]. destruct (fetch_readable name l o (all_ix (Z.to_nat (loc_cells l o)))) as [w Ew]; auto.
    + apply Forall_forall. intros i Hi. apply all_ix_in in Hi. lia.
    + rewrite Ew. exact I.
  - destruct (known_dec name) as [K|K]; [|rewrite GetAt_unknown by assumption; apply Th; reflexivity].
    destruct (ptr_known _ K) as [l El]. destruct (P K) as [P1 P2]. rewrite (GetAt_eq _ _ _ _ El). rewrite (ptr_cells _ _ _ El) in P2.
    destruct (fetch_readable name l o inds) as [w Ew]; auto. rewrite Ew. exact I.
  - destruct (known_dec name) as [K|K]; [|rewrite SetValue_unknown by assumption; apply Th; reflexivity].
    destruct (P K) as (P1 & P2 & P3). destruct (set_ok _ _ _ A K P2 P3) as [o' Eo]. rewrite Eo. cbn [ends].
    destruct (set_store _ _ _ _ Eo) as (l & El & _ & Es). eapply serving_store; eassumption.
  - destruct (known_dec name) as [K|K]; [|rewrite SetAt_unknown by assumption; apply Th; reflexivity].
    destruct (P K) as (P1 & P2 & P3 & P4). assert (O : exists o', SetValueAtIndices name inds v o = Ok o').
    { apply set_at_ok; [assumption|assumption|]. split; [|split; [lia|rewrite P3, firstn_all; assumption]]. eapply Forall_impl; [|exact P2]. intros i Hi. cbn beta in Hi. destruct (String.eqb _ _); lia. }
    destruct O as [o' Eo]. rewrite Eo. cbn [ends]. destruct (setat_store _ _ _ _ _ Eo) as (l & El & Es). eapply serving_store; eassumption.
Qed.
Lemma calls_safe : forall cs o, serving o -> along proper cs o -> along untied cs o -> ends memory_safe serving (do_calls cs o).
Proof.
  induction cs as [|c cs IH]; intros o I P U; cbn [do_calls]; [exact I|]. destruct P as [P1 P2], U as [U1 U2].
  eapply ends_bind; [apply call_safe; eassumption|]. intros o' E I'. apply IH; auto.
Qed.

(** With one layer there are no ties. *)
Lemma one_layer_kept : forall c o o', serving o -> proper o c -> do_call c o = Ok o' -> p_nlayers (st_p (ob_s o')) = p_nlayers (st_p (ob_s o)).
Proof.
  intros c o o' I P H. destruct (call_cases _ _ _ H) as [(s' & _ & E & ->)|[->|(name & l & ix & v & _ & El & S)]]; [|reflexivity|].
  - apply (Update_static _ _ E).
  - apply (store_spec _ _ _ _ _ (ptr_good _ _ El) (ar_pre _ (sv_arrays _ I)) S).
Qed.
Lemma calls_safe_one : forall cs o, serving o -> p_nlayers (st_p (ob_s o)) = 1 -> along proper cs o -> ends memory_safe serving (do_calls cs o).
Proof.
  induction cs as [|c cs IH]; intros o I N P; cbn [do_calls]; [exact I|]. destruct P as [P1 P2].
  assert (U : untied o c) by (destruct c; cbn; auto using one_layer_untied, sv_sound).
  eapply ends_bind; [apply call_safe; eassumption|]. intros o' E I'. apply IH; auto. rewrite (one_layer_kept _ _ _ I P1 E). assumption.
Qed.
End Run.

(** ** From a configuration *)

Lemma config_serving : forall {cfg : Cfg} files junk ls ts types gs psi dt fres max rows s, good_config files ls ts types gs psi dt fres max rows -> cells_cover ls ts ->
  Initialize files junk ls = Ok s -> serving dt fres (mkObj s (repeat None 11)) /\ p_nlayers (st_p s) = Z.of_nat (length ts).
Proof.
  intros cfg files junk ls ts types gs psi dt fres max rows s G Cv H. destruct (configured files junk _ _ _ _ _ _ _ _ _ G) as (s' & H' & Q1 & Q2 & Q3 & Q4 & Q5 & Q6 & Q7 & Q8 & Q9).
  rewrite H in H'. apply Ok_inj in H'. subst s'. split; [|assumption].
  destruct (init_inv _ _ _ _ H) as (c & st & rows' & tab & thick & psi' & ord & I).
  destruct (in_p _ _ _ _ _ _ _ _ _ _ _ I) as (P1 & P2 & P3 & P4 & P5 & P6 & P7 & P8 & _ & P10 & _ & _ & _ & _ & _ & P16 & P17).
  constructor; cbn [ob_s]; try assumption.
  - congruence.
  - intros _. assumption.
  - intros _. rewrite P6, (in_len _ _ _ _ _ _ _ _ _ _ _ I). lia.
  - intros Sf. destruct G as [[[GL GR (lt & Lt & At & Nt & Gt & Pt) _ _ _ _ _ _ _ _ _ _] _] _].
    destruct Cv as [Cv|(l & zs & z & ts' & t & L & As & Gz & -> & Lz)].
    { rewrite P16 in Sf. destruct (sft_lines _ _ _ GL (in_conf _ _ _ _ _ _ _ _ _ _ _ I) Sf) as [Q|Q]; [discriminate Q|contradiction]. }
    destruct (zs ++ [z]) as [|z0 zr] eqn:Ez; [destruct zs; discriminate|].
    destruct (read_cells _ _ _ _ _ _ _ L As Gz H Sf) as (C1 & C2 & C3). rewrite <- Ez in *. unfold covered. rewrite C1, C2, C3, map_length, repeat_length.
    assert (Lts : List.length (ts' ++ [t]) = S (List.length ts')) by (rewrite app_length; cbn [List.length]; lia).
    assert (Lzs : List.length (zs ++ [z]) = S (List.length zs)) by (rewrite app_length; cbn [List.length]; lia).
    rewrite Q7, Lts, Lzs. split; [lia|]. split; [lia|]. split; [lia|]. intros k Hk.
    assert (Cum : p_cum (st_p s) = map Fin (boundaries 0 (map value (ts' ++ [t])))).
    { destruct (ts' ++ [t]) as [|t0 tr] eqn:Et; [destruct ts'; discriminate|]. destruct (conf_thick _ _ _ _ _ Lt At Gt (in_conf _ _ _ _ _ _ _ _ _ _ _ I)) as [T _].
      rewrite (in_thick _ _ _ _ _ _ _ _ _ _ _ I) in T. apply some_inj in T. rewrite P3, T, value_exact. apply cum_exact. }
    exists (Fin (Rsum (firstn (Z.to_nat k) (map value (ts' ++ [t]))))), (Fin (value z)). split; [|split].
    + rewrite Cum. apply aget_Ok. split; [lia|]. rewrite nth_error_map, boundaries_nth by (rewrite map_length; lia). cbn. do 2 f_equal. ring.
    + rewrite map_app. apply aget_app. rewrite map_length. lia.
    + cbn. unfold Rleb. destruct (Rle_dec _ _) as [Q|Q]; [|reflexivity]. exfalso. apply (Rlt_irrefl (value z)). eapply Rle_lt_trans; [exact Q|]. eapply Rle_lt_trans; [|exact Lz].
      apply Forall_app in Pt as [Pt _]. rewrite map_app, firstn_app, map_length. replace (Z.to_nat k - List.length ts')%nat with O by lia. cbn [firstn]. rewrite app_nil_r.
      clear - Pt. revert Pt. generalize (Z.to_nat k) as m. induction ts' as [|a l IH]; intros [|m] Pt; cbn; try lra; inversion_clear Pt as [|? ? A B].
      * specialize (IH O B). cbn in IH. lra.
      * specialize (IH m B). lra.
Qed.

Theorem config_calls : forall {cfg : Cfg} files junk ls ts types gs psi dt fres max rows s cs, good_config files ls ts types gs psi dt fres max rows -> (dt <= fres)%R -> cells_cover ls ts ->
  Initialize files junk ls = Ok s -> along proper cs (mkObj s (repeat None 11)) -> along untied cs (mkObj s (repeat None 11)) ->
  ends memory_safe (fun _ => True) (do_calls cs (mkObj s (repeat None 11))).
Proof.
  intros cfg files junk ls ts types gs psi dt fres max rows s cs G Fi Cv H P U. destruct (config_serving _ _ _ _ _ _ _ _ _ _ _ _ G Cv H) as [I _].
  destruct G as [[[_ _ _ _ _ _ _ _ _ (R1 & R2 & R3 & R4) _ _ _] _] _].
  eapply ends_mono; [|exact (fun _ _ => Logic.I)|apply (calls_safe dt fres R1 Fi R4 cs _ I P U)]. auto.
Qed.
Theorem config_calls_one : forall {cfg : Cfg} files junk ls t types gs psi dt fres max rows s cs, good_config files ls [t] types gs psi dt fres max rows -> (dt <= fres)%R -> cells_cover ls [t] ->
  Initialize files junk ls = Ok s -> along proper cs (mkObj s (repeat None 11)) ->
  ends memory_safe (fun _ => True) (do_calls cs (mkObj s (repeat None 11))).
Proof.
  intros cfg files junk ls t types gs psi dt fres max rows s cs G Fi Cv H P. destruct (config_serving _ _ _ _ _ _ _ _ _ _ _ _ G Cv H) as [I N].
  destruct G as [[[_ _ _ _ _ _ _ _ _ (R1 & R2 & R3 & R4) _ _ _] _] _].
  eapply ends_mono; [|exact (fun _ _ => Logic.I)|apply (calls_safe_one dt fres R1 Fi R4 cs _ I N P)]. auto.
Qed.
