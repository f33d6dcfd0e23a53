(** Lemmas on the standalone program. *)

From Coq Require Import String Ascii Reals Lra ZArith List Bool Lia.
From RecordUpdate Require Import RecordSet.
From Verif Require Import Outcome Dbl Exact Types ListOps State Update Bmi Config Driver Lib Spec_Common Spec_List Spec_Column Spec_Update Spec_Bmi
  Spec_Profile Spec_Config Spec_Run Spec_Driver Pf_Text Pf_Update Pf_Clock Pf_Structure Pf_SafeUpdate Pf_SafeHistory Pf_Bmi Pf_BmiMem Pf_BmiRun Pf_Run Pf_Init Pf_ConfigThm Pf_InitTotal
  Pf_Ledger Pf_Signs Pf_RunExact Pf_Forcing.
Import ListNotations.
Import RecordSetNotations.
Open Scope string_scope.
Open Scope Z_scope.
Open Scope list_scope.

Section Any.
Context {fp : Fp} {cfg : Cfg}.

(** ** One step *)

Definition with_forcing (p e : dbl) (s : state) : state := s <| st_precip := p |> <| st_pet := e |>.

Lemma set_precip : forall p o, SetValue "precipitation_rate" [D p] o = Ok (mkObj ((ob_s o) <| st_precip := p |>) (ob_pre o)).
Proof. reflexivity. Qed.
Lemma set_pet : forall e o, SetValue "potential_evapotranspiration_rate" [D e] o = Ok (mkObj ((ob_s o) <| st_pet := e |>) (ob_pre o)).
Proof. reflexivity. Qed.

Lemma columns_some : forall o b, st_out (ob_s o) = Some b -> get_columns column_names o = Ok (map D (columns_of b)).
Proof.
  intros o b H. assert (G : forall name i d, GetValuePtr name = Ok (LOut i) -> nth_error (out_list b) i = Some d -> GetValue name o = Ok [D d]).
  { intros name i d E N. rewrite (GetValue_eq _ _ _ E). cbn [loc_cells Z.ltb Z.compare Z.to_nat Pos.to_nat Pos.iter_op]. unfold load. cbv zeta. rewrite H, N. reflexivity. }
  unfold column_names. cbn [get_columns].
  rewrite (G "precipitation" 0%nat (o_precip b)), (G "potential_evapotranspiration" 9%nat (o_pet b)), (G "actual_evapotranspiration" 3%nat (o_aet b)),
    (G "surface_runoff" 5%nat (o_runoff b)), (G "giuh_runoff" 6%nat (o_giuh b)), (G "soil_storage" 2%nat (o_end b)), (G "total_discharge" 7%nat (o_Q b)),
    (G "infiltration" 1%nat (o_in b)), (G "percolation" 4%nat (o_rech b)), (G "groundwater_to_stream_recharge" 8%nat (o_Qgw b)), (G "mass_balance" 10%nat (o_mb b)) by reflexivity.
  reflexivity.
Qed.
Lemma columns_none : forall o, st_out (ob_s o) = None -> ob_pre o = repeat None 11 -> get_columns column_names o = Stop (UB Uninit).
Proof.
  intros o H P. unfold column_names. cbn [get_columns]. rewrite (GetValue_eq "precipitation" (LOut 0) o eq_refl).
  cbn [loc_cells Z.ltb Z.compare Z.to_nat Pos.to_nat Pos.iter_op]. unfold load. cbv zeta. rewrite H, P. reflexivity.
Qed.

Lemma step_inv : forall f i o o' r, ob_pre o = repeat None 11 -> drive_step f i o = Ok (o', r) ->
  exists p e t s1 b, aget (fo_precip f) i = Ok p /\ aget (fo_pet f) i = Ok e /\ aget (fo_time f) i = Ok t /\
    Update (with_forcing p e (ob_s o)) = Ok s1 /\ st_out s1 = Some b /\ o' = mkObj s1 (repeat None 11) /\ r = mkRowOut t (map D (columns_of b)) (st_head s1).
Proof.
  intros f i o o' r P H. unfold drive_step in H. bind_inv H p Ep. rewrite set_precip in H. cbn [bind] in H. bind_inv H e Ee. rewrite set_pet in H. cbn [bind ob_s ob_pre] in H.
  unfold bmi_Update in H. cbn [ob_s ob_pre] in H. bind_inv H o1 Eo. bind_inv Eo s1 Es. apply Ok_inj in Eo. subst o1. cbv zeta in H. cbn [ob_s] in H.
  bind_inv H th Eth. bind_inv H q1 Eq1. bind_inv H dp Edp. bind_inv H q2 Eq2. bind_inv H t Et. bind_inv H vars Ev.
  apply Ok_inj, pair_equal_spec in H as [<- <-]. destruct (st_out s1) as [b|] eqn:So.
  - rewrite (columns_some (mkObj s1 (ob_pre o)) b So) in Ev. apply Ok_inj in Ev. subst vars. exists p, e, t, s1, b. rewrite P. auto 10.
  - rewrite (columns_none (mkObj s1 (ob_pre o)) So P) in Ev. discriminate.
Qed.

Lemma nth_steps : forall f i p e t, aget (fo_precip f) i = Ok p -> aget (fo_pet f) i = Ok e -> aget (fo_time f) i = Ok t ->
  0 <= i /\ nth_error (combine (combine (fo_time f) (fo_precip f)) (fo_pet f)) (Z.to_nat i) = Some (t, p, e).
Proof.
  intros f i p e t Hp He Ht. apply aget_Ok in Hp as [P Hp], He as [_ He], Ht as [_ Ht]. split; [assumption|].
  assert (C : forall A B (a : list A) (b : list B) n x y, nth_error a n = Some x -> nth_error b n = Some y -> nth_error (combine a b) n = Some (x, y)).
  { clear. induction a as [|u a IH]; intros [|v b] [|n] x y H1 H2; try discriminate; cbn in *; [congruence|eauto]. }
  auto.
Qed.
Lemma skipn_nth : forall A (l : list A) n x, nth_error l n = Some x -> skipn n l = x :: skipn (S n) l.
Proof. induction l as [|a l IH]; intros [|n] x H; try discriminate; cbn in *; [congruence|]. rewrite (IH _ _ H). destruct l; reflexivity. Qed.

Lemma drive_driven : forall k f i o o' rs, 0 <= i -> ob_pre o = repeat None 11 -> drive k f i o = Ok (o', rs) ->
  driven (ob_s o) (firstn k (skipn (Z.to_nat i) (combine (combine (fo_time f) (fo_precip f)) (fo_pet f)))) rs (ob_s o') /\ List.length rs = k /\ ob_pre o' = repeat None 11.
Proof.
  induction k as [|k IH]; intros f i o o' rs Hi P H; cbn [drive] in H.
  - apply Ok_inj, pair_equal_spec in H as [<- <-]. split; [constructor|auto].
  - bind_inv H q Eq1. destruct q as [o1 r]. bind_inv H q2 Eq2. destruct q2 as [o2 rs']. apply Ok_inj, pair_equal_spec in H as [<- <-].
    destruct (step_inv _ _ _ _ _ P Eq1) as (p & e & t & s1 & b & A1 & A2 & A3 & U & So & -> & ->). destruct (nth_steps _ _ _ _ _ A1 A2 A3) as [_ N].
    destruct (IH f (i + 1) (mkObj s1 (repeat None 11)) o2 rs' ltac:(lia) eq_refl Eq2) as (D1 & L & P2).
    rewrite (skipn_nth _ _ _ _ N). replace (Z.to_nat (i + 1)) with (S (Z.to_nat i)) in D1 by lia. cbn [firstn].
    split; [|split; [cbn [List.length]; lia|assumption]]. econstructor; [exact U|exact So|exact D1].
Qed.

Theorem simulate_inv : forall files texts junk lines res, simulate files texts junk lines = Ok res ->
  exists s f n, Initialize files junk lines = Ok s /\ ReadForcingData texts lines = Ok f /\ d2i (p_endtime (st_p s) / (p_fres (st_p s) * lit 3600))%d = Ok n /\
    n <= Z.of_nat (List.length (fo_pet f)) /\ driven s (first_steps (Z.to_nat n) f) (rs_rows res) (ob_s (rs_obj res)) /\ List.length (rs_rows res) = Z.to_nat n /\
    List.length (first_steps (Z.to_nat n) f) = Z.to_nat n /\
    rs_printed res = global_error (st_mb (ob_s (rs_obj res))).
Proof.
  intros files texts junk lines res H. unfold simulate in H. bind_inv H s Es. cbv zeta in H. bind_inv H n En. bind_inv H fc Ef. bind_inv H q Eq1. bind_inv H q2 Eq2. destruct q2 as [o rs]. rename fc into f0.
  apply Ok_inj in H. subst res. cbn [rs_rows rs_obj rs_printed]. exists s, f0, n. destruct (drive_driven _ _ _ (mkObj s (repeat None 11)) _ _ (Z.le_refl 0) eq_refl Eq2) as (D1 & L & _).
  assert (N : n <= Z.of_nat (List.length (fo_pet f0))). { destruct (n <=? _) eqn:Le in Eq1; [|discriminate]. apply Z.leb_le. exact Le. }
  split; [exact Es|]. split; [exact Ef|]. split; [exact En|]. split; [exact N|]. split; [exact D1|]. split; [exact L|]. split; [|reflexivity].
  unfold first_steps. pose proof (forcing_lengths _ _ _ Ef). rewrite firstn_length, !combine_length. lia.
Qed.

(** ** A driven model is a simulation *)
Lemma driven_history : forall s ps rs s' (Q : state -> Prop), (forall a b, Q a -> user_edit a b -> st_cal b = st_cal a -> Q b) -> (forall a b, Q a -> Update a = Ok b -> Q b) ->
  driven s ps rs s' -> Q s -> exists xs, history Q s xs s'.
Proof.
  intros s ps rs s' Q QE QU H. assert (G : driven s ps rs s' -> forall s0 ys, history Q s0 ys s -> Q s -> exists xs, history Q s0 xs s').
  { clear H. intro H. induction H as [s|s t p e s1 b ps rs s2 U So H IH]; intros s0 ys Hh HQ; [eauto|].
    assert (Ed : user_edit s (s <| st_precip := p |> <| st_pet := e |>)).
    { exists p, e, (p_soilT (st_p s)), (st_cal s), (st_out s), (p_nfronts (st_p s)), (p_theta_wf (st_p s)), (p_depth_wf (st_p s)). destruct s as [? ? ? [] ? ? ? ? ? ? ? ?]. reflexivity. }
    assert (Q1 : Q (s <| st_precip := p |> <| st_pet := e |>)) by (eapply QE; [exact HQ|exact Ed|reflexivity]).
    pose proof (hist_edit _ _ _ _ _ Hh Ed Q1) as H1. destruct (executed_exists _ _ U) as (u & zs & X). pose proof (hist_update _ _ _ _ _ _ _ H1 X) as H2.
    eapply IH; [exact H2|]. eapply QU; eassumption. }
  intro HQ. eapply G; [exact H|constructor|exact HQ].
Qed.
End Any.

Section Exact.
Local Existing Instance exact.
Context {cfg : Cfg}.

(** ** Memory safety *)
Section Safe.
Variables dt fres : R.
Hypothesis Hdt : (0 < dt)%R.
Hypothesis Hfine : (dt <= fres)%R.
Hypothesis Hint : (fres / dt + 1 < 2147483647)%R.

Lemma forced_serving : forall p e o, serving dt fres o -> serving dt fres (mkObj (with_forcing p e (ob_s o)) (ob_pre o)).
Proof.
  intros p e o I. pose proof (set_precip p o) as E1'. destruct (set_store _ _ _ _ E1') as (l & El & _ & Es).
  assert (I1 : serving dt fres (mkObj ((ob_s o) <| st_precip := p |>) (ob_pre o))).
  { eapply serving_store; [exact I|exact El| |exact Es]. cbn. intros [Q|[Q|[]]]; discriminate. }
  pose proof (set_pet e (mkObj ((ob_s o) <| st_precip := p |>) (ob_pre o))) as E2'. destruct (set_store _ _ _ _ E2') as (l2 & El2 & _ & Es2).
  eapply serving_store; [exact I1|exact El2| |exact Es2]. cbn. intros [Q|[Q|[]]]; discriminate.
Qed.
Lemma get_into : forall name o, arrays_ok o -> In name ["soil_moisture_wetting_fronts"; "soil_depth_wetting_fronts"] ->
  exists v, GetValue name o = Ok v /\ into (p_nfronts (st_p (ob_s o))) v = Ok v.
Proof.
  intros name o A H. destruct (grids_have_values name o) as [(v & E & L)|[_ E]]; [|assumption| | |].
  - destruct H as [<-|[<-|[]]]; cbn; intros [Q|[Q|[]]]; discriminate.
  - destruct H as [<-|[<-|[]]]; cbn; lia.
  - exists v. split; [assumption|]. unfold into. replace (GetGridSize (GetVarGrid name) o) with (p_nfronts (st_p (ob_s o))) in L by (destruct H as [<-|[<-|[]]]; reflexivity).
    rewrite L, Z.leb_refl. reflexivity.
  - exfalso. destruct H as [<-|[<-|[]]].
    + rewrite (GetValue_eq "soil_moisture_wetting_fronts" LTheta o eq_refl) in E. destruct (arrays_cells o LTheta A Logic.I) as [C1 C2].
      destruct (Z.ltb_spec (loc_cells LTheta o) 0); [lia|]. destruct (fetch_total (load o LTheta) (all_ix (Z.to_nat (loc_cells LTheta o)))) as [[v Ev]|[(i & Ii & Pi) _]].
      * apply Forall_forall. intros i Hi. apply all_ix_in in Hi. lia.
      * congruence.
      * unfold load, doubles, at_pos in Pi. destruct (i <? 0); [discriminate|]. rewrite nth_error_map in Pi. destruct (nth_error _ _); discriminate.
    + rewrite (GetValue_eq "soil_depth_wetting_fronts" LDepth o eq_refl) in E. destruct (arrays_cells o LDepth A Logic.I) as [C1 C2].
      destruct (Z.ltb_spec (loc_cells LDepth o) 0); [lia|]. destruct (fetch_total (load o LDepth) (all_ix (Z.to_nat (loc_cells LDepth o)))) as [[v Ev]|[(i & Ii & Pi) _]].
      * apply Forall_forall. intros i Hi. apply all_ix_in in Hi. lia.
      * congruence.
      * unfold load, doubles, at_pos in Pi. destruct (i <? 0); [discriminate|]. rewrite nth_error_map in Pi. destruct (nth_error _ _); discriminate.
Qed.
Lemma step_safe : forall f i o, serving dt fres o -> 0 <= i < Z.of_nat (List.length (fo_pet f)) -> (List.length (fo_pet f) <= List.length (fo_precip f) <= List.length (fo_time f))%nat ->
  (forall p e, aget (fo_precip f) i = Ok p -> aget (fo_pet f) i = Ok e -> ~ update_tie (with_forcing p e (ob_s o))) ->
  ends memory_safe (fun '(o', _) => serving dt fres o' /\ ob_pre o' = ob_pre o) (drive_step f i o).
Proof.
  intros f i o I Hi L T. unfold drive_step. destruct (aget_in_range _ (fo_precip f) i) as [p Ep]; [lia|]. destruct (aget_in_range _ (fo_pet f) i) as [e Ee]; [lia|].
  destruct (aget_in_range _ (fo_time f) i) as [t Et]; [lia|]. rewrite Ep. cbn [bind]. rewrite set_precip. cbn [bind]. rewrite Ee. cbn [bind]. rewrite set_pet. cbn [bind ob_s ob_pre].
  pose proof (forced_serving p e _ I) as I1. specialize (T p e Ep Ee). fold (with_forcing p e (ob_s o)). unfold bmi_Update. cbn [ob_s ob_pre].
  pose proof (update_safe _ (sv_sound _ _ _ I1) (serving_ready dt fres Hdt Hfine Hint _ I1) T) as Us. cbn [ob_s] in Us.
  destruct (Update (with_forcing p e (ob_s o))) as [s1|r] eqn:U; cbn [bind]; [|exact Us].
  pose proof (serving_update dt fres _ s1 I1 T U) as I2. cbn [ob_pre] in I2. cbv zeta. cbn [ob_s].
  destruct (get_into "soil_moisture_wetting_fronts" _ (sv_arrays _ _ _ I2)) as (v1 & V1 & W1); [cbn; tauto|]. cbn [ob_s] in W1. rewrite V1. cbn [bind]. rewrite W1. cbn [bind].
  destruct (get_into "soil_depth_wetting_fronts" _ (sv_arrays _ _ _ I2)) as (v2 & V2 & W2); [cbn; tauto|]. cbn [ob_s] in W2. rewrite V2. cbn [bind]. rewrite W2. cbn [bind].
  rewrite Et. cbn [bind]. destruct (Update_settings _ _ U) as (_ & _ & So). destruct (So (sv_valid _ _ _ I1)) as [So1 _].
  destruct (st_out s1) as [b|] eqn:Eb; [|contradiction]. rewrite (columns_some (mkObj s1 (ob_pre o)) b Eb). cbn [bind ends]. auto.
Qed.
Lemma drive_safe : forall k f i o, serving dt fres o -> ob_pre o = repeat None 11 -> 0 <= i -> i + Z.of_nat k <= Z.of_nat (List.length (fo_pet f)) ->
  (List.length (fo_pet f) <= List.length (fo_precip f) <= List.length (fo_time f))%nat ->
  tie_free (ob_s o) (firstn k (skipn (Z.to_nat i) (combine (combine (fo_time f) (fo_precip f)) (fo_pet f)))) ->
  ends memory_safe (fun _ => True) (drive k f i o).
Proof.
  induction k as [|k IH]; intros f i o I P Hi Hk L T; [exact Logic.I|]. cbn [drive].
  destruct (aget_in_range _ (fo_precip f) i) as [p Ep]; [lia|]. destruct (aget_in_range _ (fo_pet f) i) as [e Ee]; [lia|]. destruct (aget_in_range _ (fo_time f) i) as [t Et]; [lia|].
  destruct (nth_steps _ _ _ _ _ Ep Ee Et) as [_ N]. rewrite (skipn_nth _ _ _ _ N) in T. cbn [firstn tie_free] in T. cbv zeta in T. destruct T as [T1 T2].
  eapply ends_bind; [apply step_safe; [exact I|lia|exact L|]|].
  - intros p0 e0 A B. rewrite Ep in A. rewrite Ee in B. apply Ok_inj in A, B. subst p0 e0. exact T1.
  - intros [o1 r] Es [I1 P1]. destruct (step_inv _ _ _ _ _ P Es) as (p0 & e0 & t0 & s1 & b & A1 & A2 & A3 & U & So & -> & ->).
    rewrite Ep in A1. rewrite Ee in A2. apply Ok_inj in A1, A2. subst p0 e0.
    eapply ends_bind; [apply IH; [exact I1|reflexivity|lia|lia|exact L|]|].
    + cbn [ob_s]. replace (Z.to_nat (i + 1)) with (S (Z.to_nat i)) by lia. apply T2. exact U.
    + intros [o2 rs] _ _. exact Logic.I.
Qed.
End Safe.

Lemma one_layer_tie_free : forall dt fres ps o, (0 < dt)%R -> (dt <= fres)%R -> serving dt fres o -> p_nlayers (st_p (ob_s o)) = 1 -> tie_free (ob_s o) ps.
Proof.
  intros dt fres ps. induction ps as [|[[t p] e] ps IH]; intros o Hdt Hf I N; [exact Logic.I|]. cbn [tie_free]. cbv zeta.
  pose proof (forced_serving dt fres p e o I) as I1.
  assert (T : ~ update_tie ((ob_s o) <| st_precip := p |> <| st_pet := e |>)) by (apply one_layer_untied; [exact (sv_sound _ _ _ I1)|exact N]).
  split; [exact T|]. intros s1 U. apply (IH (mkObj s1 (ob_pre o)) Hdt Hf).
  - apply (serving_update dt fres _ s1 I1 T U).
  - cbn [ob_s]. destruct (Update_static _ _ U) as [(S1 & _) _]. rewrite S1. exact N.
Qed.

(** Reading never has undefined behaviour. *)
Lemma stod_no_ub : forall t u, stod t <> Stop (UB u).
Proof.
  intros t u. unfold stod. destruct (sign (skip_space t)) as [neg r]. destruct (prefix_ci "inf" r); [discriminate|]. destruct (prefix_ci "nan" r); [discriminate|].
  destruct (decimal r) as [[[m e] z]|]; [|discriminate]. destruct (rnd _); discriminate.
Qed.
Lemma reading_safe : forall texts lines, ends memory_safe (fun _ => True) (ReadForcingData texts lines).
Proof.
  intros texts lines. unfold ReadForcingData. destruct (forcing_file lines) as [n|]; [|intros u; discriminate]. destruct (texts n) as [t|]; [|intros u; discriminate].
  unfold read_text. destruct (getline newline "" (opened t)) as [l st]. generalize (S (S (String.length t))) as k, (mkForcing [] [] []) as f. intro k. revert l st.
  induction k as [|k IH]; intros l st f; cbn [read_loop]; destruct (sm_fail st); try exact Logic.I; [intros u; discriminate|].
  destruct (getline newline l st) as [l' st']. eapply ends_bind with (P := fun _ => True); [|intros f1 _ _; apply IH].
  assert (St : forall t, ends memory_safe (fun _ => True) (stod t)). { intro x. destruct (stod x) as [d|r] eqn:E; [exact Logic.I|]. intros u ->. exfalso. exact (stod_no_ub x u E). }
  destruct (line_cells l') as [|a [|b [|c cs]]]; cbn [push_cells]; try exact Logic.I.
  - eapply ends_bind; [apply St|]. intros; exact Logic.I.
  - eapply ends_bind; [apply St|]. intros x _ _. eapply ends_bind; [apply St|]. intros; exact Logic.I.
Qed.

Lemma steps_int : forall endsec fres, (0 < fres)%R -> (0 <= endsec)%R -> (endsec / (fres * 3600) < 2147483647)%R -> exists n, d2i (Fin endsec / (Fin fres * lit 3600))%d = Ok n.
Proof.
  intros endsec fres Hf He Hn. change (Fin fres * lit 3600)%d with (Fin (fres * 3600)).
  assert (E : (Fin endsec / Fin (fres * 3600))%d = Fin (endsec / (fres * 3600))). { cbn. destruct (Req_EM_T _ 0); [lra|]. reflexivity. }
  rewrite E. unfold d2i. set (x := (endsec / (fres * 3600))%R) in *. assert (X : (0 <= x)%R). { apply Rmult_le_pos; [assumption|]. apply Rlt_le, Rinv_0_lt_compat. lra. }
  assert (T : trunc x = Int_part x) by (unfold trunc; destruct (Rlt_dec x 0); [lra|reflexivity]). rewrite T. destruct (base_Int_part x) as [B1 B2].
  assert (-1 < Int_part x) by (apply lt_IZR; cbn; lra). assert (Int_part x < 2147483647) by (apply lt_IZR; lra).
  destruct (Z.leb_spec (-2147483648) (Int_part x)); [|lia]. destruct (Z.leb_spec (Int_part x) 2147483647); [|lia]. cbn [andb]. eauto.
Qed.

Theorem program_safe : forall files texts junk ls ts types gs psi dt fres max rows endsec, good_config files ls ts types gs psi dt fres max rows -> (dt <= fres)%R -> cells_cover ls ts ->
  ends_at ls endsec -> (0 <= endsec)%R -> (endsec / (fres * 3600) < 2147483647)%R ->
  (forall s f n, Initialize files junk ls = Ok s -> ReadForcingData texts ls = Ok f -> tie_free s (first_steps n f)) ->
  ends memory_safe (fun _ => True) (simulate files texts junk ls).
Proof.
  intros files texts junk ls ts types gs psi dt fres max rows endsec G Fi Cv (n & u & k & Gn & Uk & Ln & ->) E0 E1' T. unfold simulate.
  destruct (configured files junk _ _ _ _ _ _ _ _ _ G) as (s & H & _ & _ & _ & _ & _ & _ & _ & _ & Fr). destruct (config_serving _ _ _ _ _ _ _ _ _ _ _ _ G Cv H) as [I _].
  pose proof (endtime_units _ _ _ _ _ _ _ Gn Uk Ln H) as Et. destruct G as [[[_ _ _ _ _ _ _ _ _ (R1 & R2 & R3 & R4) _ _ _] _] _].
  rewrite H. cbn [bind]. cbv zeta. unfold GetEndTime, GetTimeStep. cbn [ob_s]. rewrite Et, Fr. destruct (steps_int _ _ R2 E0 E1') as [m Em]. rewrite Em. cbn [bind].
  eapply ends_bind; [apply reading_safe|]. intros f0 Ef _. pose proof (forcing_lengths _ _ _ Ef) as L.
  destruct (m <=? Z.of_nat (List.length (fo_pet f0))) eqn:Le; [|intros w; discriminate]. cbn [cassert bind]. apply Z.leb_le in Le.
  eapply ends_bind with (P := fun _ => True); [|intros [o rs] _ _; exact Logic.I].
  destruct (Z.ltb_spec m 0); [replace (Z.to_nat m) with O by lia; exact Logic.I|].
  apply (drive_safe dt fres R1 Fi R4); [exact I|reflexivity|lia|lia|exact L|]. cbn [ob_s Z.to_nat skipn]. apply (T s f0 (Z.to_nat m) H Ef).
Qed.
Theorem program_safe_one : forall files texts junk ls t types gs psi dt fres max rows endsec, good_config files ls [t] types gs psi dt fres max rows -> (dt <= fres)%R -> cells_cover ls [t] ->
  ends_at ls endsec -> (0 <= endsec)%R -> (endsec / (fres * 3600) < 2147483647)%R ->
  ends memory_safe (fun _ => True) (simulate files texts junk ls).
Proof.
  intros files texts junk ls t types gs psi dt fres max rows endsec G Fi Cv En E0 E1'. eapply program_safe; try eassumption.
  intros s f n H _. destruct (config_serving _ _ _ _ _ _ _ _ _ _ _ _ G Cv H) as [I N]. destruct G as [[[_ _ _ _ _ _ _ _ _ (R1 & R2 & R3 & R4) _ _ _] _] _].
  apply (one_layer_tie_free dt fres _ (mkObj s (repeat None 11)) R1 Fi I N).
Qed.
End Exact.
