(** Lemmas on sequences of calls of the Basic Model Interface. *)

From Coq Require Import String Reals Lra ZArith List Bool Lia.
From RecordUpdate Require Import RecordSet.
From Verif Require Import Outcome Dbl Types ListOps Fronts State Update Bmi Lib Spec_Common Spec_Column Spec_Update Spec_Bmi Pf_Update Pf_Bmi Pf_BmiMem.
Import ListNotations.
Import RecordSetNotations.
Open Scope string_scope.
Open Scope Z_scope.
Open Scope list_scope.

Section Run.
Context {fp : Fp} {cfg : Cfg}.

(** ** What an Update leaves alone *)
Definition static (s s' : state) : Prop :=
  p_nlayers (st_p s') = p_nlayers (st_p s) /\ p_cum (st_p s') = p_cum (st_p s) /\ p_ncells (st_p s') = p_ncells (st_p s) /\
  p_soilT (st_p s') = p_soilT (st_p s) /\ p_soilTz (st_p s') = p_soilTz (st_p s) /\ p_stype (st_p s') = p_stype (st_p s) /\ st_cal s' = st_cal s /\
  p_invalid (st_p s') = p_invalid (st_p s) /\ p_thick (st_p s') = p_thick (st_p s) /\ p_wilting (st_p s') = p_wilting (st_p s).

Lemma static_trans : forall a b c, static a b -> static b c -> static a c.
Proof. unfold static. intros a b c H1 H2. intuition congruence. Qed.

Lemma calibrate_static : forall s s1 v, update_calibratable_parameters s = Ok (s1, v) -> static s s1 /\ p_sft (st_p s1) = p_sft (st_p s) /\ p_frozen (st_p s1) = p_frozen (st_p s).
Proof.
  intros s s1 v H. unfold update_calibratable_parameters in H. cbv zeta in H. bind_inv H b0 Eb. bind_inv H q Eq1. destruct q as [l soils].
  bind_inv H aft Ea. apply Ok_inj, pair_equal_spec in H as [<- _]. repeat split.
Qed.
Lemma prologue_static : forall s s1 v, update_prologue s = Ok (s1, v) -> static s s1 /\ p_calib (st_p s1) = false.
Proof.
  intros s s1 v H. unfold update_prologue in H. cbv zeta in H. bind_inv H p Ep.
  assert (P : static s (s <| st_p := p |>) /\ p_calib p = p_calib (st_p s)).
  { destruct (p_sft (st_p s)); [bind_inv Ep fr Ef; apply Ok_inj in Ep; subst p|apply Ok_inj in Ep; subst p]; repeat split. }
  destruct P as [P C]. destruct (p_calib p) eqn:Ec.
  - bind_inv H q Eq1. destruct q as [s2 v2]. apply Ok_inj, pair_equal_spec in H as [<- _]. apply calibrate_static in Eq1 as [S _].
    split; [|reflexivity]. eapply static_trans; [exact P|]. eapply static_trans; [exact S|]. repeat split.
  - apply Ok_inj, pair_equal_spec in H as [<- _]. split; assumption.
Qed.
Lemma runs_static : forall u s a xs s' a', runs u s a xs s' a' -> static s s' /\ p_calib (st_p s') = p_calib (st_p s).
Proof.
  intros u s a xs s' a' H. induction H as [|s a s1 a1 xs s2 a2 Hs Hr IH]; [repeat split|].
  destruct (substep_inv _ _ _ _ _ Hs) as (volstart & b & volend & mbl & precip & pet & prate & petr & _ & _ & _ & _ & _ & _ & _ & _ & _ & Es & _).
  destruct IH as [IH1 IH2]. split.
  - eapply static_trans; [|exact IH1]. subst s1. repeat split.
  - rewrite IH2. subst s1. reflexivity.
Qed.
Lemma Update_static : forall s s', Update s = Ok s' -> static s s' /\
  (if p_invalid (st_p s) then p_nfronts (st_p s') = p_nfronts (st_p s) /\ p_theta_wf (st_p s') = p_theta_wf (st_p s) /\ p_depth_wf (st_p s') = p_depth_wf (st_p s) /\ p_calib (st_p s') = p_calib (st_p s)
   else p_nfronts (st_p s') = Z.of_nat (length (p_theta_wf (st_p s'))) /\ p_nfronts (st_p s') = Z.of_nat (length (p_depth_wf (st_p s'))) /\ p_calib (st_p s') = false).
Proof.
  intros s s' H. destruct (p_invalid (st_p s)) eqn:Hv.
  - unfold Update in H. rewrite Hv in H. apply Ok_inj in H. subst s'. repeat split.
  - destruct (Update_inv _ _ Hv H) as (s1 & vcal & volend & s2 & dt & n & s3 & a & E1' & E2' & E3' & E4' & E5' & E6' & E7').
    destruct (prologue_static _ _ _ E1') as [S1 C1]. apply steps_inv in E5' as (_ & _ & E5'). destruct (loop_runs _ _ _ _ _ _ E6') as (xs & Hr & _).
    destruct (runs_static _ _ _ _ _ _ Hr) as [S3 C3]. apply finish_inv in E7' as (g & q & mbl & EG & _ & EQ).
    split.
    + eapply static_trans; [exact S1|]. eapply static_trans; [|eapply static_trans; [exact S3|]]; [subst s2|subst s']; repeat split.
    + subst s'. cbn [st_p p_nfronts p_theta_wf p_depth_wf].
      match goal with |- ?A /\ ?B /\ ?C => change (listLength (st_head s3) = Z.of_nat (length (map f_theta (st_head s3))) /\
        listLength (st_head s3) = Z.of_nat (length (map (fun f => f_depth f * cm_to_m)%d (st_head s3))) /\ p_calib (st_p s3) = false) end.
      rewrite !map_length. split; [reflexivity|]. split; [reflexivity|]. rewrite C3. subst s2. exact C1.
Qed.

Lemma UpdateUntil_Update : forall t s s', UpdateUntil t s = Ok s' -> Update s = Ok s'.
Proof. intros t s s' H. unfold UpdateUntil in H. bind_inv H w Ew. exact H. Qed.

(** ** The arrays keep their sizes *)
Lemma update_arrays : forall o s', arrays_ok o -> Update (ob_s o) = Ok s' -> arrays_ok (mkObj s' (ob_pre o)).
Proof.
  intros o s' A H. destruct (Update_static _ _ H) as [(S1 & S2 & S3 & S4 & _ & _ & S5 & _) F]. destruct A. destruct (p_invalid (st_p (ob_s o))).
  - destruct F as (F1 & F2 & F3 & _). constructor; cbn [ob_s ob_pre]; congruence.
  - destruct F as (F1 & F2 & _). constructor; cbn [ob_s ob_pre]; congruence.
Qed.

Lemma load_length : forall ix o l v o' l', good_loc l -> good_loc l' -> wf o -> store o l ix v = Ok o' -> length (load o' l') = length (load o l').
Proof.
  intros ix o l v o' l' G G' W H. destruct (store_spec _ _ _ _ _ G W H) as (_ & _ & _ & _ & M & Fr & _).
  destruct (loc_dec l' l) as [->|D]; [apply M|rewrite Fr by assumption; reflexivity].
Qed.
Lemma store_arrays : forall ix o l v o', good_loc l -> l <> LNum -> arrays_ok o -> store o l ix v = Ok o' -> arrays_ok o'.
Proof.
  intros ix o l v o' G D A H. assert (W : wf o) by apply A.
  destruct (store_spec _ _ _ _ _ G W H) as (W' & _ & _ & _ & _ & _ & N & C & F & _). specialize (F D).
  assert (LL : forall l', good_loc l' -> length (load o' l') = length (load o l')) by (intros l' G'; exact (load_length _ _ _ _ _ _ G G' W H)).
  assert (L2 : forall l' a a', good_loc l' -> load o l' = doubles a -> load o' l' = doubles a' -> length a' = length a).
  { intros l' a a' G' Ea1 Ea2. specialize (LL l' G'). rewrite Ea1, Ea2 in LL. unfold doubles in LL. rewrite !map_length in LL. exact LL. }
  destruct A. constructor; rewrite ?N, ?C, ?F; auto.
  - rewrite (L2 LCum _ _ Logic.I eq_refl eq_refl). assumption.
  - rewrite (L2 LTemp _ _ Logic.I eq_refl eq_refl). assumption.
  - rewrite (L2 LTheta _ _ Logic.I eq_refl eq_refl). assumption.
  - rewrite (L2 LDepth _ _ Logic.I eq_refl eq_refl). assumption.
  - rewrite (L2 LThetaE _ _ Logic.I eq_refl eq_refl). assumption.
  - rewrite (L2 LThetaR _ _ Logic.I eq_refl eq_refl). assumption.
  - rewrite (L2 LN _ _ Logic.I eq_refl eq_refl). assumption.
  - rewrite (L2 LAlpha _ _ Logic.I eq_refl eq_refl). assumption.
  - rewrite (L2 LKsat _ _ Logic.I eq_refl eq_refl). assumption.
Qed.

(** A call that writes is a store. *)
Lemma call_cases : forall c o o', do_call c o = Ok o' ->
  (exists s', (c = CUpdate \/ exists t, c = CUntil t) /\ Update (ob_s o) = Ok s' /\ o' = mkObj s' (ob_pre o)) \/ o' = o \/
  exists name l ix v, sets c = Some name /\ GetValuePtr name = Ok l /\ store o l ix v = Ok o'.
Proof.
  intros c o o' H. destruct c as [|t|name|name inds|name v|name inds v]; cbn [do_call] in H.
  - left. unfold bmi_Update in H. bind_inv H s' Es. apply Ok_inj in H. exists s'. auto.
  - left. unfold bmi_UpdateUntil in H. bind_inv H s' Es. apply Ok_inj in H. exists s'. split; [eauto|]. split; [eapply UpdateUntil_Update; eassumption|auto].
  - right; left. bind_inv H x Ex. apply Ok_inj in H. auto.
  - right; left. bind_inv H x Ex. apply Ok_inj in H. auto.
  - right; right. destruct (set_store _ _ _ _ H) as (l & El & _ & S). exists name, l, (all_ix (Z.to_nat (loc_cells l o))), v. auto.
  - right; right. destruct (setat_store _ _ _ _ _ H) as (l & El & S). exists name, l, inds, v. auto.
Qed.

Lemma call_arrays : forall c o o', arrays_ok o -> sets c <> Some "soil_num_wetting_fronts" -> do_call c o = Ok o' -> arrays_ok o'.
Proof.
  intros c o o' A D H. destruct (call_cases _ _ _ H) as [(s' & _ & E & ->)|[->|(name & l & ix & v & Es & El & S)]]; [apply update_arrays; assumption|assumption|].
  eapply store_arrays; [eapply ptr_good; exact El| |exact A|exact S]. intros ->. apply name_of_ptr in El. subst name. apply D. exact Es.
Qed.
Theorem calls_arrays : forall cs o o', arrays_ok o -> Forall (fun c => sets c <> Some "soil_num_wetting_fronts") cs -> do_calls cs o = Ok o' -> arrays_ok o'.
Proof.
  intros cs. induction cs as [|c cs IH]; intros o o' A F H; cbn [do_calls] in H; [apply Ok_inj in H; subst; assumption|].
  bind_inv H o1 E1'. inversion_clear F. eapply IH; [eapply call_arrays; eassumption|assumption|exact H].
Qed.

(** ** Call sequences are simulations *)
Lemma call_history : forall s0 xs c o o', wf o -> sets c <> Some "soil_depth_layers" -> do_call c o = Ok o' -> history (fun _ => True) s0 xs (ob_s o) ->
  exists ys, history (fun _ => True) s0 (xs ++ ys) (ob_s o').
Proof.
  intros s0 xs c o o' W D H Hh. destruct (call_cases _ _ _ H) as [(s' & _ & E & ->)|[->|(name & l & ix & v & Es & El & S)]].
  - destruct (executed_exists _ _ E) as (u & ys & Hx). exists ys. cbn [ob_s]. eapply hist_update; eassumption.
  - exists []. rewrite app_nil_r. assumption.
  - exists []. rewrite app_nil_r. destruct (store_spec _ _ _ _ _ (ptr_good _ _ El) W S) as (_ & _ & _ & _ & _ & _ & _ & _ & _ & U).
    eapply hist_edit; [exact Hh| |exact Logic.I]. apply U. intros ->. apply name_of_ptr in El. subst name. apply D. exact Es.
Qed.
Lemma call_wf : forall c o o', wf o -> do_call c o = Ok o' -> wf o'.
Proof.
  intros c o o' W H. destruct (call_cases _ _ _ H) as [(s' & _ & E & ->)|[->|(name & l & ix & v & Es & El & S)]]; auto.
  apply (store_spec _ _ _ _ _ (ptr_good _ _ El) W S).
Qed.
Theorem calls_history : forall cs o o', wf o -> Forall (fun c => sets c <> Some "soil_depth_layers") cs -> do_calls cs o = Ok o' ->
  exists xs, history (fun _ => True) (ob_s o) xs (ob_s o').
Proof.
  intros cs o o' W F H.
  assert (G : forall cs s0 xs o, wf o -> Forall (fun c => sets c <> Some "soil_depth_layers") cs -> do_calls cs o = Ok o' -> history (fun _ => True) s0 xs (ob_s o) ->
    exists ys, history (fun _ => True) s0 ys (ob_s o')).
  { clear. induction cs as [|c cs IH]; intros s0 xs o W F H Hh; cbn [do_calls] in H; [apply Ok_inj in H; subst; eauto|].
    bind_inv H o1 E1'. inversion_clear F. destruct (call_history s0 xs c o o1) as [ys Hy]; auto. eapply IH; [eapply call_wf; eassumption|assumption|exact H|exact Hy]. }
  eapply G; eauto. constructor.
Qed.

End Run.

(** ** C16 *)

Lemma Forall2_length : forall (A B : Type) (P : A -> B -> Prop) a b, Forall2 P a b -> length a = length b.
Proof. induction 1; cbn; congruence. Qed.

Lemma fetched_nth : forall (m : list (option item)) k r, Forall2 (fun i x => at_pos m i = Some (Some x)) (map Z.of_nat (seq k (length r))) r -> forall j, (j < length r)%nat ->
  exists x, nth_error r j = Some x /\ at_pos m (Z.of_nat (k + j)) = Some (Some x).
Proof.
  intros m k r. revert k. induction r as [|x r IH]; intros k R j Hj; cbn in Hj; [lia|]. cbn [length seq map] in R. inversion R as [|? ? ? ? R1 R2]; subst.
  destruct j as [|j]; [exists x; rewrite Nat.add_0_r; auto|]. destruct (IH (S k) R2 j) as (y & Y1 & Y2); [lia|]. exists y. split; [exact Y1|].
  replace (k + S j)%nat with (S k + j)%nat by lia. exact Y2.
Qed.

Lemma get_at : forall name inds o v, arrays_ok o -> GetValue name o = Ok v ->
  (Forall (fun i => 0 <= i < Z.of_nat (length v)) inds -> exists xs, GetValueAtIndices name inds o = Ok xs /\ Forall2 (fun i x => at_pos v i = Some x) inds xs) /\
  (forall xs, GetValueAtIndices name inds o = Ok xs -> Forall (fun i => 0 <= i < Z.of_nat (length v) + (if String.eqb name "soil_depth_layers" then 1 else 0)) inds).
Proof.
  intros name inds o v A H. destruct (known_dec name) as [K|K]; [|rewrite GetValue_unknown in H by assumption; discriminate].
  destruct (ptr_known _ K) as [l El]. pose proof (ptr_good _ _ El) as G. destruct (arrays_cells _ _ A G) as [C1 C2].
  rewrite (GetValue_eq _ _ _ El) in H. destruct (Z.ltb_spec (loc_cells l o) 0); [lia|]. rewrite (GetAt_eq _ _ _ _ El).
  apply fetch_spec in H.
  assert (Lv : length v = Z.to_nat (loc_cells l o)) by (rewrite <- (Forall2_length _ _ _ _ _ H), all_ix_length; reflexivity).
  assert (P : forall i, 0 <= i < Z.of_nat (length v) -> exists x, at_pos v i = Some x /\ at_pos (load o l) i = Some (Some x)).
  { rewrite <- Lv in H. 
    intros i Hi. destruct (fetched_nth _ 0%nat v H (Z.to_nat i)) as (x & X1 & X2); [lia|]. exists x. replace (Z.of_nat (0 + Z.to_nat i)) with i in X2 by lia. split; [|exact X2].
    unfold at_pos. destruct (Z.ltb_spec i 0); [lia|exact X1]. }
  split.
  - intros F. induction F as [|i inds Hi F IH]; [exists []; split; [reflexivity|constructor]|]. destruct IH as (xs & X1 & X2). destruct (P i Hi) as (x & Y1 & Y2).
    exists (x :: xs). split; [|constructor; assumption]. apply fetch_spec. constructor; [assumption|]. apply fetch_spec. assumption.
  - intros xs Hx. apply fetch_spec in Hx. assert (E : (if String.eqb name "soil_depth_layers" then 1 else 0) = match l with LCum => 1 | _ => 0 end).
    { rewrite (name_of_ptr _ _ El). destruct l; try reflexivity. do 11 (destruct i as [|i]; [reflexivity|]). reflexivity. }
    rewrite E. rewrite Lv. rewrite Z2Nat.id by assumption. rewrite <- C2. clear - Hx. induction Hx; constructor; auto. eapply at_pos_in; eassumption.
Qed.

Lemma set_at : forall name inds w o o' v, arrays_ok o -> GetValue name o = Ok v -> SetValueAtIndices name inds w o = Ok o' ->
  exists v', GetValue name o' = Ok v' /\ length v' = length v /\
    forall j, 0 <= j < Z.of_nat (length v) -> at_pos v' j = match last_write inds w j with Some x => Some x | None => at_pos v j end.
Proof.
  intros name inds w o o' v A H S. destruct (setat_store _ _ _ _ _ S) as (l & El & St). pose proof (ptr_good _ _ El) as G. assert (W : wf o) by apply A.
  destruct (arrays_cells _ _ A G) as [C1 C2].
  rewrite (GetValue_eq _ _ _ El) in H. destruct (Z.ltb_spec (loc_cells l o) 0); [lia|].
  rewrite (GetValue_eq _ _ _ El). rewrite (cells_kept _ _ _ _ _ l G W St) by (intros ->; split; discriminate). destruct (Z.ltb_spec (loc_cells l o) 0); [lia|].
  destruct (store_spec _ _ _ _ _ G W St) as (_ & _ & _ & _ & [M1 M2] & _).
  assert (Ln : (Z.to_nat (loc_cells l o) <= length (load o l))%nat) by (destruct l; lia).
  set (n := Z.to_nat (loc_cells l o)) in *. clearbody n. apply fetch_spec in H.
  assert (Lv : length v = n) by (rewrite <- (Forall2_length _ _ _ _ _ H), all_ix_length; reflexivity).
  assert (X : exists v', fetch (load o' l) (all_ix n) = Ok v').
  { assert (X : forall ix, (forall i, In i ix -> 0 <= i < Z.of_nat n) -> exists v', fetch (load o' l) ix = Ok v').
    { induction ix as [|i ix IH]; intros Hi; [exists []; reflexivity|]. destruct IH as [r Er]; [intros; apply Hi; right; assumption|].
      assert (I1 : 0 <= i < Z.of_nat n) by (apply Hi; left; reflexivity).
      assert (exists x, at_pos (load o' l) i = Some (Some x)) as [x Ex].
      { rewrite M2 by lia. destruct (last_write inds w i); [eauto|]. rewrite <- Lv in H. destruct (fetched_nth _ 0%nat v H (Z.to_nat i)) as (x & _ & X2); [lia|].
        replace (Z.of_nat (0 + Z.to_nat i)) with i in X2 by lia. eauto. }
      exists (x :: r). apply fetch_spec. constructor; [assumption|apply fetch_spec; assumption]. }
    apply X. intros i. apply all_ix_in. }
  destruct X as [v' Ev']. exists v'. split; [assumption|]. apply fetch_spec in Ev'.
  assert (Lv' : length v' = n) by (rewrite <- (Forall2_length _ _ _ _ _ Ev'), all_ix_length; reflexivity).
  split; [congruence|]. intros j Hj. rewrite <- Lv in H. rewrite <- Lv' in Ev'.
  destruct (fetched_nth _ 0%nat v H (Z.to_nat j)) as (x & X1 & X2); [lia|]. destruct (fetched_nth _ 0%nat v' Ev' (Z.to_nat j)) as (y & Y1 & Y2); [lia|].
  replace (Z.of_nat (0 + Z.to_nat j)) with j in X2, Y2 by lia. rewrite M2 in Y2 by lia.
  assert (Py : at_pos v' j = Some y) by (unfold at_pos; destruct (Z.ltb_spec j 0); [lia|exact Y1]).
  assert (Px : at_pos v j = Some x) by (unfold at_pos; destruct (Z.ltb_spec j 0); [lia|exact X1]).
  rewrite Py, Px. rewrite X2 in Y2. destruct (last_write inds w j); congruence.
Qed.

Lemma set_at_ok : forall name inds w o, arrays_ok o -> In name known_names ->
  (exists o', SetValueAtIndices name inds w o = Ok o') <->
  Forall (fun i => 0 <= i < GetGridSize (GetVarGrid name) o + (if String.eqb name "soil_depth_layers" then 1 else 0)) inds /\
  (length inds <= length w)%nat /\ Forall (typed (GetVarType name)) (firstn (length inds) w).
Proof.
  intros name inds w o A K. destruct (ptr_known _ K) as [l El]. pose proof (ptr_good _ _ El) as G. assert (W : wf o) by apply A. rewrite (ptr_cells _ _ _ El).
  assert (E : (if String.eqb name "soil_depth_layers" then 1 else 0) = match l with LCum => 1 | _ => 0 end).
  { rewrite (name_of_ptr _ _ El). destruct l; try reflexivity. do 11 (destruct i as [|i]; [reflexivity|]). reflexivity. }
  rewrite E. destruct (arrays_cells _ _ A G) as [C1 C2]. rewrite <- C2. rewrite (SetAt_eq _ _ _ _ _ El). split.
  - intros [o' H]. destruct (store_spec _ _ _ _ _ G W H) as (_ & L & B & T & _). split; [assumption|]. split; [assumption|].
    eapply Forall_impl; [|exact T]. intros x. apply (fits_typed _ _ x El).
  - intros (B & L & T). apply store_ok; auto. eapply Forall_impl; [|exact T]. intros x. apply (fits_typed _ _ x El).
Qed.

(** ** C20 *)
Lemma depth_layers : forall o ts, p_cum (st_p (ob_s o)) = map Fin (boundaries 0 ts) -> p_nlayers (st_p (ob_s o)) = Z.of_nat (length ts) ->
  GetValue "soil_depth_layers" o = Ok (map (fun z => D (Fin z)) (firstn (length ts) (boundaries 0 ts))).
Proof.
  intros o ts H N. rewrite (GetValue_eq "soil_depth_layers" LCum _ eq_refl). cbn [loc_cells]. rewrite N. destruct (Z.ltb_spec (Z.of_nat (length ts)) 0); [lia|].
  rewrite Nat2Z.id. unfold load. cbv zeta. rewrite H.
  assert (Lb : forall z, length (boundaries z ts) = S (length ts)). { clear. induction ts as [|t ts IH]; intro z; cbn; [reflexivity|]. rewrite IH. reflexivity. }
  specialize (Lb 0%R). assert (Ln : (length ts <= length (boundaries 0 ts))%nat) by lia. set (bs := boundaries 0 ts) in *. clearbody bs. set (n := length ts) in *. clearbody n. clear - Ln.
  apply fetch_spec. unfold all_ix. unfold doubles. rewrite map_map.
  assert (Q : forall k j, (k + j <= length bs)%nat -> Forall2 (fun i x => at_pos (map (fun z => Some (D (Fin z))) bs) i = Some (Some x)) (map Z.of_nat (seq k j)) (map (fun z => D (Fin z)) (firstn j (skipn k bs)))).
  { intros k j. revert k. induction j as [|j IH]; intros k Hk; cbn [seq map firstn]; [constructor|].
    destruct (nth_error bs k) as [x|] eqn:N; [|apply nth_error_None in N; lia].
    assert (Sk : skipn k bs = x :: skipn (S k) bs). { clear - N. revert k N. induction bs as [|b bs IH]; intros [|k] N; cbn in *; try discriminate; [congruence|]. rewrite (IH _ N). reflexivity. }
    rewrite Sk. cbn [firstn map]. constructor; [|apply IH; lia]. unfold at_pos. destruct (Z.ltb_spec (Z.of_nat k) 0); [lia|]. rewrite Nat2Z.id. rewrite nth_error_map, N. reflexivity. }
  apply (Q 0%nat n). lia.
Qed.

Lemma depth_layers_wrong : forall o ts v, p_cum (st_p (ob_s o)) = map Fin (boundaries 0 ts) -> p_nlayers (st_p (ob_s o)) = Z.of_nat (length ts) ->
  Forall (Rlt 0) ts -> ts <> [] -> GetValue "soil_depth_layers" o = Ok v ->
  v <> map (fun z => D (Fin (z / 100))) (skipn 1 (boundaries 0 ts)) /\ v <> map (fun z => D (Fin z)) (skipn 1 (boundaries 0 ts)).
Proof.
  intros o ts v H N P Ne E. rewrite (depth_layers _ _ H N) in E. apply Ok_inj in E. subst v. destruct ts as [|t ts]; [congruence|].
  inversion_clear P as [|? ? P1 _]. cbn [boundaries length firstn skipn map].
  destruct ts; cbn [boundaries firstn map]; split; intro X; injection X as X; lra.
Qed.

(** ** Statements on names *)
Lemma names_resolve : forall o name, arrays_ok o -> In name known_names ->
  0 <= GetVarGrid name <= 4 /\ GetVarType name <> "none" /\ 0 < GetVarItemsize name /\
  exists l, GetValuePtr name = Ok l /\
    GetVarNbytes name o = GetVarItemsize name * (Z.of_nat (length (load o l)) - (if String.eqb name "soil_depth_layers" then 1 else 0)) /\
    (forall j x, at_pos (load o l) j = Some (Some x) -> typed (GetVarType name) x) /\
    (forall name', GetValuePtr name' = Ok l -> name' = name).
Proof.
  intros o name A K. destruct (ptr_known _ K) as [l El]. pose proof (ptr_good _ _ El) as G. split; [eapply ptr_grid; exact El|].
  split; [rewrite (ptr_type _ _ El); destruct l; discriminate|]. split; [rewrite (ptr_size _ _ El); apply size_pos|].
  exists l. split; [assumption|]. split.
  - unfold GetVarNbytes. rewrite (ptr_cells _ _ _ El). f_equal. destruct (arrays_cells _ _ A G) as [_ C2]. rewrite C2.
    assert (E : (if String.eqb name "soil_depth_layers" then 1 else 0) = match l with LCum => 1 | _ => 0 end).
    { rewrite (name_of_ptr _ _ El). destruct l; try reflexivity. do 11 (destruct i as [|i]; [reflexivity|]). reflexivity. }
    rewrite E. lia.
  - split; [intros j x P; eapply ptr_load_typed; eassumption|]. intros name' H. eapply ptr_injective; eassumption.
Qed.

Lemma any_set_frame : forall name name' v o o', length (ob_pre o) = 11%nat ->
  (SetValue name v o = Ok o' \/ exists inds, SetValueAtIndices name inds v o = Ok o') -> name' <> name ->
  ~ (name = "soil_num_wetting_fronts" /\ In name' ["soil_moisture_wetting_fronts"; "soil_depth_wetting_fronts"]) ->
  GetValue name' o' = GetValue name' o /\ forall inds, GetValueAtIndices name' inds o' = GetValueAtIndices name' inds o.
Proof. intros name name' v o o' W [H|[inds H]] D X; [eapply set_frame|eapply setat_frame]; eassumption. Qed.

Lemma unknown_names : forall name, ~ In name known_names -> ~ In name ghost_names ->
  GetVarGrid name = -1 /\ GetVarType name = "none" /\ GetVarItemsize name = 0 /\ GetVarUnits name = "none" /\ GetVarLocation name = "none" /\
  GetValuePtr name = Stop Throw /\
  forall o inds v, GetValue name o = Stop Throw /\ GetValueAtIndices name inds o = Stop Throw /\ SetValue name v o = Stop Throw /\
    SetValueAtIndices name inds v o = Stop Throw.
Proof.
  intros name K G.
  assert (N : forall n, In n (known_names ++ ghost_names) -> String.eqb name n = false).
  { intros n Hn. apply String.eqb_neq. intros ->. apply in_app_or in Hn as [Hn|Hn]; contradiction. }
  assert (E : GetVarGrid name = -1).
  { unfold GetVarGrid. repeat match goal with |- context [String.eqb name ?b] => rewrite (N b) by (unfold known_names, ghost_names; cbn; tauto) end. reflexivity. }
  split; [assumption|]. split; [unfold GetVarType; rewrite E; reflexivity|]. split; [unfold GetVarItemsize; rewrite E; reflexivity|].
  split; [unfold GetVarUnits; repeat match goal with |- context [String.eqb name ?b] => rewrite (N b) by (unfold known_names, ghost_names; cbn; tauto) end; reflexivity|].
  split; [unfold GetVarLocation; repeat match goal with |- context [String.eqb name ?b] => rewrite (N b) by (unfold known_names, ghost_names; cbn; tauto) end; reflexivity|].
  split; [apply ptr_unknown; assumption|]. intros o inds v.
  split; [apply GetValue_unknown; assumption|]. split; [apply GetAt_unknown; assumption|]. split; [apply SetValue_unknown; assumption|]. apply SetAt_unknown; assumption.
Qed.

Lemma ghosts : forall name, In name ["soil_storage_model"; "van_genuchten_m"] ->
  0 <= GetVarGrid name /\ GetVarType name <> "none" /\ 0 < GetVarItemsize name /\ forall o, GetValue name o = Stop Throw.
Proof. intros name [<-|[<-|[]]]; (split; [discriminate|]; split; [discriminate|]; split; [reflexivity|]; intro o; reflexivity). Qed.

Lemma fetch_total : forall m ix, Forall (fun i => 0 <= i < Z.of_nat (length m)) ix ->
  (exists v, fetch m ix = Ok v) \/ (exists i, In i ix /\ at_pos m i = Some None) /\ fetch m ix = Stop (UB Uninit).
Proof.
  intros m ix F. induction F as [|i ix Hi F IH]; [left; exists []; reflexivity|]. cbn [fetch].
  destruct (at_pos_some _ m i Hi) as [[x|] Ex].
  - pose proof (proj2 (uget_pos _ m i x) Ex) as U. rewrite U. cbn [bind]. destruct IH as [[v Ev]|[(j & Ij & Pj) E]].
    + left. rewrite Ev. eexists. reflexivity.
    + right. split; [exists j; split; [right|]; assumption|]. rewrite E. reflexivity.
  - right. split; [exists i; split; [left; reflexivity|assumption]|]. unfold uget, aget. unfold at_pos in Ex. destruct (i <? 0); [discriminate|]. rewrite Ex. reflexivity.
Qed.

Lemma grids_have_values : forall name o, ~ In name ["soil_storage_model"; "van_genuchten_m"] -> arrays_ok o -> 0 <= GetVarGrid name ->
  (exists v, GetValue name o = Ok v /\ Z.of_nat (length v) = GetGridSize (GetVarGrid name) o) \/
  (st_out (ob_s o) = None /\ GetValue name o = Stop (UB Uninit)).
Proof.
  intros name o G A H. destruct (known_dec name) as [K|K]; [|pose proof (unknown_names _ K G) as [E _]; lia].
  destruct (ptr_known _ K) as [l El]. rewrite (ptr_cells _ _ _ El). pose proof (ptr_good _ _ El) as Gl. destruct (arrays_cells _ _ A Gl) as [C1 C2].
  rewrite (GetValue_eq _ _ _ El). destruct (Z.ltb_spec (loc_cells l o) 0); [lia|].
  destruct (fetch_total (load o l) (all_ix (Z.to_nat (loc_cells l o)))) as [[v Ev]|[(i & Ii & Pi) E]].
  - apply Forall_forall. intros i Hi. apply all_ix_in in Hi. destruct l; lia.
  - left. exists v. split; [assumption|]. apply fetch_spec in Ev. rewrite <- (Forall2_length _ _ _ _ _ Ev), all_ix_length. lia.
  - right. split; [|assumption].
    assert (D1 : forall a, at_pos (doubles a) i <> Some None).
    { intros a Q. unfold at_pos, doubles in Q. destruct (i <? 0); [discriminate|]. rewrite nth_error_map in Q. destruct (nth_error a _); discriminate. }
    destruct l; unfold load in Pi; cbv zeta in Pi; try (exfalso; exact (D1 _ Pi)).
    + destruct (st_out (ob_s o)); [|reflexivity]. exfalso. destruct (nth_error _ _); [exact (D1 _ Pi)|]. unfold at_pos in Pi. destruct (i <? 0); [discriminate|]. destruct (Z.to_nat i); discriminate.
    + exfalso. unfold at_pos in Pi. destruct (i <? 0); [discriminate|]. destruct (Z.to_nat i) as [|[|?]]; discriminate.
Qed.
