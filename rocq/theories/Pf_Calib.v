(** Lemmas on the calibration parameters. *)

From Coq Require Import String Reals Lra ZArith List Bool Lia.
From RecordUpdate Require Import RecordSet.
From Verif Require Import Outcome Dbl Types ListOps Soil Fronts State Update Bmi Lib Spec_Common Spec_Column Spec_Update Spec_Profile Spec_Bmi Spec_Calib
  Pf_Update Pf_Bmi Pf_BmiMem Pf_BmiRun Pf_Structure.
Import ListNotations.
Import RecordSetNotations.
Open Scope string_scope.
Open Scope Z_scope.
Open Scope list_scope.

Section Calib.
Context {fp : Fp} {cfg : Cfg}.

(** ** Without the flag the values do not matter *)

Lemma omap_bind : forall (A B C : Type) (f : B -> C) (m : outcome A) (k : A -> outcome B), omap f (bind m k) = bind m (fun x => omap f (k x)).
Proof. intros A B C f [x|r] k; reflexivity. Qed.
Lemma bind_omap : forall (A B C : Type) (f : A -> B) (m : outcome A) (k : B -> outcome C), bind (omap f m) k = bind m (fun x => k (f x)).
Proof. intros A B C f [x|r] k; reflexivity. Qed.
Lemma bind_ext : forall (A B : Type) (m : outcome A) (k k' : A -> outcome B), (forall x, m = Ok x -> k x = k' x) -> bind m k = bind m k'.
Proof. intros A B [x|r] k k' H; cbn; auto. Qed.

Lemma substep_recal : forall c u s a, substep u (recal c s) a = omap (fun x => (recal c (fst x), snd x)) (substep u s a).
Proof.
  intros c u s a. unfold substep. cbv zeta.
  change (st_p (recal c s)) with (st_p s). change (st_head (recal c s)) with (st_head s). change (st_precip (recal c s)) with (st_precip s).
  change (st_pet (recal c s)) with (st_pet s). change (st_mb (recal c s)) with (st_mb s).
  rewrite omap_bind. apply bind_ext. intros v0 _. rewrite omap_bind. apply bind_ext. intros b _. rewrite omap_bind. apply bind_ext. intros v1 _.
  destruct (dgtb _ _); [reflexivity|]. rewrite omap_bind. apply bind_ext. intros h _. rewrite omap_bind. apply bind_ext. intros w _. reflexivity.
Qed.
Lemma loop_recal : forall c k u s a, subcycle_loop k u (recal c s) a = omap (fun x => (recal c (fst x), snd x)) (subcycle_loop k u s a).
Proof.
  intros c k. induction k as [|k IH]; intros u s a; [reflexivity|]. cbn [subcycle_loop]. rewrite substep_recal, bind_omap, omap_bind. apply bind_ext.
  intros [s' a'] _. cbn [fst snd]. change (st_p (recal c s')) with (st_p s'). destruct (_ && _)%bool; [reflexivity|]. apply IH.
Qed.
Lemma finish_recal : forall c s a v, finish_update (recal c s) a v = omap (recal c) (finish_update s a v).
Proof.
  intros c s a v. unfold finish_update. change (g_N (recal c s)) with (g_N s). change (g_ord (recal c s)) with (g_ord s). change (g_queue (recal c s)) with (g_queue s).
  change (st_mb (recal c s)) with (st_mb s). rewrite omap_bind. apply bind_ext. intros [g q] _. destruct (mb_local (st_mb s)); reflexivity.
Qed.
Lemma steps_recal : forall c s, update_steps (recal c s) = omap (fun x => (recal c (fst (fst x)), snd (fst x), snd x)) (update_steps s).
Proof.
  intros c s. unfold update_steps. cbv zeta. change (st_p (recal c s)) with (st_p s). change (st_precip (recal c s)) with (st_precip s). change (st_mb (recal c s)) with (st_mb s).
  rewrite omap_bind. apply bind_ext. intros n _. reflexivity.
Qed.
Lemma prologue_recal : forall c s, p_calib (st_p s) = false -> update_prologue (recal c s) = omap (fun x => (recal c (fst x), snd x)) (update_prologue s).
Proof.
  intros c s H. unfold update_prologue. cbv zeta. change (st_p (recal c s)) with (st_p s). rewrite omap_bind. apply bind_ext. intros p Hp.
  assert (E : p_calib p = false). { destruct (p_sft (st_p s)); [bind_inv Hp fr Ef; apply Ok_inj in Hp; subst p; exact H|apply Ok_inj in Hp; subst p; exact H]. }
  rewrite E. reflexivity.
Qed.

Theorem update_recal : forall c s, p_calib (st_p s) = false \/ p_invalid (st_p s) = true -> Update (recal c s) = omap (recal c) (Update s).
Proof.
  intros c s H. unfold Update. change (st_p (recal c s)) with (st_p s). destruct (p_invalid (st_p s)); [reflexivity|]. destruct H as [H|H]; [|discriminate].
  rewrite prologue_recal by assumption. rewrite bind_omap, omap_bind. apply bind_ext. intros [s1 v] _. cbn [fst snd].
  change (st_p (recal c s1)) with (st_p s1). change (st_head (recal c s1)) with (st_head s1). change (st_precip (recal c s1)) with (st_precip s1). change (st_pet (recal c s1)) with (st_pet s1).
  rewrite omap_bind. apply bind_ext. intros w _. rewrite omap_bind. apply bind_ext. intros w2 _. rewrite omap_bind. apply bind_ext. intros w3 _.
  rewrite steps_recal, bind_omap, omap_bind. apply bind_ext. intros [[s2 dt] n] _. cbn [fst snd].
  change (st_p (recal c s2)) with (st_p s2). change (env_of (recal c s2)) with (env_of s2). change (st_mb (recal c s2)) with (st_mb s2). cbv zeta.
  rewrite loop_recal, bind_omap, omap_bind. apply bind_ext. intros [s3 a] _. cbn [fst snd]. apply finish_recal.
Qed.

(** The flag is consumed. *)
Lemma flag_kept : forall s s', Update s = Ok s' -> p_calib (st_p s) = false \/ p_invalid (st_p s) = true -> p_calib (st_p s') = false \/ p_invalid (st_p s') = true.
Proof.
  intros s s' H F. destruct (Update_static _ _ H) as [S K]. assert (p_invalid (st_p s') = p_invalid (st_p s)) by apply S.
  destruct (p_invalid (st_p s)) eqn:E; [auto|]. left. apply K.
Qed.
Lemma flag_consumed : forall s s', Update s = Ok s' -> p_calib (st_p s') = false \/ p_invalid (st_p s') = true.
Proof.
  intros s s' H. destruct (Update_static _ _ H) as [S K]. assert (p_invalid (st_p s') = p_invalid (st_p s)) by apply S.
  destruct (p_invalid (st_p s)) eqn:E; [auto|]. left. apply K.
Qed.

(** *** Sequences of calls *)
Definition calib_loc (l : loc) : bool := match l with LThetaE | LThetaR | LN | LAlpha | LKsat | LPmax | LFc => true | _ => false end.
Lemma about_loc : forall n l, GetValuePtr n = Ok l -> existsb (String.eqb n) calib_var_names = calib_loc l.
Proof. intros n l H. pose proof (ptr_inv _ _ H) as K. names K; cbv in H; apply Ok_inj in H; subst l; reflexivity. Qed.

(** Objects that differ in the calibration values at most. *)
Definition alike_obj (o o' : obj) : Prop := ob_pre o' = ob_pre o /\ ob_s o' = recal (st_cal (ob_s o')) (ob_s o).
Lemma alike_refl : forall o, alike_obj o o.
Proof. intros [[] ?]. split; reflexivity. Qed.
Lemma alike_load : forall o o' l, alike_obj o o' -> calib_loc l = false -> load o' l = load o l.
Proof. intros o o' l [P S] C. unfold load. cbv zeta. rewrite P, S. destruct l; try discriminate; reflexivity. Qed.
Lemma alike_cells : forall o o' l, alike_obj o o' -> loc_cells l o' = loc_cells l o.
Proof. intros o o' l [P S]. unfold loc_cells. rewrite S. reflexivity. Qed.

Lemma poke_alike : forall o o' l i x o1', alike_obj o o' -> calib_loc l = false -> poke o' l i x = Ok o1' -> exists o1, poke o l i x = Ok o1 /\ alike_obj o1 o1'.
Proof.
  intros o o' l i x o1' [P S] C H. destruct o as [s pre], o' as [s' pre']. cbn [ob_s ob_pre] in P, S. subst pre'. set (c := st_cal s') in *. clearbody c. subst s'.
  destruct l; try discriminate; destruct x as [z|d]; cbn [poke] in H |- *; try discriminate; unfold poke_dbl in H |- *; cbv zeta in H |- *; cbn [ob_s ob_pre] in H |- *.
  all: try (change (st_p (recal c s)) with (st_p s) in H).
  all: try (bind_inv H a Ea; rewrite Ea; cbn [bind]; apply Ok_inj in H; subst o1'; eexists; split; [reflexivity|]; split; reflexivity).
  all: try (destruct (i =? 0); [|discriminate]).
  all: try (apply Ok_inj in H; subst o1'; eexists; split; [reflexivity|]; split; reflexivity).
  change (st_out (recal c s)) with (st_out s) in H. destruct (st_out s) eqn:EO; apply Ok_inj in H; subst o1'; eexists; split; try reflexivity; split; reflexivity.
Qed.
Lemma store_alike : forall ix o o' l v o1', alike_obj o o' -> calib_loc l = false -> store o' l ix v = Ok o1' -> exists o1, store o l ix v = Ok o1 /\ alike_obj o1 o1'.
Proof.
  induction ix as [|i ix IH]; intros o o' l v o1' A C H; cbn [store] in *; [apply Ok_inj in H; subst; eauto|]. destruct v as [|x v]; [discriminate|].
  bind_inv H o2' Eo. destruct (poke_alike _ _ _ _ _ _ A C Eo) as (o2 & Eo2 & A2). rewrite Eo2. cbn [bind]. eapply IH; eassumption.
Qed.

(** Writing calibration values. *)
Lemma poke_calib : forall o l i x o', calib_loc l = true -> poke o l i x = Ok o' -> alike_obj o o'.
Proof.
  intros o l i x o' C H. destruct o as [s pre]. destruct l; try discriminate; destruct x as [z|d]; cbn [poke] in H; try discriminate; unfold poke_dbl in H; cbv zeta in H; cbn [ob_s ob_pre] in H.
  all: try (bind_inv H a Ea; apply Ok_inj in H; subst o'; split; reflexivity).
  all: destruct (i =? 0); [|discriminate]; apply Ok_inj in H; subst o'; split; reflexivity.
Qed.
Lemma alike_trans : forall a b c, alike_obj a b -> alike_obj b c -> alike_obj a c.
Proof. intros a b c [P S] [P' S']. split; [congruence|]. rewrite S', S. reflexivity. Qed.
Lemma store_calib : forall ix o l v o', calib_loc l = true -> store o l ix v = Ok o' -> alike_obj o o'.
Proof.
  induction ix as [|i ix IH]; intros o l v o' C H; cbn [store] in *; [apply Ok_inj in H; subst; apply alike_refl|]. destruct v as [|x v]; [discriminate|].
  bind_inv H o1 Eo. eapply alike_trans; [eapply poke_calib; eassumption|eapply IH; eassumption].
Qed.

Lemma call_alike : forall c o o' o1', p_calib (st_p (ob_s o')) = false \/ p_invalid (st_p (ob_s o')) = true -> alike_obj o o' -> do_call c o' = Ok o1' ->
  (about_calib c = true /\ alike_obj o o1' \/ about_calib c = false /\ exists o1, do_call c o = Ok o1 /\ alike_obj o1 o1') /\
  (p_calib (st_p (ob_s o1')) = false \/ p_invalid (st_p (ob_s o1')) = true).
Proof.
  intros c o o' o1' F A H.
  assert (UU : forall s1', Update (ob_s o') = Ok s1' -> exists s1, Update (ob_s o) = Ok s1 /\ alike_obj (mkObj s1 (ob_pre o)) (mkObj s1' (ob_pre o'))).
  { intros s1' Hu. destruct A as [P S]. set (cl := st_cal (ob_s o')) in S. rewrite S in Hu, F. change (st_p (recal cl (ob_s o))) with (st_p (ob_s o)) in F.
    rewrite update_recal in Hu by assumption. destruct (Update (ob_s o)) as [s1|r]; [|discriminate]. cbn in Hu. apply Ok_inj in Hu. exists s1. split; [reflexivity|].
    split; [exact P|]. cbn [ob_s]. subst s1'. reflexivity. }
  destruct c as [|t|name|name inds|name v|name inds v]; cbn [do_call] in H.
  - unfold bmi_Update in H. bind_inv H s1' Es. apply Ok_inj in H. subst o1'. split; [|eapply flag_consumed; exact Es]. right. split; [reflexivity|].
    destruct (UU _ Es) as (s1 & Ea & A1). exists (mkObj s1 (ob_pre o)). split; [|assumption]. unfold do_call, bmi_Update. rewrite Ea. reflexivity.
  - unfold bmi_UpdateUntil, UpdateUntil in H. bind_inv H s1' Es. apply Ok_inj in H. subst o1'. bind_inv Es w Ew. split; [|eapply flag_consumed; exact Es]. right. split; [reflexivity|].
    destruct (UU _ Es) as (s1 & Ea & A1). exists (mkObj s1 (ob_pre o)). split; [|assumption]. cbn [do_call]. unfold bmi_UpdateUntil, UpdateUntil. rewrite Ew. cbn [bind]. rewrite Ea. reflexivity.
  - bind_inv H x Ex. apply Ok_inj in H. subst o1'. split; [|assumption]. unfold about_calib. cbn [target].
    destruct (known_dec name) as [K|K]; [|rewrite GetValue_unknown in Ex by assumption; discriminate]. destruct (ptr_known _ K) as [l El]. rewrite (about_loc _ _ El).
    destruct (calib_loc l) eqn:C; [left; auto|]. right. split; [reflexivity|]. exists o. split; [|assumption]. cbn [do_call].
    rewrite (GetValue_eq _ _ o El). rewrite (GetValue_eq _ _ o' El) in Ex. rewrite (alike_cells _ _ _ A), (alike_load _ _ _ A C) in Ex. rewrite Ex. reflexivity.
  - bind_inv H x Ex. apply Ok_inj in H. subst o1'. split; [|assumption]. unfold about_calib. cbn [target].
    destruct (known_dec name) as [K|K]; [|rewrite GetAt_unknown in Ex by assumption; discriminate]. destruct (ptr_known _ K) as [l El]. rewrite (about_loc _ _ El).
    destruct (calib_loc l) eqn:C; [left; auto|]. right. split; [reflexivity|]. exists o. split; [|assumption]. cbn [do_call].
    rewrite (GetAt_eq _ _ _ o El). rewrite (GetAt_eq _ _ _ o' El) in Ex. rewrite (alike_load _ _ _ A C) in Ex. rewrite Ex. reflexivity.
  - destruct (set_store _ _ _ _ H) as (l & El & C0 & S). unfold about_calib. cbn [target]. rewrite (about_loc _ _ El).
    destruct (calib_loc l) eqn:C.
    + pose proof (store_calib _ _ _ _ _ C S) as A1. split; [left; split; [reflexivity|eapply alike_trans; eassumption]|]. destruct A1 as [_ ->]. exact F.
    + rewrite (alike_cells _ _ _ A) in S. destruct (store_alike _ _ _ _ _ _ A C S) as (o1 & S1 & A1). split.
      * right. split; [reflexivity|]. exists o1. split; [|assumption]. cbn [do_call]. rewrite (SetValue_eq _ _ _ _ El).
        rewrite (alike_cells _ _ _ A) in C0. destruct (Z.ltb_spec (loc_cells l o) 0); [lia|]. exact S1.
      * clear - S F C. revert o' v F S. generalize (all_ix (Z.to_nat (loc_cells l o))) as ix. induction ix as [|i ix IH]; intros o' v F S; cbn [store] in S; [apply Ok_inj in S; subst; assumption|].
        destruct v as [|x v]; [discriminate|]. bind_inv S o2 Eo. eapply IH; [|exact S]. clear - Eo F C. destruct o' as [s pre].
        destruct l; try discriminate; destruct x as [z|d]; cbn [poke] in Eo; try discriminate; unfold poke_dbl in Eo; cbv zeta in Eo; cbn [ob_s ob_pre] in *.
        all: try (bind_inv Eo a Ea; apply Ok_inj in Eo; subst o2; exact F).
        all: destruct (_ =? 0); try discriminate; try (apply Ok_inj in Eo; subst o2; exact F). destruct (st_out s); apply Ok_inj in Eo; subst o2; exact F.
  - destruct (setat_store _ _ _ _ _ H) as (l & El & S). unfold about_calib. cbn [target]. rewrite (about_loc _ _ El).
    destruct (calib_loc l) eqn:C.
    + pose proof (store_calib _ _ _ _ _ C S) as A1. split; [left; split; [reflexivity|eapply alike_trans; eassumption]|]. destruct A1 as [_ ->]. exact F.
    + destruct (store_alike _ _ _ _ _ _ A C S) as (o1 & S1 & A1). split.
      * right. split; [reflexivity|]. exists o1. split; [|assumption]. cbn [do_call]. rewrite (SetAt_eq _ _ _ _ _ El). exact S1.
      * clear - S F C. revert o' v F S. induction inds as [|i ix IH]; intros o' v F S; cbn [store] in S; [apply Ok_inj in S; subst; assumption|].
        destruct v as [|x v]; [discriminate|]. bind_inv S o2 Eo. eapply IH; [|exact S]. clear - Eo F C. destruct o' as [s pre].
        destruct l; try discriminate; destruct x as [z|d]; cbn [poke] in Eo; try discriminate; unfold poke_dbl in Eo; cbv zeta in Eo; cbn [ob_s ob_pre] in *.
        all: try (bind_inv Eo a Ea; apply Ok_inj in Eo; subst o2; exact F).
        all: destruct (_ =? 0); try discriminate; try (apply Ok_inj in Eo; subst o2; exact F). destruct (st_out s); apply Ok_inj in Eo; subst o2; exact F.
Qed.

Theorem calls_alike : forall cs o o', p_calib (st_p (ob_s o)) = false \/ p_invalid (st_p (ob_s o)) = true -> do_calls cs o = Ok o' ->
  exists o1, do_calls (filter (fun c => negb (about_calib c)) cs) o = Ok o1 /\ ob_pre o' = ob_pre o1 /\ ob_s o' = recal (st_cal (ob_s o')) (ob_s o1).
Proof.
  intros cs o o' F H.
  assert (G : forall cs o o' o1', p_calib (st_p (ob_s o')) = false \/ p_invalid (st_p (ob_s o')) = true -> alike_obj o o' -> do_calls cs o' = Ok o1' ->
    exists o1, do_calls (filter (fun c => negb (about_calib c)) cs) o = Ok o1 /\ alike_obj o1 o1').
  { clear. induction cs as [|c cs IH]; intros o o' o1' F A H; cbn [do_calls] in H; [apply Ok_inj in H; subst; exists o; auto|].
    bind_inv H o2' Eo. destruct (call_alike _ _ _ _ F A Eo) as [[[C A2]|(C & o2 & E2' & A2)] F2]; cbn [filter]; rewrite C; cbn [negb].
    - eapply IH; eassumption.
    - cbn [do_calls]. rewrite E2'. cbn [bind]. eapply IH; eassumption. }
  destruct (G cs o o o' F (alike_refl o) H) as (o1 & Eo & P & S). eauto.
Qed.

(** ** What the calibration does *)

Lemma has_values_unique : forall cal k a b, has_values cal k a -> has_values cal k b -> same_rest a b -> a = b.
Proof.
  intros cal k [] [] (A1 & A2 & A3 & A4 & A5 & A6) (B1 & B2 & B3 & B4 & B5 & B6) (C1 & C2 & C3). cbn in *.
  rewrite A1 in B1. rewrite A2 in B2. rewrite A3 in B3. rewrite A4 in B4. rewrite A5 in B5.
  apply Ok_inj in B1, B2, B3, B4, B5. subst. reflexivity.
Qed.

Lemma theta_values : forall cal k a b h, has_values cal k a -> has_values cal k b -> theta_of_h a h = theta_of_h b h.
Proof.
  intros cal k a b h (A1 & A2 & A3 & A4 & A5 & A6) (B1 & B2 & B3 & B4 & B5 & B6). unfold theta_of_h.
  rewrite A1 in B1. rewrite A2 in B2. rewrite A3 in B3. rewrite A4 in B4. apply Ok_inj in B1, B2, B3, B4. rewrite A6, B6, B1, B2, B3, B4. reflexivity.
Qed.

Definition recalibrated (cal : calib) (f f' : front) : Prop := exists sl, has_values cal (f_layer f) sl /\ f' = set_theta f (theta_of_h sl (f_psi f)).

Lemma uget_aset : forall (A : Type) (a a' : list (option A)) i x j, aset a i (Some x) = Ok a' -> uget a' j = if j =? i then Ok x else uget a j.
Proof.
  intros A a a' i x j H. apply aset_inv in H as [B ->]. unfold uget, aget. destruct (Z.eqb_spec j i) as [->|D].
  - destruct (Z.ltb_spec i 0); [lia|]. rewrite nth_lset by lia. rewrite Nat.eqb_refl. reflexivity.
  - destruct (Z.ltb_spec j 0); [reflexivity|]. rewrite nth_lset by lia. destruct (Nat.eqb_spec (Z.to_nat i) (Z.to_nat j)); [lia|reflexivity].
Qed.

Lemma calib_loop_spec : forall k stype cal done rest soils l soils', calib_loop k stype cal done rest soils = Ok (l, soils') ->
  (k <= length rest)%nat /\
  (exists fs, Forall2 (recalibrated cal) (firstn k rest) fs /\ l = done ++ fs ++ skipn k rest) /\
  (forall t, match last_of_type stype t (firstn k rest) with
             | Some f => exists sl sl', uget soils t = Ok sl /\ uget soils' t = Ok sl' /\ has_values cal (f_layer f) sl' /\ same_rest sl sl'
             | None => uget soils' t = uget soils t
             end).
Proof.
  induction k as [|k IH]; intros stype cal done rest soils l soils' H; cbn [calib_loop] in H.
  - apply Ok_inj, pair_equal_spec in H as [<- <-]. split; [lia|]. split; [exists []; split; [constructor|reflexivity]|]. intros t. reflexivity.
  - destruct rest as [|c r]; [discriminate|]. cbv zeta in H.
    bind_inv H t0 Et. bind_inv H te Ete. bind_inv H tr Etr. bind_inv H n En. bind_inv H al Eal. bind_inv H ks Eks. bind_inv H sl Esl. bind_inv H soils1 Es.
    destruct (IH _ _ _ _ _ _ _ H) as (L & (fs & F & El) & T). split; [cbn; lia|]. split.
    + exists (set_theta c (theta_of_h (calib_soil sl te tr n al ks) (f_psi c)) :: fs). split.
      * cbn [firstn]. constructor; [|assumption]. exists (calib_soil sl te tr n al ks). split; [|reflexivity]. repeat split; assumption.
      * rewrite El. cbn [skipn app]. rewrite <- app_assoc. reflexivity.
    + intros t. specialize (T t). cbn [firstn last_of_type]. pose proof (uget_aset _ _ _ _ _ t Es) as U.
      destruct (last_of_type stype t (firstn k r)) as [g|] eqn:G.
      * destruct T as (s1 & s2 & T1 & T2 & T3 & T4). destruct (Z.eqb_spec t t0) as [->|D].
        -- rewrite T1 in U. apply Ok_inj in U. subst s1. exists sl, s2. split; [assumption|]. split; [assumption|]. split; [assumption|]. exact T4.
        -- exists s1, s2. rewrite <- U. auto.
      * rewrite Et. destruct (Z.eqb_spec t0 t) as [->|D].
        -- rewrite Z.eqb_refl in U. exists sl, (calib_soil sl te tr n al ks). split; [assumption|]. split; [rewrite T; assumption|].
           split; repeat split; assumption.
        -- destruct (Z.eqb_spec t t0); [congruence|]. rewrite T, U. reflexivity.
Qed.

Lemma calibrate_spec : forall s s1 v, update_calibratable_parameters s = Ok (s1, v) ->
  exists m0 m1, lgar_calc_mass_bal (p_cum (st_p s)) (st_head s) = Ok m0 /\ lgar_calc_mass_bal (p_cum (st_p s)) (st_head s1) = Ok m1 /\ v = (m1 - m0)%d /\
  p_fc (st_p s1) = c_fc (st_cal s) /\ p_pmax (st_p s1) = c_pmax (st_cal s) /\
  calib_loop (Z.to_nat (p_nfronts (st_p s))) (p_stype (st_p s)) (st_cal s) [] (st_head s) (st_soils s) = Ok (st_head s1, st_soils s1).
Proof.
  intros s s1 v H. unfold update_calibratable_parameters in H. cbv zeta in H. bind_inv H b0 Eb. bind_inv H q Eq1. destruct q as [l soils].
  bind_inv H aft Ea. apply Ok_inj, pair_equal_spec in H as [<- <-]. exists b0, aft. repeat split; assumption.
Qed.

(** Every layer has a front in a profile. *)
Lemma last_exists : forall stype t l f, In f l -> uget stype (f_layer f) = Ok t -> exists g, last_of_type stype t l = Some g.
Proof.
  intros stype t l f. induction l as [|c l IH]; intros Hin U; [contradiction|]. cbn [last_of_type]. destruct Hin as [->|Hin].
  - destruct (last_of_type stype t l); [eauto|]. rewrite U, Z.eqb_refl. eauto.
  - destruct (IH Hin U) as [g ->]. eauto.
Qed.
Lemma last_sound : forall stype t l g, last_of_type stype t l = Some g -> In g l /\ uget stype (f_layer g) = Ok t.
Proof.
  intros stype t l g. induction l as [|c l IH]; intros H; [discriminate|]. cbn [last_of_type] in H. destruct (last_of_type stype t l) as [g'|].
  - injection H as ->. destruct (IH eq_refl). split; [right|]; assumption.
  - destruct (uget stype (f_layer c)) as [t'|] eqn:U; [|discriminate]. destruct (Z.eqb_spec t' t) as [->|]; [|discriminate]. injection H as <-. split; [left; reflexivity|assumption].
Qed.

(** The prologue with the flag set. *)
Lemma prologue_calibrates : forall s s1 v, p_calib (st_p s) = true -> update_prologue s = Ok (s1, v) ->
  exists m0 m1, lgar_calc_mass_bal (p_cum (st_p s)) (st_head s) = Ok m0 /\ lgar_calc_mass_bal (p_cum (st_p s)) (st_head s1) = Ok m1 /\ v = (m1 - m0)%d /\
  p_fc (st_p s1) = c_fc (st_cal s) /\ p_pmax (st_p s1) = c_pmax (st_cal s) /\
  calib_loop (Z.to_nat (p_nfronts (st_p s))) (p_stype (st_p s)) (st_cal s) [] (st_head s) (st_soils s) = Ok (st_head s1, st_soils s1).
Proof.
  intros s s1 v C H. unfold update_prologue in H. cbv zeta in H. bind_inv H p Ep.
  assert (P : exists fr, p = (st_p s) <| p_frozen := fr |>).
  { destruct (p_sft (st_p s)); [bind_inv Ep fr Ef; apply Ok_inj in Ep; subst p; eauto|apply Ok_inj in Ep; subst p]. exists (p_frozen (st_p s)). destruct (st_p s); reflexivity. }
  destruct P as [fr ->]. change (p_calib ((st_p s) <| p_frozen := fr |>)) with (p_calib (st_p s)) in H. rewrite C in H.
  bind_inv H q Eq1. destruct q as [s2 v2]. apply Ok_inj, pair_equal_spec in H as [<- <-].
  destruct (calibrate_spec _ _ _ Eq1) as (m0 & m1 & R). exists m0, m1. exact R.
Qed.

(** The state at the start of the first sub-step. *)
Lemma executed_start : forall s u xs s', p_invalid (st_p s) = false -> executed s u xs s' ->
  exists s1 vcal, update_prologue s = Ok (s1, vcal) /\ u_env u = env_of s1 /\ u_fc u = p_fc (st_p s1) /\ u_pmax u = p_pmax (st_p s1) /\
    (forall x ys, xs = x :: ys -> st_head (x_s x) = st_head s1) /\ mb_calib (st_mb s') = (mb_calib (st_mb s) + vcal)%d /\ st_soils s' = st_soils s1 /\ p_stype (st_p s') = p_stype (st_p s1).
Proof.
  intros s u xs s' Hv (HU & HX). rewrite Hv in HX. destruct HX as (s1 & vcal & volend & s2 & n & s3 & a & EP & EM & ES & EU & HR & _ & EF).
  exists s1, vcal. split; [assumption|]. apply steps_inv in ES as (_ & _ & E2').
  pose proof (prologue_inv _ _ _ EP) as (M & _).
  assert (EV : u_env u = env_of s2) by (rewrite EU; reflexivity). assert (EFc : u_fc u = p_fc (st_p s2)) by (rewrite EU; reflexivity). assert (EPm : u_pmax u = p_pmax (st_p s2)) by (rewrite EU; reflexivity).
  assert (FR : mb_calib (st_mb s3) = mb_calib (st_mb s2) /\ st_soils s3 = st_soils s2 /\ p_stype (st_p s3) = p_stype (st_p s2)).
  { destruct (runs_static _ _ _ _ _ _ HR) as [(_ & _ & _ & _ & _ & ST & _) _]. destruct (Pf_Ledger.runs_frame _ _ _ _ _ _ _ HR) as (_ & _ & _ & _ & _ & _ & _ & MC & _ & _ & _ & _ & _ & SO & _). auto. }
  destruct FR as (FR1 & FR2 & FR3).
  split; [rewrite EV, E2'; reflexivity|]. split; [rewrite EFc, E2'; reflexivity|]. split; [rewrite EPm, E2'; reflexivity|]. split.
  - intros x ys ->. inversion HR; subst. cbn [x_s]. reflexivity.
  - apply finish_inv in EF as (g & q & mbl & EG & _ & EQ). rewrite <- M.
    split; [|split].
    + rewrite EQ. match goal with |- ?l = _ => change l with (mb_calib (st_mb s3) + vcal)%d end. rewrite FR1, E2'. reflexivity.
    + rewrite EQ. match goal with |- ?l = _ => change l with (st_soils s3) end. rewrite FR2, E2'. reflexivity.
    + rewrite EQ. match goal with |- ?l = _ => change l with (p_stype (st_p s3)) end. rewrite FR3, E2'. reflexivity.
Qed.

(** Soils and fronts after the calibration, whatever the soil types are. *)
Theorem calibration_general : forall s u xs s', p_invalid (st_p s) = false -> p_calib (st_p s) = true -> p_nfronts (st_p s) = listLength (st_head s) ->
  executed s u xs s' ->
  exists l m0 m1,
    Forall2 (fun f f' => exists sl, has_values (st_cal s) (f_layer f) sl /\ f' = set_theta f (theta_of_h sl (f_psi f))) (st_head s) l /\
    (forall t f, last_of_type (p_stype (st_p s)) t (st_head s) = Some f ->
       exists sl sl', uget (st_soils s) t = Ok sl /\ uget (e_soils (u_env u)) t = Ok sl' /\ has_values (st_cal s) (f_layer f) sl' /\ same_rest sl sl') /\
    (forall x ys, xs = x :: ys -> st_head (x_s x) = l) /\
    lgar_calc_mass_bal (p_cum (st_p s)) (st_head s) = Ok m0 /\ lgar_calc_mass_bal (p_cum (st_p s)) l = Ok m1 /\
    mb_calib (st_mb s') = (mb_calib (st_mb s) + (m1 - m0))%d /\ u_fc u = c_fc (st_cal s) /\ u_pmax u = c_pmax (st_cal s) /\
    e_stype (u_env u) = p_stype (st_p s) /\ st_soils s' = e_soils (u_env u) /\ p_stype (st_p s') = p_stype (st_p s) /\ p_calib (st_p s') = false.
Proof.
  intros s u xs s' Hv Hc Hn HX. destruct (executed_start _ _ _ _ Hv HX) as (s1 & vcal & EP & EV & EFc & EPm & EH & EC & ESo & ESt).
  destruct (prologue_calibrates _ _ _ Hc EP) as (m0 & m1 & M0 & M1 & -> & F1 & F2 & CL).
  destruct (calib_loop_spec _ _ _ _ _ _ _ _ CL) as (_ & (fs & F & El) & T). rewrite Hn in F, El, T. unfold listLength in F, El, T. rewrite Nat2Z.id in F, El, T.
  rewrite firstn_all in F, T. rewrite skipn_all, app_nil_r in El. cbn [app] in El. subst fs.
  destruct (prologue_static _ _ _ EP) as [(_ & _ & _ & _ & _ & S6 & _) _].
  exists (st_head s1), m0, m1. split; [exact F|]. split.
  { intros t f Hl. specialize (T t). rewrite Hl in T. rewrite EV. exact T. }
  split; [assumption|]. split; [assumption|]. split; [assumption|]. split; [assumption|]. split; [congruence|]. split; [congruence|].
  split; [rewrite EV; exact S6|]. split; [rewrite EV; exact ESo|]. split; [congruence|].
  destruct HX as [HU _]. destruct (Update_static _ _ HU) as [_ K]. rewrite Hv in K. apply K.
Qed.

(** With distinct soil types every layer gets its values. *)
Theorem calibration_distinct : forall s u xs s', p_invalid (st_p s) = false -> p_calib (st_p s) = true -> p_nfronts (st_p s) = listLength (st_head s) ->
  profile (p_nlayers (st_p s)) (p_cum (st_p s)) (st_head s) -> sound_env (env_of s) -> distinct_types (p_stype (st_p s)) (p_nlayers (st_p s)) ->
  executed s u xs s' ->
  (forall k, 1 <= k <= p_nlayers (st_p s) -> exists sl sl', soil_of (env_of s) k = Ok sl /\ soil_of (u_env u) k = Ok sl' /\ soil_of (env_of s') k = Ok sl' /\ has_values (st_cal s) k sl' /\ same_rest sl sl') /\
  (exists l m0 m1,
    Forall2 (fun f f' => exists sl, soil_of (u_env u) (f_layer f) = Ok sl /\ f' = set_theta f (theta_of_h sl (f_psi f))) (st_head s) l /\
    (forall x ys, xs = x :: ys -> st_head (x_s x) = l) /\
    lgar_calc_mass_bal (p_cum (st_p s)) (st_head s) = Ok m0 /\ lgar_calc_mass_bal (p_cum (st_p s)) l = Ok m1 /\
    mb_calib (st_mb s') = (mb_calib (st_mb s) + (m1 - m0))%d) /\
  u_fc u = c_fc (st_cal s) /\ u_pmax u = c_pmax (st_cal s) /\ p_calib (st_p s') = false.
Proof.
  intros s u xs s' Hv Hc Hn HP HE HD HX. destruct (calibration_general _ _ _ _ Hv Hc Hn HX) as (l & m0 & m1 & F & T & EH & M0 & M1 & EC & EFc & EPm & ES & ESo & ESt & Ec).
  assert (L : forall k, 1 <= k <= p_nlayers (st_p s) -> exists sl sl', soil_of (env_of s) k = Ok sl /\ soil_of (u_env u) k = Ok sl' /\ soil_of (env_of s') k = Ok sl' /\ has_values (st_cal s) k sl' /\ same_rest sl sl').
  { intros k Hk. destruct (se_soil _ HE k Hk) as [sl Esl]. unfold soil_of in Esl. bind_inv Esl t Et. change (e_stype (env_of s)) with (p_stype (st_p s)) in Et. change (e_soils (env_of s)) with (st_soils s) in Esl.
    destruct (prof_bottom _ _ _ HP k Hk) as (i & f & Nf & Lf & _). destruct (last_exists (p_stype (st_p s)) t (st_head s) f) as [g Hg]; [eapply nth_error_In; exact Nf|rewrite Lf; exact Et|].
    destruct (last_sound _ _ _ _ Hg) as [Ig Tg]. apply In_nth_error in Ig as [j Nj]. pose proof (prof_range _ _ _ HP _ _ Nj) as Rg.
    assert (f_layer g = k) as Lg by (eapply HD; eassumption).
    destruct (T t g Hg) as (s1 & s2 & T1 & T2 & T3 & T4). rewrite Lg in T3. assert (s1 = sl) as -> by (apply Ok_inj; rewrite <- Esl, <- T1; reflexivity).
    exists sl, s2. unfold soil_of at 1. change (e_stype (env_of s)) with (p_stype (st_p s)). rewrite Et. cbn [bind]. change (e_soils (env_of s)) with (st_soils s). split; [assumption|].
    split; [unfold soil_of; rewrite ES, Et; exact T2|]. split; [|split; assumption].
    unfold soil_of. change (e_stype (env_of s')) with (p_stype (st_p s')). change (e_soils (env_of s')) with (st_soils s'). rewrite ESt, Et, ESo. exact T2. }
  split; [exact L|]. split; [|auto]. exists l, m0, m1. split; [|auto].
  assert (R : Forall (fun f => 1 <= f_layer f <= p_nlayers (st_p s)) (st_head s)).
  { apply Forall_forall. intros f Hf. apply In_nth_error in Hf as [i Ni]. eapply prof_range; eassumption. }
  clear - F L R. induction F as [|f f' r r' (sl & A & B) F IH]; [constructor|]. inversion_clear R as [|? ? R1 R2]. constructor; [|auto].
  destruct (L _ R1) as (_ & s2 & _ & S2 & _ & V2 & _). exists s2. split; [assumption|]. rewrite B. f_equal. eapply theta_values; eassumption.
Qed.

(** Layers of the same type end up with the values of the deepest of them. *)
Lemma last_deepest : forall stype t l g, last_of_type stype t l = Some g ->
  (forall i j f f', (i <= j)%nat -> nth_error l i = Some f -> nth_error l j = Some f' -> (f_layer f <= f_layer f')) ->
  forall f, In f l -> uget stype (f_layer f) = Ok t -> f_layer f <= f_layer g.
Proof.
  intros stype t l g. induction l as [|c l IH]; intros H S f Hf U; [contradiction|]. cbn [last_of_type] in H.
  assert (S' : forall i j f f', (i <= j)%nat -> nth_error l i = Some f -> nth_error l j = Some f' -> (f_layer f <= f_layer f')).
  { intros i j a b Hij Ha Hb. exact (S (Datatypes.S i) (Datatypes.S j) a b ltac:(lia) Ha Hb). }
  destruct (last_of_type stype t l) as [g'|] eqn:G.
  - injection H as ->. destruct Hf as [->|Hf]; [|eapply IH; eauto]. destruct (last_sound _ _ _ _ G) as [Ig _]. apply In_nth_error in Ig as [j Nj].
    exact (S 0%nat (Datatypes.S j) f g ltac:(lia) eq_refl Nj).
  - destruct Hf as [->|Hf].
    + rewrite U, Z.eqb_refl in H. injection H as <-. lia.
    + exfalso. destruct (last_exists stype t l f Hf U) as [g' E]. congruence.
Qed.

Theorem calibration_shared : forall s u xs s' j k t, p_invalid (st_p s) = false -> p_calib (st_p s) = true -> p_nfronts (st_p s) = listLength (st_head s) ->
  profile (p_nlayers (st_p s)) (p_cum (st_p s)) (st_head s) -> executed s u xs s' ->
  1 <= j -> j < k -> k <= p_nlayers (st_p s) -> uget (p_stype (st_p s)) j = Ok t -> uget (p_stype (st_p s)) k = Ok t ->
  (forall y, k < y -> y <= p_nlayers (st_p s) -> uget (p_stype (st_p s)) y <> Ok t) ->
  exists sl, soil_of (u_env u) j = Ok sl /\ soil_of (u_env u) k = Ok sl /\ has_values (st_cal s) k sl.
Proof.
  intros s u xs s' j k t Hv Hc Hn HP HX J1 J2 J3 Uj Uk D. destruct (calibration_general _ _ _ _ Hv Hc Hn HX) as (l & m0 & m1 & F & T & _ & _ & _ & _ & _ & _ & ES & _).
  destruct (prof_bottom _ _ _ HP k) as (i & f & Nf & Lf & _); [lia|].
  destruct (last_exists (p_stype (st_p s)) t (st_head s) f) as [g Hg]; [eapply nth_error_In; exact Nf|rewrite Lf; exact Uk|].
  assert (K1 : f_layer f <= f_layer g). { eapply last_deepest; [exact Hg|apply (prof_sorted _ _ _ HP)|eapply nth_error_In; exact Nf|rewrite Lf; exact Uk]. }
  destruct (last_sound _ _ _ _ Hg) as [Ig Tg]. apply In_nth_error in Ig as [q Nq]. pose proof (prof_range _ _ _ HP _ _ Nq) as Rg.
  assert (f_layer g = k) as Lg. { destruct (Z.eq_dec (f_layer g) k); [assumption|]. exfalso. eapply (D (f_layer g)); [lia|lia|assumption]. }
  destruct (T t g Hg) as (s1 & s2 & T1 & T2 & T3 & T4). rewrite Lg in T3. exists s2. unfold soil_of. rewrite ES, Uj, Uk. cbn [bind]. auto.
Qed.

End Calib.
