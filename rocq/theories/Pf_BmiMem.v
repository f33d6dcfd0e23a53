(** Lemmas on reading and writing through the Basic Model Interface. *)

From Coq Require Import String Reals Lra ZArith List Bool Lia.
From RecordUpdate Require Import RecordSet.
From Verif Require Import Outcome Dbl Types Fronts State Update Bmi Lib Spec_Common Spec_Update Spec_Bmi Pf_Update Pf_Ledger Pf_Bmi.
Import ListNotations.
Import RecordSetNotations.
Open Scope string_scope.
Open Scope Z_scope.
Open Scope list_scope.

Lemma loc_dec : forall a b : loc, {a = b} + {a <> b}.
Proof. intros a b. decide equality. apply Nat.eq_dec. Qed.

Lemma load_out : forall o i, (i < 11)%nat -> wf o -> length (load o (LOut i)) = 1%nat.
Proof.
  intros o i Hi W. unfold load. cbv zeta. destruct (st_out (ob_s o)).
  - destruct (nth_error (out_list b) i) eqn:N; [reflexivity|]. apply nth_error_None in N. cbn in N. lia.
  - destruct (nth_error (ob_pre o) i) eqn:N; [reflexivity|]. apply nth_error_None in N. unfold wf in W. lia.
Qed.

Lemma poke_inv : forall o l i x o', good_loc l -> wf o -> poke o l i x = Ok o' -> fits l x /\ 0 <= i < Z.of_nat (length (load o l)).
Proof.
  intros o l i x o' G W H.
  destruct l; destruct x as [z|d]; cbn [poke] in H; try discriminate; split; try exact Logic.I; unfold poke_dbl in H; cbv zeta in H.
  all: try (bind_inv H a Ea; apply aset_inv in Ea as [B _]; unfold load, doubles; cbv zeta; rewrite map_length; exact B).
  all: try (destruct (Z.eqb_spec i 0); [subst; cbn; lia|discriminate]).
  rewrite load_out by assumption. destruct (Z.eqb_spec i 0); [lia|discriminate].
Qed.

Lemma user_edit_refl : forall s, user_edit s s.
Proof. intros s. edit s. Qed.
Lemma user_edit_trans : forall a b c, user_edit a b -> user_edit b c -> user_edit a c.
Proof.
  intros a b c (? & ? & ? & ? & ? & ? & ? & ? & ->) (pr & pet & T & cal & out & nf & tw & dw & ->).
  exists pr, pet, T, cal, out, nf, tw, dw. destruct a as [? ? ? [] ? ? ? ? ? ? ? ?]. reflexivity.
Qed.

(** What the memory looks like after [vs] were written at [ix]. *)
Definition written (m m' : list (option item)) (ix : list Z) (vs : list item) : Prop :=
  length m' = length m /\ forall j, 0 <= j < Z.of_nat (length m) -> at_pos m' j = match last_write ix vs j with Some x => Some (Some x) | None => at_pos m j end.

Lemma nth_lset : forall (A : Type) (a : list A) i k x, (i < length a)%nat -> nth_error (lset a i x) k = if Nat.eqb i k then Some x else nth_error a k.
Proof. induction a as [|y a IH]; intros [|i] [|k] x H; cbn in *; try lia; try reflexivity. apply IH. lia. Qed.

Lemma written_cons : forall m m' i r x xs, 0 <= i < Z.of_nat (length m) -> written (lset m (Z.to_nat i) (Some x)) m' r xs -> written m m' (i :: r) (x :: xs).
Proof.
  intros m m' i r x xs B [L W]. rewrite lset_length in L, W. split; [assumption|]. intros j Hj. rewrite W by assumption. cbn [last_write].
  destruct (last_write r xs j); [reflexivity|]. unfold at_pos. destruct (Z.ltb_spec j 0); [lia|]. rewrite nth_lset by lia.
  destruct (Z.eqb_spec i j), (Nat.eqb_spec (Z.to_nat i) (Z.to_nat j)); try reflexivity; lia.
Qed.

Lemma store_spec : forall ix o l v o', good_loc l -> wf o -> store o l ix v = Ok o' ->
  wf o' /\ (length ix <= length v)%nat /\ Forall (fun i => 0 <= i < Z.of_nat (length (load o l))) ix /\ Forall (fits l) (firstn (length ix) v) /\
  written (load o l) (load o' l) ix v /\ (forall l', good_loc l' -> l' <> l -> load o' l' = load o l') /\
  p_nlayers (st_p (ob_s o')) = p_nlayers (st_p (ob_s o)) /\ p_ncells (st_p (ob_s o')) = p_ncells (st_p (ob_s o)) /\
  (l <> LNum -> p_nfronts (st_p (ob_s o')) = p_nfronts (st_p (ob_s o))) /\ (l <> LCum -> user_edit (ob_s o) (ob_s o')).
Proof.
  induction ix as [|i ix IH]; intros o l v o' G W H.
  - apply Ok_inj in H. subst o'. split; [assumption|]. split; [cbn; lia|]. repeat split; auto using user_edit_refl; constructor.
  - destruct v as [|x v]; [discriminate|]. cbn [store] in H. bind_inv H o1 Ea1.
    destruct (poke_inv _ _ _ _ _ G W Ea1) as [F B]. destruct (poke_spec _ _ _ _ G W F B) as (o1' & Ea1' & W1 & L1 & K1 & N1 & C1 & F1 & U1).
    rewrite Ea1 in Ea1'. apply Ok_inj in Ea1'. subst o1'.
    destruct (IH _ _ _ _ G W1 H) as (W2 & L2 & B2 & T2 & M2 & K2 & N2 & C2 & F2 & U2). rewrite L1 in B2, M2. rewrite lset_length in B2.
    split; [assumption|]. split; [cbn; lia|]. split; [constructor; assumption|]. split; [cbn; constructor; assumption|].
    split; [apply written_cons; assumption|]. split; [intros l' G' D'; rewrite K2 by assumption; auto|].
    split; [congruence|]. split; [congruence|]. split; [intro; rewrite F2 by assumption; auto|]. intro. eapply user_edit_trans; eauto.
Qed.

Lemma store_ok : forall ix o l v, good_loc l -> wf o -> Forall (fun i => 0 <= i < Z.of_nat (length (load o l))) ix ->
  (length ix <= length v)%nat -> Forall (fits l) (firstn (length ix) v) -> exists o', store o l ix v = Ok o'.
Proof.
  induction ix as [|i ix IH]; intros o l v G W B L T; [eexists; reflexivity|].
  destruct v as [|x v]; [cbn in L; lia|]. cbn in T. inversion_clear T as [|? ? T1 T2]. inversion_clear B as [|? ? B1 B2].
  destruct (poke_spec _ _ _ _ G W T1 B1) as (o1 & Ea1 & W1 & L1 & _). cbn [store]. rewrite Ea1. cbn [bind]. apply IH; auto.
  - rewrite L1, lset_length. assumption.
  - cbn in L. lia.
Qed.

(** ** Reading *)

Lemma uget_pos : forall (A : Type) (m : list (option A)) i x, uget m i = Ok x <-> at_pos m i = Some (Some x).
Proof.
  intros A m i x. unfold uget, aget, at_pos. destruct (Z.ltb_spec i 0); cbn; [split; discriminate|].
  destruct (nth_error m (Z.to_nat i)) as [[y|]|]; cbn; split; intro E; try discriminate; [apply Ok_inj in E|injection E as ->]; congruence.
Qed.

Lemma fetch_spec : forall m ix xs, fetch m ix = Ok xs <-> Forall2 (fun i x => at_pos m i = Some (Some x)) ix xs.
Proof.
  intros m. induction ix as [|i ix IH]; intros xs; cbn [fetch].
  - split; intro H; [apply Ok_inj in H; subst; constructor|inversion H; reflexivity].
  - split; intro H.
    + bind_inv H x Ex. bind_inv H r Er. apply Ok_inj in H. subst xs. constructor; [apply uget_pos; assumption|apply IH; assumption].
    + inversion H as [|? x ? r Ea1 Ea2 e1 e2]; subst. apply uget_pos in Ea1. apply IH in Ea2. rewrite Ea1, Ea2. reflexivity.
Qed.

Lemma fetch_ext : forall m m' ix, Forall (fun i => at_pos m i = at_pos m' i) ix -> fetch m ix = fetch m' ix.
Proof.
  intros m m' ix. induction 1 as [|i ix E H IH]; [reflexivity|]. cbn [fetch]. rewrite IH.
  replace (uget m' i) with (uget m i); [reflexivity|]. unfold at_pos in E. unfold uget, aget. destruct (i <? 0); [reflexivity|]. rewrite E. reflexivity.
Qed.

(** An index outside of the array is out of bounds, whatever was read before it, unless an unset item came first. *)
Lemma fetch_stops : forall m ix r, fetch m ix = Stop r -> r = UB OutOfBounds \/ r = UB Uninit.
Proof.
  intros m. induction ix as [|i ix IH]; intros r H; [discriminate|]. cbn [fetch] in H. unfold uget, aget in H.
  destruct (i <? 0); [cbn in H; left; congruence|]. destruct (nth_error m (Z.to_nat i)) as [[x|]|]; cbn in H; try (left; congruence); try (right; congruence).
  destruct (fetch m ix); cbn in H; [discriminate|]. apply IH. congruence.
Qed.

Lemma at_pos_some : forall (A : Type) (a : list A) j, 0 <= j < Z.of_nat (length a) -> exists x, at_pos a j = Some x.
Proof.
  intros A a j H. unfold at_pos. destruct (Z.ltb_spec j 0); [lia|]. destruct (nth_error a (Z.to_nat j)) eqn:E; [eauto|]. apply nth_error_None in E. lia.
Qed.
Lemma at_pos_in : forall (A : Type) (a : list A) j x, at_pos a j = Some x -> 0 <= j < Z.of_nat (length a).
Proof.
  intros A a j x H. unfold at_pos in H. destruct (Z.ltb_spec j 0); [discriminate|]. assert (Z.to_nat j < length a)%nat by (apply nth_error_Some; congruence). lia.
Qed.

(** The whole array in order: indices 0, 1, ... *)
Definition all_ix (n : nat) : list Z := map Z.of_nat (seq 0 n).
Lemma last_write_seq : forall (vs : list item) k j, last_write (map Z.of_nat (seq k (length vs))) vs (Z.of_nat j) = if (k <=? j)%nat then nth_error vs (j - k) else None.
Proof.
  induction vs as [|x vs IH]; intros k j; cbn [length seq map last_write].
  - destruct (k <=? j)%nat; [destruct (j - k)%nat|]; reflexivity.
  - rewrite IH. destruct (Nat.leb_spec (S k) j), (Nat.leb_spec k j); try lia.
    + replace (j - k)%nat with (S (j - S k)) by lia. cbn. destruct (nth_error vs (j - S k)); [reflexivity|]. destruct (Z.eqb_spec (Z.of_nat k) (Z.of_nat j)); [lia|reflexivity].
    + assert (j = k) by lia. subst. rewrite Nat.sub_diag. cbn. rewrite Z.eqb_refl. reflexivity.
    + destruct (Z.eqb_spec (Z.of_nat k) (Z.of_nat j)); [lia|reflexivity].
Qed.

Lemma fetch_written : forall m m' vs, (length vs <= length m)%nat -> written m m' (all_ix (length vs)) vs -> fetch m' (all_ix (length vs)) = Ok vs.
Proof.
  intros m m' vs L [E W]. apply fetch_spec. unfold all_ix.
  assert (G : forall k r, (forall j, (j < length r)%nat -> nth_error vs (k + j) = nth_error r j) -> (k + length r <= length vs)%nat ->
    Forall2 (fun i x => at_pos m' i = Some (Some x)) (map Z.of_nat (seq k (length r))) r).
  { intros k r. revert k. induction r as [|x r IH]; intros k Hr Hl; cbn [length seq map]; constructor.
    - rewrite W by (cbn in Hl; lia). unfold all_ix. rewrite last_write_seq. cbn. rewrite Nat.sub_0_r. specialize (Hr 0%nat). cbn in Hr. rewrite Nat.add_0_r in Hr. rewrite Hr by lia. reflexivity.
    - apply IH; [|cbn in Hl; lia]. intros j Hj. specialize (Hr (S j)). cbn in Hr. rewrite <- Hr by lia. f_equal. lia. }
  apply G; auto.
Qed.

Lemma all_ix_in : forall n i, In i (all_ix n) <-> 0 <= i < Z.of_nat n.
Proof.
  intros n i. unfold all_ix. rewrite in_map_iff. split.
  - intros (x & <- & H). apply in_seq in H. lia.
  - intros H. exists (Z.to_nat i). split; [lia|]. apply in_seq. lia.
Qed.
Lemma all_ix_length : forall n, length (all_ix n) = n.
Proof. intro n. unfold all_ix. rewrite map_length. apply seq_length. Qed.

(** ** The accessors *)

Lemma GetValue_eq : forall name l o, GetValuePtr name = Ok l ->
  GetValue name o = if loc_cells l o <? 0 then Stop (UB OutOfBounds) else fetch (load o l) (all_ix (Z.to_nat (loc_cells l o))).
Proof. intros name l o H. unfold GetValue. rewrite H. cbn [bind]. rewrite (items_ptr _ _ _ H). destruct (_ <? 0); reflexivity. Qed.
Lemma SetValue_eq : forall name l v o, GetValuePtr name = Ok l ->
  SetValue name v o = if loc_cells l o <? 0 then Stop (UB OutOfBounds) else store o l (all_ix (Z.to_nat (loc_cells l o))) v.
Proof. intros name l v o H. unfold SetValue. rewrite H. cbn [bind]. rewrite (items_ptr _ _ _ H). destruct (_ <? 0); reflexivity. Qed.
Lemma GetAt_eq : forall name l inds o, GetValuePtr name = Ok l -> GetValueAtIndices name inds o = fetch (load o l) inds.
Proof. intros name l inds o H. unfold GetValueAtIndices. rewrite H. cbn [bind]. rewrite (offsets_ptr _ _ _ H). reflexivity. Qed.
Lemma SetAt_eq : forall name l inds v o, GetValuePtr name = Ok l -> SetValueAtIndices name inds v o = store o l inds v.
Proof. intros name l inds v o H. unfold SetValueAtIndices. rewrite H. cbn [bind]. rewrite (offsets_ptr _ _ _ H). reflexivity. Qed.

Lemma GetValue_unknown : forall name o, ~ In name known_names -> GetValue name o = Stop Throw.
Proof. intros name o H. unfold GetValue. rewrite ptr_unknown by assumption. reflexivity. Qed.
Lemma GetAt_unknown : forall name inds o, ~ In name known_names -> GetValueAtIndices name inds o = Stop Throw.
Proof. intros name inds o H. unfold GetValueAtIndices. rewrite ptr_unknown by assumption. reflexivity. Qed.
Lemma SetValue_unknown : forall name v o, ~ In name known_names -> SetValue name v o = Stop Throw.
Proof. intros name v o H. unfold SetValue. rewrite ptr_unknown by assumption. reflexivity. Qed.
Lemma SetAt_unknown : forall name inds v o, ~ In name known_names -> SetValueAtIndices name inds v o = Stop Throw.
Proof. intros name inds v o H. unfold SetValueAtIndices. rewrite ptr_unknown by assumption. reflexivity. Qed.

(** Both ways of writing are a store. *)
Lemma set_store : forall name v o o', SetValue name v o = Ok o' -> exists l, GetValuePtr name = Ok l /\ 0 <= loc_cells l o /\
  store o l (all_ix (Z.to_nat (loc_cells l o))) v = Ok o'.
Proof.
  intros name v o o' H. destruct (known_dec name) as [K|K]; [|rewrite SetValue_unknown in H by assumption; discriminate].
  destruct (ptr_known _ K) as [l El]. exists l. rewrite (SetValue_eq _ _ _ _ El) in H. destruct (Z.ltb_spec (loc_cells l o) 0); [discriminate|]. auto.
Qed.
Lemma setat_store : forall name inds v o o', SetValueAtIndices name inds v o = Ok o' -> exists l, GetValuePtr name = Ok l /\ store o l inds v = Ok o'.
Proof.
  intros name inds v o o' H. destruct (known_dec name) as [K|K]; [|rewrite SetAt_unknown in H by assumption; discriminate].
  destruct (ptr_known _ K) as [l El]. exists l. rewrite (SetAt_eq _ _ _ _ _ El) in H. auto.
Qed.

Lemma cells_kept : forall ix o l v o' l', good_loc l -> wf o -> store o l ix v = Ok o' -> (l = LNum -> l' <> LTheta /\ l' <> LDepth) -> loc_cells l' o' = loc_cells l' o.
Proof.
  intros ix o l v o' l' G W H D. destruct (store_spec _ _ _ _ _ G W H) as (_ & _ & _ & _ & _ & _ & N & C & F & _).
  destruct (loc_dec l LNum) as [->|Hl].
  - destruct (D eq_refl). destruct l'; cbn; congruence.
  - specialize (F Hl). destruct l'; cbn; congruence.
Qed.

(** *** C15 *)
Lemma set_get : forall name v o o', length (ob_pre o) = 11%nat -> Z.of_nat (length v) = GetGridSize (GetVarGrid name) o ->
  SetValue name v o = Ok o' -> GetValue name o' = Ok v.
Proof.
  intros name v o o' W L H. destruct (set_store _ _ _ _ H) as (l & El & C & S). rewrite (ptr_cells _ _ _ El) in L.
  pose proof (ptr_good _ _ El) as G. destruct (store_spec _ _ _ _ _ G W S) as (_ & _ & B & _ & M & _).
  rewrite (GetValue_eq _ _ _ El). rewrite (cells_kept _ _ _ _ _ l G W S) by (intros ->; split; discriminate).
  destruct (Z.ltb_spec (loc_cells l o) 0); [lia|]. replace (Z.to_nat (loc_cells l o)) with (length v) in * by lia.
  apply fetch_written with (m := load o l); [|assumption].
  destruct (length v) as [|n] eqn:En; [lia|]. rewrite Forall_forall in B. specialize (B (Z.of_nat n)). rewrite all_ix_in in B. lia.
Qed.

Lemma store_frame : forall name name' ix v o o' l, length (ob_pre o) = 11%nat -> GetValuePtr name = Ok l -> store o l ix v = Ok o' -> name' <> name ->
  ~ (name = "soil_num_wetting_fronts" /\ In name' ["soil_moisture_wetting_fronts"; "soil_depth_wetting_fronts"]) ->
  GetValue name' o' = GetValue name' o /\ forall inds, GetValueAtIndices name' inds o' = GetValueAtIndices name' inds o.
Proof.
  intros name name' ix v o o' l W El S D X. pose proof (ptr_good _ _ El) as G.
  destruct (known_dec name') as [K'|K'].
  2: { rewrite !GetValue_unknown by assumption. split; [reflexivity|]. intros. rewrite !GetAt_unknown by assumption. reflexivity. }
  destruct (ptr_known _ K') as [l' El']. pose proof (ptr_good _ _ El') as G'.
  assert (Dl : l' <> l). { intros ->. apply D. eapply ptr_injective; eassumption. }
  destruct (store_spec _ _ _ _ _ G W S) as (_ & _ & _ & _ & _ & Fr & _). specialize (Fr l' G' Dl).
  split.
  - rewrite !(GetValue_eq _ _ _ El'). rewrite Fr.
    rewrite (cells_kept _ _ _ _ _ l' G W S); [reflexivity|]. intros ->. apply name_of_ptr in El. apply name_of_ptr in El'. subst name name'.
    split; intros ->; apply X; cbn; auto.
  - intros inds. rewrite !(GetAt_eq _ _ _ _ El'). rewrite Fr. reflexivity.
Qed.

Lemma set_frame : forall name name' v o o', length (ob_pre o) = 11%nat -> SetValue name v o = Ok o' -> name' <> name ->
  ~ (name = "soil_num_wetting_fronts" /\ In name' ["soil_moisture_wetting_fronts"; "soil_depth_wetting_fronts"]) ->
  GetValue name' o' = GetValue name' o /\ forall inds, GetValueAtIndices name' inds o' = GetValueAtIndices name' inds o.
Proof. intros name name' v o o' W H D X. destruct (set_store _ _ _ _ H) as (l & El & C & S). eapply store_frame; eassumption. Qed.
Lemma setat_frame : forall name name' inds v o o', length (ob_pre o) = 11%nat -> SetValueAtIndices name inds v o = Ok o' -> name' <> name ->
  ~ (name = "soil_num_wetting_fronts" /\ In name' ["soil_moisture_wetting_fronts"; "soil_depth_wetting_fronts"]) ->
  GetValue name' o' = GetValue name' o /\ forall inds', GetValueAtIndices name' inds' o' = GetValueAtIndices name' inds' o.
Proof. intros name name' inds v o o' W H D X. destruct (setat_store _ _ _ _ _ H) as (l & El & S). eapply store_frame; eassumption. Qed.

(** ** Sizes *)

Lemma arrays_cells : forall o l, arrays_ok o -> good_loc l -> 0 <= loc_cells l o /\ Z.of_nat (length (load o l)) = loc_cells l o + match l with LCum => 1 | _ => 0 end.
Proof.
  intros o l A G. destruct A. destruct l; try (rewrite load_out by assumption; cbn; lia);
    unfold load, doubles; cbv zeta; rewrite ?map_length; cbn [loc_cells length]; lia.
Qed.

Lemma ptr_load_typed : forall name l o j x, GetValuePtr name = Ok l -> at_pos (load o l) j = Some (Some x) -> typed (GetVarType name) x.
Proof.
  intros name l o j x H P. apply (fits_typed _ _ x H).
  assert (D1 : forall a, at_pos (doubles a) j = Some (Some x) -> exists d, x = D d).
  { intros a Q. unfold at_pos, doubles in Q. destruct (j <? 0); [discriminate|]. rewrite nth_error_map in Q. destruct (nth_error a _); [|discriminate]. injection Q as <-. eauto. }
  destruct l; unfold load in P; cbv zeta in P; try (apply D1 in P as [d ->]; exact Logic.I).
  - destruct (st_out (ob_s o)); [destruct (nth_error _ _)|destruct (nth_error _ _) as [[d|]|]].
    all: unfold at_pos in P; destruct (j <? 0); try discriminate; destruct (Z.to_nat j) as [|[|?]]; try discriminate; cbn in P; injection P as <-; exact Logic.I.
  - unfold at_pos in P; destruct (j <? 0); try discriminate; destruct (Z.to_nat j) as [|[|?]]; try discriminate; cbn in P; injection P as <-; exact Logic.I.
Qed.

Lemma set_ok : forall name v o, arrays_ok o -> In name known_names -> Z.of_nat (length v) = GetGridSize (GetVarGrid name) o ->
  Forall (typed (GetVarType name)) v -> exists o', SetValue name v o = Ok o'.
Proof.
  intros name v o A K L T. destruct (ptr_known _ K) as [l El]. rewrite (ptr_cells _ _ _ El) in L. pose proof (ptr_good _ _ El) as G.
  destruct (arrays_cells _ _ A G) as [C1 C2]. rewrite (SetValue_eq _ _ _ _ El). destruct (Z.ltb_spec (loc_cells l o) 0); [lia|].
  apply store_ok; [assumption|apply A| | |].
  - apply Forall_forall. intros i Hi. apply all_ix_in in Hi. destruct l; lia.
  - rewrite all_ix_length. lia.
  - rewrite all_ix_length. replace (Z.to_nat (loc_cells l o)) with (length v) by lia. rewrite firstn_all.
    eapply Forall_impl; [|exact T]. intros x Hx. apply (fits_typed _ _ x El). assumption.
Qed.

Lemma fetch_oob : forall m n, (length m < n)%nat -> Forall (fun x => x <> None) m -> fetch m (all_ix n) = Stop (UB OutOfBounds).
Proof.
  intros m n L F. unfold all_ix.
  assert (G : forall k j, (k + j = n)%nat -> (k <= length m)%nat -> fetch m (map Z.of_nat (seq k j)) = Stop (UB OutOfBounds)).
  { intros k j. revert k. induction j as [|j IH]; intros k Ea1 Ea2; [lia|]. cbn [seq map fetch]. unfold uget, aget. destruct (Z.ltb_spec (Z.of_nat k) 0); [lia|]. rewrite Nat2Z.id.
    destruct (nth_error m k) as [[x|]|] eqn:N; cbn [bind]; [|exfalso; rewrite Forall_forall in F; eapply F; [eapply nth_error_In; exact N|reflexivity]|reflexivity].
    rewrite IH; [reflexivity|lia|]. assert (k < length m)%nat by (apply nth_error_Some; congruence). lia. }
  apply G; lia.
Qed.
Lemma doubles_set : forall a, Forall (fun x => x <> None) (doubles a).
Proof. intro a. unfold doubles. apply Forall_forall. intros x H. apply in_map_iff in H as (d & <- & _). discriminate. Qed.

(** A too large number of fronts set by the user. *)
Lemma set_num : forall o z, SetValue "soil_num_wetting_fronts" [I z] o = Ok (mkObj ((ob_s o) <| st_p := (st_p (ob_s o)) <| p_nfronts := z |> |>) (ob_pre o)).
Proof. intros o z. reflexivity. Qed.
Lemma set_num_oob : forall o o' z name, arrays_ok o -> In name ["soil_moisture_wetting_fronts"; "soil_depth_wetting_fronts"] -> p_nfronts (st_p (ob_s o)) < z ->
  SetValue "soil_num_wetting_fronts" [I z] o = Ok o' -> GetValue name o' = Stop (UB OutOfBounds).
Proof.
  intros o o' z name A K Hz H. rewrite set_num in H. apply Ok_inj in H. subst o'. destruct A.
  assert (0 <= p_nfronts (st_p (ob_s o))) by lia.
  cbn in K. destruct K as [<-|[<-|[]]].
  - rewrite (GetValue_eq "soil_moisture_wetting_fronts" LTheta _ eq_refl). change (loc_cells LTheta _) with z. destruct (Z.ltb_spec z 0); [lia|].
    apply fetch_oob; [|apply doubles_set]. unfold load, doubles. rewrite map_length. cbn [ob_s].
    match goal with |- (length ?a < _)%nat => change a with (p_theta_wf (st_p (ob_s o))) end. lia.
  - rewrite (GetValue_eq "soil_depth_wetting_fronts" LDepth _ eq_refl). change (loc_cells LDepth _) with z. destruct (Z.ltb_spec z 0); [lia|].
    apply fetch_oob; [|apply doubles_set]. unfold load, doubles. rewrite map_length. cbn [ob_s].
    match goal with |- (length ?a < _)%nat => change a with (p_depth_wf (st_p (ob_s o))) end. lia.
Qed.
