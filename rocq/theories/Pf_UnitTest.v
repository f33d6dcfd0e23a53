(** Lemmas for C89: the unit test of the interface. *)

From Coq Require Import String Reals ZArith List Bool Lia Lra.
From RecordUpdate Require Import RecordSet.
From Verif Require Import Outcome Dbl Types State Update Bmi Config Lib Exact Spec_Bmi Pf_Bmi Pf_BmiMem Pf_BmiRun Pf_Init Pf_InitState Pf_Influence UnitTest Spec_UnitTest.
Import ListNotations.
Import RecordSetNotations.
Open Scope string_scope.
Open Scope Z_scope.
Open Scope list_scope.

Lemma each_pass : forall (A : Type) (body : Z -> A -> outcome (flow A)) is a, Forall (fun i => body i a = Ok (Next a)) is -> each is body a = Ok (Next a).
Proof. intros A body is a F. induction F as [|i is H F IH]; [reflexivity|]. cbn [each]. rewrite H. exact IH. Qed.
Lemma each_app : forall (A : Type) (body : Z -> A -> outcome (flow A)) is js a, each (is ++ js) body a = (x <- each is body a ;; match x with Next b => each js body b | Return c => Ok (Return c) end).
Proof. intros A body is js. induction is as [|i is IH]; intro a; [reflexivity|]. cbn [app each]. destruct (body i a) as [[b|c]|w]; cbn [bind]; [apply IH| |]; reflexivity. Qed.

Lemma each_cons : forall (A : Type) (body : Z -> A -> outcome (flow A)) i is a, each (i :: is) body a = (x <- body i a ;; match x with Next b => each is body b | Return c => Ok (Return c) end).
Proof. reflexivity. Qed.
Lemma each_nil : forall (A : Type) (body : Z -> A -> outcome (flow A)) a, each [] body a = Ok (Next a).
Proof. reflexivity. Qed.

(** ** Names, units, sizes *)
Section Meta.
Variables (s : state) (pre : list (option dbl)).
Let o := mkObj s pre.
Notation L := (p_nlayers (st_p s)).
Notation F := (p_nfronts (st_p s)).
Notation C := (p_ncells (st_p s)).

Lemma input_1 : each [0; 1] (check_input o) true = Ok (Next true).
Proof. apply each_pass. repeat constructor. Qed.
Lemma input_2 : 1 <= C -> check_input o 2 true = if C =? 1 then Ok (Next true) else Stop Throw.
Proof.
  intro H. transitivity (if 8 * C =? 0 then Ok (Return FAILURE) else if 8 * C =? 8 then Ok (Next true) else Stop Throw); [reflexivity|].
  destruct (Z.eqb_spec (8 * C) 0); [lia|]. destruct (Z.eqb_spec (8 * C) 8), (Z.eqb_spec C 1); lia || reflexivity.
Qed.
Lemma output_front : forall i, In i [0; 2] -> 1 <= F -> check_output o i true = if F =? 3 then Ok (Next true) else Stop Throw.
Proof.
  intros i HI H. transitivity (if 8 * F =? 0 then Ok (Return FAILURE) else if 8 * F =? 24 then Ok (Next true) else Stop Throw); [destruct HI as [<-|[<-|[]]]; reflexivity|].
  destruct (Z.eqb_spec (8 * F) 0); [lia|]. destruct (Z.eqb_spec (8 * F) 24), (Z.eqb_spec F 3); lia || reflexivity.
Qed.
Lemma output_layer : 1 <= L -> check_output o 1 true = if L =? 3 then Ok (Next true) else Stop Throw.
Proof.
  intros H. transitivity (if 8 * L =? 0 then Ok (Return FAILURE) else if 8 * L =? 24 then Ok (Next true) else Stop Throw); [reflexivity|].
  destruct (Z.eqb_spec (8 * L) 0); [lia|]. destruct (Z.eqb_spec (8 * L) 24), (Z.eqb_spec L 3); lia || reflexivity.
Qed.
Lemma output_rest : each (map Z.of_nat (seq 3 12)) (check_output o) true = Ok (Next true).
Proof. apply each_pass. repeat (apply Forall_cons; [reflexivity|]). apply Forall_nil. Qed.
Lemma grids_pass : L = 3 -> F = 3 -> each [0; 1; 2; 3] (check_grid o) true = Ok (Next true).
Proof.
  intros HL HF. apply each_pass. repeat (apply Forall_cons); try apply Forall_nil; try reflexivity.
  - transitivity (if L =? 3 then Ok (Next true) else @Stop (flow bool) Throw); [reflexivity|]. rewrite HL. reflexivity.
  - transitivity (if F =? 3 then Ok (Next true) else @Stop (flow bool) Throw); [reflexivity|]. rewrite HF. reflexivity.
Qed.
Lemma metadata_is : 1 <= C -> 1 <= L -> F = L -> metadata o = if (L =? 3) && (C =? 1) then Ok (Next true) else Stop Throw.
Proof.
  intros HC HL HF. unfold metadata. change (negb (GetInputItemCount =? num_input_vars)) with false. change (negb (GetOutputItemCount =? num_output_vars)) with false. cbv iota.
  change (upto GetInputItemCount) with ([0; 1] ++ [2]). rewrite each_app, input_1. cbn [bind]. rewrite each_cons, (input_2 HC).
  destruct (Z.eqb_spec C 1) as [E|E]; [|rewrite andb_false_r; reflexivity]. cbn [bind]. rewrite andb_true_r, each_nil. cbn [bind].
  change (upto GetOutputItemCount) with ([0; 1; 2] ++ map Z.of_nat (seq 3 12)). rewrite each_app, each_cons, (output_front 0) by (cbn; lia || tauto). rewrite HF.
  destruct (Z.eqb_spec L 3) as [E'|E']; [|reflexivity]. cbn [bind]. rewrite each_cons, (output_layer HL). rewrite (proj2 (Z.eqb_eq L 3) E'). cbn [bind].
  rewrite each_cons, (output_front 2) by (cbn; lia || tauto). rewrite HF, (proj2 (Z.eqb_eq L 3) E'). cbn [bind]. rewrite each_nil. cbn [bind]. rewrite output_rest. cbn [bind]. rewrite grids_pass by lia. reflexivity.
Qed.
End Meta.

Section Test.
Context {fp : Fp} {cfg : Cfg}.

Lemma init_counts : forall files junk ls s, Initialize files junk ls = Ok s -> 1 <= p_ncells (st_p s) /\ 1 <= p_nlayers (st_p s) /\ p_nfronts (st_p s) = p_nlayers (st_p s) /\
  arrays_ok (mkObj s (repeat None 11)) /\ p_soilT (st_p s) = repeat (Fin 0) (Z.to_nat (p_ncells (st_p s))).
Proof.
  intros files junk ls s H. destruct (init_inv _ _ _ _ H) as (c & st & rows & tab & thick & psi & ord & I). destruct (in_p _ _ _ _ _ _ _ _ _ _ _ I) as (P1 & P2 & P3 & P4 & P5 & P6 & P7 & _).
  pose proof (in_cells _ _ _ _ _ _ _ _ _ _ _ I) as K. pose proof (conf_bounded _ _ (in_conf _ _ _ _ _ _ _ _ _ _ _ I)) as B.
  assert (T : thick <> []) by (eapply bd_thick; [exact B|]; apply (in_thick _ _ _ _ _ _ _ _ _ _ _ I)).
  split.
  - destruct (cf_sft c); [destruct K as [K1 K2]; apply (bd_soilz _ B) in K1; rewrite K2; destruct (p_soilTz (st_p s)); [congruence|cbn [length]; lia]|lia].
  - split; [rewrite P1; destruct thick; [congruence|cbn [length]; lia]|]. split; [congruence|]. split; [|exact P7]. eapply init_arrays. exact I.
Qed.

Theorem test_metadata : forall files junk ls s, Initialize files junk ls = Ok s -> metadata (mkObj s (repeat None 11)) = if (p_nlayers (st_p s) =? 3) && (p_ncells (st_p s) =? 1) then Ok (Next true) else Stop Throw.
Proof. intros files junk ls s H. destruct (init_counts _ _ _ _ H) as (H1 & H2 & H3 & _). apply metadata_is; assumption. Qed.

(** ** The input variables *)
Lemma lit_eqb : forall x, deqb (lit x) (lit x) = true.
Proof. intro x. unfold lit. pose proof (rnd_not_nan x) as N. destruct (rnd x) as [r| | |]; try reflexivity; [|congruence]. cbn. unfold Reqb. destruct (Req_EM_T r r); congruence. Qed.
Lemma exercise_precip : forall s pre, exercise 0 (true, mkObj s pre) = Ok (Next (true, mkObj (s <| st_precip := rnd (1896 / 1000) |>) pre)).
Proof.
  intros s pre. transitivity (Ok (Next (deqb (lit (1896 / 1000)) (lit (1896 / 1000)), mkObj (s <| st_precip := lit (1896 / 1000) |>) pre))); [reflexivity|]. rewrite lit_eqb. reflexivity.
Qed.
Lemma exercise_pet : forall s pre, exercise 1 (true, mkObj s pre) = Ok (Next (true, mkObj (s <| st_pet := rnd (104 / 1000) |>) pre)).
Proof.
  intros s pre. transitivity (Ok (Next (deqb (lit (104 / 1000)) (lit (104 / 1000)), mkObj (s <| st_pet := lit (104 / 1000) |>) pre))); [reflexivity|]. rewrite lit_eqb. reflexivity.
Qed.
Lemma exercise_temp : forall s pre, p_ncells (st_p s) = 1 -> p_soilT (st_p s) = [Fin 0] -> exercise 2 (true, mkObj s pre) = Ok (Next (true, mkObj s pre)).
Proof.
  intros s pre H1 H2. assert (Z0 : deqb (Fin 0) (Fin 0) = true) by (cbn; unfold Reqb; destruct (Req_EM_T 0 0); congruence).
  transitivity (Ok (Next (deqb (Fin 0) (Fin 0), mkObj s pre))); [|rewrite Z0; reflexivity]. destruct s as [hd pv so p]. destruct p. cbn [State.st_p State.p_ncells State.p_soilT] in H1, H2. subst. reflexivity.
Qed.
Lemma exercise_all : forall s pre, p_ncells (st_p s) = 1 -> p_soilT (st_p s) = [Fin 0] -> each (upto GetInputItemCount) exercise (true, mkObj s pre) = Ok (Next (true, mkObj (test_rain s) pre)).
Proof.
  intros s pre H1 H2. change (upto GetInputItemCount) with [0; 1; 2]. rewrite each_cons, exercise_precip. cbn [bind]. rewrite each_cons, exercise_pet. cbn [bind]. rewrite each_cons, exercise_temp by assumption. reflexivity.
Qed.

(** ** The wetting fronts *)
Lemma into_doubles : forall n ds, into n (map D ds) = if (n <? length ds)%nat then Stop (UB OutOfBounds) else Ok (map Some ds ++ repeat None (n - length ds)).
Proof.
  intros n ds. unfold into. rewrite map_length. destruct (n <? length ds)%nat; [reflexivity|].
  match goal with |- (x <- ?g (map D ds) ;; _) = _ => assert (E : forall l, g (map D l) = Ok (map Some l)) by (induction l as [|d l IH]; [reflexivity|cbn [map]; rewrite IH; reflexivity]) end.
  rewrite E. reflexivity.
Qed.
Lemma fetch_doubles : forall pre ds, fetch (doubles (pre ++ ds)) (map Z.of_nat (seq (length pre) (length ds))) = Ok (map D ds).
Proof.
  intros pre ds. revert pre. induction ds as [|d ds IH]; intro pre; [reflexivity|]. cbn [length seq map fetch].
  assert (E : uget (doubles (pre ++ d :: ds)) (Z.of_nat (length pre)) = Ok (D d)).
  { apply uget_pos. unfold at_pos. destruct (Z.ltb_spec (Z.of_nat (length pre)) 0); [lia|]. rewrite Nat2Z.id. unfold doubles. rewrite map_app, nth_error_app2; rewrite map_length; [|lia]. rewrite Nat.sub_diag. reflexivity. }
  rewrite E. cbn [bind]. specialize (IH (pre ++ [d])). rewrite <- app_assoc, app_length in IH. cbn [app length] in IH. replace (length pre + 1)%nat with (S (length pre)) in IH by lia.
  rewrite IH. reflexivity.
Qed.
Lemma get_fronts : forall t pre, arrays_ok (mkObj t pre) -> GetValue "soil_moisture_wetting_fronts" (mkObj t pre) = Ok (map D (p_theta_wf (st_p t))) /\
  GetValue "soil_depth_wetting_fronts" (mkObj t pre) = Ok (map D (p_depth_wf (st_p t))).
Proof.
  intros t pre A. destruct A as [_ _ _ _ AT AD _ _ _ _ _]. cbn [ob_s] in AT, AD. split.
  - rewrite (GetValue_eq _ LTheta) by reflexivity. cbn [loc_cells ob_s load]. rewrite <- AT. destruct (Z.ltb_spec (Z.of_nat (length (p_theta_wf (st_p t)))) 0); [lia|]. rewrite Nat2Z.id.
    exact (fetch_doubles [] _).
  - rewrite (GetValue_eq _ LDepth) by reflexivity. cbn [loc_cells ob_s load]. rewrite <- AD. destruct (Z.ltb_spec (Z.of_nat (length (p_depth_wf (st_p t)))) 0); [lia|]. rewrite Nat2Z.id.
    exact (fetch_doubles [] _).
Qed.

Definition blank : list (option dbl) := repeat None 4.
Lemma compare_other : forall o i st, In i (1 :: map Z.of_nat (seq 3 12)) -> compare o i st = Ok (Next st).
Proof. intros o i [[x y] z] H. cbn in H. repeat (destruct H as [<-|H]; [reflexivity|]). destruct H. Qed.
Lemma compare_theta : forall t pre x y z, arrays_ok (mkObj t pre) -> compare (mkObj t pre) 0 (x, y, z) =
  (c <- into 4 (map D (p_theta_wf (st_p t))) ;; _ <- uget c 0 ;; q <- each [0; 1; 2; 3] (near None theta_wf_b c) x ;; match q with Return k => Ok (Return k) | Next w => Ok (Next (w, y, c)) end).
Proof.
  intros t pre x y z A. destruct (get_fronts t pre A) as [G _]. unfold compare. change (aget output_var_names 0) with (Ok "soil_moisture_wetting_fronts"). cbn [bind].
  change (String.eqb "soil_moisture_wetting_fronts" "soil_moisture_wetting_fronts") with true. cbv iota. rewrite G. reflexivity.
Qed.
Lemma compare_depth : forall t pre x y z, arrays_ok (mkObj t pre) -> compare (mkObj t pre) 2 (x, y, z) =
  (c <- into 4 (map D (p_depth_wf (st_p t))) ;; q <- each [0; 1; 2; 3] (near (Some (lit 100)) depth_wf_b c) x ;; match q with Return k => Ok (Return k) | Next w => Ok (Next (w, c, z)) end).
Proof.
  intros t pre x y z A. destruct (get_fronts t pre A) as [_ G]. unfold compare. change (aget output_var_names 2) with (Ok "soil_depth_wetting_fronts"). cbn [bind].
  change (String.eqb "soil_depth_wetting_fronts" "soil_moisture_wetting_fronts") with false. change (String.eqb "soil_depth_wetting_fronts" "soil_depth_wetting_fronts") with true. cbv iota. rewrite G. reflexivity.
Qed.
(** Another number of fronts than four. *)
Lemma wrong_fronts : forall t pre x y z, arrays_ok (mkObj t pre) -> p_nfronts (st_p t) <> 4 ->
  compare (mkObj t pre) 0 (x, y, z) = Stop (UB (if 4 <? p_nfronts (st_p t) then OutOfBounds else Uninit)).
Proof.
  intros t pre x y z A H. rewrite compare_theta by exact A. destruct A as [_ _ _ _ AT _ _ _ _ _ _]. cbn [ob_s] in AT. rewrite <- AT in *. rewrite into_doubles.
  destruct (p_theta_wf (st_p t)) as [|a [|b [|c [|d [|e l]]]]]; try reflexivity; [exfalso; apply H; reflexivity|].
  destruct (Z.ltb_spec 4 (Z.of_nat (length (a :: b :: c :: d :: e :: l)))); [|cbn [length] in *; lia]. reflexivity.
Qed.
Definition gap (sc : option dbl) (b c : dbl) : dbl := dabs (b - match sc with Some m => c * m | None => c end)%d.
Lemma near_all : forall sc b0 b1 b2 b3 c0 c1 c2 c3 x, each [0; 1; 2; 3] (near sc [b0; b1; b2; b3] [Some c0; Some c1; Some c2; Some c3]) x =
  Ok (Next (x && dltb (gap sc b0 c0) (lit (1 / 10000)) && dltb (gap sc b1 c1) (lit (1 / 10000)) && dltb (gap sc b2 c2) (lit (1 / 10000)) && dltb (gap sc b3 c3) (lit (1 / 10000)))).
Proof. reflexivity. Qed.
Lemma asserted_all : forall sc b0 b1 b2 b3 c0 c1 c2 c3, each [0; 1; 2; 3] (asserted sc [b0; b1; b2; b3] [Some c0; Some c1; Some c2; Some c3]) tt =
  if dltb (gap sc b0 c0) (lit (1 / 100000)) && dltb (gap sc b1 c1) (lit (1 / 100000)) && dltb (gap sc b2 c2) (lit (1 / 100000)) && dltb (gap sc b3 c3) (lit (1 / 100000)) then Ok (Next tt) else Stop AssertFail.
Proof.
  intros sc b0 b1 b2 b3 c0 c1 c2 c3. unfold gap. cbn [each]. unfold asserted.
  change (off sc [b0; b1; b2; b3] [Some c0; Some c1; Some c2; Some c3] 0) with (Ok (gap sc b0 c0)). change (off sc [b0; b1; b2; b3] [Some c0; Some c1; Some c2; Some c3] 1) with (Ok (gap sc b1 c1)).
  change (off sc [b0; b1; b2; b3] [Some c0; Some c1; Some c2; Some c3] 2) with (Ok (gap sc b2 c2)). change (off sc [b0; b1; b2; b3] [Some c0; Some c1; Some c2; Some c3] 3) with (Ok (gap sc b3 c3)).
  fold (gap sc b0 c0) (gap sc b1 c1) (gap sc b2 c2) (gap sc b3 c3). cbn [bind].
  destruct (dltb (gap sc b0 c0) _); [|reflexivity]. cbn [bind cassert]. destruct (dltb (gap sc b1 c1) _); [|reflexivity]. cbn [bind cassert].
  destruct (dltb (gap sc b2 c2) _); [|reflexivity]. cbn [bind cassert]. destruct (dltb (gap sc b3 c3) _); reflexivity.
Qed.
Lemma closer : forall d, dltb d (lit (1 / 100000)) = true -> dltb d (lit (1 / 10000)) = true.
Proof.
  intros d H. assert (M : dleb (lit (1 / 100000)) (lit (1 / 10000)) = true) by (apply rnd_mono; lra).
  destruct d as [x| | |], (lit (1 / 100000)) as [y| | |], (lit (1 / 10000)) as [z| | |]; try discriminate; try reflexivity. cbn in *. unfold Rltb, Rleb in *.
  destruct (Rlt_dec x y), (Rle_dec y z), (Rlt_dec x z); try discriminate; try reflexivity. lra.
Qed.
Lemma get_out : forall t name i f, GetValuePtr name = Ok (LOut i) -> (i < 11)%nat -> (forall b, nth_error (out_list b) i = Some (f b)) ->
  get_one name (mkObj t (repeat None 11)) = match st_out t with Some b => Ok (f b) | None => Stop (UB Uninit) end.
Proof.
  intros t name i f H L E. unfold get_one. rewrite (GetValue_eq _ _ _ H). cbn [loc_cells]. change (1 <? 0) with false. cbv iota. cbn [load ob_s ob_pre].
  destruct (st_out t) as [b|]; [rewrite E; reflexivity|]. do 11 (destruct i as [|i]; [reflexivity|]). lia.
Qed.

Theorem outputs_benchmark : forall s t, Update s = Ok t -> arrays_ok (mkObj t (repeat None 11)) -> p_nfronts (st_p t) = 4 ->
  (outputs (mkObj s (repeat None 11)) true = Ok (Next tt) <-> benchmark t) /\ forall c, outputs (mkObj s (repeat None 11)) true <> Ok (Return c).
Proof.
  intros s t U A N. unfold outputs, bmi_Update. cbn [ob_s ob_pre]. rewrite U. cbn [bind]. change (upto GetOutputItemCount) with ([0; 1; 2] ++ map Z.of_nat (seq 3 12)).
  change (Z.to_nat num_wf_base) with 4%nat. change (upto num_wf_base) with [0; 1; 2; 3]. rewrite each_app, each_cons, compare_theta by exact A.
  pose proof A as B. destruct B as [_ _ _ _ AT AD _ _ _ _ _]. cbn [ob_s] in AT, AD. rewrite N in AT, AD. rewrite into_doubles.
  destruct (p_theta_wf (st_p t)) as [|m1 [|m2 [|m3 [|m4 [|m5 ms]]]]] eqn:ET; cbn [length] in AT; try lia. change (4 <? length [m1; m2; m3; m4])%nat with false. cbv iota. cbn [bind].
  change (uget (map Some [m1; m2; m3; m4] ++ repeat None (4 - length [m1; m2; m3; m4])) 0) with (Ok m1). cbn [bind].
  change (map Some [m1; m2; m3; m4] ++ repeat None (4 - length [m1; m2; m3; m4])) with [Some m1; Some m2; Some m3; Some m4].
  unfold theta_wf_b, depth_wf_b. rewrite near_all. cbn [bind]. rewrite each_cons, compare_other by (cbn; tauto). cbn [bind].
  rewrite each_cons, compare_depth by exact A. rewrite into_doubles.
  destruct (p_depth_wf (st_p t)) as [|d1 [|d2 [|d3 [|d4 [|d5 ds]]]]] eqn:ED; cbn [length] in AD; try lia. change (4 <? length [d1; d2; d3; d4])%nat with false. cbv iota. cbn [bind].
  change (map Some [d1; d2; d3; d4] ++ repeat None (4 - length [d1; d2; d3; d4])) with [Some d1; Some d2; Some d3; Some d4].
  unfold depth_wf_b; rewrite near_all. cbn [bind]. rewrite each_nil. cbn [bind].
  rewrite each_pass; [|apply Forall_forall; intros i Hi; apply compare_other; right; exact Hi]. cbn [bind].
  rewrite 2 asserted_all.
  rewrite (get_out t "infiltration" 1 o_in), (get_out t "potential_evapotranspiration" 9 o_pet), (get_out t "actual_evapotranspiration" 3 o_aet); try reflexivity; try lia.
  set (g1 := gap (Some (lit 100)) (lit (455355239489608365 / 100000000000000000)) d1). set (g2 := gap (Some (lit 100)) (lit 44) d2). set (g3 := gap (Some (lit 100)) (lit 175) d3). set (g4 := gap (Some (lit 100)) (lit 200) d4).
  set (h1 := gap None (lit (21371581122514613 / 100000000000000000)) m1). set (h2 := gap None (lit (17270389607163267 / 100000000000000000)) m2).
  set (h3 := gap None (lit (25211383152603861 / 100000000000000000)) m3). set (h4 := gap None (lit (17959348005962811 / 100000000000000000)) m4).
  assert (BD : forall b, st_out t = Some b -> benchmark t <-> (dltb g1 (lit (1 / 100000)) && dltb g2 (lit (1 / 100000)) && dltb g3 (lit (1 / 100000)) && dltb g4 (lit (1 / 100000)) = true) /\
    (dltb h1 (lit (1 / 100000)) && dltb h2 (lit (1 / 100000)) && dltb h3 (lit (1 / 100000)) && dltb h4 (lit (1 / 100000)) = true) /\
    dgtb (dabs (lit (1896 / 1000) - o_in b * lit 1000)%d) (lit (1 / 100000)) = false /\ dgtb (dabs (lit (104 / 1000) - o_pet b * lit 1000)%d) (lit (1 / 100000)) = false /\
    dgtb (dabs (lit (2980092620558239 / 100000000000000000) - o_aet b * lit 1000)%d) (lit (1 / 100000)) = false).
  { intros b EO. rewrite !andb_true_iff. split.
    - intros [(x1 & x2 & x3 & x4 & X & X1 & X2 & X3 & X4) (y1 & y2 & y3 & y4 & Y & Y1 & Y2 & Y3 & Y4) (b' & O & O1 & O2 & O3)].
      rewrite ED in X. rewrite ET in Y. injection X as <- <- <- <-. injection Y as <- <- <- <-. assert (b' = b) as -> by congruence. repeat split; assumption.
    - intros ((((X1 & X2) & X3) & X4) & (((Y1 & Y2) & Y3) & Y4) & O1 & O2 & O3). constructor.
      + exists d1, d2, d3, d4. split; [exact ED|]. repeat split; assumption.
      + exists m1, m2, m3, m4. split; [exact ET|]. repeat split; assumption.
      + exists b. split; [exact EO|]. repeat split; assumption. }
  destruct (dltb g1 (lit (1 / 100000)) && dltb g2 (lit (1 / 100000)) && dltb g3 (lit (1 / 100000)) && dltb g4 (lit (1 / 100000))) eqn:EG; cbn [bind];
    [|split; [|discriminate]; split; [discriminate|]; intro BM; pose proof BM as [_ _ (b & O & _)]; destruct (proj1 (BD b O) BM) as (X & _); discriminate].
  destruct (dltb h1 (lit (1 / 100000)) && dltb h2 (lit (1 / 100000)) && dltb h3 (lit (1 / 100000)) && dltb h4 (lit (1 / 100000))) eqn:EH; cbn [bind];
    [|split; [|discriminate]; split; [discriminate|]; intro BM; pose proof BM as [_ _ (b & O & _)]; destruct (proj1 (BD b O) BM) as (_ & X & _); discriminate].
  apply andb_true_iff in EG as [EG G4]. apply andb_true_iff in EG as [EG G3]. apply andb_true_iff in EG as [G1 G2].
  apply andb_true_iff in EH as [EH H4]. apply andb_true_iff in EH as [EH H3]. apply andb_true_iff in EH as [H1 H2].
  rewrite (closer _ G1), (closer _ G2), (closer _ G3), (closer _ G4), (closer _ H1), (closer _ H2), (closer _ H3), (closer _ H4).
  destruct (st_out t) as [b|] eqn:EO; cbn [bind andb cassert]; [|split; [|discriminate]; split; [discriminate|]; intros [_ _ (b & O & _)]; congruence].
  rewrite (BD b eq_refl). destruct (dgtb (dabs (lit (1896 / 1000) - _)%d) _); [split; [|discriminate]; split; [discriminate|]; intros (_ & _ & X & _); discriminate|].
  destruct (dgtb (dabs (lit (104 / 1000) - _)%d) _); [split; [|discriminate]; split; [discriminate|]; intros (_ & _ & _ & X & _); discriminate|].
  destruct (dgtb (dabs (lit (2980092620558239 / 100000000000000000) - _)%d) _); [split; [|discriminate]; split; [discriminate|]; intros (_ & _ & _ & _ & X); discriminate|].
  split; [|discriminate]. split; [|reflexivity]. intros _. repeat split.
Qed.

(** ** The calibration test *)
Lemma agree_same : forall x, agree x x = Ok tt.
Proof.
  intro x. unfold agree. assert (P : dleb (Fin 0) (lit (1 / 100000)) = true) by (rewrite <- rnd_zero; apply rnd_mono; lra).
  destruct x as [r| | |]; try (cbn [dsub dabs]; destruct (lit (1 / 100000)); reflexivity). assert (E : dabs (Fin r - Fin r)%d = Fin 0).
  { unfold dsub. rewrite Rminus_eq_0, rnd_zero. cbn. rewrite Rabs_R0. reflexivity. }
  rewrite E. unfold dgtb. destruct (lit (1 / 100000)) as [y| | |]; try discriminate; try reflexivity. cbn in *. unfold Rltb, Rleb in *. destruct (Rle_dec 0 y), (Rlt_dec y 0); try discriminate; try reflexivity. lra.
Qed.
Lemma agree_gen : forall x y, x = y -> agree x y = Ok tt.
Proof. intros x y ->. apply agree_same. Qed.
Theorem calibration_is : forall s, arrays_ok (mkObj s (repeat None 11)) -> p_nlayers (st_p s) = 3 -> calibration (mkObj s (repeat None 11)) = Ok (mkObj (test_parameters s) (repeat None 11)).
Proof.
  intros s A N. destruct A as [_ _ _ _ _ _ A1 A2 A3 A4 A5]. cbn [ob_s] in *. rewrite N in *. destruct s as [hd pv so p mb pr pe cal out gn go gq]. destruct p. destruct cal as [te tr cn ca ck fc pm].
  cbn [State.st_p State.st_cal State.p_nlayers State.c_theta_e State.c_theta_r State.c_n State.c_alpha State.c_Ksat] in *. subst.
  destruct te as [|e1 [|e2 [|e3 [|e4 te]]]]; cbn [length] in A1; try lia. destruct cn as [|n1 [|n2 [|n3 [|n4 cn]]]]; cbn [length] in A3; try lia.
  destruct ca as [|a1 [|a2 [|a3 [|a4 ca]]]]; cbn [length] in A4; try lia. destruct ck as [|k1 [|k2 [|k3 [|k4 ck]]]]; cbn [length] in A5; try lia.
  unfold calibration.
  match goal with |- (_ <- ?g ;; _) = _ => change g with (Ok ([[e1; e2; e3]; [n1; n2; n3]; [a1; a2; a3]; [k1; k2; k3]], fc, pm)) end. cbn [bind].
  repeat match goal with |- (o <- SetValue ?n ?v ?x ;; _) = _ => let y := eval cbv -[lit] in (SetValue n v x) in change (SetValue n v x) with y; cbn [bind] end.
  match goal with |- bind (get_parameters ?o) _ = _ => change (get_parameters o) with (Ok ([smcmax_set; vg_n_set; vg_alpha_set; Ksat_set], field_capacity_set, ponded_depth_max_set)) end. cbn [bind].
  rewrite 2 agree_same. cbn [bind].
  assert (E : each (upto num_layers) (check_layer [smcmax_set; vg_n_set; vg_alpha_set; Ksat_set]) tt = Ok (Next tt)).
  { change (upto num_layers) with [0; 1; 2]. apply each_pass. repeat (apply Forall_cons; [|]); try apply Forall_nil.
    all: apply each_pass; repeat (apply Forall_cons; [|]); try apply Forall_nil; lazy -[agree lit Rdiv IZR]; rewrite agree_same; reflexivity. }
  rewrite E. reflexivity.
Qed.

(** ** The whole test *)
Lemma test_from : forall files junk junk' ls s, Initialize files junk ls = Ok s -> unit_test files junk junk' ls =
  if (p_nlayers (st_p s) =? 3) && (p_ncells (st_p s) =? 1) then
    x <- outputs (mkObj (test_rain s) (repeat None 11)) true ;; match x with Return c => Ok c | Next _ => t' <- Update (test_parameters s) ;; Ok 0 end
  else Stop Throw.
Proof.
  intros files junk junk' ls s H. assert (H' : Initialize files junk' ls = Ok s) by (rewrite <- (initialize_junk files junk junk' ls); exact H).
  unfold unit_test. rewrite H, H'. cbn [bind]. rewrite (test_metadata _ _ _ _ H). destruct (init_counts _ _ _ _ H) as (K1 & K2 & K3 & K4 & K5).
  destruct (Z.eqb_spec (p_nlayers (st_p s)) 3) as [E1'|E1']; [|reflexivity]. destruct (Z.eqb_spec (p_ncells (st_p s)) 1) as [E2'|E2']; [|reflexivity]. cbn [andb bind].
  rewrite exercise_all; [|exact E2'|rewrite K5, E2'; reflexivity]. cbn [bind]. destruct (outputs _ _) as [[u|c]|w]; [|reflexivity|reflexivity]. cbn [bind].
  rewrite calibration_is by assumption. cbn [bind]. unfold bmi_Update. cbn [ob_s ob_pre]. destruct (Update (test_parameters s)); reflexivity.
Qed.
Lemma rain_arrays : forall s t, arrays_ok (mkObj s (repeat None 11)) -> Update (test_rain s) = Ok t -> arrays_ok (mkObj t (repeat None 11)).
Proof. intros s t A U. apply (update_arrays (mkObj (test_rain s) (repeat None 11))); [|exact U]. destruct A. constructor; assumption. Qed.
Lemma wrong_outputs : forall s t, arrays_ok (mkObj t (repeat None 11)) -> Update s = Ok t -> p_nfronts (st_p t) <> 4 ->
  outputs (mkObj s (repeat None 11)) true = Stop (UB (if 4 <? p_nfronts (st_p t) then OutOfBounds else Uninit)).
Proof.
  intros s t A U N. unfold outputs, bmi_Update. cbn [ob_s ob_pre]. rewrite U. cbn [bind]. change (upto GetOutputItemCount) with (0 :: map Z.of_nat (seq 1 14)). rewrite each_cons, wrong_fronts by assumption. reflexivity.
Qed.
Theorem test_size : forall files junk junk' ls s, Initialize files junk ls = Ok s -> p_nlayers (st_p s) <> 3 \/ p_ncells (st_p s) <> 1 -> unit_test files junk junk' ls = Stop Throw.
Proof.
  intros files junk junk' ls s H D. rewrite (test_from _ _ _ _ _ H). destruct (Z.eqb_spec (p_nlayers (st_p s)) 3), (Z.eqb_spec (p_ncells (st_p s)) 1); try reflexivity. lia.
Qed.
Theorem test_fronts : forall files junk junk' ls s t, Initialize files junk ls = Ok s -> p_nlayers (st_p s) = 3 -> p_ncells (st_p s) = 1 -> Update (test_rain s) = Ok t ->
  (4 < p_nfronts (st_p t) -> unit_test files junk junk' ls = Stop (UB OutOfBounds)) /\ (p_nfronts (st_p t) < 4 -> unit_test files junk junk' ls = Stop (UB Uninit)).
Proof.
  intros files junk junk' ls s t H L C U. destruct (init_counts _ _ _ _ H) as (_ & _ & _ & A & _). pose proof (rain_arrays _ _ A U) as A'. rewrite (test_from _ _ _ _ _ H), L, C. cbn [Z.eqb Pos.eqb andb].
  split; intro N; rewrite (wrong_outputs _ _ A' U) by lia; (destruct (Z.ltb_spec 4 (p_nfronts (st_p t))); [|try lia; reflexivity]); [reflexivity|lia].
Qed.
Theorem test_calibration : forall files junk junk' ls s t, Initialize files junk ls = Ok s -> p_nlayers (st_p s) = 3 -> p_ncells (st_p s) = 1 -> Update (test_rain s) = Ok t -> p_nfronts (st_p t) = 4 -> benchmark t ->
  unit_test files junk junk' ls = (t' <- Update (test_parameters s) ;; Ok 0).
Proof.
  intros files junk junk' ls s t H L C U N B. destruct (init_counts _ _ _ _ H) as (_ & _ & _ & A & _). pose proof (rain_arrays _ _ A U) as A'. rewrite (test_from _ _ _ _ _ H), L, C. cbn [Z.eqb Pos.eqb andb].
  rewrite (proj2 (proj1 (outputs_benchmark _ _ U A' N)) B). reflexivity.
Qed.
Theorem test_passes : forall files junk junk' ls z, unit_test files junk junk' ls = Ok z <->
  z = 0 /\ exists s t t', Initialize files junk ls = Ok s /\ p_nlayers (st_p s) = 3 /\ p_ncells (st_p s) = 1 /\ Update (test_rain s) = Ok t /\ p_nfronts (st_p t) = 4 /\ benchmark t /\
    Update (test_parameters s) = Ok t'.
Proof.
  intros files junk junk' ls z. split.
  - intro H. destruct (Initialize files junk ls) as [s|w] eqn:Ei; [|unfold unit_test in H; rewrite Ei in H; discriminate].
    rewrite (test_from _ _ _ _ _ Ei) in H. destruct (init_counts _ _ _ _ Ei) as (_ & _ & _ & A & _).
    destruct (Z.eqb_spec (p_nlayers (st_p s)) 3) as [L|]; [|discriminate]. destruct (Z.eqb_spec (p_ncells (st_p s)) 1) as [C|]; [|discriminate]. cbn [andb] in H.
    destruct (Update (test_rain s)) as [t|w] eqn:U; [|unfold outputs, bmi_Update in H; cbn [ob_s ob_pre] in H; rewrite U in H; discriminate].
    pose proof (rain_arrays _ _ A U) as A'. destruct (Z.eq_dec (p_nfronts (st_p t)) 4) as [N|N]; [|rewrite (wrong_outputs _ _ A' U N) in H; discriminate].
    destruct (outputs_benchmark _ _ U A' N) as [B R]. destruct (outputs _ _) as [[[]|c]|w]; [|exfalso; apply (R c); reflexivity|discriminate]. cbn [bind] in H.
    destruct (Update (test_parameters s)) as [t'|w] eqn:U'; [|discriminate]. apply Ok_inj in H. split; [congruence|]. exists s, t, t'. repeat (split; [assumption || reflexivity|]). split; [apply B; reflexivity|exact U'].
  - intros (-> & s & t & t' & H & L & C & U & N & B & U'). rewrite (test_calibration _ _ _ _ _ _ H L C U N B), U'. reflexivity.
Qed.
End Test.

(** ** In exact arithmetic *)
Section Exact.
Local Existing Instance exact.
Open Scope R_scope.
Lemma within_exact : forall x y, within (Fin x) y <-> exists r, y = Fin r /\ Rabs (r - x) < 1 / 100000.
Proof.
  intros x y. unfold within. change (@rnd exact (1 / 100000)) with (Fin (1 / 100000)). split.
  - destruct y as [r| | |]; try discriminate. intro H. exists r. split; [reflexivity|]. cbn in H. unfold Rltb in H. destruct (Rlt_dec _ _); [|discriminate]. rewrite Rabs_minus_sym. assumption.
  - intros (r & -> & H). rewrite Rabs_minus_sym in H. cbn. unfold Rltb. destruct (Rlt_dec _ _); [reflexivity|contradiction].
Qed.
Lemma not_off_exact : forall x y, not_off (Fin x) y <-> y = NaN \/ exists r, y = Fin r /\ Rabs (r - x) <= 1 / 100000.
Proof.
  intros x y. unfold not_off. change (@rnd exact (1 / 100000)) with (Fin (1 / 100000)). split.
  - destruct y as [r| | |]; try discriminate; [|left; reflexivity]. intro H. right. exists r. split; [reflexivity|]. cbn in H. unfold Rltb in H. destruct (Rlt_dec _ _); [discriminate|]. rewrite Rabs_minus_sym. lra.
  - intros [->|(r & -> & H)]; [reflexivity|]. rewrite Rabs_minus_sym in H. cbn. unfold Rltb. destruct (Rlt_dec _ _); [lra|reflexivity].
Qed.
Lemma scaled : forall d r c, (d * @rnd exact c)%d = Fin r -> 0 < c -> exists x, d = Fin x /\ r = x * c.
Proof.
  intros d r c H Hc. change (@rnd exact c) with (Fin c) in H. destruct d as [x| | |]; cbn in H; [injection H as <-; exists x; split; [reflexivity|lra]| | |discriminate].
  all: unfold inf_sign in H; repeat match type of H with context [if ?b then _ else _] => destruct b end; discriminate.
Qed.
Lemma nan_scaled : forall d c, (d * @rnd exact c)%d = NaN -> 0 < c -> d = NaN.
Proof.
  intros d c H Hc. change (@rnd exact c) with (Fin c) in H. destruct d as [x| | |]; cbn in H; [discriminate| | |reflexivity].
  all: unfold inf_sign in H; repeat match type of H with context [if ?b then _ else _] => destruct b end; try discriminate; lra.
Qed.
Theorem benchmark_exact : forall t, benchmark t -> published_benchmark t.
Proof.
  intros t [(d1 & d2 & d3 & d4 & D & D1 & D2 & D3 & D4) (m1 & m2 & m3 & m4 & M & M1 & M2 & M3 & M4) (b & O & O1 & O2 & O3)].
  change (@rnd exact) with Fin in D1, D2, D3, D4, M1, M2, M3, M4, O1, O2, O3.
  apply within_exact in D1 as (x1 & E1' & D1), D2 as (x2 & E2' & D2), D3 as (x3 & E3' & D3), D4 as (x4 & E4' & D4), M1 as (y1 & -> & M1), M2 as (y2 & -> & M2), M3 as (y3 & -> & M3), M4 as (y4 & -> & M4).
  apply (scaled _ _ 100) in E1' as (z1 & -> & ->); [|lra]. apply (scaled _ _ 100) in E2' as (z2 & -> & ->); [|lra]. apply (scaled _ _ 100) in E3' as (z3 & -> & ->); [|lra]. apply (scaled _ _ 100) in E4' as (z4 & -> & ->); [|lra].
  assert (G : forall d x, not_off (Fin x) (d * Fin 1000)%d -> d = NaN \/ exists r, d = Fin r /\ Rabs (1000 * r - x) <= 1 / 100000).
  { intros d x H. apply not_off_exact in H as [H|(r & H & K)]; [left; apply (nan_scaled _ 1000 H); lra|]. right. apply (scaled _ _ 1000) in H as (w & -> & ->); [|lra]. exists w. split; [reflexivity|]. rewrite Rmult_comm. exact K. }
  apply G in O1, O2, O3. exists z1, z2, z3, z4, y1, y2, y3, y4, b. split; [exact D|]. split; [exact M|]. split; [exact O|]. rewrite !(Rmult_comm 100). repeat (split; [assumption|]). assumption.
Qed.
Theorem test_meaning : forall (cfg : Cfg) files junk junk' ls z, unit_test files junk junk' ls = Ok z -> exists s t, Initialize files junk ls = Ok s /\ Update (test_rain s) = Ok t /\ published_benchmark t.
Proof. intros cfg files junk junk' ls z H. apply test_passes in H as (_ & s & t & t' & H1 & _ & _ & H2 & _ & H3 & _). exists s, t. split; [exact H1|]. split; [exact H2|]. apply benchmark_exact. exact H3. Qed.
End Exact.
