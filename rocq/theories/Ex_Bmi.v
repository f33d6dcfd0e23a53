(** Worked example: calls of the Basic Model Interface on a saturated layer. *)

From Coq Require Import String Reals Lra ZArith List Bool Lia.
From RecordUpdate Require Import RecordSet.
From Verif Require Import Outcome Dbl Exact Types ListOps State Update Bmi Lib Spec_Common Spec_Column Spec_Update Spec_Bmi Spec_Calib
  Pf_Update Pf_Ledger Pf_Bmi Pf_BmiMem Pf_BmiRun Pf_Calib Ex_Saturated Ex_Safety Ex_TwoLayers Ex_Ledger.
Import ListNotations.
Import RecordSetNotations.
Open Scope string_scope.
Open Scope Z_scope.
Open Scope list_scope.

Definition bm_cal : calib := mkCal [Fin (2 / 5)] [Fin (1 / 10)] [Fin 2] [Fin (1 / 100)] [Fin 1] (Fin 341) (Fin (3 / 2)).
Definition bm_obj : obj := mkObj (recal bm_cal ex_start) (repeat None 11).
Definition bm_end : obj := mkObj (recal bm_cal ex_end) (repeat None 11).

Lemma bm_arrays : arrays_ok bm_obj.
Proof. constructor; cbn; lia || reflexivity. Qed.

Lemma bm_set : forall d, SetValue "smcmax" [D d] bm_obj = Ok (mkObj (recal (bm_cal <| c_theta_e := [d] |>) ex_start) (repeat None 11)).
Proof. reflexivity. Qed.

Section Run.
Local Existing Instance exact.
Context {cfg : Cfg}.

Lemma bm_update : bmi_Update bm_obj = Ok bm_end.
Proof. unfold bmi_Update, bm_obj. cbn [ob_s]. rewrite update_recal by (left; reflexivity). rewrite ex_update. reflexivity. Qed.

(** Two writes, an Update and two reads. *)
Definition bm_calls : list call := [CSet "precipitation_rate" [D (Fin 20)]; CSetAt "smcmax" [0; 0] [D (Fin (1 / 2)); D (Fin (2 / 5))]; CUpdate; CGet "surface_runoff"; CGetAt "soil_moisture_wetting_fronts" [0]].
Lemma bm_run : do_calls bm_calls bm_obj = Ok bm_end.
Proof.
  unfold bm_calls. cbn [do_calls do_call].
  match goal with |- context [SetValue ?a ?b ?c] => change (SetValue a b c) with (Ok bm_obj) end. cbn [bind].
  match goal with |- context [SetValueAtIndices ?a ?b ?c ?d] => change (SetValueAtIndices a b c d) with (Ok bm_obj) end. cbn [bind].
  rewrite bm_update. cbn [bind].
  match goal with |- context [GetValue ?a ?b] => change (GetValue a b) with (Ok [D (Fin (1 / 200))]) end. cbn [bind].
  match goal with |- context [GetValueAtIndices ?a ?b ?c] => change (GetValueAtIndices a b c) with (Ok [D (Fin (2 / 5))]) end. reflexivity.
Qed.

Lemma bm_concrete : arrays_ok bm_obj /\ Forall (fun c => sets c <> Some "soil_num_wetting_fronts") bm_calls /\
  do_calls bm_calls bm_obj = Ok bm_end /\ GetValue "surface_runoff" bm_end = Ok [D (Fin (1 / 200))] /\ GetVarNbytes "soil_depth_layers" bm_end = 8.
Proof.
  split; [exact bm_arrays|]. split; [repeat constructor; discriminate|]. split; [exact bm_run|]. split; reflexivity.
Qed.

(** The ledger for sequences of calls. *)
Lemma calls_ledger : forall cs o o1 o2, length (ob_pre o) = 11%nat -> fresh (ob_s o) -> p_invalid (st_p (ob_s o)) = false ->
  Forall (fun c => sets c <> Some "soil_depth_layers") cs -> do_calls cs o = Ok o1 -> bmi_Update o1 = Ok o2 ->
  exists xs, history (fun _ => True) (ob_s o) xs (ob_s o2) /\
    (Forall (fun x => finite (residual x)) xs -> finite (mb_calib (st_mb (ob_s o2))) ->
     global_error (st_mb (ob_s o2)) = Fin (Rsum (map (fun x => val (residual x)) xs) + Rsum (map (fun x => dropped (val (ponded_before x))) xs))).
Proof.
  intros cs o o1 o2 W F I0 N H U. destruct (calls_history cs o o1 W N H) as [xs Hx]. unfold bmi_Update in U. bind_inv U s2 Es. apply Ok_inj in U. subst o2. cbn [ob_s].
  destruct (executed_exists _ _ Es) as (u & ys & Y). exists (xs ++ ys). split; [eapply hist_update; eassumption|]. intros Fr Fc. eapply history_global; eassumption.
Qed.

Lemma bm_fresh : length (ob_pre bm_obj) = 11%nat /\ fresh (ob_s bm_obj) /\ p_invalid (st_p (ob_s bm_obj)) = false /\
  Forall (fun c => sets c <> Some "soil_depth_layers") [CSet "precipitation_rate" [D (Fin 20)]] /\
  do_calls [CSet "precipitation_rate" [D (Fin 20)]] bm_obj = Ok bm_obj /\ bmi_Update bm_obj = Ok bm_end /\ mb_precip (st_mb (ob_s bm_end)) = Fin 2.
Proof.
  split; [reflexivity|]. split; [exact (proj1 (ex_ledger cfg))|]. split; [reflexivity|]. split; [repeat constructor; discriminate|]. split; [reflexivity|]. split; [exact bm_update|]. reflexivity.
Qed.

(** Without the flag: writing calibration values before the Update. *)
Definition bm_junk : list call := [CSet "smcmax" [D (Fin 7)]; CSet "hydraulic_conductivity" [D (Fin 9)]; CUpdate; CSet "ponded_depth_max" [D (Fin 5)]].
Lemma bm_ignored : (p_calib (st_p (ob_s bm_obj)) = false \/ p_invalid (st_p (ob_s bm_obj)) = true) /\
  filter (fun c => negb (about_calib c)) bm_junk = [CUpdate] /\ exists o', do_calls bm_junk bm_obj = Ok o' /\ c_theta_e (st_cal (ob_s o')) = [Fin 7] /\ st_head (ob_s o') = st_head ex_end.
Proof.
  split; [left; reflexivity|]. split; [reflexivity|]. unfold bm_junk. cbn [do_calls do_call].
  set (c2 := mkCal [Fin 7] [Fin (1 / 10)] [Fin 2] [Fin (1 / 100)] [Fin 9] (Fin 341) (Fin (3 / 2))).
  match goal with |- context [SetValue "smcmax" ?b ?c] => change (SetValue "smcmax" b c) with (Ok (mkObj (recal (bm_cal <| c_theta_e := [Fin 7] |>) ex_start) (repeat None 11))) end. cbn [bind].
  match goal with |- context [SetValue "hydraulic_conductivity" ?b ?c] => change (SetValue "hydraulic_conductivity" b c) with (Ok (mkObj (recal c2 ex_start) (repeat None 11))) end. cbn [bind].
  unfold bmi_Update. cbn [ob_s]. rewrite update_recal by (left; reflexivity). rewrite ex_update. cbn [omap bind ob_pre].
  eexists. split; [reflexivity|]. split; reflexivity.
Qed.

End Run.

(** Two layers of 25 and 75 cm. *)
Definition bm_two : obj := mkObj tw_start (repeat None 11).
Lemma bm_depths : p_cum (st_p (ob_s bm_two)) = map Fin (boundaries 0 [25%R; 75%R]) /\ p_nlayers (st_p (ob_s bm_two)) = 2 /\
  GetValue "soil_depth_layers" bm_two = Ok [D (Fin 0); D (Fin 25)].
Proof.
  split; [|split; reflexivity]. cbn [boundaries map]. replace (0 + 25)%R with 25%R by lra. replace (25 + 75)%R with 100%R by lra. reflexivity.
Qed.
