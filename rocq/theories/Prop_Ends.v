(** C73: the loops without a counter end, over the reals. *)

From Coq Require Import String Reals Lra ZArith List Lia Bool.
From Verif Require Import Outcome Dbl Exact Types ListOps Soil Fronts Infil Move State Update Bmi Config Driver Lib Spec_Common Spec_List Spec_Soil Spec_Update Spec_Profile Spec_Storage Spec_Balance Spec_Velocity Spec_Single Spec_SubSingle
  Spec_Config Spec_Run Spec_Driver Spec_OneLayer Spec_OneConfig Spec_OneProgram Spec_Fuel Spec_Ends Pf_Update Pf_OneLayer Pf_OneProgram Pf_GeffEnds Pf_TmbEnds Pf_SubEnds Pf_RunEnds Ex_Saturated Ex_Soil Ex_Safety Ex_Storage Ex_Velocity Ex_TwoLayers Ex_Driver Ex_Config Ex_OneLayer.
Import ListNotations.
Open Scope R_scope.
Local Existing Instance exact.

(** The capillary integral ends for any water contents, at least one step and any conductivity. *)
Theorem C73_capillary_integral_ends :
  forall b closed t1 t2 s r e a n m k ks nint, vg_soil s r e a n m k -> (1 <= nint)%Z ->
    settles (fun j => @calc_Geff exact (bounded b j) closed t1 t2 s ks nint).
Proof. exact geff_settles. Qed.
Print Assumptions C73_capillary_integral_ends.

(** The head iteration ends, also if the masses, water contents and thicknesses are no numbers, as long as they are not infinite. *)
Theorem C73_head_iteration_ends :
  forall e lay s dth dz,
    (forall k sk, (1 <= k <= lay)%Z -> soil_of e k = Ok sk -> exists r te a n m ks, vg_soil sk r te a n m ks) -> (1 <= lay)%Z -> soil_of e lay = Ok s ->
    (forall k x, uget dz k = Ok x -> tame x) -> (forall k x, uget dth k = Ok x -> tame x) ->
    forall b psi new prior aet, not_negative psi -> tame new -> tame prior ->
      settles (fun j => @lgar_theta_mass_balance exact (bounded b j) e lay s psi new prior aet dth dz).
Proof. exact tmb_settles. Qed.
Print Assumptions C73_head_iteration_ends.

(** With an infinite mass to reach it never ends. *)
Theorem C73_infinite_mass_refuted :
  forall e s r te al n m k dth dz t z, vg_soil s r te al n m k -> uget dth 1 = Ok (Fin t) -> uget dz 1 = Ok (Fin z) ->
    forall b j p new aet, 0 < p <= 1 / 200 -> @lgar_theta_mass_balance exact (bounded b j) e 1 s (Fin p) (Fin new) PInf aet dth dz = Stop OutOfFuel.
Proof. exact infinite_mass_hangs. Qed.
Print Assumptions C73_infinite_mass_refuted.

(** A sub-step ends, in a column of any number of layers. *)
Theorem C73_substep_ends : forall b u st a, workable u -> unhurried u st a -> settles (fun j => @substep exact (bounded b j) u st a).
Proof. intros b u st a W H. exact (fs_settles _ _ _ (eased_fs b u st a W H)). Qed.
Print Assumptions C73_substep_ends.

(** So does an Update, if all its sub-steps can start. *)
Theorem C73_update_ends :
  forall b s,
    (p_invalid (st_p s) = false -> forall u s2 a n, launched s u s2 a n ->
       workable u /\ forall j xs st' a', @runs exact (bounded b j) u s2 a xs st' a' -> (length xs < Z.to_nat n)%nat -> unhurried u st' a') ->
    settles (fun j => @Update exact (bounded b j) s).
Proof. intros b s H. exact (fs_settles _ _ _ (update_fs b s H)). Qed.
Print Assumptions C73_update_ends.

(** With one soil layer they all can: every Update of a simulation ends, whatever numbers the forcing consists of. *)
Theorem C73_one_layer_updates_end :
  forall b sl r te D s0 i xs s, one_layer sl r te D s0 -> @history exact (bounded b i) known_weather s0 xs s -> settles (fun j => @Update exact (bounded b j) s).
Proof. intros b sl r te D s0 i xs s H0 H. exact (fs_settles _ _ _ (history_update_fs b _ _ _ _ _ _ _ _ H0 H)). Qed.
Print Assumptions C73_one_layer_updates_end.

(** The standalone program on a configuration of one layer ends. *)
Theorem C73_program_ends :
  forall b files texts junk ls t types gs psi wp fc dt fres max rows f, single_config files ls t types gs psi wp fc dt fres max rows ->
    ReadForcingData texts ls = Ok f -> numeric f -> settles (fun j => @simulate exact (bounded b j) files texts junk ls).
Proof. intros b files texts junk ls t types gs psi wp fc dt fres max rows f SC Ef NF. exact (fs_settles _ _ _ (program_fs b files texts junk ls _ _ _ _ _ _ _ _ _ _ _ SC Ef NF)). Qed.
Print Assumptions C73_program_ends.

(** With C71: from some bound on the program either prints a balance within the bound of C71 or stops for one of three reasons. *)
Theorem C73_program_outcome :
  forall b files texts junk ls t types gs psi wp fc dt fres max rows endsec f, single_config files ls t types gs psi wp fc dt fres max rows ->
    ends_at ls endsec -> fres * 3600 <= endsec -> endsec / (fres * 3600) < 2147483647 -> ReadForcingData texts ls = Ok f -> plausible f ->
    exists N, forall j, (N <= j)%nat ->
      ends (fun why => why = UB UseAfterFree \/ why = AssertFail \/ why = Abort)
        (fun res => (0 < length (rs_rows res))%nat /\ exists g, rs_printed res = Fin g /\ Rabs g <= INR (length (rs_rows res)) * (fres / dt + 1) * (1 / 10000 + 1 / 1000000000000))
        (@simulate exact (bounded b j) files texts junk ls).
Proof.
  intros b files texts junk ls t types gs psi wp fc dt fres max rows endsec f SC En E0 E1 Ef PF.
  assert (NF : numeric f) by (destruct PF as [P1 P2]; split; (eapply Forall_impl; [|eassumption]); intros x (y & -> & _); exists y; reflexivity).
  destruct (C73_program_ends b files texts junk ls t types gs psi wp fc dt fres max rows f SC Ef NF) as (N & HN). exists N. intros j Hj. specialize (HN j Hj).
  pose proof (program_single (bounded b j) files texts junk ls t types gs psi wp fc dt fres max rows endsec f SC En E0 E1 Ef PF) as Q.
  destruct (simulate files texts junk ls) as [res|why]; cbn [ends] in *; [destruct Q as (A & g & B & C & _); eauto|].
  destruct Q as [Q|[Q|[Q|Q]]]; auto. subst why. contradiction.
Qed.
Print Assumptions C73_program_outcome.

(** Two layers of 25 and 75 cm: four fronts with the capillary drive integrated numerically, an Update of the saturated column, an infinite mass; and the configuration of C71. *)
Definition en_upar : upar := mkU ti_env (Fin 1) 120 false (Fin 15495) (Fin 341) (Fin 2).
Example C73_concrete : forall b,
  workable en_upar /\ unhurried en_upar ti_start (acc0 (Fin (176 / 5)) (Fin 1)) /\ length (st_head ti_start) = 4%nat /\
  (exists u s2 a, launched tw_start u s2 a 1 /\ workable u /\ unhurried u s2 a) /\
  vg_soil ex_soil (1 / 10) (2 / 5) (1 / 100) 2 (1 / 2) 1 /\
  one_layer dr_soil (1 / 10) (2 / 5) 100 dr_state0 /\ @history exact (bounded b 0) known_weather dr_state0 [] dr_start /\
  single_config dr_files dr_lines (num "100.0") [num "1"] [num "1.0"] (num "0.0") (num "15495.0") (num "341") (1 / 2) 1 1 [dr_row] /\
  ReadForcingData dr_texts dr_lines = Ok dr_forcing /\ plausible dr_forcing.
Proof.
  intro b.
  assert (A : forall d th psi k lay num bt v, 0 < d -> (1 <= lay <= 2)%Z -> 0 <= psi -> at_ease ti_env (mkF (Fin d) (Fin th) (Fin psi) k lay num bt (Fin v))).
  { intros. constructor; cbn; try (split; discriminate); [assumption|eauto|]. apply Pf_Pow.ltb_f. lra. }
  split; [split; [exact so_env|split; [exact so_vg|split; [exact ve_conducting|split; [exact ve_integrated|exists 1; split; [reflexivity|lra]]]]]|].
  split. { split; [|split; [|split]]; try (eexists; reflexivity). repeat (apply Forall_cons; [apply A; [lra|lia|lra]|]). apply Forall_nil. }
  split; [reflexivity|].
  split.
  { eexists _, _, _. split; [exists tw_start, (Fin 0), (Fin 40), (Fin 1); split; [reflexivity|]; split; [exact tw_mass|]; split; [apply sf_steps|split; reflexivity]|].
    split; [split; [exact so_env|split; [exact so_vg|split; [exact ve_conducting|split; [exact ve_capillary|exists 1; split; [reflexivity|lra]]]]]|].
    split; [|split; [|split]]; try (eexists; reflexivity). repeat (apply Forall_cons; [apply A; [lra|lia|lra]|]). apply Forall_nil. }
  split; [exact ex_vg|]. split; [exact (proj1 on_start)|]. split; [exact on_history|]. split; [exact dr_single|]. split; [exact dr_read|exact dr_plausible].
Qed.
