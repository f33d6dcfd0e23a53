(** C86: the standalone program on columns of several layers in a drought. *)

From Coq Require Import String Ascii Reals ZArith List Bool Lra Lia.
From Verif Require Import Outcome Dbl Exact Types Fronts State Bmi Config Driver Spec_Common Spec_Config Spec_Driver Spec_Balance Spec_Rest Spec_Drought Spec_Profile
  Pf_Forcing Pf_Drought2 Ex_Config Ex_Rest.
Import ListNotations.
Open Scope string_scope.
Open Scope list_scope.
Open Scope R_scope.
Local Existing Instance exact.

(** A well-formed configuration of any number of layers, neither calibrated nor coupled to soil temperatures, with a forcing file without rain: the program either completes its run or stops because
    an iteration does not end or because the balance check of a sub-step fails, and neither of these happens unless the forcing asks for evaporation.  If it completes, every line of the output shows the column
    at rest at a head that never falls, and a storage, that of the layers at this head, that never rises; no line shows infiltration, runoff or discharge; and the printed balance is bounded. *)
Theorem C86_program :
  forall (cfg : Cfg) files texts junk ls ts types gs psi dt fres max rows endsec f,
    good_config files ls ts types gs psi dt fres max rows -> ~ In "calib_params=true" ls -> ~ In "sft_coupled=true" ls -> rooting_lines ls -> dt <= fres -> wet_soils rows ->
    ends_at ls endsec -> fres * 3600 <= endsec -> endsec / (fres * 3600) < 2147483647 -> ReadForcingData texts ls = Ok f -> endsec <= INR (List.length (fo_pet f)) * (fres * 3600) -> drought f ->
    exists qs, configured_layers ts types rows qs /\
      ends (fun why => ~ no_evaporation f /\ (why = OutOfFuel \/ why = Abort))
        (fun res => (0 < List.length (rs_rows res))%nat /\ (exists hs, Forall2 (drought_row qs) hs (rs_rows res) /\ rising (value psi) hs) /\
          (exists ws, Forall2 (fun w r => cell 5 r w) ws (rs_rows res) /\ falling (column_water qs (value psi) / 100) ws) /\
          (exists g, rs_printed res = Fin g /\ Rabs g <= INR (List.length (rs_rows res)) * (fres / dt + 1) * (1 / 10000)) /\
          (no_evaporation f -> Forall (still_row qs (value psi)) (rs_rows res) /\ rs_printed res = Fin 0))
        (simulate files texts junk ls).
Proof. exact program_drought. Qed.
Print Assumptions C86_program.

(** Without evaporative demand the program completes, every line shows the column as it was configured, and the printed balance is zero. *)
Theorem C86_still_program :
  forall (cfg : Cfg) files texts junk ls ts types gs psi dt fres max rows endsec f,
    good_config files ls ts types gs psi dt fres max rows -> ~ In "calib_params=true" ls -> ~ In "sft_coupled=true" ls -> rooting_lines ls -> dt <= fres -> wet_soils rows ->
    ends_at ls endsec -> fres * 3600 <= endsec -> endsec / (fres * 3600) < 2147483647 -> ReadForcingData texts ls = Ok f -> endsec <= INR (List.length (fo_pet f)) * (fres * 3600) ->
    drought f -> no_evaporation f ->
    exists qs res, configured_layers ts types rows qs /\ simulate files texts junk ls = Ok res /\ (0 < List.length (rs_rows res))%nat /\
      Forall (still_row qs (value psi)) (rs_rows res) /\ rs_printed res = Fin 0.
Proof.
  intros cfg files texts junk ls ts types gs psi dt fres max rows endsec f G NC NS RL Hf WS E1 E2 E3 Ef Len DR NE.
  destruct (program_drought cfg files texts junk ls ts types gs psi dt fres max rows endsec f G NC NS RL Hf WS E1 E2 E3 Ef Len DR) as (qs & CL & H).
  destruct (simulate files texts junk ls) as [res|why].
  - destruct H as (H1 & _ & _ & _ & H2). destruct (H2 NE) as [H3 H4]. exists qs, res. auto.
  - destruct H as [H _]. contradiction.
Qed.
Print Assumptions C86_still_program.

(** The first configuration of the repository, of three layers, with 7500 hours without rain; [e] is the evaporative demand of each of them. *)
Definition dry_row (e : string) : option frow := Some (mkFrow "2016-10-01 00:00:00" (num "0.0") (num e) []).
Definition dry_text (e : string) : string := file_of ("Time,P(mm/h),PET(mm/h)" :: map row_line (repeat (dry_row e) (Z.to_nat 7500))).
Definition dry_forcing (e : string) : forcing := forced (complete_rows (repeat (dry_row e) (Z.to_nat 7500))).
Definition dry_texts (e : string) (f : string) : option string := if String.eqb f "./forcing/forcing_data_resampled_uniform_Phillipsburg.csv" then Some (dry_text e) else None.
Lemma dry_complete : forall e n, complete_rows (repeat (dry_row e) n) = repeat (mkFrow "2016-10-01 00:00:00" (num "0.0") (num e) []) n.
Proof. intros e n. induction n as [|n IH]; [reflexivity|]. cbn [repeat complete_rows dry_row]. rewrite <- IH. reflexivity. Qed.
Lemma dry_read : forall e, good_row (mkFrow "2016-10-01 00:00:00" (num "0.0") (num e) []) -> ReadForcingData (dry_texts e) phillipsburg = Ok (dry_forcing e).
Proof.
  intros e G. apply (forcing_file_read (dry_texts e) phillipsburg "./forcing/forcing_data_resampled_uniform_Phillipsburg.csv" "Time,P(mm/h),PET(mm/h)" (repeat (dry_row e) (Z.to_nat 7500))).
  - split; [right; eexists; reflexivity|]. exists ["verbosity=none"], (skipn 2 phillipsburg). split; [reflexivity|]. intros x [<-|[]] [H|[v H]]; vm_compute in H; discriminate.
  - reflexivity.
  - vm_compute. repeat split; discriminate.
  - rewrite dry_complete. apply Forall_forall. intros r H. apply repeat_spec in H. subst r. split; [exact G|]. split; eexists; reflexivity.
Qed.
Lemma dry_length : forall e, INR (List.length (fo_pet (dry_forcing e))) = 7500.
Proof. intro e. unfold dry_forcing, forced. rewrite dry_complete. cbn [fo_pet]. rewrite map_length, repeat_length, INR_IZR_INZ, Z2Nat.id by lia. reflexivity. Qed.
Lemma dry_drought : forall e, 0 <= value (num e) -> drought (dry_forcing e).
Proof.
  intros e H. unfold dry_forcing, forced, drought. rewrite dry_complete. cbn [fo_pet fo_precip]. split; apply Forall_map, Forall_forall; intros r I; apply repeat_spec in I; subst r; cbn [fr_precip fr_pet].
  - change (Fin (value (num "0.0")) = Fin 0). f_equal. values. lra.
  - exists (value (num e)). split; [reflexivity|exact H].
Qed.
Ltac dry_good := split; [good|split; [good|split; [repeat constructor; vm_compute; repeat split; discriminate|vm_compute; discriminate]]].

Example C86_phillipsburg : good_config repository' phillipsburg (map num ["44.0"; "131.0"; "25.0"]) (map num ["13"; "14"; "15"]) (map num ["0.06"; "0.51"; "0.28"; "0.12"; "0.03"]) (num "2000.0") (1 / 12) 1 15 seen /\
  ~ In "calib_params=true" phillipsburg /\ ~ In "sft_coupled=true" phillipsburg /\ rooting_lines phillipsburg /\ wet_soils seen /\ ends_at phillipsburg 27000000 /\
  (forall e, e = "0.0" \/ e = "0.25" -> ReadForcingData (dry_texts e) phillipsburg = Ok (dry_forcing e) /\ 27000000 <= INR (List.length (fo_pet (dry_forcing e))) * (1 * 3600) /\ drought (dry_forcing e)) /\
  no_evaporation (dry_forcing "0.0").
Proof.
  split; [exact phillipsburg_good|]. split; [cbn; intro H; repeat (destruct H as [H|H]; [discriminate H|]); exact H|]. split; [cbn; intro H; repeat (destruct H as [H|H]; [discriminate H|]); exact H|].
  split; [exact phillipsburg_rooting|]. split.
  { unfold wet_soils, seen. cbn [completed carried fill map part_row shipped_parts r_name r_vals app length skipn fst snd].
    repeat (apply Forall_cons; [intros nm tr te al n k H; unfold full_row in H; injection H as _ H _ _ _ _; rewrite <- H; values; lra|]). apply Forall_nil. }
  split. { exists (num "7500.0"), "[hr]", 3600. split; [good|]. split; [cbn; tauto|]. split; [change (last_line "endtime" "endtime=7500.0[hr]" phillipsburg); a_last 6%nat|]. values. lra. }
  split.
  - intros e He. split; [apply dry_read; destruct He as [->| ->]; dry_good|]. split; [rewrite dry_length; lra|]. apply dry_drought. destruct He as [->| ->]; values; lra.
  - unfold dry_forcing, forced, no_evaporation. rewrite dry_complete. cbn [fo_pet]. apply Forall_map, Forall_forall. intros r I. apply repeat_spec in I. subst r. cbn [fr_pet].
    change (Fin (value (num "0.0")) = Fin 0). f_equal. values. lra.
Qed.

(** Hence the program on this configuration, if no evaporation is asked for. *)
Example C86_phillipsburg_still : forall (cfg : Cfg) junk, exists qs res, simulate repository' (dry_texts "0.0") junk phillipsburg = Ok res /\ map pt_z qs = [44; 131; 25] /\
  Forall (still_row qs 2000) (rs_rows res) /\ rs_printed res = Fin 0.
Proof.
  intros cfg junk. destruct C86_phillipsburg as (A & B & C & D & E & F & G & H). destruct (G "0.0" (or_introl eq_refl)) as (G1 & G2 & G3).
  destruct (C86_still_program cfg _ _ junk _ _ _ _ _ _ _ _ _ _ _ A B C D ltac:(lra) E F ltac:(lra) ltac:(lra) G1 G2 G3 H) as (qs & res & [Q _] & R1 & _ & R2 & R3).
  exists qs, res. split; [exact R1|]. split.
  { rewrite Q. cbn [map]. assert (V1 : value (num "44.0") = 44) by (values; lra). assert (V2 : value (num "131.0") = 131) by (values; lra). assert (V3 : value (num "25.0") = 25) by (values; lra). rewrite V1, V2, V3. reflexivity. }
  split; [|exact R3].
  replace 2000 with (value (num "2000.0")) by (values; lra). exact R2.
Qed.
