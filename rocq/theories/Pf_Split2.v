(** Lemmas for C88: programs with different forcing intervals. *)

From Coq Require Import String Reals ZArith List Bool Lia Lra.
From RecordUpdate Require Import RecordSet.
From Verif Require Import Outcome Dbl Types ListOps Fronts Infil State Giuh Update Bmi Config Driver Exact Lib Spec_Common Spec_Update Spec_Bmi Spec_Driver Spec_Influence Spec_Split
  Pf_Update Pf_BmiRun Pf_Forcing Pf_DriverRun Pf_SafeUpdate Pf_Init Pf_InitState Pf_Influence Pf_Binary64 Pf_Split.
Import ListNotations.
Import RecordSetNotations.

(** ** Lines of output *)
Section Rows.
Context {fp : Fp} {cfg : Cfg}.

Lemma rows_last : forall ts rs, Forall2 row_of ts rs -> ts <> [] -> forall d, exists q, last (map Some rs) None = Some q /\ row_of (last ts d) q.
Proof.
  intros ts rs F. induction F as [|t r ts rs H F IH]; intros NE d; [congruence|]. cbn [map]. rewrite 2 last_cons. destruct ts as [|t2 ts].
  - inversion F; subst. exists r. split; [reflexivity|exact H].
  - destruct (IH ltac:(discriminate) t) as (q & Q1 & Q2). exists q. split; [|exact Q2]. rewrite <- Q1. apply last_other. inversion F; subst. discriminate.
Qed.
Lemma linked_column : forall k u ts r rs, (0 < k)%nat -> row_of u r -> Forall2 row_of ts rs -> linked k u ts -> same_column k r rs.
Proof.
  intros k u ts r rs Hk (b & B1 & B2 & B3) F (L & LH & LM & dss & a & vol & v & T1 & _ & T2 & E). assert (NE : ts <> []) by (destruct ts; [cbn in L; lia|discriminate]).
  split; [rewrite <- L; clear -F; induction F; cbn [List.length]; congruence|]. destruct (rows_last _ _ F NE u) as (q & Q & b' & C1 & C2 & C3). exists q. split; [exact Q|]. split; [congruence|].
  destruct T1 as (b1 & T1 & _ & _ & TE & _ & _ & _ & _ & (m & M1 & M2) & _). destruct T2 as (b2 & T2 & _ & _ & UE & _ & _ & _ & _ & (m' & N1 & N2) & _).
  assert (b1 = b) as -> by congruence. assert (b2 = b') as -> by congruence. rewrite B2, C2. unfold columns_of. cbn [map nth_error]. split; do 2 f_equal; congruence.
Qed.
End Rows.

Section Fluxes.
Local Existing Instance exact.
Context {cfg : Cfg}.

Lemma adds_total : forall g j, (forall b, nth_error (columns_of b) j = Some (g b)) -> forall ts rs, Forall2 row_of ts rs -> adds j rs (total g ts).
Proof.
  intros g j H ts rs F. induction F as [|t r ts rs (b & B1 & B2 & B3) F IH]; [constructor|]. unfold total. cbn [fold_right]. rewrite B1. constructor; [|exact IH].
  rewrite B2, nth_error_map, H. reflexivity.
Qed.
Lemma linked_fluxes : forall k u ts r rs, row_of u r -> Forall2 row_of ts rs -> linked k u ts -> same_fluxes r rs.
Proof.
  intros k u ts r rs (b & B1 & B2 & B3) F (_ & _ & _ & dss & a & vol & v & T1 & T2 & _) j Hj.
  assert (G : exists g, In g [o_precip; o_in; o_aet; o_rech; o_runoff; o_pet] /\ forall b, nth_error (columns_of b) j = Some (g b)).
  { cbn [In] in Hj. repeat destruct Hj as [<-|Hj]; [exists o_precip|exists o_pet|exists o_aet|exists o_runoff|exists o_in|exists o_rech|destruct Hj]; (split; [cbn [In]; tauto|intros [? ? ? ? ? ? ? ? ? ? ?]; reflexivity]). }
  destruct G as (g & G1 & G2). destruct (told_total g G1 _ _ _ _ _ T1 T2) as (b' & B' & E). exists (g b). split; [rewrite B2, nth_error_map, G2; reflexivity|].
  assert (b' = b) as -> by congruence. rewrite E. apply adds_total; assumption.
Qed.

(** ** The clock: no sub-step is lost before the end time *)
Lemma substep_time : forall u s a s1 a1 x dt, substep u s a = Ok (s1, a1) -> p_time (st_p s) = Fin x -> u_dt u = Fin dt -> p_time (st_p s1) = Fin (x + dt * 3600) /\
  p_timesteps (st_p s1) = (p_timesteps (st_p s) + 1)%Z /\ p_endtime (st_p s1) = p_endtime (st_p s).
Proof.
  intros u s a s1 a1 x dt H E1 E2. destruct (substep_inv _ _ _ _ _ H) as (v1 & b & v2 & mbl & p1 & p2 & p3 & p4 & _ & _ & _ & _ & _ & _ & _ & _ & _ & -> & _).
  cbn [st_p p_time p_timesteps p_endtime set]. repeat split. cbn. rewrite E1, E2. reflexivity.
Qed.
Lemma loop_full : forall u dt e, u_dt u = Fin dt -> 0 < dt -> forall k s a s1 a1 x, subcycle_loop k u s a = Ok (s1, a1) -> p_time (st_p s) = Fin x -> p_endtime (st_p s) = Fin e ->
  x + INR k * (dt * 3600) <= e -> p_timesteps (st_p s1) = (p_timesteps (st_p s) + Z.of_nat k)%Z /\ p_time (st_p s1) = Fin (x + INR k * (dt * 3600)) /\ p_endtime (st_p s1) = Fin e.
Proof.
  intros u dt e Eu Hdt k. induction k as [|k IH]; intros s a s1 a1 x H Et Ee L; cbn [subcycle_loop] in H.
  - apply Ok_inj, pair_equal_spec in H as [<- <-]. split; [lia|]. split; [rewrite Et; cbn [INR]; f_equal; lra|exact Ee].
  - bind_inv H y Ey. destruct y as [s2 a2]. destruct (substep_time _ _ _ _ _ _ _ Ey Et Eu) as (T1 & T2 & T3). rewrite S_INR in L.
    rewrite T1, T3, Ee in H. destruct (_ && _)%bool eqn:C.
    + apply Ok_inj, pair_equal_spec in H as [<- <-]. apply andb_prop in C as [C _]. unfold dgeb, dleb, Rleb in C. destruct (Rle_dec e (x + dt * 3600)) as [Le|]; [|discriminate].
      assert (k = 0%nat). { destruct k as [|k]; [reflexivity|]. exfalso. rewrite S_INR in L. pose proof (pos_INR k). nra. } subst k. split; [lia|]. split; [|congruence]. rewrite T1. cbn [INR]. f_equal. lra.
    + destruct (IH _ _ _ _ _ H T1 ltac:(congruence) ltac:(lra)) as (I1 & I2 & I3). split; [lia|]. split; [|exact I3]. rewrite I2, S_INR. f_equal. lra.
Qed.
Lemma update_full : forall s t n dt e x, plain s -> substeps_of s (Z.of_nat n) -> p_timestep (st_p s) = Fin dt -> 0 < dt -> p_time (st_p s) = Fin x -> p_endtime (st_p s) = Fin e ->
  x + INR n * (dt * 3600) <= e -> Update s = Ok t -> p_timesteps (st_p t) = (p_timesteps (st_p s) + Z.of_nat n)%Z /\ p_time (st_p t) = Fin (x + INR n * (dt * 3600)) /\ p_endtime (st_p t) = Fin e /\ p_timestep (st_p t) = Fin dt.
Proof.
  intros s t n dt e x HP Hn Ed Hdt Et Ee L HU. rewrite (update_plain _ _ HP Hn) in HU. bind_inv HU vol Ev. bind_inv HU x1 Ek1. bind_inv HU x2 Ek2. bind_inv HU y Ey. destruct y as [s3 a3].
  rewrite Nat2Z.id in Ey. destruct (loop_full (upar_of s) dt e Ed Hdt _ _ _ _ _ _ Ey Et Ee L) as (I1 & I2 & I3). destruct (loop_moved _ _ _ _ _ _ Ey) as (M & _). destruct (moved_same _ _ M) as (_ & _ & M3 & _).
  destruct (finish_tells _ _ _ _ HU) as (_ & d & -> & _ & _). rewrite wear_wear.
  assert (W : p_timesteps (st_p (wear d s3)) = p_timesteps (st_p s3) /\ p_time (st_p (wear d s3)) = p_time (st_p s3) /\ p_endtime (st_p (wear d s3)) = p_endtime (st_p s3) /\ p_timestep (st_p (wear d s3)) = p_timestep (st_p s3))
    by (destruct s3 as [? ? ? [] ? ? ? ? ? ? ? ?]; repeat split). destruct W as (-> & -> & -> & ->). repeat split; congruence.
Qed.
Lemma driven_full : forall s ps rs t, driven s ps rs t -> forall n dt e x, plain s -> substeps_of s (Z.of_nat n) -> p_timestep (st_p s) = Fin dt -> 0 < dt -> p_time (st_p s) = Fin x -> p_endtime (st_p s) = Fin e ->
  x + INR (List.length ps) * (INR n * (dt * 3600)) <= e -> p_timesteps (st_p t) = (p_timesteps (st_p s) + Z.of_nat (List.length ps) * Z.of_nat n)%Z.
Proof.
  intros s ps rs t H. induction H as [s|s y p q s1 b ps rs s2 U O H IH]; intros n dt e x HP Hn Ed Hdt Et Ee L; cbn [List.length] in *; [lia|]. rewrite S_INR in L.
  pose proof (pos_INR (List.length ps)) as P1. pose proof (pos_INR n) as P2. assert (0 <= INR (List.length ps) * (INR n * (dt * 3600))) by (apply Rmult_le_pos; [exact P1|apply Rmult_le_pos; lra]).
  destruct (update_full (writes p q s) s1 n dt e x HP Hn Ed Hdt Et Ee ltac:(lra) U) as (F1 & F2 & F3 & F4). destruct (update_kept (writes p q s) _ s1 HP Hn U) as (_ & _ & K3 & K4 & _).
  specialize (IH n dt e _ K3 K4 F4 Hdt F2 F3 ltac:(lra)). change (p_timesteps (st_p (writes p q s))) with (p_timesteps (st_p s)) in F1. rewrite Nat2Z.inj_succ, Z.mul_succ_l. lia.
Qed.
End Fluxes.

(** ** From a driven model to the program *)
Section Programs.
Context {fp : Fp} {cfg : Cfg}.

Lemma driven_drive : forall k f i s ps rs t, (0 <= i)%Z -> arrays_ok (mkObj s (repeat None 11)) -> driven s ps rs t -> plain s -> (exists n, substeps_of s n) ->
  ps = firstn k (skipn (Z.to_nat i) (combine (combine (fo_time f) (fo_precip f)) (fo_pet f))) -> List.length ps = k -> drive k f i (mkObj s (repeat None 11)) = Ok (mkObj t (repeat None 11), rs).
Proof.
  induction k as [|k IH]; intros f i s ps rs t Hi A H HP [n Hn] E L; cbn [drive].
  - destruct ps; [|discriminate]. inversion H; subst. reflexivity.
  - destruct ps as [|x ps]; [discriminate|]. inversion H as [|s0 t0 p e s1 b ps0 rs0 s2 U O H2]; subst.
    destruct (skipn (Z.to_nat i) (combine (combine (fo_time f) (fo_precip f)) (fo_pet f))) as [|y ys] eqn:SK; [discriminate|]. cbn [firstn] in E. apply (f_equal (@Some _)) in E.
    assert (E1 : y = (t0, p, e) /\ firstn k ys = ps) by (split; congruence). destruct E1 as [-> E1].
    assert (N : nth_error (combine (combine (fo_time f) (fo_precip f)) (fo_pet f)) (Z.to_nat i) = Some (t0, p, e)).
    { rewrite <- (firstn_skipn (Z.to_nat i) (combine (combine (fo_time f) (fo_precip f)) (fo_pet f))), SK. rewrite nth_error_app2; rewrite firstn_length; [|lia].
      assert (List.length (skipn (Z.to_nat i) (combine (combine (fo_time f) (fo_precip f)) (fo_pet f))) <> 0%nat) by (rewrite SK; discriminate). rewrite skipn_length in H0.
      replace (Z.to_nat i - Nat.min _ _)%nat with 0%nat by lia. reflexivity. }
    assert (C : forall A B (a : list A) (b : list B) n x y, nth_error (combine a b) n = Some (x, y) -> nth_error a n = Some x /\ nth_error b n = Some y).
    { clear. induction a as [|u a IH]; intros [|v b] [|n] x y H; try discriminate; cbn in *; [split; congruence|eauto]. }
    destruct (C _ _ _ _ _ _ _ N) as [N1 N3]. destruct (C _ _ _ _ _ _ _ N1) as [N0 N2].
    assert (G : forall A (l : list A) x, nth_error l (Z.to_nat i) = Some x -> aget l i = Ok x). { intros B l z Q. unfold aget. destruct (Z.ltb_spec i 0); [lia|]. rewrite Q. reflexivity. }
    assert (A1 : arrays_ok (mkObj s1 (repeat None 11))). { apply (update_arrays (mkObj (writes p e s) (repeat None 11))); [|exact U]. destruct A. constructor; assumption. }
    destruct (update_kept (writes p e s) n s1 HP Hn U) as (_ & _ & K3 & K4 & _).
    unfold drive_step. rewrite (G _ _ _ N2). cbn [bind]. rewrite set_precip. cbn [bind]. rewrite (G _ _ _ N3). cbn [bind]. rewrite set_pet. cbn [bind ob_s ob_pre]. unfold bmi_Update. cbn [ob_s ob_pre].
    change (Update (s <| st_precip := p |> <| st_pet := e |>)) with (Update (writes p e s)) in U |- *. rewrite U. cbn [bind ob_s]. cbv zeta.
    destruct (get_into "soil_moisture_wetting_fronts" _ A1) as (w1 & V1 & W1); [cbn; tauto|]. cbn [ob_s] in W1. rewrite V1. cbn [bind]. rewrite W1. cbn [bind].
    destruct (get_into "soil_depth_wetting_fronts" _ A1) as (w2 & V2 & W2); [cbn; tauto|]. cbn [ob_s] in W2. rewrite V2. cbn [bind]. rewrite W2. cbn [bind].
    rewrite (G _ _ _ N0). cbn [bind]. rewrite (columns_some (mkObj s1 (repeat None 11)) b O). cbn [bind].
    rewrite (IH f (i + 1)%Z s1 ps rs0 t); try assumption; try lia; [reflexivity|exists n; exact K4| |cbn in L; lia].
    replace (Z.to_nat (i + 1)) with (S (Z.to_nat i)) by lia. rewrite (skipn_nth _ _ _ _ N) in SK. injection SK as <-. symmetry. exact E1.
Qed.

(** ** Configurations with another forcing resolution *)
Definition resolution (r : option dbl) (c : conf) : conf := c <| cf_fres := r |>.
Lemma line_resolution : forall r c l, line_key l <> "forcing_resolution"%string -> config_line (resolution r c) l = res_map (resolution r) (config_line c l).
Proof.
  intros r c l H. unfold config_line. cbv zeta. apply String.eqb_neq in H. rewrite H. clear H. destruct c.
  repeat match goal with |- (if ?b then _ else _) = _ => destruct b | |- bind ?m _ = res_map _ (bind ?m _) => destruct m as [?|?]; cbn [bind res_map] end; try reflexivity.
  all: cbn [resolution Config.cf_endtime set].
  all: match goal with |- bind ?m _ = res_map _ (bind ?m' _) => change m with m'; destruct m' as [[?|]|?]; cbn [bind res_map]; try reflexivity end.
  all: destruct (cassert _) as [[]|]; reflexivity.
Qed.
Lemma lines_resolution : forall ls ls', Forall2 other_resolution ls ls' -> forall c r d d', config_lines c ls = Ok d -> config_lines (resolution r c) ls' = Ok d' -> exists r', d' = resolution r' d.
Proof.
  intros ls ls' F. induction F as [|l l' ls ls' HL F IH]; intros c g d d' E E'; cbn [config_lines] in E, E'.
  - apply Ok_inj in E, E'. subst. exists g. reflexivity.
  - bind_inv E cx Ec. bind_inv E' cx' Ec'. enough (exists g', cx' = resolution g' cx) as [g' ->] by (exact (IH _ _ _ _ E E')).
    assert (K : l = l' /\ line_key l <> "forcing_resolution"%string \/ line_key l = "forcing_resolution"%string /\ line_key l' = "forcing_resolution"%string).
    { destruct HL as [<-|]; [|auto]. destruct (string_dec (line_key l) "forcing_resolution"); auto. }
    destruct K as [[<- K]|[K K']].
    + rewrite line_resolution, Ec in Ec'; [|assumption]. apply Ok_inj in Ec'. subst. exists g. reflexivity.
    + unfold config_line in Ec, Ec'. rewrite K in Ec. rewrite K' in Ec'. cbn -[to_hours stod cassert dgtb] in Ec, Ec'. bind_inv Ec v Ev. bind_inv Ec' v' Ev'. bind_inv Ec q Eqq. bind_inv Ec' q' Eqq'. apply Ok_inj in Ec, Ec'. subst.
      eexists. destruct c. reflexivity.
Qed.
Lemma init_resolution : forall files junk c r z z', init_rest files junk c = Ok z -> init_rest files junk (resolution r c) = Ok z' ->
  (exists f i, sr_p z' = (sr_p z) <| p_fres := f |> <| p_finterval := i |>) /\ sr_head z' = sr_head z /\ sr_tab z' = sr_tab z /\ sr_vol z' = sr_vol z.
Proof.
  intros files junk [] g z z'. unfold init_rest, resolution. cbv zeta.
  cbn [set Config.cf_thick Config.cf_stype Config.cf_giuh Config.cf_soilz Config.cf_psi Config.cf_maxtypes Config.cf_file Config.cf_wp Config.cf_fc Config.cf_closed Config.cf_adaptive Config.cf_timestep Config.cf_endtime Config.cf_fres Config.cf_sft Config.cf_pmax Config.cf_calib].
  destruct (need cf_stype) as [st|]; [|discriminate]. cbn [bind]. destruct (need cf_file) as [file|]; [|discriminate]. cbn [bind].
  match goal with |- context [(?n + 1 <? 0)%Z] => set (nst := n) end. destruct (nst + 1 <? 0)%Z; [discriminate|]. cbn [bind].
  destruct (lgar_read_vG_param_file _ _ _ _ _) as [tab|]; [|discriminate]. cbn [bind].
  destruct (known cf_thick) as [thick|]; [|discriminate]. cbn [bind]. destruct (any_invalid _ _ _ _) as [inv|]; [|discriminate]. cbn [bind].
  destruct (need cf_psi) as [psi|]; [|discriminate]. cbn [bind]. destruct (need cf_timestep) as [dt|]; [|discriminate]. cbn [bind]. destruct (need cf_endtime) as [et|]; [|discriminate]. cbn [bind].
  destruct (need cf_wp) as [wp|]; [|discriminate]. cbn [bind]. destruct (need cf_fc) as [fc|]; [|discriminate]. cbn [bind]. destruct (need cf_fres) as [fres|]; [|discriminate]. destruct (need g) as [fres'|]; [|discriminate]. cbn [bind].
  destruct (need cf_giuh) as [ord|]; [|discriminate]. cbn [bind]. destruct (resample fres ord) as [[n ords]|]; [|discriminate].
  destruct (resample fres' ord) as [[n' ords']|]; [|discriminate]. cbn [bind].
  match goal with |- context [bind (if cf_sft then ?x else ?y) _] => destruct (if cf_sft then x else y) as [[ncells tz]|] end; [|discriminate]. cbn [bind].
  destruct (d2i (fres / dt + _)) as [fint|]; [|discriminate]. destruct (d2i (fres' / dt + _)) as [fint'|]; [|discriminate]. cbn [bind]. destruct (InitializeWettingFronts _ _ _ _ _ _) as [head|]; [|discriminate]. cbn [bind].
  destruct (lgar_calc_mass_bal _ _) as [vol|]; [|discriminate]. cbn [bind]. destruct (cassert _) as [[]|]; [|discriminate]. cbn [bind]. intros E E'. apply Ok_inj in E, E'. subst. repeat split. exists fres', fint'. reflexivity.
Qed.
Theorem resolution_initialize : forall files junk ls ls' s s', Forall2 other_resolution ls ls' -> Initialize files junk ls = Ok s -> Initialize files junk ls' = Ok s' -> recut s s'.
Proof.
  intros files junk ls ls' s s' F E E'. unfold Initialize, InitFromConfigFile in E, E'. bind_inv E z Ez. bind_inv Ez c Ec. bind_inv E' z' Ez'. bind_inv Ez' c' Ec'.
  destruct (lines_resolution ls ls' F conf0 None c c' Ec Ec') as [g ->]. destruct (init_resolution _ _ _ _ _ _ Ez Ez') as ((fr & fi & P) & H & T & V).
  cbv zeta in E, E'. rewrite P, H, T, V in E'. destruct (sr_p z) as [] eqn:EP. cbn [set State.p_nlayers State.p_stype State.p_fc State.p_pmax] in E, E'.
  bind_inv E vs Ev. bind_inv E os Eo. bind_inv E' vs' Ev'. bind_inv E' os' Eo'. rewrite Ev in Ev'. apply Ok_inj in Ev'. subst vs'.
  apply Ok_inj in E, E'. subst s s'. do 9 eexists. eexists (mkMB _ _ _ _ _ _ _ _ _ _ _ _ _ _). split; reflexivity.
Qed.
End Programs.

Theorem split_rows : forall (fp : Fp) (cfg : Cfg) k m s ps rs t s' pss, driven s ps rs t -> plain s -> recut s s' -> routes s' -> (0 < k)%nat -> (0 < m)%nat ->
  substeps_of s (Z.of_nat (k * m)) -> substeps_of s' (Z.of_nat m) -> p_timesteps (st_p t) = (p_timesteps (st_p s) + Z.of_nat (List.length ps) * Z.of_nat (k * m))%Z -> Forall2 (cut_steps k) ps pss ->
  exists rss t', driven s' (concat pss) (concat rss) t' /\ recut t t' /\ Forall2 (same_column k) rs rss.
Proof.
  intros fp cfg k m s ps rs t s' pss H HP HC HR Hk Hm Hn Hn' HT HF. destruct (split_driven k m s ps rs t H s' pss HP HC HR Hk Hm Hn Hn' HT HF) as (rss & t' & D & R & F).
  exists rss, t'. split; [exact D|]. split; [exact R|]. clear -F Hk. induction F as [|r rb rs rss (u & ts & F1 & F2 & F3) F IH]; constructor; [|exact IH]. exact (linked_column k u ts r rb Hk F1 F2 F3).
Qed.

Section Program.
Local Existing Instance exact.
Context {cfg : Cfg}.

Lemma whole : forall n dt, 0 < dt -> (Z.of_nat n <= 2147483647)%Z -> d2i (Fin (INR n * dt) / Fin dt + lit (1 / 100000000))%d = Ok (Z.of_nat n).
Proof.
  intros n dt Hdt Hn. assert (E : (Fin (INR n * dt) / Fin dt + lit (1 / 100000000))%d = Fin (INR n + 1 / 100000000)).
  { cbn. destruct (Req_EM_T dt 0); [lra|]. cbn. f_equal. replace (INR n * dt / dt) with (INR n) by (field; lra). lra. }
  rewrite E. apply d2i_between; [rewrite <- INR_IZR_INZ; lra|lia].
Qed.
Lemma whole_steps : forall n f, 0 < f -> (Z.of_nat n <= 2147483647)%Z -> d2i (Fin (INR n * (f * 3600)) / (Fin f * lit 3600))%d = Ok (Z.of_nat n).
Proof.
  intros n f Hf Hn. change (Fin f * lit 3600)%d with (Fin (f * 3600)). assert (E : (Fin (INR n * (f * 3600)) / Fin (f * 3600))%d = Fin (INR n)).
  { cbn. destruct (Req_EM_T (f * 3600) 0); [lra|]. cbn. f_equal. field. lra. }
  rewrite E. apply d2i_between; [rewrite <- INR_IZR_INZ; lra|lia].
Qed.
Lemma cut_length : forall k (ps : list (string * dbl * dbl)) pss, Forall2 (cut_steps k) ps pss -> List.length (concat pss) = (List.length ps * k)%nat.
Proof. intros k ps pss F. induction F as [|p qs ps pss [L _] F IH]; [reflexivity|]. cbn [concat List.length]. rewrite app_length. lia. Qed.

Theorem split_program : forall files texts texts' junk ls ls' f f' r s s' k m n dt pss,
  Forall2 other_resolution ls ls' -> Initialize files junk ls = Ok s -> Initialize files junk ls' = Ok s' -> ReadForcingData texts ls = Ok f -> ReadForcingData texts' ls' = Ok f' ->
  plain s -> (0 < k)%nat -> (0 < m)%nat -> p_timestep (st_p s) = Fin dt -> p_fres (st_p s) = Fin (INR (k * m) * dt) -> p_fres (st_p s') = Fin (INR m * dt) -> INR m * dt <= 1 ->
  p_endtime (st_p s) = Fin (INR n * (INR (k * m) * dt * 3600)) -> (Z.of_nat (n * k) <= 2147483647)%Z ->
  Forall2 (cut_steps k) (first_steps n f) pss -> first_steps (n * k) f' = concat pss -> simulate files texts junk ls = Ok r ->
  exists r' rss, simulate files texts' junk ls' = Ok r' /\ rs_rows r' = concat rss /\ List.length (rs_rows r) = n /\ Forall2 (same_column k) (rs_rows r) rss /\ Forall2 same_fluxes (rs_rows r) rss.
Proof.
  intros files texts texts' junk ls ls' f f' r s s' k m n dt pss HL Hs Hs' Hf Hf' HP Hk Hm Edt Ef Ef' Hle Ee Hnk HF EF HS.
  destruct (simulate_inv _ _ _ _ _ HS) as (s0 & f0 & n0 & I1 & I2 & I3 & I4 & I5 & I6 & I7 & _). assert (s0 = s) as -> by congruence. assert (f0 = f) as -> by congruence.
  assert (K1 : 1 <= INR k) by (apply (le_INR 1); lia). assert (M1 : 1 <= INR m) by (apply (le_INR 1); lia).
  assert (Hn : exists z, substeps_of s z). { destruct (init_inv _ _ _ _ Hs) as (c & st & rows & tab & thick & psi & ord & I). exists (p_finterval (st_p s)). apply (in_fint _ _ _ _ _ _ _ _ _ _ _ I). }
  assert (Hdt : 0 < dt). { destruct (init_inv _ _ _ _ Hs) as (c & st & rows & tab & thick & psi & ord & I). pose proof (fres_pos _ _ _ _ _ _ _ _ _ _ _ I) as P. rewrite Ef in P.
    unfold dgtb, dltb, Rltb in P. destruct (Rlt_dec 0 (INR (k * m) * dt)) as [Q|]; [|discriminate]. rewrite mult_INR in Q. assert (0 < INR k * INR m) by nra. nra. }
  assert (KM : (Z.of_nat (k * m) <= 2147483647)%Z).
  { destruct Hn as [z Hz]. unfold substeps_of in Hz. rewrite Ef, Edt in Hz. assert (E : (Fin (INR (k * m) * dt) / Fin dt + lit (1 / 100000000))%d = Fin (INR (k * m) + 1 / 100000000)).
    { cbn. destruct (Req_EM_T dt 0); [lra|]. cbn. f_equal. replace (INR (k * m) * dt / dt) with (INR (k * m)) by (field; lra). lra. }
    rewrite E in Hz. unfold d2i in Hz. destruct (_ && _)%bool eqn:C; [|discriminate]. apply andb_prop in C as [_ C]. apply Z.leb_le in C. 
    assert (T : (Z.of_nat (k * m) <= trunc (INR (k * m) + 1 / 100000000))%Z).
    { unfold trunc. pose proof (pos_INR (k * m)). destruct (Rlt_dec _ 0); [lra|]. destruct (base_Int_part (INR (k * m) + 1 / 100000000)) as [B1 B2].
      set (y := Int_part (INR (k * m) + 1 / 100000000)) in *. assert (Q : IZR (Z.of_nat (k * m)) < IZR (y + 1)) by (rewrite plus_IZR, <- INR_IZR_INZ; lra). apply lt_IZR in Q. lia. }
    lia. }
  assert (S1 : substeps_of s (Z.of_nat (k * m))). { unfold substeps_of. rewrite Ef, Edt. apply whole; assumption. }
  pose proof (resolution_initialize _ _ _ _ _ _ HL Hs Hs') as HC.
  assert (Same : p_timestep (st_p s') = p_timestep (st_p s) /\ p_endtime (st_p s') = p_endtime (st_p s) /\ plain s').
  { destruct HC as (f1 & i & nf & tw & dw & out & n1 & o & q & mb & -> & _). repeat split; apply HP. } destruct Same as (Q1 & Q2 & HP').
  assert (S2 : substeps_of s' (Z.of_nat m)). { unfold substeps_of. rewrite Ef', Q1, Edt. apply whole; [assumption|nia]. }
  assert (R : routes s'). { destruct (init_routes _ _ _ _ Hs') as (fa & z & F1 & _ & _ & F4). apply F4. rewrite Ef' in F1.
    assert (E : (lit 1 / Fin (INR m * dt))%d = Fin (1 / (INR m * dt))). { cbn. destruct (Req_EM_T (INR m * dt) 0); [nra|]. reflexivity. } rewrite E in F1.
    assert (G : 1 <= 1 / (INR m * dt)). { apply Rmult_le_reg_r with (INR m * dt); [nra|]. replace (1 / (INR m * dt) * (INR m * dt)) with 1 by (field; split; nra). lra. }
    unfold d2i in F1. destruct (_ && _)%bool; [|discriminate]. apply Ok_inj in F1. subst fa. unfold trunc. destruct (Rlt_dec _ 0); [lra|]. destruct (base_Int_part (1 / (INR m * dt))) as [B1 B2].
    assert (0 < IZR (Int_part (1 / (INR m * dt)))) as Q by lra. apply lt_IZR in Q. lia. }
  assert (N0 : n0 = Z.of_nat n). { rewrite Ee, Ef in I3. rewrite (whole_steps n) in I3; [apply Ok_inj in I3; congruence|rewrite mult_INR; apply Rmult_lt_0_compat; [apply Rmult_lt_0_compat; lra|lra]|nia]. } subst n0. rewrite Nat2Z.id in *.
  assert (Clock : p_time (st_p s) = Fin 0 /\ p_timesteps (st_p s) = 0%Z). { destruct (init_inv _ _ _ _ Hs) as (c & st & rows & tab & thick & psi & ord & I). pose proof (in_p _ _ _ _ _ _ _ _ _ _ _ I) as P. tauto. }
  destruct Clock as [C1 C2].
  pose proof (driven_full _ _ _ _ I5 (k * m) dt _ 0 HP S1 Edt Hdt C1 Ee ltac:(rewrite I7; apply Req_le; ring)) as T.
  destruct (split_driven k m s _ _ _ I5 s' pss HP HC R Hk Hm S1 S2 T HF) as (rss & t' & D & _ & F).
  assert (A : arrays_ok (mkObj s' (repeat None 11))). { destruct (init_inv _ _ _ _ Hs') as (c & st & rows & tab & thick & psi & ord & I). exact (init_arrays _ _ _ _ _ _ _ _ _ _ _ I). }
  pose proof (cut_length _ _ _ HF) as CL. rewrite I7 in CL.
  exists (mkResult (concat rss) (mkObj t' (repeat None 11)) (global_error (st_mb t'))), rss. split; [|split; [reflexivity|split; [exact I6|]]].
  - unfold simulate. rewrite Hs'. cbn [bind]. cbv zeta. unfold GetEndTime, GetTimeStep. cbn [ob_s]. rewrite Q2, Ee, Ef'.
    replace (INR n * (INR (k * m) * dt * 3600)) with (INR (n * k) * (INR m * dt * 3600)) by (rewrite !mult_INR; ring). rewrite whole_steps; [|nra|exact Hnk]. cbn [bind]. rewrite Hf'. cbn [bind].
    rewrite Nat2Z.id. rewrite <- EF in D, CL.
    assert (LF : (n * k <= List.length (fo_pet f'))%nat). { unfold first_steps in CL. rewrite firstn_length, !combine_length in CL. lia. }
    destruct (Z.leb_spec (Z.of_nat (n * k)) (Z.of_nat (List.length (fo_pet f')))); [|lia]. cbn [cassert bind].
    rewrite (driven_drive (n * k) f' 0 s' (first_steps (n * k) f') (concat rss) t'); [reflexivity|lia|exact A|exact D|exact HP'|exists (Z.of_nat m); exact S2|reflexivity|exact CL].
  - split.
    + clear -F Hk. induction F as [|x rb rs rss (u & ts & F1 & F2 & F3) F IH]; constructor; [|exact IH]. exact (linked_column k u ts x rb Hk F1 F2 F3).
    + clear -F. induction F as [|x rb rs rss (u & ts & F1 & F2 & F3) F IH]; constructor; [|exact IH]. exact (linked_fluxes k u ts x rb F1 F2 F3).
Qed.
End Program.
