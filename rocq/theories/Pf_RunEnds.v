(** Updates and simulations end. *)

From Coq Require Import String Reals Lra ZArith List Bool Lia.
From RecordUpdate Require Import RecordSet.
From Verif Require Import Outcome Dbl Exact Types ListOps Soil Giuh Fronts Infil Move State Update Bmi Config Driver Lib Spec_Common Spec_List Spec_Soil Spec_Update Spec_Profile Spec_Storage Spec_Balance Spec_Velocity
  Spec_Single Spec_SubSingle Spec_Config Spec_Run Spec_Driver Spec_OneLayer Spec_OneConfig Spec_OneProgram Spec_Fuel Spec_Ends
  Pf_Dbl Pf_Pow Pf_Soil Pf_Structure Pf_Update Pf_Storage Pf_Single Pf_SafeMove Pf_NoFuel Pf_Fuel Pf_SubEnds Pf_SingleMerge Pf_SubSingle Pf_OneLayer Pf_OneConfig Pf_DriverRun Pf_OneProgram.
Import ListNotations.
Import RecordSetNotations.
Open Scope string_scope.
Open Scope list_scope.
Open Scope R_scope.

Lemma fs_and : forall A (P : A -> Prop) run, finishes any run -> (forall n a, run n = Ok a -> P a) -> finishes P run.
Proof.
  intros A P run (N & m & E & F) H. exists N, m. split; [exact E|]. destruct m as [a|r]; [|exact F]. exact (H N a (E N (le_n N))).
Qed.

(** ** Parts of an Update and of the driver without such loops *)

Section Any.
Context {fp : Fp}.

Lemma fin_scan : forall z T nc limit k c count sum, (0 <= c <= Z.of_nat (List.length z))%Z -> (Z.of_nat (List.length z) < Z.of_nat k + c)%Z ->
  fin (fun '(c', _, _) => (0 <= c' <= Z.of_nat (List.length z))%Z) (frozen_scan k z T nc limit c count sum).
Proof.
  intros z T nc limit. induction k as [|k IH]; intros c count sum Hc L; cbn [frozen_scan].
  - exfalso. lia.
  - destruct (aget z c) as [zc|w] eqn:Ez; cbn [bind].
    2:{ pose proof (fin_aget _ z c) as F. rewrite Ez in F. exact F. }
    assert (Hz : (c < Z.of_nat (List.length z))%Z) by (apply aget_Ok in Ez as [_ Ez]; assert (nth_error z (Z.to_nat c) <> None) as Q by congruence; apply nth_error_Some in Q; lia).
    destruct (zc <=? limit)%d; [|apply fin_ok; exact Hc].
    eapply fin_bind; [apply fin_aget|]. intros tc _. destruct (_ =? _)%Z; [apply fin_ok; lia|apply IH; lia].
Qed.

Lemma fin_frozen : forall nl cum z T nc fr, fin any (frozen_factor nl cum z T nc fr).
Proof.
  intros nl cum z T nc fr. unfold frozen_factor. eapply fin_bind with (P := fun p : Z * list dbl => (0 <= fst p <= Z.of_nat (List.length z))%Z).
  - apply fin_zfor; [|cbn; lia]. intros i [c f] Hc. cbn [fst] in Hc. eapply fin_bind; [apply fin_aget|]. intros limit _.
    eapply fin_bind; [apply fin_scan; lia|]. intros [[c' count] sum] H. eapply fin_bind; [apply fin_cassert|]. intros _ _.
    eapply fin_bind; [apply fin_aset|]. intros f' _. apply fin_ok. exact H.
  - intros [c f] _. apply fin_ok. exact Logic.I.
Qed.

Lemma fin_d2i : forall x, fin any (d2i x).
Proof. intros x. unfold d2i. repeat match goal with |- fin _ (match ?t with _ => _ end) => destruct t end; try (apply fin_ok; exact Logic.I); apply fin_stop; discriminate. Qed.

Lemma fin_giuh : forall x N ord q, fin any (giuh_convolution_integral x N ord q).
Proof.
  intros x N ord q. unfold giuh_convolution_integral. eapply fin_bind; [apply fin_aset|]. intros q1 _.
  eapply fin_bind with (P := any). { apply fin_zfor; [|exact Logic.I]. intros i s _. eapply fin_bind; [apply fin_aget|]. intros. eapply fin_bind; [apply fin_aget|]. intros. apply fin_aset. }
  intros q2 _. eapply fin_bind; [apply fin_aget|]. intros now _.
  eapply fin_bind with (P := any). { apply fin_zfor; [|exact Logic.I]. intros i s _. eapply fin_bind; [apply fin_aget|]. intros. apply fin_aset. }
  intros q3 _. eapply fin_bind; [apply fin_aset|]. intros. apply fin_ok. exact Logic.I.
Qed.

Lemma fin_calib_loop : forall k st cal done rest soils, fin any (calib_loop k st cal done rest soils).
Proof.
  induction k as [|k IH]; intros st cal done rest soils; cbn [calib_loop]; [apply fin_ok; exact Logic.I|]. destruct rest as [|c r]; [apply fin_stop; discriminate|].
  cbv zeta. do 8 (eapply fin_bind; [first [apply fin_aget|apply fin_uget|apply fin_aset]|intros ? _]). apply IH.
Qed.

Lemma fin_prologue : forall s, fin any (update_prologue s).
Proof.
  intros s. unfold update_prologue. eapply fin_bind with (P := any).
  { destruct (p_sft _); [|apply fin_ok; exact Logic.I]. eapply fin_bind; [apply fin_frozen|]. intros. apply fin_ok. exact Logic.I. }
  intros p _. cbv zeta. destruct (p_calib p); [|apply fin_ok; exact Logic.I]. eapply fin_bind with (P := any).
  { unfold update_calibratable_parameters. cbv zeta. eapply fin_bind; [apply fin_mass|]. intros b _. eapply fin_bind; [apply fin_calib_loop|]. intros [l so] _.
    eapply fin_bind; [apply fin_mass|]. intros. apply fin_ok. exact Logic.I. }
  intros [s' v] _. apply fin_ok. exact Logic.I.
Qed.

Lemma fin_steps : forall s, fin any (update_steps s).
Proof. intros s. unfold update_steps. eapply fin_bind; [apply fin_d2i|]. intros. apply fin_ok. exact Logic.I. Qed.

Lemma fin_finish : forall s a v, fin any (finish_update s a v).
Proof.
  intros s a v. unfold finish_update. eapply fin_bind; [apply fin_giuh|]. intros [g q] _. destruct (mb_local _); [apply fin_ok; exact Logic.I|apply fin_stop; discriminate].
Qed.

(** ** The interface *)

Lemma fin_fetch : forall m ix, fin any (fetch m ix).
Proof.
  intros m. induction ix as [|i r IH]; cbn [fetch]; [apply fin_ok; exact Logic.I|]. eapply fin_bind; [apply fin_uget|]. intros x _. eapply fin_bind; [apply IH|]. intros. apply fin_ok. exact Logic.I.
Qed.
Lemma fin_ptr : forall name, fin any (GetValuePtr name).
Proof. intros name. unfold GetValuePtr. cbv zeta. repeat match goal with |- fin _ (if ?b then _ else _) => destruct b end; try (apply fin_ok; exact Logic.I); apply fin_stop; discriminate. Qed.
Lemma fin_items : forall n s, fin any (items n s).
Proof. intros n s. unfold items. destruct (_ <? _)%Z; [apply fin_stop; discriminate|apply fin_ok; exact Logic.I]. Qed.
Lemma fin_get : forall name o, fin any (GetValue name o).
Proof. intros name o. unfold GetValue. eapply fin_bind; [apply fin_ptr|]. intros l _. eapply fin_bind; [apply fin_items|]. intros ix _. apply fin_fetch. Qed.
Lemma fin_into : forall n v, fin any (into n v).
Proof. intros n v. unfold into. destruct (_ <=? _)%Z; [apply fin_ok; exact Logic.I|apply fin_stop; discriminate]. Qed.
Lemma fin_columns : forall names o, fin any (get_columns names o).
Proof.
  induction names as [|n r IH]; intros o; cbn [get_columns]; [apply fin_ok; exact Logic.I|]. eapply fin_bind; [apply fin_get|]. intros v _. eapply fin_bind; [apply fin_into|]. intros w _.
  eapply fin_bind; [apply IH|]. intros. apply fin_ok. exact Logic.I.
Qed.

(** What follows the Update in a step of the driver. *)
Definition after (f : forcing) (i : Z) (o : obj) : outcome (obj * outrow) :=
  let n := p_nfronts (st_p (ob_s o)) in
  th <- GetValue "soil_moisture_wetting_fronts" o ;; _ <- into n th ;;
  dp <- GetValue "soil_depth_wetting_fronts" o ;; _ <- into n dp ;;
  t <- aget (fo_time f) i ;;
  vars <- get_columns column_names o ;;
  Ok (o, mkRowOut t vars (st_head (ob_s o))).
Lemma fin_after : forall f i o, fin (fun r => fst r = o) (after f i o).
Proof.
  intros f i o. unfold after. cbv zeta. do 6 (eapply fin_bind; [first [apply fin_get|apply fin_into|apply fin_aget|apply fin_columns]|intros ? _]). apply fin_ok. reflexivity.
Qed.

End Any.

(** ** Updates *)

Section Exactly.
Local Existing Instance exact.
Variable b : bool.
Notation cf j := (bounded b j).

Lemma placed_eased : forall u sl r te D dt st a, plain u sl r te D dt -> placed u te D st a -> workable u /\ unhurried u st a.
Proof.
  intros u sl r te D dt st a HP [C1 C2 C3 (on & C4 & C5) C6 C7]. pose proof (pl_single _ _ _ _ _ _ HP) as HS. pose proof HS as [S1 S2 S3 S4 S5 (al & n & m & k & S6) S7]. split.
  - split; [exact S1|]. split; [|split; [|split; [exact (pl_capillary _ _ _ _ _ _ HP)|exists dt; split; [exact (pl_dt _ _ _ _ _ _ HP)|exact (pl_pos _ _ _ _ _ _ HP)]]]].
    + intros i s Hi Es. rewrite S2 in Hi. assert (i = 1%Z) by lia. subst i. rewrite S5 in Es. apply Ok_inj in Es. subst s. eauto 8.
    + intros i Hi. rewrite S2 in Hi. assert (i = 1%Z) by lia. subst i. exact S7.
  - split; [|split; [exact C6|split; [exact C7|exists on; exact C4]]]. destruct C2 as [G B SK]. pose proof G as [P R M W Dr Be In1 F1 K].
    apply Forall_forall. intros f Hf. pose proof (proj1 (Forall_forall _ _) B _ Hf) as Bf. pose proof (proj1 (Forall_forall _ _) SK _ Hf) as Sf.
    pose proof (proj1 (Forall_forall _ _) K _ Hf) as [_ Kf]. pose proof (proj1 (Forall_forall _ _) M _ Hf) as [(d & Md) (t & Mt)].
    apply In_nth_error in Hf as [i Hi].
    assert (DZ : exists v, f_dzdt f = Fin v).
    { destruct (f_bottom f) eqn:EB; [|destruct (Sf EB) as (v & E & _); eauto]. destruct (prof_bottom _ _ _ P 1) as (i0 & g & E1 & E2 & E3 & _ & E4); [lia|].
      pose proof (prof_range _ _ _ P _ _ Hi) as Rf. destruct (E4 i f Hi ltac:(lia)) as [_ E5]. specialize (E5 EB). subst i0. assert (g = f) by congruence. subst g. exists 0. apply R.
      assert (L : (i < List.length (st_head st))%nat) by (apply nth_error_Some; congruence). destruct (nth_error (st_head st) (List.length (st_head st) - 1)) as [g|] eqn:EL; [|apply nth_error_None in EL; lia].
      destruct (E4 _ g EL) as [E6 _]; [pose proof (prof_range _ _ _ P _ _ EL); lia|]. assert (i = List.length (st_head st) - 1)%nat by lia. subst i. exact EL || congruence. }
    destruct DZ as (v & Ev). constructor.
    + exact (prof_range _ _ _ P _ _ Hi).
    + exists d. split; [exact Md|]. cbv beta in Bf. rewrite Md in Bf. exact Bf.
    + rewrite Mt. split; discriminate.
    + rewrite Ev. split; discriminate.
    + destruct Kf as [-> |(h & -> & Hh)]; [reflexivity|]. apply ltb_f. lra.
Qed.

Lemma eased_fs : forall u st a, workable u -> unhurried u st a -> finishes any (fun j => @substep exact (cf j) u st a).
Proof.
  intros u st a (W1 & W2 & W3 & W4 & dt & W5 & W6) (H1 & H2 & H3 & on & H4). exact (substep_finishes b u dt st a on W1 W2 W3 W4 W5 W6 H1 H2 H3 H4).
Qed.

Lemma substep_up : forall i j u st a x, (i <= j)%nat -> @substep exact (cf i) u st a = Ok x -> @substep exact (cf j) u st a = Ok x.
Proof. intros i j u st a x L E. destruct (substep_more (cf i) (cf j) L u st a) as [Q|Q]; congruence. Qed.
Lemma runs_up : forall i j u st a xs st' a', (i <= j)%nat -> @runs exact (cf i) u st a xs st' a' -> @runs exact (cf j) u st a xs st' a'.
Proof. intros i j u st a xs st' a' L R. induction R; econstructor; [eapply substep_up; eassumption|eassumption]. Qed.

(** All sub-steps from this state on can start. *)
Lemma loop_fs : forall k u st a, workable u -> (forall j xs st' a', @runs exact (cf j) u st a xs st' a' -> (List.length xs < k)%nat -> unhurried u st' a') ->
  finishes any (fun j => @subcycle_loop exact (cf j) k u st a).
Proof.
  induction k as [|k IH]; intros u st a W H; cbn [subcycle_loop]; [apply fs_const; exact Logic.I|].
  assert (H0 : unhurried u st a) by (apply (H 0%nat [] st a); [constructor|cbn; lia]).
  eapply fs_bind with (P := fun '(s', a') => exists j, @substep exact (cf j) u st a = Ok (s', a')).
  - destruct (eased_fs u st a W H0) as (N & m & E & F). exists N, m. split; [exact E|]. destruct m as [[s' a']|w]; [exists N; apply E; lia|exact F].
  - intros [s1 a1] (j & Ej). cbn [ngen bounded]. destruct (_ && _)%bool; [apply fs_const; exact Logic.I|]. apply IH; [exact W|].
    intros i xs st' a' R L. apply (H (Nat.max i j) (mkStep st a s1 a1 :: xs) st' a'); [|cbn [List.length]; lia].
    econstructor; [exact (substep_up j (Nat.max i j) _ _ _ _ (Nat.le_max_r i j) Ej)|exact (runs_up i (Nat.max i j) _ _ _ _ _ _ (Nat.le_max_l i j) R)].
Qed.

Lemma fin_eq : forall A (m : outcome A), fin any m -> fin (fun a => m = Ok a) m.
Proof. intros A [a|w] H; [reflexivity|exact H]. Qed.

Lemma update_fs : forall s, (p_invalid (st_p s) = false -> forall u s2 a n, launched s u s2 a n -> workable u /\
    forall j xs st' a', @runs exact (cf j) u s2 a xs st' a' -> (List.length xs < Z.to_nat n)%nat -> unhurried u st' a') ->
  finishes any (fun j => @Update exact (cf j) s).
Proof.
  intros s H. unfold Update. destruct (p_invalid (st_p s)) eqn:V; [apply fs_const; exact Logic.I|]. specialize (H eq_refl).
  eapply fs_pre; [apply fin_eq, fin_prologue|]. intros [s1 vcal] E1. eapply fs_pre; [apply fin_eq, fin_mass|]. intros volend E2.
  eapply fs_pre; [apply fin_cassert|]. intros _ _. eapply fs_pre; [apply fin_cassert|]. intros _ _.
  eapply fs_pre; [apply fin_eq, fin_steps|]. intros [[s2 dt] n] E3. cbv zeta.
  eapply fs_bind with (P := any); [|intros [s3 a3] _; apply fs_const, fin_finish].
  edestruct H as [W R]; [exists s1, vcal, volend, dt; repeat split; eassumption|]. apply loop_fs; assumption.
Qed.

(** ** A column of one layer *)

Lemma one_update_fs : forall sl r te D s, one_layer sl r te D s -> finishes (one_layer sl r te D) (fun j => @Update exact (cf j) s).
Proof.
  intros sl r te D s H. apply fs_and.
  2:{ intros j s' E. destruct (@executed_exists exact (cf j) _ _ E) as (u & xs & X). apply (@executed_single (cf j) _ _ _ _ _ _ _ _ H X). }
  apply update_fs. intros _ u s2 a n (s1 & vcal & volend & dt & E1 & E2 & E3 & -> & ->).
  destruct (prologue_single _ _ _ _ _ _ _ H E1) as [H1 _]. destruct (steps_single _ _ _ _ _ _ _ _ H1 E3) as [H2 (d & Ed & HP)].
  set (u := mkU _ _ _ _ _ _ _) in *.
  assert (PL : placed u te D s2 (acc0 volend (mb_on_ts (st_mb s2)))).
  { destruct (steps_inv _ _ _ _ E3) as (_ & _ & E7). assert (Q : st_head s2 = st_head s1 /\ p_cum (st_p s2) = p_cum (st_p s1)) by (rewrite E7; split; reflexivity). destruct Q as [Q1 Q2].
    pose proof (ol_fronts _ _ _ _ _ H2) as HF. pose proof (ol_single _ _ _ _ _ H2) as HS.
    constructor; [reflexivity|exact HF| |exact (ol_on _ _ _ _ _ H2)|apply (ol_forced _ _ _ _ _ H2)|apply (ol_forced _ _ _ _ _ H2)].
    cbn [acc0 a_end]. pose proof (sd_graded _ _ _ _ HF) as G. pose proof (single_mass _ _ _ _ _ _ HS (graded_str _ _ _ _ _ _ _ HS G) (gr_measured _ _ _ _ G)) as K.
    change (e_cum (env_of s2)) with (p_cum (st_p s2)) in K. rewrite Q1, Q2 in K. rewrite K in E2. apply Ok_inj in E2. rewrite Q1. symmetry. exact E2. }
  split; [exact (proj1 (placed_eased _ _ _ _ _ _ _ _ HP PL))|]. intros j xs st' a' R _. apply (placed_eased _ _ _ _ _ _ _ _ HP). 
  exact (proj1 (@runs_balanced (cf j) _ _ _ _ _ _ _ _ _ _ _ HP (ol_residual _ _ _ _ _ H2) R PL (ol_rooted _ _ _ _ _ H2))).
Qed.

Lemma history_update_fs : forall sl r te D s0 i xs s, one_layer sl r te D s0 -> @history exact (cf i) known_weather s0 xs s -> finishes (one_layer sl r te D) (fun j => @Update exact (cf j) s).
Proof. intros sl r te D s0 i xs s H0 H. apply one_update_fs. exact (proj1 (@history_single (cf i) _ _ _ _ _ _ _ H0 H)). Qed.

Lemma step_fs : forall sl r te D f i o, one_layer sl r te D (ob_s o) -> numeric f -> finishes (fun '(o', _) => one_layer sl r te D (ob_s o')) (fun j => @drive_step exact (cf j) f i o).
Proof.
  intros sl r te D f i o OL [PP PE]. unfold drive_step. eapply fs_pre; [apply fin_eq, fin_aget|]. intros p Ep. rewrite set_precip. cbn [bind].
  eapply fs_pre; [apply fin_eq, fin_aget|]. intros e Ee. rewrite set_pet. cbn [bind ob_s ob_pre].
  apply aget_Ok in Ep as [_ Ep], Ee as [_ Ee]. rewrite Forall_forall in PP, PE. pose proof (PP _ (nth_error_In _ _ Ep)) as Hp. pose proof (PE _ (nth_error_In _ _ Ee)) as He.
  set (s1 := RecordSet.set st_pet _ _). assert (O1 : one_layer sl r te D s1) by (destruct OL; constructor; try assumption; split; assumption).
  eapply fs_bind with (P := fun o' => one_layer sl r te D (ob_s o')).
  - unfold bmi_Update. cbn [ob_s ob_pre]. eapply fs_bind; [exact (one_update_fs _ _ _ _ _ O1)|]. intros s2 O2. apply fs_const. exact O2.
  - intros o1 O2. fold (after f i o1). apply fs_const. pose proof (fin_after f i o1) as F. destruct (after f i o1) as [[o2 w]|why]; [|exact F]. cbn in F. subst o2. exact O2.
Qed.

Lemma drive_fs : forall sl r te D f, numeric f -> forall k i o, one_layer sl r te D (ob_s o) -> finishes any (fun j => @drive exact (cf j) k f i o).
Proof.
  intros sl r te D f NF. induction k as [|k IH]; intros i o OL; cbn [drive]; [apply fs_const; exact Logic.I|].
  eapply fs_bind; [exact (step_fs _ _ _ _ _ _ _ OL NF)|]. intros [o1 w] O1. eapply fs_bind; [exact (IH _ _ O1)|]. intros [o2 rs] _. apply fs_const. exact Logic.I.
Qed.

Theorem program_fs : forall files texts junk ls t types gs psi wp fc dt fres max rows f, single_config files ls t types gs psi wp fc dt fres max rows ->
  ReadForcingData texts ls = Ok f -> numeric f -> finishes any (fun j => @simulate exact (cf j) files texts junk ls).
Proof.
  intros files texts junk ls t types gs psi wp fc dt fres max rows f SC Ef NF.
  destruct (single_start files junk _ _ _ _ _ _ _ _ _ _ _ SC) as (s & sl & r & te & a & n0 & K & H & OL & _).
  unfold simulate. rewrite H. cbn [bind]. cbv zeta. eapply fs_pre; [apply fin_d2i|]. intros m _. rewrite Ef. cbn [bind]. eapply fs_pre; [apply fin_cassert|]. intros _ _.
  eapply fs_bind; [apply (drive_fs sl r te (value t) f NF); exact OL|]. intros [o rs] _. apply fs_const. exact Logic.I.
Qed.
End Exactly.

(** ** Why the mass may not be infinite *)
Section Hang.
Local Existing Instance exact.
Variables (e : env) (s : soil) (r te al n m k : R) (dth dz : list (option dbl)) (t z : R).
Hypothesis V : vg_soil s r te al n m k.
Hypothesis Et : uget dth 1 = Ok (Fin t).
Hypothesis Ez : uget dz 1 = Ok (Fin z).

Lemma hang_mass : forall p, 0 <= p -> exists x, tmb_mass e 1 (theta_of_h s (Fin p)) (Fin p) dth dz = Ok (Fin x).
Proof. intros p Hp. unfold tmb_mass. rewrite Et, Ez. cbn [bind]. rewrite (theta_of_h_is _ _ _ _ _ _ _ _ V Hp). eexists. reflexivity. Qed.

Lemma hang_loop : forall j x p f nw, t_psi x = Fin p -> 0 < p <= 1 / 200 -> t_factor x = Fin f -> (1 / 10 <= f /\ (t_switched x = false -> 1 <= f)) -> t_delta x = PInf -> t_dprev x = PInf -> t_new x = Fin nw ->
  tmb_loop j e 1 s PInf dth dz x = Stop OutOfFuel.
Proof.
  induction j as [|j IH]; intros x p f nw Ep Hp Ef Hf Ed Ev En; cbn [tmb_loop]; [reflexivity|]. rewrite Ed. change (PInf >? tmb_tol)%d with true. cbv iota.
  unfold tmb_step. rewrite En, Ep, Ef. change (Fin nw >? PInf)%d with false. cbv iota zeta.
  match goal with |- context [if t_switched x then ?u else ?v] => set (F := if t_switched x then u else v) end.
  assert (EF : exists g, F = Fin g /\ 1 / 10 <= g).
  { unfold F. change (lit 100) with (Fin 100). change (lit (1 / 10)) with (Fin (1 / 10)). destruct Hf as [F1 F2]. destruct (t_switched x), ((t_iter x + 1 >? 1000)%Z && negb (t_aug x))%bool; cbn [dmul]; (eexists; split; [reflexivity|]); try lra; specialize (F2 eq_refl); lra. }
  destruct EF as (g & -> & Hg). change (lit (1 / 10)) with (Fin (1 / 10)). change (Fin (1 / 10) * Fin g)%d with (Fin (1 / 10 * g)). change (Fin p - Fin (1 / 10 * g))%d with (Fin (p - 1 / 10 * g)).
  rewrite (ltb_t (p - 1 / 10 * g) 0) by lra. assert (NZ : (Fin p <>? Fin 0)%d = true) by (unfold dneb; rewrite eqb_f by lra; reflexivity). rewrite NZ. cbn [andb orb].
  change (Fin p * Fin (1 / 10))%d with (Fin (p * (1 / 10))). destruct (hang_mass (p * (1 / 10))) as (w & ->); [lra|]. cbn [bind].
  change (Fin w - PInf)%d with NInf. change (dabs NInf) with PInf. rewrite Ev. change (PInf - PInf)%d with NaN. change (dabs NaN) with NaN. change (NaN <? lit (1 / 1000000000000000))%d with false. cbv iota.
  change (lit (1 / 10000000000000)) with (Fin (1 / 10000000000000)). rewrite (ltb_f g) by lra. rewrite andb_false_r. cbv iota. change (0 =? 5)%Z with false. cbv iota.
  change (lit 10000000) with (Fin 10000000). unfold dgtb. rewrite (ltb_f 10000000) by lra. rewrite (leb_f (p * (1 / 10)) 0) by lra. cbn [andb]. cbv iota.
  eapply IH; [reflexivity| |reflexivity| |reflexivity|reflexivity|reflexivity]; [lra|]. split; [exact Hg|discriminate].
Qed.

Theorem infinite_mass_hangs : forall b j p nw aet, 0 < p <= 1 / 200 -> @lgar_theta_mass_balance exact (bounded b j) e 1 s (Fin p) (Fin nw) PInf aet dth dz = Stop OutOfFuel.
Proof.
  intros b j p nw aet Hp. unfold lgar_theta_mass_balance. change (Fin nw - PInf)%d with NInf. change (dabs NInf) with PInf. change (PInf <=? tmb_tol)%d with false. cbv iota zeta.
  change (lit 100) with (Fin 100). change (lit 1) with (Fin 1). rewrite div_fin by lra. rewrite fmax_fin. rewrite Rmax_left by lra.
  erewrite hang_loop; [reflexivity|reflexivity|exact Hp|reflexivity| |reflexivity|reflexivity|reflexivity]. cbn. split; [lra|intro; lra].
Qed.
End Hang.
