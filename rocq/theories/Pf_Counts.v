(** Numbers of sub-steps, of unit-hydrograph ordinates and of program steps in binary64. *)

From Coq Require Import String Ascii Reals Lra ZArith List Lia Bool.
From RecordUpdate Require Import RecordSet.
From Verif Require Import Outcome Dbl Binary64 Pf_Binary64 Types ListOps Soil Fronts State Update Bmi Config Driver Lib Spec_Common Spec_Update Spec_Config Spec_Bmi Spec_Driver Spec_Binary64
  Pf_Update Pf_Ledger Pf_Clock Pf_Config Pf_Lines Pf_Init Pf_ConfigThm Pf_DriverRun.
Import ListNotations.
Import RecordSetNotations.
Open Scope string_scope.
Open Scope list_scope.

Section Any.
Context {fp : Fp}.
Lemma finterval_is : forall files junk ls s, Initialize files junk ls = Ok s -> d2i (p_fres (st_p s) / p_timestep (st_p s) + lit (1 / 100000000))%d = Ok (p_finterval (st_p s)).
Proof.
  intros files junk ls s H. unfold Initialize, InitFromConfigFile in H. bind_inv H z Ez. bind_inv Ez c Ec.
  unfold init_rest in Ez. cbv zeta in Ez.
  repeat (let y := fresh "y" in let E := fresh "E" in bind_inv Ez y E; try match goal with p : _ * _ |- _ => destruct p end).
  apply Ok_inj in Ez. subst z. cbv zeta in H. bind_inv H vs Evs. bind_inv H os Eos. apply Ok_inj in H. subst s. cbn [st_p p_fres p_timestep p_finterval sr_p].
  match goal with E : d2i _ = Ok _ |- _ => exact E end.
Qed.
End Any.

Section B64.
Local Existing Instance binary64.

Lemma fits : forall x, (0 <= x <= 9007199254740992)%R -> (Rabs x <= IZR (2 ^ 53))%R.
Proof. intros x H. rewrite Rabs_pos_eq by lra. change (2 ^ 53)%Z with 9007199254740992%Z. lra. Qed.
Lemma rnd_IZR : forall m, (0 <= m < 2 ^ 53)%Z -> rnd (IZR m) = Fin (IZR m).
Proof. intros m M. rewrite rnd_small; [f_equal; apply near_IZR; lia|]. apply fits. split; [apply IZR_le; lia|]. apply IZR_le. lia. Qed.
Lemma lit_IZR : forall m, (0 <= m < 2 ^ 53)%Z -> lit (IZR m) = Fin (IZR m).
Proof. exact rnd_IZR. Qed.

Lemma hours_64 : forall u sec m S, In (u, sec) unit_seconds -> (0 <= m < 2 ^ 53)%Z -> IZR S = (IZR m * sec)%R -> to_hours (Fin (IZR m)) u = Fin (hours64 S).
Proof.
  intros u sec m S H M E. unfold hours64. rewrite E. assert (m0 : (0 <= IZR m <= 9007199254740992)%R) by (split; apply IZR_le; lia).
  assert (D : forall y z, (1 <= y < 2 ^ 53)%Z -> (IZR m / IZR y = z)%R -> (Fin (IZR m) / lit (IZR y))%d = Fin (b64_near z)).
  { intros y z Y Z. rewrite lit_IZR by lia. assert (y1 : (1 <= IZR y)%R) by (apply IZR_le; lia). rewrite div_near; [rewrite Z; reflexivity|lra|].
    apply fits. assert (0 < / IZR y <= 1)%R. { split; [apply Rinv_0_lt_compat; lra|]. rewrite <- Rinv_1. apply Rinv_le_contravar; lra. } unfold Rdiv. nra. }
  cbn [unit_seconds In] in H. destruct H as [H|[H|[H|[H|[H|[H|[H|[]]]]]]]]; apply pair_equal_spec in H as [<- <-]; unfold to_hours; cbn [is_in existsb String.eqb Ascii.eqb Bool.eqb orb];
    apply D; try lia; field.
Qed.

Lemma timestep_64 : forall files junk ls s S, seconds "timestep" ls S -> Initialize files junk ls = Ok s -> p_timestep (st_p s) = Fin (hours64 S).
Proof.
  intros files junk ls s S (n & u & sec & m & G & V & M & U & L & E) H. cbn [String.eqb Ascii.eqb Bool.eqb app] in U. assert (K : In "timestep" keys) by (cbn; tauto).
  destruct (unit_table "timestep" n u K G (known_unit u sec (in_or_app _ _ _ (or_introl U)))) as (A & B & C).
  rewrite (timestep_of_unit _ _ _ _ _ _ _ L A B C G H), V, rnd_IZR by assumption. eapply hours_64; eassumption.
Qed.
Lemma fres_64 : forall files junk ls s S, seconds "forcing_resolution" ls S -> Initialize files junk ls = Ok s -> p_fres (st_p s) = Fin (hours64 S).
Proof.
  intros files junk ls s S (n & u & sec & m & G & V & M & U & L & E) H. cbn [String.eqb Ascii.eqb Bool.eqb app] in U. assert (K : In "forcing_resolution" keys) by (cbn; tauto).
  destruct (unit_table "forcing_resolution" n u K G (known_unit u sec (in_or_app _ _ _ (or_introl U)))) as (A & B & C).
  rewrite (fres_of_unit _ _ _ _ _ _ _ L A B C G H), V, rnd_IZR by assumption. eapply hours_64; eassumption.
Qed.
Lemma endtime_64 : forall files junk ls s S, seconds "endtime" ls S -> (S < 2 ^ 53)%Z -> Initialize files junk ls = Ok s -> p_endtime (st_p s) = Fin (IZR S).
Proof.
  intros files junk ls s S (n & u & sec & m & G & V & M & U & L & E) B H. assert (K : In "endtime" keys) by (cbn; tauto). cbn [String.eqb Ascii.eqb Bool.eqb] in U.
  apply in_app_or in U. assert (U' : In (u, sec) (unit_seconds ++ [("[d]", 86400%R); ("[day]", 86400%R)])) by (apply in_or_app; tauto). clear U.
  destruct (unit_table "endtime" n u K G (known_unit u sec U')) as (A & B' & C). destruct (endtime_of_unit _ _ _ _ _ _ _ L A B' C G H) as (old & Q). clear - Q U' G V M E B.
  assert (m0 : (0 <= IZR m)%R) by (apply IZR_le; lia).
  assert (D : forall y, (1 <= y < 2 ^ 53)%Z -> IZR S = (IZR m * IZR y)%R -> (Fin (IZR m) * lit (IZR y))%d = Fin (IZR S)).
  { intros y Y Z. rewrite lit_IZR by lia. cbn [dmul]. rewrite <- Z. apply rnd_IZR. split; [|assumption]. apply le_IZR. rewrite Z. apply Rmult_le_pos; [assumption|apply IZR_le; lia]. }
  cbn [unit_seconds app In] in U'.
  destruct U' as [U|[U|[U|[U|[U|[U|[U|[U|[U|[]]]]]]]]]]; apply pair_equal_spec in U as [<- <-]; unfold endtime_of in Q; cbn [is_in existsb String.eqb Ascii.eqb Bool.eqb orb] in Q;
    bind_inv Q v Ev; apply Ok_inj in Q; apply some_inj in Q; destruct (read_number _ _ G Ev) as [-> _]; rewrite V, rnd_IZR in Q by assumption; rewrite <- Q;
    try (f_equal; rewrite E; ring); apply D; (lia || exact E).
Qed.

(** C58 *)
Lemma substeps_64 : forall files junk ls s T F k, seconds "timestep" ls T -> seconds "forcing_resolution" ls F -> (1 <= T)%Z -> (1 <= k <= 10000000)%Z -> F = (k * T)%Z ->
  Initialize files junk ls = Ok s -> p_finterval (st_p s) = k.
Proof.
  intros files junk ls s T F k ST SF HT HK HF H. pose proof (finterval_is _ _ _ _ H) as Q.
  rewrite (timestep_64 _ _ _ _ _ ST H), (fres_64 _ _ _ _ _ SF H), (guarded F T k HT HK HF) in Q. apply Ok_inj in Q. auto.
Qed.

Lemma ordinates_64 : forall files junk ls s l n ns F, seconds "forcing_resolution" ls F -> (1 <= F)%Z -> (F | 3600)%Z ->
  last_line "giuh_ordinates" l ls -> assigns "giuh_ordinates" (numbers (n :: ns)) l -> Forall good_numeral (n :: ns) -> Initialize files junk ls = Ok s ->
  g_N s = (3600 / F * Z.of_nat (List.length (n :: ns)))%Z.
Proof.
  intros files junk ls s l n ns F SF H1 D L A G H. destruct (read_giuh _ _ _ _ _ _ _ L A G H) as (factor & E & _ & N & _).
  rewrite (fres_64 _ _ _ _ _ SF H), (repetitions F H1 D) in E. apply Ok_inj in E. subst factor. exact N.
Qed.

Context {cfg : Cfg}.

Lemma program_64 : forall files texts junk ls F E res, seconds "forcing_resolution" ls F -> seconds "endtime" ls E -> (1 <= F)%Z -> (F | 3600)%Z -> (0 <= E <= 2147483647 * F)%Z ->
  simulate files texts junk ls = Ok res -> List.length (rs_rows res) = Z.to_nat (E / F).
Proof.
  intros files texts junk ls F E res SF SE H1 D B H. assert (L : (F <= 3600)%Z) by (apply Z.divide_pos_le; [lia|assumption]).
  destruct (simulate_inv _ _ _ _ _ H) as (s & f & n & Es & _ & En & _ & _ & Len & _).
  rewrite (fres_64 _ _ _ _ _ SF Es), (endtime_64 files junk ls s _ SE) in En; [|lia|exact Es]. rewrite (step_count E F) in En by (lia || assumption). apply Ok_inj in En. subst n. exact Len.
Qed.
Lemma program_57 : forall files texts junk ls res, seconds "forcing_resolution" ls 57 -> seconds "endtime" ls 57 -> simulate files texts junk ls = Ok res -> rs_rows res = [].
Proof.
  intros files texts junk ls res SF SE H. destruct (simulate_inv _ _ _ _ _ H) as (s & f & n & Es & _ & En & _ & _ & Len & _).
  rewrite (fres_64 _ _ _ _ _ SF Es), (endtime_64 files junk ls s _ SE) in En; [|lia|exact Es]. rewrite lost_step in En. apply Ok_inj in En. subst n. cbn in Len. destruct (rs_rows res); [reflexivity|discriminate].
Qed.

(** The clock. *)
Lemma runs_64 : forall u s a xs s' a', runs u s a xs s' a' -> forall t T, p_time (st_p s) = Fin (IZR t) -> u_dt u = Fin (hours64 T) -> (1 <= T)%Z -> (T | 3600)%Z -> (0 <= t)%Z ->
  (t + Z.of_nat (List.length xs) * T < 2 ^ 53)%Z -> p_time (st_p s') = Fin (IZR (t + Z.of_nat (List.length xs) * T)).
Proof.
  intros u s a xs s' a' H. induction H as [s a|s a s1 a1 xs s2 a2 Hs Hr IH]; intros t T Ht Hd T1 D t0 B.
  - cbn. rewrite Ht. f_equal. f_equal. lia.
  - cbn [List.length] in *. destruct (substep_inv _ _ _ _ _ Hs) as (volstart & b & volend & mbl & precip & pet & prate & petr & _ & _ & _ & _ & _ & _ & _ & _ & _ & Es & _).
    destruct (divisor_exact T T1 D) as (P & _ & Q). assert (L : (T <= 3600)%Z) by (apply Z.divide_pos_le; [lia|assumption]).
    assert (h2 : (hours64 T <= 2)%R). { pose proof (hours64_bounds T T1) as Hb. assert (e1 : eps = (/ 9007199254740992)%R) by reflexivity. rewrite e1 in Hb. apply IZR_le in L. lra. }
    replace (t + Z.of_nat (S (List.length xs)) * T)%Z with ((t + T) + Z.of_nat (List.length xs) * T)%Z in * by lia.
    apply IH; try assumption; try nia. subst s1. cbn [st_p p_time]. rewrite Ht, Hd. unfold hr_to_sec. rewrite (lit_IZR 3600) by lia. cbn [dmul].
    rewrite rnd_small by (apply fits; lra). rewrite Q. cbn [dadd]. rewrite <- plus_IZR. apply rnd_IZR. nia.
Qed.

Lemma update_64 : forall s u xs s' t T F e k, p_invalid (st_p s) = false -> executed s u xs s' -> p_time (st_p s) = Fin (IZR t) -> u_dt u = Fin (hours64 T) -> p_fres (st_p s) = Fin (hours64 F) ->
  p_endtime (st_p s) = Fin (IZR e) -> (1 <= T)%Z -> (T | 3600)%Z -> (1 <= k <= 10000000)%Z -> F = (k * T)%Z -> (0 <= t)%Z -> (t + F < 2 ^ 53)%Z -> (ngen = true \/ t + F <= e)%Z ->
  Z.of_nat (List.length xs) = k /\ p_time (st_p s') = Fin (IZR (t + F)).
Proof.
  intros s u xs s' t T F e k Hv He Ht Hd Hf Hen T1 D HK HF t0 B Hc.
  destruct (executed_valid _ _ _ _ Hv He) as (s1 & vcal & volend & s2 & n & s3 & a & E1 & E2 & E3 & E4 & E5 & E6 & E7).
  destruct (prologue_inv _ _ _ E1) as (Emb & Epr & _ & _ & _ & _ & _ & _ & _ & _ & Et & Emt & Efr & Ead & Etm & Een & _).
  destruct (steps_inv _ _ _ _ E3) as (_ & En & Es2). rewrite Hd, Efr, Hf, (guarded F T k T1 HK HF) in En. apply Ok_inj in En. subst n.
  assert (Ht2 : p_time (st_p s2) = Fin (IZR t)) by (subst s2; cbn; congruence).
  assert (X : (List.length xs <= Z.to_nat k)%nat) by (destruct E6 as [->|(_ & Q & _)]; lia).
  pose proof (runs_64 _ _ _ _ _ _ E5 t T Ht2 Hd T1 D t0 ltac:(nia)) as Tm.
  assert (Len : List.length xs = Z.to_nat k).
  { destruct E6 as [E6|(Hng & Hl & Hge)]; [assumption|]. exfalso. destruct Hc as [Hc|Hc]; [congruence|]. rewrite Tm in Hge.
    destruct (runs_frame _ _ _ _ _ _ _ E5) as (_ & _ & _ & _ & _ & _ & _ & _ & _ & _ & _ & _ & _ & _ & _ & _ & _ & _ & Fe & _).
    rewrite Fe in Hge. subst s2. cbn in Hge. rewrite Een, Hen in Hge. unfold dgeb, dleb, Rleb in Hge. destruct (Rle_dec _ _) as [Q|Q] in Hge; [|discriminate]. apply le_IZR in Q. nia. }
  split; [lia|]. destruct (finish_inv _ _ _ _ E7) as (g & q & mbl & _ & _ & Es'). subst s'. cbn [st_p p_time]. 
  match goal with |- ?x = _ => change x with (p_time (st_p s3)) end. rewrite Tm, Len. f_equal. f_equal. lia.
Qed.
End B64.
