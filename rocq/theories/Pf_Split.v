(** Lemmas for C88: cutting the forcing interval into parts. *)

From Coq Require Import String Reals ZArith List Bool Lia Lra.
From RecordUpdate Require Import RecordSet.
From Verif Require Import Outcome Dbl Types ListOps Fronts Infil State Giuh Update Bmi Config Driver Exact Lib Spec_Common Spec_Update Spec_Driver Spec_Influence Spec_Split Pf_Update Pf_SafeUpdate Pf_Influence.
Import ListNotations.
Import RecordSetNotations.

Section Split.
Context {fp : Fp} {cfg : Cfg}.

(** Everything that an Update does not read in the sub-steps; the balance of the last sub-step is kept. *)
Record dress : Type := mkDress { d_f : dbl; d_i : Z; d_nf : Z; d_tw : list dbl; d_dw : list dbl; d_out : option bout; d_n : Z; d_o : list dbl; d_q : list dbl; d_mb : massbal }.
Definition wear (d : dress) (s : state) : state :=
  s <| st_p := (st_p s) <| p_fres := d_f d |> <| p_finterval := d_i d |> <| p_nfronts := d_nf d |> <| p_theta_wf := d_tw d |> <| p_depth_wf := d_dw d |> |>
    <| st_out := d_out d |> <| g_N := d_n d |> <| g_ord := d_o d |> <| g_queue := d_q d |> <| st_mb := (d_mb d) <| mb_local := mb_local (st_mb s) |> |>.

Lemma wear_wear : forall d d' s, wear d (wear d' s) = wear d s.
Proof. intros d d' [hd pv so [] mb pr pe ca ou gn go gq]. reflexivity. Qed.
Lemma own : forall s, exists d, s = wear d s /\ mb_on_ts (d_mb d) = mb_on_ts (st_mb s) /\ d_f d = p_fres (st_p s) /\ d_n d = g_N s /\ d_o d = g_ord s /\ d_q d = g_queue s.
Proof.
  intros [hd pv so [] [] pr pe ca ou gn go gq]. eexists (mkDress _ _ _ _ _ _ _ _ _ (mkMB _ _ _ _ _ _ _ _ _ _ _ _ _ _)). repeat split.
Qed.
Lemma recut_wear : forall s s', recut s s' <-> exists d, s' = wear d s /\ mb_on_ts (d_mb d) = mb_on_ts (st_mb s).
Proof.
  intros s s'. split.
  - intros (f & i & nf & tw & dw & out & n & o & q & mb & -> & E). exists (mkDress f i nf tw dw out n o q mb). auto.
  - intros ([f i nf tw dw out n o q mb] & -> & E). exists f, i, nf, tw, dw, out, n, o, q, mb. auto.
Qed.

Lemma substep_wear : forall d u s a, substep u (wear d s) a = res_map (fun x => (wear d (fst x), snd x)) (substep u s a).
Proof.
  intros d u s a. destruct s as [hd pv so p mb pr pe ca ou gn go gq]. destruct p. unfold substep, wear. cbn.
  repeat match goal with |- context [bind ?m _] => destruct m as [?|?]; cbn; [|reflexivity] end.
  match goal with |- context [if ?b then _ else _] => destruct b end; [reflexivity|].
  repeat match goal with |- context [bind ?m _] => destruct m as [?|?]; cbn; [|reflexivity] end. reflexivity.
Qed.
Lemma loop_wear : forall d u k s a, subcycle_loop k u (wear d s) a = res_map (fun x => (wear d (fst x), snd x)) (subcycle_loop k u s a).
Proof.
  intros d u k. induction k as [|k IH]; intros s a; cbn [subcycle_loop]; [reflexivity|]. rewrite substep_wear. destruct (substep u s a) as [[s1 a1]|w]; cbn [res_map bind fst snd]; [|reflexivity].
  replace (p_time (st_p (wear d s1))) with (p_time (st_p s1)) by (destruct s1 as [? ? ? [] ? ? ? ? ? ? ? ?]; reflexivity).
  replace (p_endtime (st_p (wear d s1))) with (p_endtime (st_p s1)) by (destruct s1 as [? ? ? [] ? ? ? ? ? ? ? ?]; reflexivity).
  destruct (_ && _)%bool; [reflexivity|]. apply IH.
Qed.

(** The increments of the totals. *)
Definition bump (a x : acc) : acc :=
  mkAcc (a_precip a + a_precip x) (a_pet a + a_pet x) (a_aet a + a_aet x) (a_end x) (a_in a + a_in x) (a_on x) (a_runoff a + a_runoff x) (a_rech a + a_rech x).

Lemma substep_bump : forall u s a s1 a1, substep u s a = Ok (s1, a1) -> exists x, a1 = bump a x /\
  forall a', a_on a' = a_on a -> a_end a' = a_end a -> substep u s a' = Ok (s1, bump a' x).
Proof.
  intros u s a s1 a1 H. unfold substep in *. cbv zeta in H.
  bind_inv H volstart Evs. bind_inv H b Eb. bind_inv H volend Eve.
  destruct (dabs _ >? lit (1 / 10000))%d eqn:C; [discriminate|].
  bind_inv H h Eh. bind_inv H t Et. apply Ok_inj, pair_equal_spec in H as [<- <-].
  match goal with |- exists x, mkAcc (_ + ?q1) (_ + ?q2) (_ + ?q3) ?q4 (_ + ?q5) ?q6 (_ + ?q7) (_ + ?q8) = _ /\ _ => exists (mkAcc q1 q2 q3 q4 q5 q6 q7 q8) end.
  split; [reflexivity|]. intros a' E1 E2. cbv zeta. rewrite Evs. cbn [bind]. rewrite E1, E2, Eb. cbn [bind]. rewrite Eve. cbn [bind]. rewrite C, Eh. cbn [bind]. rewrite Et. reflexivity.
Qed.
Lemma loop_bump : forall u k s a s1 a1, subcycle_loop k u s a = Ok (s1, a1) -> exists ds, a1 = fold_left bump ds a /\
  forall a', a_on a' = a_on a -> a_end a' = a_end a -> subcycle_loop k u s a' = Ok (s1, fold_left bump ds a').
Proof.
  intros u k. induction k as [|k IH]; intros s a s1 a1 H; cbn [subcycle_loop] in H.
  - apply Ok_inj, pair_equal_spec in H as [<- <-]. exists []. split; reflexivity.
  - bind_inv H y Ey. destruct y as [s2 a2]. destruct (substep_bump _ _ _ _ _ Ey) as (x & Ex & Hx). cbn [subcycle_loop].
    destruct (_ && _)%bool eqn:C.
    + apply Ok_inj, pair_equal_spec in H as [<- <-]. exists [x]. split; [exact Ex|]. intros a' E1 E2. rewrite (Hx a' E1 E2). cbn [bind]. rewrite C. reflexivity.
    + destruct (IH _ _ _ _ H) as (ds & Ed & Hd). exists (x :: ds). cbn [fold_left]. split; [congruence|]. intros a' E1 E2. rewrite (Hx a' E1 E2). cbn [bind]. rewrite C. apply Hd; rewrite Ex; reflexivity.
Qed.

(** What a loop leaves alone. *)
Definition moved (s s1 : state) : Prop :=
  exists hd pv pr pe ti ts pp ml, s1 = s <| st_head := hd |> <| st_prev := pv |> <| st_precip := pr |> <| st_pet := pe |>
    <| st_p := (st_p s) <| p_time := ti |> <| p_timesteps := ts |> <| p_precip_prev := pp |> |> <| st_mb := (st_mb s) <| mb_local := ml |> |>.
Lemma moved_refl : forall s, moved s s.
Proof. intros [hd pv so [] [] pr pe ca ou gn go gq]. unfold moved. do 8 eexists. reflexivity. Qed.
Lemma moved_trans : forall s s1 s2, moved s s1 -> moved s1 s2 -> moved s s2.
Proof.
  intros s s1 s2 (hd & pv & pr & pe & ti & ts & pp & ml & ->) (hd' & pv' & pr' & pe' & ti' & ts' & pp' & ml' & ->). exists hd', pv', pr', pe', ti', ts', pp', ml'.
  destruct s as [? ? ? [] [] ? ? ? ? ? ? ?]. reflexivity.
Qed.
Lemma fmax_nonneg : forall x, dgeb (dfmax x (Fin 0)) (Fin 0) = true.
Proof.
  intros [x| | |]; unfold dgeb, dfmax, dltb, dleb, Rltb, Rleb; try (destruct (Rle_dec 0 0); reflexivity || lra); try reflexivity.
  destruct (Rlt_dec x 0) as [L|L]; [destruct (Rle_dec 0 0)|destruct (Rle_dec 0 x)]; reflexivity || lra.
Qed.
Lemma substep_moved : forall u s a s1 a1, substep u s a = Ok (s1, a1) -> moved s s1 /\ p_timesteps (st_p s1) = (p_timesteps (st_p s) + 1)%Z /\
  lgar_calc_mass_bal (p_cum (st_p s1)) (st_head s1) = Ok (a_end a1) /\ dgeb (st_precip s1) (Fin 0) = true /\ dgeb (st_pet s1) (Fin 0) = true /\ mb_local (st_mb s1) <> None.
Proof.
  intros u s a s1 a1 H. destruct (substep_inv _ _ _ _ _ H) as (v1 & b & v2 & mbl & p1 & p2 & p3 & p4 & _ & _ & _ & _ & _ & _ & Ev & _ & _ & -> & ->).
  repeat split.
  - do 8 eexists. reflexivity.
  - exact Ev.
  - apply fmax_nonneg.
  - apply fmax_nonneg.
  - discriminate.
Qed.
Lemma loop_moved : forall u k s a s1 a1, subcycle_loop k u s a = Ok (s1, a1) -> moved s s1 /\ (p_timesteps (st_p s) <= p_timesteps (st_p s1) <= p_timesteps (st_p s) + Z.of_nat k)%Z /\
  ((0 < k)%nat -> lgar_calc_mass_bal (p_cum (st_p s1)) (st_head s1) = Ok (a_end a1) /\ dgeb (st_precip s1) (Fin 0) = true /\ dgeb (st_pet s1) (Fin 0) = true /\ mb_local (st_mb s1) <> None).
Proof.
  intros u k. induction k as [|k IH]; intros s a s1 a1 H; cbn [subcycle_loop] in H.
  - apply Ok_inj, pair_equal_spec in H as [<- <-]. split; [apply moved_refl|]. split; [lia|]. intro; lia.
  - bind_inv H y Ey. destruct y as [s2 a2]. destruct (substep_moved _ _ _ _ _ Ey) as (M & T & Q). destruct (_ && _)%bool eqn:C.
    + apply Ok_inj, pair_equal_spec in H as [<- <-]. split; [exact M|]. split; [lia|]. intros _. exact Q.
    + destruct (IH _ _ _ _ H) as (M' & T' & Q'). split; [exact (moved_trans _ _ _ M M')|]. split; [lia|]. intros _. destruct k as [|k]; [|apply Q'; lia].
      cbn in H. apply Ok_inj, pair_equal_spec in H as [<- <-]. exact Q.
Qed.

Lemma loop_cut : forall u k1 k2 s a s1 a1, subcycle_loop (k1 + k2) u s a = Ok (s1, a1) -> p_timesteps (st_p s1) = (p_timesteps (st_p s) + Z.of_nat (k1 + k2))%Z ->
  exists s2 a2, subcycle_loop k1 u s a = Ok (s2, a2) /\ p_timesteps (st_p s2) = (p_timesteps (st_p s) + Z.of_nat k1)%Z /\ subcycle_loop k2 u s2 a2 = Ok (s1, a1).
Proof.
  intros u k1 k2. induction k1 as [|k IH]; intros s a s1 a1 H T; cbn [subcycle_loop Nat.add] in *.
  - exists s, a. repeat split; [lia|exact H].
  - bind_inv H y Ey. destruct y as [s2 a2]. rewrite Ey. cbn [bind]. destruct (substep_moved _ _ _ _ _ Ey) as (_ & T2 & _). destruct (_ && _)%bool eqn:C.
    + apply Ok_inj, pair_equal_spec in H as [<- <-]. assert (k = 0%nat /\ k2 = 0%nat) as [-> ->] by lia. exists s2, a2. repeat split; lia.
    + destruct (IH _ _ _ _ H ltac:(lia)) as (s3 & a3 & E3 & T3 & E4). exists s3, a3. repeat split; [exact E3|lia|exact E4].
Qed.

(** Update without calibration, soil temperatures and adaptive steps. *)
Definition upar_of (s : state) : upar := mkU (env_of s) (p_timestep (st_p s)) (p_nint (st_p s)) (p_closed (st_p s)) (p_wilting (st_p s)) (p_fc (st_p s)) (p_pmax (st_p s)).
Definition own_of (s : state) (n : Z) : dress := mkDress (p_fres (st_p s)) n (p_nfronts (st_p s)) (p_theta_wf (st_p s)) (p_depth_wf (st_p s)) (st_out s) (g_N s) (g_ord s) (g_queue s) (st_mb s).
Lemma update_plain : forall s n, plain s -> substeps_of s n -> Update s =
  (vol <- lgar_calc_mass_bal (p_cum (st_p s)) (st_head s) ;; _ <- cassert (st_precip s >=? Fin 0)%d ;; _ <- cassert (st_pet s >=? Fin 0)%d ;;
   '(s3, a3) <- subcycle_loop (Z.to_nat n) (upar_of s) s (acc0 vol (mb_on_ts (st_mb s))) ;; finish_update (wear (own_of s n) s3) a3 (Fin 0)).
Proof.
  intros s n (HI & HC & HT & HA) Hn. unfold Update, update_prologue. rewrite HI, HT. cbn [bind]. cbv zeta. rewrite HC. cbn [bind].
  replace (s <| st_p := st_p s |>) with s by (destruct s; reflexivity).
  destruct (lgar_calc_mass_bal (p_cum (st_p s)) (st_head s)) as [vol|w]; [|reflexivity]. cbn [bind].
  destruct (cassert (st_precip s >=? Fin 0)%d) as [[]|w]; cbn [bind]; [|reflexivity]. destruct (cassert (st_pet s >=? Fin 0)%d) as [[]|w]; cbn [bind]; [|reflexivity].
  unfold update_steps. cbv zeta. rewrite HA. unfold substeps_of in Hn. match goal with |- context [d2i ?x] => change x with (p_fres (st_p s) / p_timestep (st_p s) + lit (1 / 100000000))%d end.
  rewrite Hn. cbn [bind].
  match goal with |- bind (subcycle_loop ?k ?u' ?s' ?a') _ = bind (subcycle_loop ?k ?u ?s ?a) _ =>
    replace u' with u by (destruct s as [? ? ? [] [] ? ? ? ? ? ? ?]; reflexivity);
    replace a' with a by reflexivity; replace s' with (wear (own_of s n) s) by (destruct s as [? ? ? [] [] ? ? ? ? ? ? ?]; reflexivity); rewrite loop_wear; destruct (subcycle_loop k u s a) as [[s3 a3]|w] end; reflexivity.
Qed.

Lemma finish_ok : forall s a v, mb_local (st_mb s) <> None -> routes s -> exists t, finish_update s a v = Ok t /\ routes t.
Proof.
  intros s a v HL [[H1 H2] H3]. destruct (giuh_ok (a_runoff a) (g_N s) (g_ord s) (g_queue s)) as (g & q & E & L); try assumption.
  unfold finish_update. rewrite E. cbn [bind]. destruct (mb_local (st_mb s)) as [m|] eqn:EM; [|congruence]. eexists. split; [reflexivity|]. unfold routes. cbn [g_N g_ord g_queue set].
  split; [split; assumption|]. cbn. rewrite L. exact H3.
Qed.

Lemma moved_same : forall s s1, moved s s1 -> upar_of s1 = upar_of s /\ plain s1 = plain s /\ p_timestep (st_p s1) = p_timestep (st_p s) /\ p_cum (st_p s1) = p_cum (st_p s).
Proof. intros s s1 (hd & pv & pr & pe & ti & ts & pp & ml & ->). destruct s as [? ? ? [] ? ? ? ? ? ? ? ?]. repeat split. Qed.
Lemma wear_same : forall d s, upar_of (wear d s) = upar_of s /\ plain (wear d s) = plain s /\ p_timestep (st_p (wear d s)) = p_timestep (st_p s) /\ p_cum (st_p (wear d s)) = p_cum (st_p s) /\
  p_fres (st_p (wear d s)) = d_f d /\ g_N (wear d s) = d_n d /\ g_ord (wear d s) = d_o d /\ g_queue (wear d s) = d_q d /\ mb_on_ts (st_mb (wear d s)) = mb_on_ts (d_mb d) /\
  st_head (wear d s) = st_head s /\ st_precip (wear d s) = st_precip s /\ st_pet (wear d s) = st_pet s /\ mb_local (st_mb (wear d s)) = mb_local (st_mb s).
Proof. intros d [hd pv so [] mb pr pe ca ou gn go gq]. repeat split. Qed.

(** What the state after an Update says about its totals. *)
Definition tells (a : acc) (t : state) : Prop :=
  exists b, st_out t = Some b /\ o_precip b = (a_precip a * cm_to_m)%d /\ o_in b = (a_in a * cm_to_m)%d /\ o_end b = (a_end a * cm_to_m)%d /\ o_aet b = (a_aet a * cm_to_m)%d /\
    o_rech b = (a_rech a * cm_to_m)%d /\ o_runoff b = (a_runoff a * cm_to_m)%d /\ o_pet b = (a_pet a * cm_to_m)%d /\ (exists m, mb_local (st_mb t) = Some m /\ o_mb b = (m * cm_to_m)%d) /\
  p_nfronts (st_p t) = listLength (st_head t) /\ p_theta_wf (st_p t) = map f_theta (st_head t) /\ p_depth_wf (st_p t) = map (fun f => f_depth f * cm_to_m)%d (st_head t).
Lemma finish_tells : forall s a v t, finish_update s a v = Ok t -> tells a t /\ exists d, t = wear d s /\ mb_on_ts (d_mb d) = a_on a /\ d_f d = p_fres (st_p s).
Proof.
  intros s a v t H. destruct (finish_inv _ _ _ _ H) as (g & q & m & E1 & E2 & ->). destruct s as [hd pv so p mb pr pe ca ou gn go gq]. destruct p. split.
  - unfold tells. cbn. eexists. split; [reflexivity|]. cbn. cbn in E2. repeat split. exists m. split; [exact E2|reflexivity].
  - match goal with |- exists d, ?t = _ /\ _ => exists (own_of t (State.p_finterval (st_p t))) end. split; [reflexivity|]. split; reflexivity.
Qed.

(** One of the short forcing intervals. *)
Lemma short_update : forall u m s a d s2 a2, u = upar_of s -> plain s -> (0 < m)%nat -> substeps_of (wear d s) (Z.of_nat m) -> routes (wear d s) -> mb_on_ts (d_mb d) = a_on a ->
  lgar_calc_mass_bal (p_cum (st_p s)) (st_head s) = Ok (a_end a) -> dgeb (st_precip s) (Fin 0) = true -> dgeb (st_pet s) (Fin 0) = true -> subcycle_loop m u s a = Ok (s2, a2) ->
  exists t d2 ds, Update (wear d s) = Ok t /\ t = wear d2 s2 /\ routes t /\ d_f d2 = d_f d /\ mb_on_ts (d_mb d2) = a_on a2 /\ a2 = fold_left bump ds a /\
    tells (fold_left bump ds (acc0 (a_end a) (a_on a))) t.
Proof.
  intros u m s a d s2 a2 -> HP Hm Hn HR Ho Hv Hp1 Hp2 HL. destruct (wear_same d s) as (W1 & W2 & W3 & W4 & W5 & W6 & W7 & W8 & W9 & W10 & W11 & W12 & W13).
  rewrite (update_plain (wear d s) (Z.of_nat m)); [|rewrite W2; exact HP|exact Hn]. rewrite W4, W10, Hv. cbn [bind]. rewrite W11, W12, Hp1, Hp2. cbn [cassert bind]. rewrite Nat2Z.id, loop_wear, W1, W9, Ho.
  destruct (loop_bump _ _ _ _ _ _ HL) as (ds & E & F). rewrite (F (acc0 (a_end a) (a_on a)) eq_refl eq_refl). cbn [res_map bind fst snd]. rewrite wear_wear.
  destruct (loop_moved _ _ _ _ _ _ HL) as (M & _ & Q). destruct (Q Hm) as (_ & _ & _ & Q4). set (d1 := own_of (wear d s) (Z.of_nat m)). set (a3 := fold_left bump ds (acc0 (a_end a) (a_on a))).
  destruct (wear_same d1 s2) as (_ & _ & _ & _ & V5 & V6 & V7 & V8 & _ & _ & _ & _ & V13).
  destruct (finish_ok (wear d1 s2) a3 (Fin 0)) as (t & Et & Rt); [rewrite V13; exact Q4|unfold routes in *; rewrite V6, V7, V8; exact HR|].
  destruct (finish_tells _ _ _ _ Et) as (T & d2 & -> & D1 & D2). rewrite wear_wear in *. exists (wear d2 s2), d2, ds. split; [exact Et|]. split; [reflexivity|]. split; [exact Rt|].
  split; [rewrite D2, V5; unfold d1, own_of; cbn [d_f]; exact W5|]. split; [|split; [exact E|exact T]].
  rewrite D1. unfold a3. destruct ds as [|x ds _] using rev_ind; [subst a2; reflexivity|]. rewrite E, !fold_left_app. reflexivity.
Qed.

Lemma last_cons : forall A (l : list A) x d, last (x :: l) d = last l x.
Proof. intros A l. induction l as [|y l IH]; intros x d; [reflexivity|]. change (last (x :: y :: l) d) with (last (y :: l) d). rewrite IH. symmetry. apply IH. Qed.

Lemma short_updates : forall u m, (0 < m)%nat -> forall k s a d s3 a3, u = upar_of s -> plain s -> substeps_of (wear d s) (Z.of_nat m) -> routes (wear d s) -> mb_on_ts (d_mb d) = a_on a ->
  lgar_calc_mass_bal (p_cum (st_p s)) (st_head s) = Ok (a_end a) -> dgeb (st_precip s) (Fin 0) = true -> dgeb (st_pet s) (Fin 0) = true ->
  subcycle_loop (k * m) u s a = Ok (s3, a3) -> p_timesteps (st_p s3) = (p_timesteps (st_p s) + Z.of_nat (k * m))%Z ->
  exists ts d3 dss, updates k (wear d s) = Ok ts /\ List.length ts = k /\ last ts (wear d s) = wear d3 s3 /\ mb_on_ts (d_mb d3) = a_on a3 /\ a3 = fold_left bump (concat dss) a /\
    Forall2 (fun t ds => exists v o, tells (fold_left bump ds (acc0 v o)) t) ts dss /\ Forall routes ts /\ (k <> 0%nat -> exists v, tells v (last ts (wear d s)) /\ a_end v = a_end a3).
Proof.
  intros u m Hm k. induction k as [|k IH]; intros s a d s3 a3 Hu HP Hn HR Ho Hv Hp1 Hp2 HL HT; cbn [updates Nat.mul] in *.
  - cbn in HL. apply Ok_inj, pair_equal_spec in HL as [<- <-]. exists [], d, []. cbn. repeat split; auto. intro X; congruence.
  - destruct (loop_cut _ _ _ _ _ _ _ HL HT) as (s2 & a2 & E1 & T1 & E2).
    destruct (short_update u m s a d s2 a2 Hu HP Hm Hn HR Ho Hv Hp1 Hp2 E1) as (t & d2 & ds & U & -> & R2 & F2 & O2 & A2 & TL).
    destruct (loop_moved _ _ _ _ _ _ E1) as (M & _ & Q). destruct (Q Hm) as (Q1 & Q2 & Q3 & _). destruct (moved_same _ _ M) as (M1 & M2 & M3 & M4).
    destruct (IH s2 a2 d2 s3 a3) as (ts & d3 & dss & G1 & G2 & G3 & G4 & G5 & G6 & G7 & G8); try assumption; try congruence.
    + destruct (wear_same d2 s2) as (_ & _ & W3 & _ & W5 & _). destruct (wear_same d s) as (_ & _ & V3 & _ & V5 & _). unfold substeps_of in *. rewrite W3, W5, M3, F2. rewrite V3, V5 in Hn. exact Hn.
    + lia.
    + exists (wear d2 s2 :: ts), d3, (ds :: dss). rewrite U. cbn [bind]. rewrite G1. cbn [bind]. assert (LL : last (wear d2 s2 :: ts) (wear d s) = last ts (wear d2 s2)).
      { apply last_cons. }
      rewrite LL. split; [reflexivity|]. split; [cbn [List.length]; congruence|]. split; [exact G3|]. split; [exact G4|]. split; [cbn [concat]; rewrite fold_left_app, <- A2; exact G5|].
      split; [constructor; [exists (a_end a), (a_on a); exact TL|exact G6]|]. split; [constructor; assumption|]. intros _. destruct k as [|k].
      * cbn in E2. apply Ok_inj, pair_equal_spec in E2 as [<- <-]. destruct ts; [|discriminate]. cbn [last]. exists (fold_left bump ds (acc0 (a_end a) (a_on a))). split; [exact TL|].
        destruct ds as [|x ds _] using rev_ind; [subst a2; reflexivity|]. rewrite A2, !fold_left_app. reflexivity.
      * apply G8. discriminate.
Qed.
End Split.

Section Long.
Context {fp : Fp} {cfg : Cfg}.

(** The long interval and its parts, with the totals of the parts. *)
Theorem split_update : forall k m s s' t, plain s -> recut s s' -> routes s' -> (0 < k)%nat -> (0 < m)%nat -> substeps_of s (Z.of_nat (k * m)) -> substeps_of s' (Z.of_nat m) ->
  Update s = Ok t -> p_timesteps (st_p t) = (p_timesteps (st_p s) + Z.of_nat (k * m))%Z ->
  exists ts dss a vol, updates k s' = Ok ts /\ List.length ts = k /\ recut t (last ts s') /\ Forall routes ts /\ tells (fold_left bump (concat dss) (acc0 vol a)) t /\
    Forall2 (fun t ds => exists v o, tells (fold_left bump ds (acc0 v o)) t) ts dss /\ exists v, tells v (last ts s') /\ a_end v = a_end (fold_left bump (concat dss) (acc0 vol a)).
Proof.
  intros k m s s' t HP HC HR Hk Hm Hn Hn' HU HT. apply recut_wear in HC as (d & -> & Hd). rewrite (update_plain _ _ HP Hn) in HU.
  bind_inv HU vol Ev. bind_inv HU x1 Ek1. bind_inv HU x2 Ek2. bind_inv HU y Ey. destruct y as [s3 a3]. rewrite Nat2Z.id in Ey.
  destruct (finish_tells _ _ _ _ HU) as (TL & d4 & -> & D1 & D2). rewrite wear_wear in *.
  assert (P1 : dgeb (st_precip s) (Fin 0) = true) by (destruct (st_precip s >=? Fin 0)%d ; [reflexivity|discriminate]).
  assert (P2 : dgeb (st_pet s) (Fin 0) = true) by (destruct (st_pet s >=? Fin 0)%d ; [reflexivity|discriminate]).
  destruct (short_updates (upar_of s) m Hm k s (acc0 vol (mb_on_ts (st_mb s))) d s3 a3) as (ts & d3 & dss & G1 & G2 & G3 & G4 & G5 & G6 & G7 & G8); try assumption; try reflexivity.
  - exists ts, dss, (mb_on_ts (st_mb s)), vol. split; [exact G1|]. split; [exact G2|]. split.
    + apply recut_wear. exists d3. rewrite wear_wear. split; [exact G3|]. destruct (wear_same d4 s3) as (_ & _ & _ & _ & _ & _ & _ & _ & W & _). congruence.
    + split; [exact G7|]. rewrite <- G5. split; [exact TL|]. split; [exact G6|]. apply G8. lia.
Qed.

Theorem split_fronts : forall k m s s' t, plain s -> recut s s' -> routes s' -> (0 < k)%nat -> (0 < m)%nat -> substeps_of s (Z.of_nat (k * m)) -> substeps_of s' (Z.of_nat m) ->
  Update s = Ok t -> p_timesteps (st_p t) = (p_timesteps (st_p s) + Z.of_nat (k * m))%Z ->
  exists ts, updates k s' = Ok ts /\ List.length ts = k /\ recut t (last ts s') /\ same_fronts t (last ts s') /\
    exists b b', st_out t = Some b /\ st_out (last ts s') = Some b' /\ o_end b = o_end b' /\ o_mb b = o_mb b'.
Proof.
  intros k m s s' t HP HC HR Hk Hm Hn Hn' HU HT. destruct (split_update k m s s' t HP HC HR Hk Hm Hn Hn' HU HT) as (ts & dss & a & vol & G1 & G2 & G3 & _ & G4 & _ & v & G5 & G6).
  exists ts. split; [exact G1|]. split; [exact G2|]. split; [exact G3|]. apply recut_wear in G3 as (d & E & _). destruct (wear_same d t) as (_ & _ & _ & _ & _ & _ & _ & _ & _ & W1 & _ & _ & W2). rewrite <- E in W1, W2.
  destruct G4 as (b & B1 & _ & _ & B2 & _ & _ & _ & _ & (m1 & B3 & B4) & B5 & B6 & B7). destruct G5 as (b' & C1 & _ & _ & C2 & _ & _ & _ & _ & (m2 & C3 & C4) & C5 & C6 & C7).
  split; [repeat split; congruence|]. exists b, b'. repeat split; congruence.
Qed.
End Long.

(** ** Sums, in exact arithmetic *)
Section Sums.
Local Existing Instance exact.
Context {cfg : Cfg}.

Lemma add0 : forall x : dbl, (Fin 0 + x)%d = x.
Proof. intros [x| | |]; cbn; try reflexivity. unfold rnd. cbn. f_equal. lra. Qed.
Lemma addA : forall x y z : dbl, (x + (y + z))%d = (x + y + z)%d.
Proof. intros [x| | |] [y| | |] [z| | |]; cbn; try reflexivity. f_equal. lra. Qed.
Lemma mulD : forall x y : dbl, ((x + y) * cm_to_m)%d = (x * cm_to_m + y * cm_to_m)%d.
Proof.
  assert (P : 0 < 1 / 100) by lra. change cm_to_m with (Fin (1 / 100)). generalize dependent (1 / 100). intros c P [x| | |] [y| | |]; cbn; unfold inf_sign; repeat destruct (Rlt_dec _ _); try lra; cbn; try reflexivity. f_equal. lra.
Qed.
Lemma mul0 : (Fin 0 * cm_to_m)%d = Fin 0.
Proof. cbn. f_equal. lra. Qed.

Definition additive (h : acc -> dbl) : Prop := (forall a x, h (bump a x) = (h a + h x)%d) /\ forall v o, h (acc0 v o) = Fin 0.
Definition increments (h : acc -> dbl) (ds : list acc) : dbl := fold_right (fun x y => (h x + y)%d) (Fin 0) ds.
Lemma increments_app : forall h a b, increments h (a ++ b) = (increments h a + increments h b)%d.
Proof. intros h a b. unfold increments. induction a as [|x a IH]; cbn [app fold_right]; [symmetry; apply add0|]. rewrite IH. apply addA. Qed.
Lemma fold_increments : forall h, additive h -> forall ds a, h (fold_left bump ds a) = (h a + increments h ds)%d.
Proof.
  intros h [H _] ds. unfold increments. induction ds as [|x ds IH]; intro a; cbn [fold_left fold_right].
  - destruct (h a) as [y| | |]; cbn; try reflexivity. f_equal. lra.
  - rewrite IH, H. symmetry. apply addA.
Qed.
Lemma total_increments : forall h g, additive h -> forall ts dss, Forall2 (fun t ds => exists v o b, st_out t = Some b /\ g b = (h (fold_left bump ds (acc0 v o)) * cm_to_m)%d) ts dss ->
  total g ts = (increments h (concat dss) * cm_to_m)%d.
Proof.
  intros h g A ts dss F. induction F as [|t ds ts dss (v & o & b & E1 & E2) F IH]; cbn [concat]; [symmetry; apply mul0|].
  unfold total in *. cbn [fold_right]. rewrite E1, IH, E2, increments_app, mulD, (fold_increments h A). destruct A as [_ A]. rewrite A, add0. reflexivity.
Qed.
(** The published flux [g] belongs to the total [h]. *)
Definition belongs (g : bout -> dbl) (h : acc -> dbl) : Prop := additive h /\ forall a t, tells a t -> exists b, st_out t = Some b /\ g b = (h a * cm_to_m)%d.
Lemma belong : forall g, In g [o_precip; o_in; o_aet; o_rech; o_runoff; o_pet] -> exists h, belongs g h.
Proof.
  intros g H. cbn [In] in H. repeat destruct H as [<-|H]; [exists a_precip|exists a_in|exists a_aet|exists a_rech|exists a_runoff|exists a_pet|destruct H];
    (split; [split; reflexivity|intros a t (b & B1 & B2 & B3 & B4 & B5 & B6 & B7 & B8 & _); exists b; split; [exact B1|assumption]]).
Qed.
Lemma told_total : forall g, In g [o_precip; o_in; o_aet; o_rech; o_runoff; o_pet] -> forall t vol a ts dss, tells (fold_left bump (concat dss) (acc0 vol a)) t ->
  Forall2 (fun t ds => exists v o, tells (fold_left bump ds (acc0 v o)) t) ts dss -> exists b, st_out t = Some b /\ g b = total g ts.
Proof.
  intros g HG t vol a ts dss HT HF. destruct (belong g HG) as (h & A & B). destruct (B _ _ HT) as (b & E1 & E2). exists b. split; [exact E1|]. rewrite E2, (fold_increments h A).
  rewrite (total_increments h g A ts dss).
  - destruct A as [_ A]. rewrite A, add0. reflexivity.
  - clear -HF B. induction HF as [|x y l l' (v & o & T) F IH]; constructor; [|exact IH]. destruct (B _ _ T) as (b & E1 & E2). exists v, o, b. auto.
Qed.

Theorem split_fluxes : forall k m s s' t, plain s -> recut s s' -> routes s' -> (0 < k)%nat -> (0 < m)%nat -> substeps_of s (Z.of_nat (k * m)) -> substeps_of s' (Z.of_nat m) ->
  Update s = Ok t -> p_timesteps (st_p t) = (p_timesteps (st_p s) + Z.of_nat (k * m))%Z ->
  exists ts b, updates k s' = Ok ts /\ st_out t = Some b /\ forall g, In g [o_precip; o_in; o_aet; o_rech; o_runoff; o_pet] -> g b = total g ts.
Proof.
  intros k m s s' t HP HC HR Hk Hm Hn Hn' HU HT. destruct (split_update k m s s' t HP HC HR Hk Hm Hn Hn' HU HT) as (ts & dss & a & vol & G1 & G2 & _ & _ & G4 & G5 & _).
  assert (B := G4). destruct B as (b & B & _). exists ts, b. split; [exact G1|]. split; [exact B|]. intros g HG. destruct (told_total g HG _ _ _ _ _ G4 G5) as (b' & B' & E). congruence.
Qed.
End Sums.

(** ** Runs of the program *)
Section Driven.
Context {fp : Fp} {cfg : Cfg}.

Lemma nonneg_max : forall x, dgeb x (Fin 0) = true -> dfmax x (Fin 0) = x.
Proof.
  intros [x| | |] H; unfold dgeb, dfmax, dltb, dleb, Rltb, Rleb in *; try reflexivity; try discriminate. destruct (Rlt_dec x 0); [|reflexivity]. destruct (Rle_dec 0 x); [lra|discriminate].
Qed.
Lemma loop_kept : forall u k s a s1 a1, subcycle_loop k u s a = Ok (s1, a1) -> dgeb (st_precip s) (Fin 0) = true -> dgeb (st_pet s) (Fin 0) = true -> st_precip s1 = st_precip s /\ st_pet s1 = st_pet s.
Proof.
  intros u k. induction k as [|k IH]; intros s a s1 a1 H P1 P2; cbn [subcycle_loop] in H.
  - apply Ok_inj, pair_equal_spec in H as [<- <-]. auto.
  - bind_inv H y Ey. destruct y as [s2 a2]. assert (Q : st_precip s2 = st_precip s /\ st_pet s2 = st_pet s).
    { destruct (substep_inv _ _ _ _ _ Ey) as (v1 & b & v2 & mbl & p1 & p2 & p3 & p4 & _ & _ & _ & _ & _ & _ & _ & _ & _ & -> & _). split; apply nonneg_max; assumption. }
    destruct (_ && _)%bool; [apply Ok_inj, pair_equal_spec in H as [<- <-]; exact Q|]. destruct Q as [Q1 Q2]. destruct (IH _ _ _ _ H) as [R1 R2]; rewrite ?Q1, ?Q2; auto. split; congruence.
Qed.
Lemma update_kept : forall s n t, plain s -> substeps_of s n -> Update s = Ok t -> st_precip t = st_precip s /\ st_pet t = st_pet s /\ plain t /\ substeps_of t n /\
  (p_timesteps (st_p s) <= p_timesteps (st_p t) <= p_timesteps (st_p s) + Z.of_nat (Z.to_nat n))%Z.
Proof.
  intros s n t HP Hn HU. rewrite (update_plain _ _ HP Hn) in HU. bind_inv HU vol Ev. bind_inv HU x1 Ek1. bind_inv HU x2 Ek2. bind_inv HU y Ey. destruct y as [s3 a3].
  assert (P1 : dgeb (st_precip s) (Fin 0) = true) by (destruct (st_precip s >=? Fin 0)%d; [reflexivity|discriminate]).
  assert (P2 : dgeb (st_pet s) (Fin 0) = true) by (destruct (st_pet s >=? Fin 0)%d; [reflexivity|discriminate]).
  destruct (loop_kept _ _ _ _ _ _ Ey P1 P2) as [K1 K2]. destruct (loop_moved _ _ _ _ _ _ Ey) as (M & T & _). destruct (moved_same _ _ M) as (_ & M2 & M3 & _).
  destruct (finish_tells _ _ _ _ HU) as (_ & d & -> & _ & D). rewrite wear_wear in *. destruct (wear_same d s3) as (_ & W2 & W3 & _ & W5 & _ & _ & _ & _ & _ & W11 & W12 & _).
  destruct (wear_same (own_of s n) s3) as (_ & _ & _ & _ & V5 & _). split; [congruence|]. split; [congruence|]. split; [rewrite W2, M2; exact HP|]. split.
  - unfold substeps_of in *. rewrite W3, M3, W5, D, V5. exact Hn.
  - replace (p_timesteps (st_p (wear d s3))) with (p_timesteps (st_p s3)) by (destruct s3 as [? ? ? [] ? ? ? ? ? ? ? ?]; reflexivity). exact T.
Qed.

(** The line of output that belongs to a state after an Update. *)
Definition row_of (t : state) (r : outrow) : Prop := exists b, st_out t = Some b /\ w_vars r = map D (columns_of b) /\ w_fronts r = st_head t.
Definition writes (p e : dbl) (s : state) : state := s <| st_precip := p |> <| st_pet := e |>.
Lemma update_out : forall s n t, plain s -> substeps_of s n -> Update s = Ok t -> exists b, st_out t = Some b.
Proof.
  intros s n t HP Hn HU. rewrite (update_plain _ _ HP Hn) in HU. bind_inv HU vol Ev. bind_inv HU x1 Ek1. bind_inv HU x2 Ek2. bind_inv HU y Ey. destruct y as [s3 a3].
  destruct (finish_tells _ _ _ _ HU) as ((b & B & _) & _). exists b. exact B.
Qed.
Lemma updates_driven : forall n k s p e ts qs x, plain s -> substeps_of s n -> updates k (writes p e s) = Ok ts -> cut_steps k (x, p, e) qs ->
  exists rs, driven s qs rs (last ts s) /\ Forall2 row_of ts rs.
Proof.
  intros n k. induction k as [|k IH]; intros s p e ts qs x HP Hn HU [L C]; cbn [updates] in HU.
  - apply Ok_inj in HU as <-. destruct qs; [|discriminate]. exists []. split; constructor.
  - bind_inv HU t Et. bind_inv HU tr Er. apply Ok_inj in HU as <-. destruct qs as [|[[q1 q2] q3] qs]; [discriminate|]. destruct (C _ (or_introl eq_refl)) as [Q1 Q2]. cbn [fst snd] in Q1, Q2. subst q2 q3.
    destruct (update_kept (writes p e s) n t HP Hn Et) as (K1 & K2 & K3 & K4 & _). destruct (update_out (writes p e s) n t HP Hn Et) as (b & B).
    assert (W : writes p e t = t). { cbn in K1, K2. destruct t. cbn in *. subst. reflexivity. }
    destruct (IH t p e tr qs x K3 K4) as (rs & D & F); [rewrite W; exact Er|split; [cbn in L; congruence|intros q Hq; apply C; right; exact Hq]|].
    eexists. split; [rewrite last_cons; econstructor; [exact Et|exact B|exact D]|]. constructor; [|exact F]. exists b. auto.
Qed.
Lemma driven_app : forall s ps rs t, driven s ps rs t -> forall ps' rs' t', driven t ps' rs' t' -> driven s (ps ++ ps') (rs ++ rs') t'.
Proof. intros s ps rs t H. induction H; intros ps' rs' t' H'; [exact H'|]. cbn [app]. econstructor; [eassumption|eassumption|]. apply IHdriven. exact H'. Qed.

(** The states behind a line and behind the lines of its parts. *)
Definition linked (k : nat) (u : state) (ts : list state) : Prop :=
  List.length ts = k /\ st_head (last ts u) = st_head u /\ mb_local (st_mb (last ts u)) = mb_local (st_mb u) /\
  exists dss a vol v, tells (fold_left bump (concat dss) (acc0 vol a)) u /\ Forall2 (fun t ds => exists v o, tells (fold_left bump ds (acc0 v o)) t) ts dss /\
    tells v (last ts u) /\ a_end v = a_end (fold_left bump (concat dss) (acc0 vol a)).
Lemma last_other : forall A (l : list A) x y, l <> [] -> last l x = last l y.
Proof. intros A l x y H. destruct l as [|z l]; [congruence|]. rewrite !last_cons. reflexivity. Qed.
Lemma Forall_last : forall A (P : A -> Prop) l d, Forall P l -> P d -> P (last l d).
Proof. intros A P l. induction l as [|x l IH]; intros d H Hd; [exact Hd|]. inversion H; subst. rewrite last_cons. apply IH; assumption. Qed.

Lemma driven_steps : forall s ps rs t n, driven s ps rs t -> plain s -> substeps_of s n -> plain t /\ substeps_of t n /\
  (p_timesteps (st_p t) <= p_timesteps (st_p s) + Z.of_nat (List.length ps) * Z.of_nat (Z.to_nat n))%Z.
Proof.
  intros s ps rs t n H. induction H as [s|s x p e s1 b ps rs s2 U O H IH]; intros HP Hn; [split; [exact HP|]; split; [exact Hn|]; cbn [List.length]; lia|].
  destruct (update_kept (writes p e s) n s1 HP Hn U) as (_ & _ & K3 & K4 & K5). destruct (IH K3 K4) as (I1 & I2 & I3). split; [exact I1|]. split; [exact I2|]. cbn [List.length].
  change (p_timesteps (st_p (writes p e s))) with (p_timesteps (st_p s)) in K5. rewrite Nat2Z.inj_succ, Z.mul_succ_l. lia.
Qed.

Theorem split_driven : forall k m s ps rs t, driven s ps rs t -> forall s' pss, plain s -> recut s s' -> routes s' -> (0 < k)%nat -> (0 < m)%nat ->
  substeps_of s (Z.of_nat (k * m)) -> substeps_of s' (Z.of_nat m) -> p_timesteps (st_p t) = (p_timesteps (st_p s) + Z.of_nat (List.length ps) * Z.of_nat (k * m))%Z -> Forall2 (cut_steps k) ps pss ->
  exists rss t', driven s' (concat pss) (concat rss) t' /\ recut t t' /\ Forall2 (fun r rb => exists u ts, row_of u r /\ Forall2 row_of ts rb /\ linked k u ts) rs rss.
Proof.
  intros k m s ps rs t H. induction H as [s|s x p e s1 b ps rs s2 U O H IH]; intros s' pss HP HC HR Hk Hm Hn Hn' HT HF.
  - inversion HF; subst. exists [], s'. split; [constructor|]. split; [exact HC|constructor].
  - inversion HF as [|a qs l pss2 HQ HF2]; subst.
    destruct (update_kept (writes p e s) _ s1 HP Hn U) as (_ & _ & K3 & K4 & K5). destruct (driven_steps _ _ _ _ _ H K3 K4) as (_ & _ & K6).
    rewrite Nat2Z.id in K5, K6. cbn [List.length] in HT. change (p_timesteps (st_p (writes p e s))) with (p_timesteps (st_p s)) in K5.
    assert (HT1 : p_timesteps (st_p s1) = (p_timesteps (st_p s) + Z.of_nat (k * m))%Z) by (rewrite Nat2Z.inj_succ, Z.mul_succ_l in HT; lia).
    assert (HT2 : p_timesteps (st_p s2) = (p_timesteps (st_p s1) + Z.of_nat (List.length ps) * Z.of_nat (k * m))%Z) by (rewrite Nat2Z.inj_succ, Z.mul_succ_l in HT; lia).
    assert (HC0 : recut (writes p e s) (writes p e s')).
    { destruct HC as (f & i & nf & tw & dw & out & n & o & q & mb & -> & E). exists f, i, nf, tw, dw, out, n, o, q, mb. split; [reflexivity|exact E]. }
    destruct (split_update k m (writes p e s) (writes p e s') s1 HP HC0 HR Hk Hm Hn Hn' U) as (ts & dss & a & vol & G1 & G2 & G3 & G4 & G5 & G6 & v & G7 & G8); [exact HT1|].
    assert (HP' : plain s') by (destruct HC as (f & i & nf & tw & dw & out & n & o & q & mb & -> & E); exact HP).
    assert (NE : ts <> []) by (destruct ts; [cbn in G2; lia|discriminate]).
    destruct (updates_driven (Z.of_nat m) k s' p e ts qs x HP' Hn' G1 HQ) as (rb & D & F).
    assert (L1 : forall y z, last ts y = last ts z) by (intros; apply last_other; exact NE). rewrite (L1 (writes p e s') s') in *.
    destruct (IH (last ts s') pss2) as (rss & t' & D2 & R2 & F2); try assumption.
    + apply Forall_last; assumption.
    + clear -D HP' Hn'. apply (driven_steps _ _ _ _ _ D HP' Hn').
    + exists (rb :: rss), t'. cbn [concat]. split; [exact (driven_app _ _ _ _ D _ _ _ D2)|]. split; [exact R2|]. constructor; [|exact F2].
      exists s1, ts. split; [exists b; auto|]. split; [exact F|]. split; [exact G2|]. rewrite (L1 s1 s'). destruct G3 as (f & i & nf & tw & dw & out & n & o & q & mb & E & _).
      split; [rewrite E; reflexivity|]. split; [rewrite E; reflexivity|]. exists dss, a, vol, v. auto.
Qed.
End Driven.
