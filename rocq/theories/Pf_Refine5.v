(** Lemmas: BmiLGAR::Update on the heap and on lists. *)

From Coq Require Import Reals ZArith List Bool Arith Lia.
From RecordUpdate Require Import RecordSet.
From Verif Require Import Outcome Dbl Types ListOps HeapList Soil Giuh Spec_List Pf_List Fronts Infil Move State Update HeapFronts HeapUpdate Spec_Refine
  Pf_Lay Pf_Lay2 Pf_Refine Pf_Refine2 Pf_Refine3 Pf_Refine4.
Import ListNotations.
Import RecordSetNotations.
Open Scope dbl_scope.

(** The members other than the two lists. *)
Definition mem (r s : state) : Prop :=
  st_soils s = st_soils r /\ st_p s = st_p r /\ st_mb s = st_mb r /\ st_precip s = st_precip r /\ st_pet s = st_pet r /\ st_cal s = st_cal r
  /\ st_out s = st_out r /\ g_N s = g_N r /\ g_ord s = g_ord r /\ g_queue s = g_queue r.
Lemma mem_iff : forall r s, s = r <| st_head := st_head s |> <| st_prev := st_prev s |> <-> mem r s.
Proof.
  intros r s. destruct r, s. unfold mem. cbn. split.
  - intros H. inversion H. subst. repeat split; reflexivity.
  - intros H. decompose [and] H. subst. reflexivity.
Qed.

Definition shown (o : hstate) (s : state) : Prop :=
  (exists A B, lay (hs_heap o) (hs_head o) (hs_prev o) A B (st_head s) (st_prev s)) /\ mem (hs_rest o) s /\ numbered (st_head s).
Lemma shown_shows : forall o s, shown o s <-> shows o s /\ numbered (st_head s).
Proof.
  intros o s. unfold shown, shows. rewrite lay_pictures, mem_iff. tauto.
Qed.

Section UpdateFollows.
Context {fp : Fp} {cfg : Cfg}.

Lemma calib_loop_follows : forall stype cal p po A B lo k rest pre h soils, lay h p po A B (pre ++ rest) lo -> numbered (pre ++ rest) ->
  follows (fun x y => (lay (fst y) p po A B (fst x) lo /\ numbered (fst x)) /\ snd x = snd y)
    (calib_loop k stype cal pre rest soils) (h_calib_loop k stype cal h (nth_error A (length pre)) soils).
Proof.
  intros stype cal p po A B lo. induction k as [|k IH]; intros rest pre h soils Y NL.
  - apply follows_ok. cbn [fst snd]. auto.
  - cbn [calib_loop h_calib_loop]. rewrite (lay_get _ _ _ _ _ _ _ Y). destruct rest as [|c r].
    + unfold lget. rewrite nth_end. reflexivity.
    + rewrite (some_lget _ _ _ (nth_mid _ _ _)). cbn [bind]. cbv zeta.
      same t Et. same te Ete. same tr Etr. same nn Enn. same al Eal. same ks Eks. same sl Esl. same soils' Eso.
      wr (lay_upd_mid _ _ _ _ _ _ _ _ _ Y). rewrite (lay_next _ _ _ _ _ _ _ Y0), (some_lget _ _ _ (nth_mid _ _ _)). cbn [bind].
      set (d := set_theta c _) in *. rewrite <- (snoc_len pre d). apply IH; rewrite <- snoc; [exact Y0|]. eapply numbered_mid; [exact NL|reflexivity].
Qed.

Lemma calibrate_follows : forall o s, shown o s ->
  follows (fun x y => shown (fst y) (fst x) /\ snd x = snd y) (update_calibratable_parameters s) (h_calibrate o).
Proof.
  intros o s ((A & B & Y) & M & NL). unfold update_calibratable_parameters, h_calibrate. cbv zeta.
  destruct o as [h p po r]. cbn [hs_heap hs_head hs_prev hs_rest] in *. pose proof M as (M1 & M2 & M3 & M4 & M5 & M6 & M7 & M8 & M9 & M10).
  rewrite M1, M2, M6. rewrite (mass_eq _ _ _ _ _ _ _ Y). same before Eb.
  eapply follows_bind.
  - rewrite (lay_head _ _ _ _ _ _ _ Y) at 1. apply (calib_loop_follows _ _ p po A B (st_prev s) _ (st_head s) []); assumption.
  - intros [l soils] [h1 soils'] _ [[Y1 N1] E]. cbn [fst snd] in *. subst soils'. rewrite (mass_eq _ _ _ _ _ _ _ Y1). same after Ea.
    apply follows_ok. cbn [fst snd]. split; [|reflexivity]. destruct s, r. cbn in *. subst. split; [exists A, B; exact Y1|]. split; [|exact N1].
    unfold mem. cbn. repeat split; reflexivity.
Qed.

Lemma prologue_follows : forall o s, shown o s ->
  follows (fun x y => shown (fst y) (fst x) /\ snd x = snd y) (update_prologue s) (h_update_prologue o).
Proof.
  intros o s H. unfold update_prologue, h_update_prologue. cbv zeta.
  assert (EP : st_p s = st_p (hs_rest o)) by (destruct H as (_ & M & _); apply M). rewrite EP. same p1 Ep1.
  assert (H1 : shown (mkHS (hs_heap o) (hs_head o) (hs_prev o) ((hs_rest o) <| st_p := p1 |>)) (s <| st_p := p1 |>)).
  { destruct o as [h p po r], s, r. destruct H as (Y & M & N). unfold shown, mem in *. cbn in *. intuition. }
  destruct (p_calib p1); [|apply follows_ok; cbn [fst snd]; auto].
  eapply follows_bind; [apply calibrate_follows; exact H1|]. intros [s2 v] [o2 v'] _ [H2 E]. cbn [fst snd] in *. subst v'. apply follows_ok. cbn [fst snd].
  split; [|reflexivity]. destruct o2 as [h2 p2 po2 r2], s2, r2. destruct H2 as (Y & M & N). unfold shown, mem in *. cbn in *.
  destruct M as (-> & -> & M). intuition.
Qed.

(** The hand-over record of a sub-step. *)
Definition same_sub (v w : sub) : Prop :=
  b_aet v = b_aet w /\ b_ponded v = b_ponded w /\ b_volin v = b_volin w /\ b_runoff v = b_runoff w /\ b_on v = b_on w /\ b_rech v = b_rech w.
Definition subbed (b : sub) (y : hsub) : Prop :=
  (exists A B, lay (hb_heap y) (hb_head y) (hb_prev y) A B (b_head b) (b_prev b)) /\ numbered (b_head b) /\ b_prev b <> [] /\ same_sub b (hb_sub y).

Lemma merge_ne : forall e k i l l', merge_loop k e i l = Ok l' -> (0 < length l')%nat.
Proof.
  intros e. induction k as [|k IH]; intros i l l' H; [discriminate H|]. cbn [merge_loop] in H.
  destruct (Z.of_nat (S i) =? listLength l)%Z eqn:E.
  - injection H as <-. apply Z.eqb_eq in E. unfold listLength in E. lia.
  - destruct (merge_step e i l) as [l1|]; [|discriminate H]. eapply IH. exact H.
Qed.
Lemma cross_len : forall e k i l l', cross_loop k e i l = Ok l' -> length l' = length l.
Proof.
  intros e. induction k as [|k IH]; intros i l l' H; [discriminate H|]. cbn [cross_loop] in H.
  destruct (Z.of_nat (S i) =? listLength l)%Z eqn:E; [injection H as <-; reflexivity|].
  destruct (cross_step e i l) as [l1|] eqn:E1; [|discriminate H]. cbn [bind] in H. rewrite (IH _ _ _ H). clear H IH.
  unfold cross_step in E1. repeat match type of E1 with
    | bind ?m _ = Ok _ => destruct m; [cbn [bind] in E1|discriminate E1]
    | (if ?b then _ else _) = Ok _ => destruct b
    end; injection E1 as <-; rewrite ?lset_length; reflexivity.
Qed.
Lemma create_ne : forall e ponded dry th l l' a b, lgar_create_surficial_front e ponded dry th l = Ok (l', a, b) -> l' <> [].
Proof.
  intros e ponded dry th l l' a b H. unfold lgar_create_surficial_front in H. cbv zeta in H.
  destruct (soil_of e 1) as [s|]; [cbn [bind] in H|discriminate H].
  match type of H with bind ?m _ = _ => destruct m; [cbn [bind] in H|discriminate H] end.
  destruct (aget (e_frozen e) 1) as [ff|]; [cbn [bind] in H|discriminate H].
  match type of H with bind ?m _ = _ => destruct m as [l1|] eqn:E; [cbn [bind] in H|discriminate H] end. injection H as <- _ _.
  unfold listInsertFirst in E. destruct (bump 1 l) as [|n r]; [injection E as <-; discriminate|]. cbv beta iota in E.
  match type of E with (if ?b then _ else _) = _ => destruct b end.
  - match type of E with bind ?m _ = _ => destruct m as [l2|] eqn:E2; [cbn [bind] in E|discriminate E] end.
    apply merge_ne in E2. apply cross_len in E. intros ->. simpl in E. lia.
  - injection E as <-. discriminate.
Qed.

Lemma sub_hydro_follows : forall u pp prate petr precip volon ponded volend h p po A B l lo, lay h p po A B l lo -> numbered l -> (l <> [] -> lo <> []) ->
  follows subbed (sub_hydro u pp prate petr precip volon ponded volend l lo) (h_sub_hydro u pp prate petr precip volon ponded volend h p po).
Proof.
  intros u pp prate petr precip volon ponded volend h p po A B l lo Y NL HNE. unfold sub_hydro, h_sub_hydro. cbv zeta.
  rewrite (aet_eq _ _ _ _ _ _ _ Y). same aet Ea. rewrite (free_drainage_eq _ _ _ _ _ _ _ Y). cbn [bind].
  rewrite (decision_eq _ _ _ _ _ _ _ Y). same create Ec.
  assert (NE : lo <> []) by (apply HNE; intros ->; discriminate Ec). clear HNE Ea Ec.
  eapply (follows_bind subbed).
  - destruct create.
    + unfold sub_create, h_sub_create. cbv zeta. eapply follows_bind; [eapply move_follows; eassumption|].
      intros [[l1 a1] pd] [[[h1 p1] a1'] pd'] _ [[[A1 Y1] N1] [E1 E2]]. cbn [fst snd] in *. subst a1' pd'. cbv zeta.
      rewrite (dry_depth_eq _ _ _ _ _ _ _ Y1). apply follows_same. intros [dry dth] Ed. 
      replace (h_get h1 p1) with (lget l1 0) by (rewrite (lay_head _ _ _ _ _ _ _ Y1), (lay_get _ _ _ _ _ _ _ Y1); reflexivity).
      same hd Ehd.
      eapply follows_bind; [eapply create_follows; eassumption|].
      intros [[l2 po2] v2] [[[h2 p2] po2'] v2'] CR [[[A2 Y2] N2] [E1 E2]]. cbn [fst snd] in *. subst po2' v2'.
      destruct (lay_recopy _ _ _ _ _ _ _ Y2) as (h3 & po3 & B3 & U & Y3). rewrite U. cbn [bind]. apply follows_ok.
      split; [exists A2, B3; exact Y3|]. split; [exact N2|]. split; [unfold listCopy; eapply create_ne; exact CR|]. unfold same_sub. cbn. repeat split; reflexivity.
    + apply follows_ok. split; [exists A, B; exact Y|]. split; [exact NL|]. split; [exact NE|]. unfold same_sub. cbn. repeat split; reflexivity.
  - intros b1 y1 _ ((A1 & B1 & Y1) & N1 & NE1 & M1). destruct b1 as [l1 lo1 aet1 po1 vi1 ru1 on1 re1], y1 as [h1 p1 q1 [x1 x2 x3 x4 x5 x6 x7 x8]].
    unfold same_sub in M1. cbn [hb_heap hb_head hb_prev hb_sub b_head b_prev b_aet b_ponded b_volin b_runoff b_on b_rech] in *.
    decompose [and] M1. subst. clear M1.
    eapply (follows_bind subbed).
    + destruct ((x4 >? Fin 0) && negb create).
      * unfold sub_insert, h_sub_insert. cbn [hb_heap hb_head hb_prev hb_sub b_head b_prev b_aet b_ponded b_volin b_runoff b_on b_rech].
        rewrite (insert_water_eq _ _ _ _ _ _ _ Y1). apply follows_same. intros [[ro pd] vi] _. destruct (ro <? Fin 0); [reflexivity|].
        apply follows_ok. split; [exists A1, B1; exact Y1|]. split; [exact N1|]. split; [exact NE1|]. unfold same_sub. cbn. repeat split; reflexivity.
      * apply follows_ok. unfold sub_no_insert. cbn [hb_heap hb_head hb_prev hb_sub b_head b_prev b_aet b_ponded b_volin b_runoff b_on b_rech].
        destruct (x4 <? u_pmax u); (split; [exists A1, B1; exact Y1|]); (split; [exact N1|]); (split; [exact NE1|]); unfold same_sub; cbn; repeat split; reflexivity.
    + clear. intros b1 y1 _ ((A1 & B1 & Y1) & N1 & NE1 & M1). destruct b1 as [l2 lo2 aet2 po2 vi2 ru2 on2 re2], y1 as [h2 p2 q2 [z1 z2 z3 z4 z5 z6 z7 z8]].
      unfold same_sub in M1. cbn [hb_heap hb_head hb_prev hb_sub b_head b_prev b_aet b_ponded b_volin b_runoff b_on b_rech] in *.
      decompose [and] M1. subst. clear M1.
      eapply (follows_bind subbed).
      * destruct create.
        -- apply follows_ok. split; [exists A1, B1; exact Y1|]. split; [exact N1|]. split; [exact NE1|]. unfold same_sub. cbn. repeat split; reflexivity.
        -- unfold sub_move, h_sub_move. cbn [hb_heap hb_head hb_prev hb_sub b_head b_prev b_aet b_ponded b_volin b_runoff b_on b_rech].
           eapply follows_bind; [eapply move_follows; eassumption|].
           intros [[l3 a3] r3] [[[h3 p3] a3'] r3'] _ [[[A3 Y3] N3] [E1 E2]]. cbn [fst snd] in *. subst a3' r3'.
           apply follows_ok. split; [exists A3, B1; exact Y3|]. split; [exact N3|]. split; [exact NE1|]. unfold same_sub. cbn. repeat split; reflexivity.
      * clear. intros b1 y1 _ ((A1 & B1 & Y1) & N1 & NE1 & M1). destruct b1 as [l3 lo3 aet3 po3 vi3 ru3 on3 re3], y1 as [h3 p3 q3 [w1 w2 w3 w4 w5 w6 w7 w8]].
        unfold same_sub in M1. cbn [hb_heap hb_head hb_prev hb_sub b_head b_prev b_aet b_ponded b_volin b_runoff b_on b_rech] in *.
        decompose [and] M1. subst. clear M1.
        eapply follows_bind; [eapply dzdt_follows; eassumption|]. intros l4 h4 _ [Y4 N4]. apply follows_ok.
        split; [exists A1, B1; exact Y4|]. split; [exact N4|]. split; [exact NE1|]. unfold same_sub. cbn. repeat split; reflexivity.
Qed.

Lemma substep_follows : forall u o s a, shown o s ->
  follows (fun x y => shown (fst y) (fst x) /\ snd x = snd y) (substep u s a) (h_substep u o a).
Proof.
  intros u o s a ((A & B & Y) & M & NL). unfold substep, h_substep. cbv zeta.
  destruct o as [h p po r]. cbn [hs_heap hs_head hs_prev hs_rest] in *. pose proof M as (M1 & M2 & M3 & M4 & M5 & M6 & M7 & M8 & M9 & M10).
  rewrite M2, M3, M4, M5.
  destruct (lay_recopy _ _ _ _ _ _ _ Y) as (h1 & po1 & B1 & U & Y1). rewrite U. cbn [bind]. clear U Y.
  rewrite (mass_eq _ _ _ _ _ _ _ Y1).
  match goal with |- follows _ (bind ?m _) (bind ?m' _) => change m' with m end. same vs Evs.
  unfold listCopy. eapply follows_bind; [eapply sub_hydro_follows; [exact Y1|exact NL|auto]|].
  intros b y _ ((A2 & B2 & Y2) & N2 & _ & S1 & S2 & S3 & S4 & S5 & S6). rewrite (mass_eq _ _ _ _ _ _ _ Y2).
  same ve Eve. rewrite S1, S3, S4, S5, S6.
  match goal with |- follows _ (if ?c then _ else _) _ => destruct c end; [reflexivity|].
  replace (h_get (hb_heap y) (hb_head y)) with (lget (b_head b) 0) by (rewrite (lay_head _ _ _ _ _ _ _ Y2), (lay_get _ _ _ _ _ _ _ Y2); reflexivity).
  same hd Ehd. same x Ex. apply follows_ok. cbn [fst snd]. split; [|reflexivity].
  destruct s, r. cbn in M1, M2, M3, M4, M5, M6, M7, M8, M9, M10. subst. split; [exists A2, B2; exact Y2|]. split; [|exact N2]. unfold mem. cbn. repeat split; reflexivity.
Qed.

Lemma loop_follows : forall u k o s a, shown o s ->
  follows (fun x y => shown (fst y) (fst x) /\ snd x = snd y) (subcycle_loop k u s a) (h_subcycle_loop k u o a).
Proof.
  intros u. induction k as [|k IH]; intros o s a H; [apply follows_ok; cbn [fst snd]; auto|].
  cbn [subcycle_loop h_subcycle_loop]. eapply follows_bind; [apply substep_follows; exact H|].
  intros [s1 a1] [o1 a1'] _ [H1 E]. cbn [fst snd] in *. subst a1'.
  assert (EP : st_p s1 = st_p (hs_rest o1)) by (destruct H1 as (_ & M & _); apply M). rewrite EP.
  match goal with |- follows _ (if ?c then _ else _) _ => destruct c end; [apply follows_ok; cbn [fst snd]; auto|]. apply IH. exact H1.
Qed.

Lemma publish_eq : forall h p po A B lo r pre, lay h p po A B (pre ++ r) lo ->
  h_publish (length r) h (nth_error A (length pre)) = Ok (map f_theta r, map (fun f => f_depth f * cm_to_m) r).
Proof.
  intros h p po A B lo. induction r as [|c r IH]; intros pre Y; [reflexivity|]. cbn [length h_publish].
  rewrite (lay_null _ _ _ _ _ _ _ Y), nth_mid. cbn [negb cassert bind]. rewrite (lay_get _ _ _ _ _ _ _ Y), (lay_next _ _ _ _ _ _ _ Y), (some_lget _ _ _ (nth_mid _ _ _)). cbn [bind].
  rewrite snoc in Y. rewrite <- (snoc_len pre c), (IH _ Y). reflexivity.
Qed.

Lemma finish_follows : forall o s a v, shown o s -> follows (fun x y => shown y x) (finish_update s a v) (h_finish_update o a v).
Proof.
  intros o s a v ((A & B & Y) & M & NL). unfold finish_update, h_finish_update. cbv zeta.
  destruct o as [h p po r]. cbn [hs_heap hs_head hs_prev hs_rest] in *. pose proof M as (M1 & M2 & M3 & M4 & M5 & M6 & M7 & M8 & M9 & M10).
  rewrite M8, M9, M10. apply follows_same. intros [giuh q] Eg. rewrite M3. destruct (mb_local (st_mb r)) as [mbl|]; [|reflexivity].
  rewrite (lay_length _ _ _ _ _ _ _ Y). cbn [bind]. replace (Z.to_nat (listLength (st_head s))) with (length (st_head s)) by (unfold listLength; lia).
  assert (EP : h_publish (length (st_head s)) h p = Ok (map f_theta (st_head s), map (fun f => f_depth f * cm_to_m) (st_head s))).
  { rewrite (lay_head _ _ _ _ _ _ _ Y). apply (publish_eq h p po A B (st_prev s) (st_head s) []). exact Y. }
  rewrite EP. cbn [bind]. apply follows_ok. clear Eg EP.
  destruct s, r. cbn in M1, M2, M3, M4, M5, M6, M7, M8, M9, M10. subst. split; [exists A, B; exact Y|]. split; [|exact NL]. unfold mem. cbn. repeat split; reflexivity.
Qed.

Lemma Update_follows : forall o s, shown o s -> follows (fun x y => shown y x) (Update s) (h_Update o).
Proof.
  intros o s H. unfold Update, h_Update.
  assert (EP : st_p s = st_p (hs_rest o)) by (destruct H as (_ & M & _); apply M). rewrite EP.
  destruct (p_invalid (st_p (hs_rest o))).
  { apply follows_ok. destruct o as [h p po r], s, r. destruct H as (Y & M & N). unfold shown, mem in *. cbn in *.
    destruct M as (-> & -> & -> & -> & M). intuition. }
  eapply follows_bind; [apply prologue_follows; exact H|]. intros [s1 v] [o1 v'] _ [H1 E]. cbn [fst snd] in *. subst v'. clear H EP.
  pose proof H1 as ((A & B & Y) & M & N). pose proof M as (M1 & M2 & M3 & M4 & M5 & M6 & M7 & M8 & M9 & M10).
  rewrite M2, M4, M5. rewrite (mass_eq _ _ _ _ _ _ _ Y). same ve Eve. same x Ex. same x' Ex'. clear x Ex x' Ex'.
  eapply (follows_bind (fun a b => shown (mkHS (hs_heap o1) (hs_head o1) (hs_prev o1) (fst (fst b))) (fst (fst a)) /\ snd (fst a) = snd (fst b) /\ snd a = snd b)).
  { unfold update_steps. cbv zeta. rewrite M2, M4, M3. same n En. apply follows_ok. cbn [fst snd]. split; [|split; reflexivity].
    clear - Y M N. destruct o1 as [h p po r], s1, r. unfold shown, mem in *. cbn in *. intuition. exists A, B. exact Y. }
  intros [[s2 dt] n] [[s2' dt'] n'] _ (H2 & E1 & E2). cbn [fst snd] in *. subst dt' n'. cbv zeta.
  assert (EU : st_p s2 = st_p s2' /\ st_mb s2 = st_mb s2' /\ env_of s2 = env_of s2').
  { destruct H2 as (_ & M' & _). cbn [hs_rest] in M'. destruct M' as (Q1 & Q2 & Q3 & _). unfold env_of. rewrite Q1, Q2, Q3. auto. }
  destruct EU as (EU1 & EU2 & EU3). rewrite EU1, EU2, EU3.
  eapply follows_bind; [apply loop_follows; exact H2|]. intros [s3 a3] [o3 a3'] _ [H3 E]. cbn [fst snd] in *. subst a3'. apply finish_follows. exact H3.
Qed.

End UpdateFollows.
