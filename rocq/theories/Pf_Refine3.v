(** Lemmas: the repair of inverted pairs, the bottom boundary, velocities, creation of a front, on the heap and on lists. *)

From Coq Require Import Reals ZArith List Bool Arith Lia.
From Verif Require Import Outcome Dbl Types ListOps HeapList Soil Spec_List Pf_List Fronts Infil Move HeapFronts Spec_Refine Pf_Lay Pf_Lay2 Pf_Refine Pf_Refine2.
Import ListNotations.
Open Scope dbl_scope.

Lemma follows_map : forall (X X' Z : Type) (R : X -> Z -> Prop) (R' : X' -> Z -> Prop) (m : outcome X) (g : X -> X') hm,
  follows R m hm -> (forall x y, m = Ok x -> R x y -> R' (g x) y) -> follows R' (bind m (fun x => Ok (g x))) hm.
Proof. intros X X' Z R R' m g hm H1 H2. destruct m as [x|r]; [|exact H1]. destruct H1 as (y & E & Hy). exists y. split; [exact E|]. auto. Qed.

Lemma lset_mid : forall (pre : list front) c r x, lset (pre ++ c :: r) (length pre) x = pre ++ x :: r.
Proof. induction pre as [|y pre IH]; intros; [reflexivity|]. simpl. f_equal. apply IH. Qed.
Lemma nth_mid : forall (pre : list front) c r, nth_error (pre ++ c :: r) (length pre) = Some c.
Proof. induction pre as [|y pre IH]; intros; [reflexivity|]. simpl. apply IH. Qed.
Lemma nth_end : forall (pre : list front), nth_error (pre ++ []) (length pre) = None.
Proof. intros. apply nth_error_None. rewrite app_nil_r. lia. Qed.
Lemma snoc : forall (pre : list front) c r, pre ++ c :: r = (pre ++ [c]) ++ r.
Proof. intros. rewrite <- app_assoc. reflexivity. Qed.
Lemma snoc_len : forall (pre : list front) c, length (pre ++ [c]) = S (length pre).
Proof. intros. rewrite app_length. simpl. lia. Qed.

Lemma lay_upd_mid : forall h p po A B pre c r lo, lay h p po A B (pre ++ c :: r) lo -> forall g,
  exists h', h_upd g h (nth_error A (length pre)) = Ok h' /\ lay h' p po A B (pre ++ g c :: r) lo /\ h_top h' = h_top h.
Proof.
  intros h p po A B pre c r lo Y g. destruct (lay_upd _ _ _ _ _ _ _ Y g (length pre) c (nth_mid _ _ _)) as (h' & U & Y' & T).
  rewrite lset_mid in Y'. eauto.
Qed.
Lemma numbered_mid : forall pre c r d, numbered (pre ++ c :: r) -> f_num d = f_num c -> numbered (pre ++ d :: r).
Proof. intros pre c r d H E. rewrite <- (lset_mid pre c r d). eapply numbered_set; [exact H|apply nth_mid|exact E]. Qed.

Section More.
Context {fp : Fp} {cfg : Cfg}.

Lemma domain_loop_follows : forall e D po B lo k h p A l i, lay h p po A B l lo -> numbered l ->
  follows (fun x y => fst x = fst (fst y) /\ img po B lo (snd x) (snd (fst y), snd y)) (domain_loop k e D i l) (h_domain_loop k e D (Z.of_nat (S i)) h p (nth_error A i)).
Proof.
  intros e D po B lo. induction k as [|k IH]; intros h p A l i Y NL.
  - apply follows_ok. cbn [fst snd]. split; [reflexivity|]. split; [exists A; exact Y|exact NL].
  - cbn [domain_loop h_domain_loop]. rewrite (lay_length _ _ _ _ _ _ _ Y). cbn [bind].
    destruct (Z.of_nat (S i) >=? listLength l)%Z.
    { apply follows_ok. cbn [fst snd]. split; [reflexivity|]. split; [exists A; exact Y|exact NL]. }
    rewrite ?(lay_get _ _ _ _ _ _ _ Y). destruct (lget l i) as [c|] eqn:C; [|reflexivity]. apply lget_some in C. cbn [bind].
    destruct (uget (e_stype e) (f_layer c)) as [t|]; [|reflexivity]. cbn [bind].
    rewrite (lay_next _ _ _ _ _ _ _ Y), (some_lget _ _ _ C). cbn [bind]. rewrite (lay_next _ _ _ _ _ _ _ Y), (lay_get _ _ _ _ _ _ _ Y).
    destruct (lget l (S i)) as [n|] eqn:N; [|reflexivity]. apply lget_some in N. cbn [bind].
    rewrite (lay_null _ _ _ _ _ _ _ Y). pose proof (nth_lt _ _ _ _ N) as LT.
    assert (REC : follows (fun x y => fst x = fst (fst y) /\ img po B lo (snd x) (snd (fst y), snd y)) (domain_loop k e D (S i) l)
       (h_domain_loop k e D (Z.of_nat (S i) + 1)%Z h p (nth_error A (S i)))).
    { replace (Z.of_nat (S i) + 1)%Z with (Z.of_nat (S (S i))) by lia. apply IH; assumption. }
    destruct (nth_error l (S (S i))) as [nn|] eqn:NN; [exact REC|]. cbn [andb].
    destruct (f_depth c >=? D); [|exact REC]. clear REC IH.
    destruct (uget (e_soils e) t) as [s|]; [|reflexivity]. cbn [bind].
    destruct (aget (e_frozen e) (f_layer c)) as [ff|]; [|reflexivity]. cbn [bind].
    rewrite <- (two_id _ _ _ _ C N) in Y.
    wr (upd_second _ _ _ _ _ _ _ _ _ _ Y LT). rewrite (lay_get _ _ _ _ _ _ _ Y0), two_first by lia. cbn [bind].
    wr (upd_second _ _ _ _ _ _ _ _ _ _ Y0 LT). wr (upd_second _ _ _ _ _ _ _ _ _ _ Y1 LT).
    rewrite (lay_get _ _ _ _ _ _ _ Y2), two_first by lia. cbn [bind].
    unfold two in Y2. rewrite (lset_id _ _ _ _ C) in Y2. set (l2 := lset l (S i) _) in Y2 |- *.
    match goal with |- context [listDeleteFront _ ?x] => change x with l2 end.
    assert (N2 : numbered l2) by (eapply numbered_set; [exact NL|exact N|reflexivity]).
    destruct (listDeleteFront (f_num c) l2) as [[l' q]|r] eqn:DD.
    2:{ rewrite (lay_delete_stop _ _ _ _ _ _ _ Y2 _ _ DD). reflexivity. }
    destruct (lay_delete _ _ _ _ _ _ _ Y2 _ _ _ DD) as (h3 & p3 & A' & j & U & Y3 & _). rewrite U. cbn [bind].
    apply follows_ok. cbn [fst snd]. split; [reflexivity|]. split; [exists A'; exact Y3|eapply numbered_del; eassumption].
Qed.

Lemma domain_follows : forall e D h p po A B l lo, lay h p po A B l lo -> numbered l ->
  follows (fun x y => fst x = fst (fst y) /\ img po B lo (snd x) (snd (fst y), snd y)) (lgar_wetting_front_cross_domain_boundary e D l) (h_domain e D h p).
Proof.
  intros e D h p po A B l lo Y NL. unfold lgar_wetting_front_cross_domain_boundary, h_domain. rewrite (lay_length _ _ _ _ _ _ _ Y). cbn [bind].
  replace (Z.to_nat (listLength l - 1)) with (length l - 1)%nat by (unfold listLength; lia).
  assert (E : (match l with [] => Ok (Fin 0, []) | _ :: _ => domain_loop (length l - 1) e D 0 l end) = domain_loop (length l - 1) e D 0 l) by (destruct l; reflexivity).
  rewrite E. rewrite (lay_head _ _ _ _ _ _ _ Y) at 2. apply (domain_loop_follows e D po B lo (length l - 1) h p A l 0); assumption.
Qed.

Lemma fix_above_follows : forall e k psi p po A B lo q n rest pre h, lay h p po A B (pre ++ rest) lo -> numbered (pre ++ rest) ->
  (exists c, nth_error (pre ++ rest) q = Some c /\ f_psi c = psi) -> (length rest < n)%nat ->
  follows (fun r' h' => lay h' p po A B (pre ++ r') lo /\ numbered (pre ++ r') /\ length r' = length rest) (fix_above e k psi rest)
    (h_fix_above n e k h (nth_error A q) (nth_error A (length pre))).
Proof.
  intros e k psi p po A B lo q. induction n as [|n IH]; intros rest pre h Y NL (cq & Q & EP) LE; [lia|].
  cbn [h_fix_above]. rewrite (lay_get _ _ _ _ _ _ _ Y). destruct rest as [|c r].
  - unfold lget. rewrite nth_end. reflexivity.
  - rewrite (some_lget _ _ _ (nth_mid _ _ _)). cbn [bind fix_above].
    destruct (f_layer c <? k)%Z; [|apply follows_ok; auto].
    destruct (soil_of e (f_layer c)) as [s|]; [|reflexivity]. cbn [bind].
    rewrite (lay_get _ _ _ _ _ _ _ Y), (some_lget _ _ _ Q). cbn [bind]. rewrite EP.
    assert (K : forall d, f_psi d = psi -> exists c0, nth_error (pre ++ d :: r) q = Some c0 /\ f_psi c0 = psi).
    { intros d Hd. rewrite <- (lset_mid pre c r d). destruct (Nat.eq_dec (length pre) q) as [<- | NE].
      - exists d. split; [|exact Hd]. apply (nth_set _ _ c). apply nth_mid.
      - exists cq. split; [|exact EP]. rewrite nth_lset_ne by exact NE. exact Q. }
    wr (lay_upd_mid _ _ _ _ _ _ _ _ _ Y). destruct (K (set_psi c psi) eq_refl) as (c1 & Q1 & EP1).
    rewrite (lay_get _ _ _ _ _ _ _ Y0), (some_lget _ _ _ Q1). cbn [bind]. rewrite EP1.
    wr (lay_upd_mid _ _ _ _ _ _ _ _ _ Y0). rewrite (lay_next _ _ _ _ _ _ _ Y1), (some_lget _ _ _ (nth_mid _ _ _)). cbn [bind].
    set (d := set_theta (set_psi c psi) (theta_of_h s psi)) in *.
    apply (follows_map _ _ _ (fun r' h' => lay h' p po A B ((pre ++ [d]) ++ r') lo /\ numbered ((pre ++ [d]) ++ r') /\ length r' = length r)).
    + rewrite <- (snoc_len pre d). simpl in LE. apply IH.
      * rewrite <- snoc. exact Y1.
      * rewrite <- snoc. eapply numbered_mid; [exact NL|reflexivity].
      * rewrite <- snoc. apply K. reflexivity.
      * lia.
    + intros x y _ (H1 & H2 & H3). rewrite snoc. simpl. auto.
Qed.

Lemma fix_pair_follows : forall e h p po A B l lo i c n mc, lay h p po A B l lo -> numbered l -> nth_error l i = Some c -> nth_error l (S i) = Some n ->
  follows (fun x y => exists A', lay (fst (fst (fst y))) (snd (fst (fst y))) po A' B (fst (fst x)) lo /\ numbered (fst (fst x))
      /\ snd (fst y) = nth_error A' i /\ snd (fst x) = i /\ snd y = mc + snd x /\ S (length (fst (fst x))) = length l)
    (fix_pair e c l) (h_fix_pair e h p (nth_error A i) mc).
Proof.
  intros e h p po A B l lo i c n mc Y NL C N. unfold fix_pair, h_fix_pair.
  rewrite (lay_get _ _ _ _ _ _ _ Y), (some_lget _ _ _ C). cbn [bind].
  rewrite (mass_eq _ _ _ _ _ _ _ Y). same before EB.
  pose proof (nth_lt _ _ _ _ N) as LT.
  destruct (listDeleteFront (f_num c) l) as [[l1 q]|r] eqn:DD.
  2:{ rewrite (lay_delete_stop _ _ _ _ _ _ _ Y _ _ DD). reflexivity. }
  destruct (lay_delete _ _ _ _ _ _ _ Y _ _ _ DD) as (h1 & p1 & A1 & j & U & Y1 & _ & PJ & EA & EQ & _). rewrite U. cbn [bind]. clear U.
  assert (j = i) by (rewrite (NL _ _ C), pos_of_numbered in PJ by (auto; lia); congruence). subst j.
  pose proof (numbered_del _ _ _ _ NL DD) as N1.
  assert (LL : S (length l1) = length l).
  { pose proof (lay_len _ _ _ _ _ _ _ Y) as E3. pose proof (lay_len _ _ _ _ _ _ _ Y1) as E2.
    rewrite <- E2, <- E3, EA. unfold without. rewrite app_length, firstn_length_le, skipn_length by lia. lia. }
  replace (i <? length l1)%nat with true in EQ by (symmetry; apply Nat.ltb_lt; lia). subst q.
  eapply (follows_bind (fun l2 h2 => lay h2 p1 po A1 B l2 lo /\ numbered l2 /\ length l2 = length l1)).
  - destruct (f_layer c >? 1)%Z; [|apply follows_ok; auto].
    rewrite (lay_get _ _ _ _ _ _ _ Y1). destruct (lget l1 i) as [cur|] eqn:G; [|reflexivity]. apply lget_some in G. cbn [bind].
    destruct (soil_of e (f_layer cur)) as [s|]; [|reflexivity]. cbn [bind].
    rewrite <- (lset_id _ _ _ _ G) in Y1. wr (lay_upd_at _ _ _ _ _ _ _ _ _ Y1 (nth_lt _ _ _ _ G)).
    set (l2 := lset l1 i (set_psi cur _)) in *. pose proof (lay_room _ _ _ _ _ _ _ Y0) as RM.
    eapply follows_imp.
    + rewrite (lay_head _ _ _ _ _ _ _ Y0) at 1. apply (fix_above_follows e (f_layer c) _ p1 po A1 B lo i (room h0) l2 []).
      * exact Y0.
      * eapply numbered_set; [exact N1|exact G|reflexivity].
      * eexists. split; [apply nth_lset_eq; eapply nth_lt; exact G|reflexivity].
      * lia.
    + intros z z' _ (H1 & H2 & H3). simpl in H1, H2. unfold l2 in H3. rewrite lset_length in H3. auto.
  - intros l2 h2 _ (Y2 & N2 & L2). rewrite (mass_eq _ _ _ _ _ _ _ Y2). same after EAF. apply follows_ok. exists A1. cbn [fst snd].
    repeat split; auto. lia.
Qed.

Lemma fix_spin : forall e po B lo kh h p A l w mc cur nx, lay h p po A B l lo -> numbered l -> is_null nx = true ->
  (1 <= kh)%nat -> (Z.of_nat (length l) + 1 < Z.of_nat kh + w)%Z ->
  follows (fun x y => img po B lo (fst x) (fst y) /\ snd x = snd y) (Ok (l, mc)) (h_fix_loop kh e w h p cur nx mc).
Proof.
  intros e po B lo. induction kh as [|kh IH]; intros h p A l w mc cur nx Y NL NU K1 K2; [lia|].
  cbn [h_fix_loop]. rewrite (lay_length _ _ _ _ _ _ _ Y). cbn [bind]. unfold listLength. destruct (w <=? Z.of_nat (length l))%Z eqn:E.
  - rewrite NU. apply Z.leb_le in E. eapply IH; eauto; lia.
  - apply follows_ok. cbn [fst snd]. split; [split; [exists A; exact Y|exact NL]|reflexivity].
Qed.

Lemma fix_loop_follows : forall e po B lo kl kh h p A l i w mc, lay h p po A B l lo -> numbered l ->
  (1 <= kl)%nat -> (Z.of_nat (length l) + 1 < Z.of_nat kl + w)%Z -> (1 <= kh)%nat -> (Z.of_nat (length l) + 1 < Z.of_nat kh + w)%Z ->
  follows (fun x y => img po B lo (fst x) (fst y) /\ snd x = snd y)
    (fix_loop kl e w i l mc) (h_fix_loop kh e w h p (nth_error A i) (nth_error A (S i)) mc).
Proof.
  intros e po B lo. induction kl as [|kl IH]; intros kh h p A l i w mc Y NL L1 L2 K1 K2; [lia|].
  destruct kh as [|kh]; [lia|]. cbn [fix_loop].
  destruct (w <=? listLength l)%Z eqn:E.
  2:{ cbn [h_fix_loop]. rewrite (lay_length _ _ _ _ _ _ _ Y). cbn [bind]. rewrite E. apply follows_ok. cbn [fst snd]. split; [split; [exists A; exact Y|exact NL]|reflexivity]. }
  pose proof E as E'. apply Z.leb_le in E'. unfold listLength in E'.
  pose proof (lay_null _ _ _ _ _ _ _ Y (S i)) as NU.
  destruct (nth_error l (S i)) as [n|] eqn:N.
  2:{ replace (match nth_error l i with Some _ | _ => Ok (l, mc) end) with (Ok (l, mc)) by (destruct (nth_error l i); reflexivity).
      eapply fix_spin; eauto. }
  destruct (nth_error l i) as [c|] eqn:C; [|apply nth_error_None in C; apply nth_lt in N; lia].
  cbn [h_fix_loop]. rewrite (lay_length _ _ _ _ _ _ _ Y). cbn [bind]. rewrite E, NU.
  rewrite !(lay_get _ _ _ _ _ _ _ Y), (some_lget _ _ _ C), (some_lget _ _ _ N). cbn [bind]. unfold dry_over_wet.
  assert (STEP : forall h' p' A' l' mc', lay h' p' po A' B l' lo -> numbered l' -> (length l' <= length l)%nat -> (i < length l')%nat ->
    follows (fun x y => img po B lo (fst x) (fst y) /\ snd x = snd y) (fix_loop kl e (w + 1)%Z (S i) l' mc')
      (current <- h_next h' (nth_error A' i) ;; next <- (if is_null current then Ok None else h_next h' current) ;; h_fix_loop kh e (w + 1)%Z h' p' current next mc')).
  { intros h' p' A' l' mc' Y' N' LE' LT'. rewrite (lay_next _ _ _ _ _ _ _ Y'). unfold lget at 1.
    destruct (nth_error l' i) as [c'|] eqn:C'; [|apply nth_error_None in C'; lia]. cbn [bind].
    pose proof (lay_null _ _ _ _ _ _ _ Y' (S i)) as NU'. rewrite NU'.
    assert (EN : (if match nth_error l' (S i) with Some _ => false | None => true end then Ok None else h_next h' (nth_error A' (S i))) = Ok (nth_error A' (S (S i)))).
    { rewrite (lay_next _ _ _ _ _ _ _ Y'). unfold lget. pose proof (lay_len _ _ _ _ _ _ _ Y'). destruct (nth_error l' (S i)) eqn:G; [reflexivity|].
      apply nth_error_None in G. f_equal. symmetry. apply nth_error_None. lia. }
    rewrite EN. cbn [bind]. apply IH; auto; lia. }
  pose proof (nth_lt _ _ _ _ N) as LT.
  destruct ((f_theta c <=? f_theta n) && (f_layer c =? f_layer n)%Z).
  - eapply follows_bind; [eapply fix_pair_follows; eassumption|].
    intros [[l' q] dm] [[[h' p'] cur] mc'] _ (A' & Y' & N' & EC & EQ & EM & EL). cbn [fst snd] in *. subst. apply STEP; auto; lia.
  - cbn [bind]. apply STEP; auto. lia.
Qed.

Lemma fix_follows : forall e mc h p po A B l lo, lay h p po A B l lo -> numbered l ->
  follows (fun x y => img po B lo (fst x) (fst y) /\ snd x = snd y) (lgar_fix_dry_over_wet_wetting_fronts e mc l) (h_fix e mc h p).
Proof.
  intros e mc h p po A B l lo Y NL. unfold lgar_fix_dry_over_wet_wetting_fronts, h_fix. pose proof (lay_room _ _ _ _ _ _ _ Y) as RM.
  pose proof (lay_head _ _ _ _ _ _ _ Y) as EH. rewrite EH at 1. rewrite (lay_next _ _ _ _ _ _ _ Y). unfold lget.
  destruct l as [|c r]; [reflexivity|]. cbn [nth_error bind]. rewrite EH at 2. apply fix_loop_follows; auto; cbn [length] in *; lia.
Qed.

Lemma check_and_fix_follows : forall e mc h p po A B l lo, lay h p po A B l lo -> numbered l ->
  follows (fun x y => img po B lo (fst x) (fst y) /\ snd x = snd y) (check_and_fix e l mc) (h_check_and_fix e h p mc).
Proof.
  intros e mc h p po A B l lo Y NL. unfold check_and_fix, h_check_and_fix. rewrite (check_eq _ _ _ _ _ _ _ Y). same b Eb. destruct b.
  - eapply fix_follows; eassumption.
  - apply follows_ok. cbn [fst snd]. split; [split; [exists A; exact Y|exact NL]|reflexivity].
Qed.

Lemma merge_phases_follows : forall e h p po A B l lo, lay h p po A B l lo -> numbered l ->
  follows (fun x y => img po B lo (fst (fst x)) (fst (fst y)) /\ snd (fst x) = snd (fst y) /\ snd x = snd y) (merge_phases e l) (h_merge_phases e h p).
Proof.
  intros e h p po A B l lo Y NL. unfold merge_phases, h_merge_phases.
  eapply follows_bind; [eapply check_and_fix_follows; eassumption|]. intros [l1 mc] [[h1 p1] mc'] _ [[[A1 Y1] N1] EM]. cbn [fst snd] in *. subst mc'.
  eapply follows_bind; [eapply merge_follows; eassumption|]. intros l2 [h2 p2] _ [[A2 Y2] N2]. cbn [fst snd] in *.
  eapply follows_bind; [eapply cross_follows; eassumption|]. intros l3 h3 _ [Y3 N3].
  eapply follows_bind; [eapply check_and_fix_follows; eassumption|]. intros [l4 mc4'] [[h4 p4] mc4] _ [[[A4 Y4] N4] EM]. cbn [fst snd] in *. subst mc4'.
  eapply follows_bind; [eapply merge_follows; eassumption|]. intros l5 [h5 p5] _ [[A5 Y5] N5]. cbn [fst snd] in *.
  same column EC.
  eapply follows_bind; [eapply domain_follows; eassumption|]. intros [flux l6] [[flux' h6] p6] _ [EF [[A6 Y6] N6]]. cbn [fst snd] in *. subst flux'.
  eapply follows_bind; [eapply check_and_fix_follows; eassumption|]. intros [l7 mc7'] [[h7 p7] mc7] _ [[[A7 Y7] N7] EM]. cbn [fst snd] in *. subst mc7'.
  apply follows_ok. cbn [fst snd]. repeat split; auto. exists A7. exact Y7.
Qed.

Lemma refresh_follows : forall e p po A B lo n rest pre h, lay h p po A B (pre ++ rest) lo -> numbered (pre ++ rest) -> (length rest < n)%nat ->
  (rest = [] -> pre = []) ->
  follows (fun r' y => lay (fst y) p po A B (pre ++ r') lo /\ numbered (pre ++ r') /\ length r' = length rest /\ snd y = nth_error A (length pre + length rest - 1)%nat)
    (refresh_psi e rest) (h_refresh n e (Z.of_nat (S (length pre))) h p (nth_error A (length pre))).
Proof.
  intros e p po A B lo. induction n as [|n IH]; intros rest pre h Y NL LE NE; [lia|].
  cbn [h_refresh]. rewrite (lay_length _ _ _ _ _ _ _ Y). cbn [bind]. unfold listLength. rewrite app_length.
  destruct rest as [|c r].
  - rewrite (NE eq_refl) in *. cbn [length Nat.add]. change (Z.of_nat 1 =? Z.of_nat 0)%Z with false. cbv iota.
    rewrite (lay_get _ _ _ _ _ _ _ Y). reflexivity.
  - destruct r as [|c1 r].
    + replace (Z.of_nat (S (length pre)) =? Z.of_nat (length pre + length [c]))%Z with true by (symmetry; apply Z.eqb_eq; simpl; lia).
      apply follows_ok. cbn [fst snd]. repeat split; auto. f_equal. simpl. lia.
    + replace (Z.of_nat (S (length pre)) =? Z.of_nat (length pre + length (c :: c1 :: r)))%Z with false by (symmetry; apply Z.eqb_neq; simpl; lia).
      rewrite (lay_get _ _ _ _ _ _ _ Y), (some_lget _ _ _ (nth_mid _ _ _)). cbn [bind].
      change (refresh_psi e (c :: c1 :: r)) with
        (c' <- (if f_psi c >? lit 1 then
               s <- soil_of e (f_layer c) ;;
               ff <- aget (e_frozen e) (f_layer c) ;;
               let Se := Se_of_theta s (f_theta c) in
               Ok (set_K (set_psi c (h_of_Se s Se)) (K_of_Se s Se (ff * s_Ksat s)))
             else Ok c) ;; r' <- refresh_psi e (c1 :: r) ;; Ok (c' :: r')).
      eapply (follows_bind (fun c' h' => lay h' p po A B (pre ++ c' :: c1 :: r) lo /\ f_num c' = f_num c)).
      * destruct (f_psi c >? lit 1); [|apply follows_ok; auto].
        destruct (soil_of e (f_layer c)) as [s|]; [|reflexivity]. cbn [bind].
        destruct (aget (e_frozen e) (f_layer c)) as [ff|]; [|reflexivity]. cbn [bind].
        wr (lay_upd_mid _ _ _ _ _ _ _ _ _ Y).
        match goal with |- follows _ _ (h_upd ?g _ _) => destruct (lay_upd_mid _ _ _ _ _ _ _ _ _ Y0 g) as (h2 & U & Y2 & T2) end.
        rewrite U. apply follows_ok. split; [exact Y2|reflexivity].
      * intros c' h' _ (Y' & EN). rewrite (lay_next _ _ _ _ _ _ _ Y'), (some_lget _ _ _ (nth_mid _ _ _)). cbn [bind].
        apply (follows_map _ _ _ (fun r' y => lay (fst y) p po A B ((pre ++ [c']) ++ r') lo /\ numbered ((pre ++ [c']) ++ r') /\ length r' = length (c1 :: r)
            /\ snd y = nth_error A (length (pre ++ [c']) + length (c1 :: r) - 1)%nat)).
        -- replace (Z.of_nat (S (length pre)) + 1)%Z with (Z.of_nat (S (length (pre ++ [c'])))) by (rewrite snoc_len; lia).
           rewrite <- (snoc_len pre c'). apply IH.
           ++ rewrite <- snoc. exact Y'.
           ++ rewrite <- snoc. eapply numbered_mid; eassumption.
           ++ simpl in *. lia.
           ++ discriminate.
        -- intros x y _ (H1 & H2 & H3 & H4). rewrite snoc. rewrite snoc_len in H4. repeat split; auto; [simpl in *; lia|]. rewrite H4. f_equal. simpl. lia.
Qed.

Lemma fix_single_follows : forall e h p po A B l lo cur, lay h p po A B l lo -> numbered l -> cur = nth_error A (length l - 1)%nat ->
  follows (fun l' h' => lay h' p po A B l' lo /\ numbered l') (fix_single e l) (h_fix_single e h p cur).
Proof.
  intros e h p po A B l lo cur Y NL ->. unfold fix_single, h_fix_single. rewrite (lay_length _ _ _ _ _ _ _ Y). cbn [bind]. unfold listLength.
  destruct l as [|c [|d r]].
  - apply follows_ok. auto.
  - cbn [length]. change (Z.of_nat 1 =? 1)%Z with true. cbv iota. rewrite (lay_get _ _ _ _ _ _ _ Y). cbn [Nat.sub lget nth_error bind].
    same d Ed. destruct (f_depth c <>? d); [|apply follows_ok; auto].
    destruct (lay_upd _ _ _ _ _ _ _ Y (fun f => set_depth f d) 0 c eq_refl) as (h' & U & Y' & _). change (match A with [] => None | x :: _ => Some x end) with (nth_error A 0).
    rewrite U. apply follows_ok. split; [exact Y'|]. apply (numbered_set [c] 0 c (set_depth c d) NL); reflexivity.
  - replace (Z.of_nat (length (c :: d :: r)) =? 1)%Z with false by (symmetry; apply Z.eqb_neq; simpl; lia). apply follows_ok. auto.
Qed.

Lemma dzdt_loop_follows : forall e closed nint h_p p po A B lo n r c pre h, lay h p po A B (pre ++ c :: r) lo -> numbered (pre ++ c :: r) -> (length r < n)%nat ->
  follows (fun r' h' => lay h' p po A B (pre ++ r') lo /\ numbered (pre ++ r'))
    (dzdt_loop e closed nint h_p (c :: r)) (h_dzdt_loop n e closed nint h_p h (nth_error A (length pre))).
Proof.
  intros e closed nint h_p p po A B lo. induction n as [|n IH]; intros r c pre h Y NL LE; [lia|].
  cbn [h_dzdt_loop]. rewrite (lay_get _ _ _ _ _ _ _ Y), (some_lget _ _ _ (nth_mid _ _ _)). cbn [bind dzdt_loop].
  destruct (f_K c <? Fin 0); [reflexivity|]. same s Es. same ff Ef.
  rewrite (lay_next _ _ _ _ _ _ _ Y), (some_lget _ _ _ (nth_mid _ _ _)). cbn [bind]. rewrite (lay_null _ _ _ _ _ _ _ Y).
  destruct r as [|d r].
  - replace (nth_error (pre ++ [c]) (S (length pre))) with (@None front) by (symmetry; apply nth_error_None; rewrite snoc_len; lia).
    apply follows_ok. auto.
  - assert (N : nth_error (pre ++ c :: d :: r) (S (length pre)) = Some d) by (rewrite snoc, <- (snoc_len pre c); apply nth_mid).
    rewrite N. rewrite (lay_get _ _ _ _ _ _ _ Y), (some_lget _ _ _ N). cbn [bind]. same v Ev.
    wr (lay_upd_mid _ _ _ _ _ _ _ _ _ Y). rewrite (lay_next _ _ _ _ _ _ _ Y0), (some_lget _ _ _ (nth_mid _ _ _)). cbn [bind].
    assert (N0 : nth_error (pre ++ set_dzdt c v :: d :: r) (S (length pre)) = Some d) by (rewrite snoc, <- (snoc_len pre (set_dzdt c v)); apply nth_mid).
    rewrite (lay_null _ _ _ _ _ _ _ Y0), N0.
    apply (follows_map _ _ _ (fun r' h' => lay h' p po A B ((pre ++ [set_dzdt c v]) ++ r') lo /\ numbered ((pre ++ [set_dzdt c v]) ++ r'))).
    + rewrite <- (snoc_len pre (set_dzdt c v)). apply IH.
      * rewrite <- snoc. exact Y0.
      * rewrite <- snoc. eapply numbered_mid; [exact NL|reflexivity].
      * simpl in LE. lia.
    + intros x y _ (H1 & H2). rewrite snoc. auto.
Qed.

Lemma dzdt_follows : forall e closed nint h_p h p po A B l lo, lay h p po A B l lo -> numbered l ->
  follows (fun l' h' => lay h' p po A B l' lo /\ numbered l') (lgar_dzdt_calc e closed nint h_p l) (h_dzdt e closed nint h_p h p).
Proof.
  intros e closed nint h_p h p po A B l lo Y NL. unfold lgar_dzdt_calc, h_dzdt. pose proof (lay_room _ _ _ _ _ _ _ Y) as RM.
  pose proof (lay_head _ _ _ _ _ _ _ Y) as EH. pose proof (lay_null _ _ _ _ _ _ _ Y 0) as NU. rewrite <- EH in NU. rewrite NU.
  destruct l as [|c r]; [reflexivity|]. cbn [nth_error]. rewrite EH at 1. apply (dzdt_loop_follows e closed nint h_p p po A B lo (room h) r c []); auto. simpl in RM. lia.
Qed.

Lemma create_follows : forall e ponded dry theta1 h p po A B l lo, lay h p po A B l lo -> numbered l ->
  follows (fun x y => img po B lo (fst (fst x)) (fst (fst y)) /\ snd (fst x) = snd (fst y) /\ snd x = snd y)
    (lgar_create_surficial_front e ponded dry theta1 l) (h_create e ponded dry theta1 h p).
Proof.
  intros e ponded dry theta1 h p po A B l lo Y NL. unfold lgar_create_surficial_front, h_create.
  same s Es. cbv zeta. same x Ex.
  match goal with |- context [h_listInsertFirst _ _ _ _ ?t _ _ _ _ _] => set (th := t) end.
  destruct (lay_insert _ _ _ _ _ _ _ Y NaN NaN dry th 1 1 false) as (h1 & p1 & A1 & U & Y1). rewrite U. cbn [bind]. clear U.
  pose proof (numbered_insert_first NaN NaN dry th 1 false l NL) as N1.
  same ff Ef. set (Se := Se_of_theta s th).
  set (l1 := listInsertFirst _ _ _ _ _ _ _ _) in *.
  assert (E1 : exists c r, l1 = c :: r) by (unfold l1, listInsertFirst; destruct l; eauto). destruct E1 as (c & r & E1). rewrite E1 in *.
  pose proof (lay_head _ _ _ _ _ _ _ Y1) as EH. rewrite EH. change (c :: r) with ([] ++ c :: r) in Y1. change 0%nat with (length (@nil front)).
  wr (lay_upd_mid _ _ _ _ _ _ _ _ _ Y1). wr (lay_upd_mid _ _ _ _ _ _ _ _ _ Y0). wr (lay_upd_mid _ _ _ _ _ _ _ _ _ Y2).
  set (cc := set_dzdt _ _) in Y3 |- *. match goal with |- context [Ok (?x :: r)] => change x with cc end.
  cbn [app length] in Y3 |- *.
  assert (N3 : numbered (cc :: r)) by (apply (numbered_set (c :: r) 0 c cc N1); reflexivity).
  rewrite (lay_next _ _ _ _ _ _ _ Y3), (some_lget (cc :: r) 0 cc eq_refl). cbn [bind]. rewrite (lay_null _ _ _ _ _ _ _ Y3).
  eapply (follows_bind (img po B lo)).
  - destruct r as [|n r]; [change (nth_error [cc] 1) with (@None front)|change (nth_error (cc :: n :: r) 1) with (Some n)]; cbn [negb].
    + apply follows_ok. split; [exists A1|exact N3]. cbn [fst snd]. rewrite EH in Y3. exact Y3.
    + rewrite !(lay_get _ _ _ _ _ _ _ Y3), (some_lget (cc :: n :: r) 0 cc eq_refl), (some_lget (cc :: n :: r) 1 n eq_refl). cbn [bind]. destruct (f_depth cc >? f_depth n).
      * eapply follows_bind; [rewrite EH in Y3; eapply merge_follows; eassumption|]. intros l2 [h5 p5] _ [[A5 Y5] N5]. cbn [fst snd] in *.
        destruct (lgar_wetting_fronts_cross_layer_boundary e l2) as [l6|r6] eqn:CR.
        -- pose proof (cross_follows e _ _ _ _ _ _ _ Y5 N5) as F. rewrite CR in F. destruct F as (h6 & U & Y6 & N6). rewrite U. cbn [bind]. apply follows_ok.
           split; [exists A5; exact Y6|exact N6].
        -- pose proof (cross_follows e _ _ _ _ _ _ _ Y5 N5) as F. rewrite CR in F. cbn [follows] in F. rewrite F. reflexivity.
      * apply follows_ok. split; [exists A1|exact N3]. cbn [fst snd]. rewrite EH in Y3. exact Y3.
  - intros l2 [h5 p5] _ I5. apply follows_ok. cbn [fst snd]. auto.
Qed.

End More.
