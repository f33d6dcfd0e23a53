(** Lemmas: lgar_move_wetting_fronts on the heap and on lists. *)

From Coq Require Import Reals ZArith List Bool Arith Lia.
From Verif Require Import Outcome Dbl Types ListOps HeapList Soil Spec_List Spec_Heap Pf_List Pf_Heap Fronts Infil Move HeapFronts Spec_Refine Pf_Lay Pf_Lay2 Pf_Refine Pf_Refine2 Pf_Refine3.
Import ListNotations.
Open Scope dbl_scope.

Section MoveFollows.
Context {fp : Fp} {cfg : Cfg}.

Lemma into_null : forall h p po A B l lo, lay h p po A B l lo -> forall q g, h_get h (into A q) = g -> g = pget l q.
Proof. intros h p po A B l lo Y q g <-. apply (get_into _ _ _ _ _ _ _ Y). Qed.

Lemma move_one_follows : forall e dt precip wfd nf wf h p po A B l lo aet, lay h p po A B l lo -> numbered l -> lo <> [] ->
  follows (fun x y => img po B lo (fst x) (fst y) /\ snd x = snd y)
    (move_one e dt precip wfd lo nf wf l aet) (h_move_one e dt precip wfd po nf wf h p aet).
Proof.
  intros e dt precip wfd nf wf h p po A B l lo aet Y NL NE. unfold move_one, h_move_one.
  destruct (lay_find_old _ _ _ _ _ _ _ Y wf NE) as (F1 & G1). destruct (lay_find_old _ _ _ _ _ _ _ Y (wf + 1)%Z NE) as (F2 & G2).
  destruct (findFrontOld wf l lo) as [lo1 q1]. destruct (findFrontOld (wf + 1) l lo) as [lo2 q2]. cbn [fst snd] in *. subst lo1 lo2.
  rewrite !(lay_find _ _ _ _ _ _ _ Y), F1, F2. cbn [bind].
  replace (if (wf =? 1)%Z || (wf <? nf)%Z then Ok (into A (findFront (wf + 1) l)) else Ok None)
    with (Ok (into A (if (wf =? 1)%Z || (wf <? nf)%Z then findFront (wf + 1) l else None))) by (destruct ((wf =? 1)%Z || (wf <? nf)%Z); reflexivity).
  replace (if (wf =? 1)%Z then Ok None else Ok (into A (findFront (wf - 1) l)))
    with (Ok (into A (if (wf =? 1)%Z then None else findFront (wf - 1) l))) by (destruct (wf =? 1)%Z; reflexivity).
  set (pn := if (wf =? 1)%Z || (wf <? nf)%Z then findFront (wf + 1) l else None) in *. cbn [bind].
  destruct (findFront wf l) as [i|] eqn:FI; [|].
  2:{ replace (if (wf =? 1)%Z || (wf <? nf)%Z then Ok (into B q2) else Ok None) with (Ok (if (wf =? 1)%Z || (wf <? nf)%Z then into B q2 else None))
        by (destruct ((wf =? 1)%Z || (wf <? nf)%Z); reflexivity). reflexivity. }
  change (into A (Some i)) with (nth_error A i).
  assert (EQ2 : forall k : ptr -> outcome (heap * ptr * dbl), bind (if (wf =? 1)%Z || (wf <? nf)%Z then Ok (into B q2) else Ok None) k
     = k (if (wf =? 1)%Z || (wf <? nf)%Z then into B q2 else None)) by (intros k; destruct ((wf =? 1)%Z || (wf <? nf)%Z); reflexivity).
  rewrite EQ2. clear EQ2. cbv beta.
  rewrite (lay_get _ _ _ _ _ _ _ Y). same c C. apply lget_some in C. same s Es.
  set (pb := if (wf =? 1)%Z then None else findFront (wf - 1) l).
  assert (STEP : forall (T : Type) (R : T -> heap * ptr * dbl -> Prop) (k : outcome T) (hk : outcome (heap * ptr * dbl)), follows R k hk ->
    follows R (_ <- (if (wf =? 1)%Z then Ok c else pget l (findFront (wf - 1)%Z l)) ;; k)
      (above <- (if (wf =? 1)%Z then Ok (f_layer c) else p0 <- h_get h (into A pb) ;; Ok (f_layer p0)) ;; hk)).
  { intros T R k hk HF. unfold pb. destruct (wf =? 1)%Z; [exact HF|]. rewrite (get_into _ _ _ _ _ _ _ Y).
    destruct (pget l (findFront (wf - 1) l)); [exact HF|reflexivity]. }
  apply STEP. clear STEP pb. rewrite !(get_into _ _ _ _ _ _ _ Y).
  same below Eb.
  destruct ((wf <? nf)%Z && negb (below =? f_layer c)%Z) eqn:T1.
  { (* deepest front of a layer *)
    destruct (pget l pn) as [n|] eqn:PN; [|reflexivity]. cbn [bind].
    rewrite <- (lset_id _ _ _ _ C) in Y. pose proof (nth_lt _ _ _ _ C) as LC.
    wr (lay_upd_at _ _ _ _ _ _ _ _ _ Y LC). rewrite (get_into _ _ _ _ _ _ _ Y0).
    assert (PS : exists n', pget (lset l i (set_theta c (theta_of_h s (f_psi n)))) pn = Ok n' /\ f_psi n' = f_psi n).
    { destruct pn as [j|]; [|discriminate PN]. cbn [pget] in *. destruct (Nat.eq_dec i j) as [<- | Nij].
      - rewrite (some_lget _ _ _ C) in PN. injection PN as <-. rewrite (get_set _ _ _ _ C). eexists. split; reflexivity.
      - rewrite get_other by exact Nij. exists n. auto. }
    destruct PS as (n' & -> & EP). cbn [bind]. rewrite EP.
    wr (lay_upd_at _ _ _ _ _ _ _ _ _ Y0 LC). apply follows_ok. cbn [fst snd]. split; [|reflexivity]. split; [exists A; exact Y1|].
    eapply numbered_set; [exact NL|exact C|reflexivity]. }
  destruct ((wf =? nf)%Z && negb (below =? f_layer c)%Z && (nf =? e_nlayers e)%Z) eqn:T2.
  { (* the last front *)
    rewrite <- (lset_id _ _ _ _ C) in Y. pose proof (nth_lt _ _ _ _ C) as LC.
    wr (lay_upd_at _ _ _ _ _ _ _ _ _ Y LC). rewrite (get_into_old _ _ _ _ _ _ _ Y0). same o Eo.
    rewrite (lay_get _ _ _ _ _ _ _ Y0), (get_set _ _ _ _ C). cbn [bind]. fs. same base Ebase.
    apply follows_same. intros [th aet'] Eth. clear Eth.
    wr (lay_upd_at _ _ _ _ _ _ _ _ _ Y0 LC). rewrite (lay_get _ _ _ _ _ _ _ Y1), (get_set _ _ _ _ C). cbn [bind]. fs.
    wr (lay_upd_at _ _ _ _ _ _ _ _ _ Y1 LC). apply follows_ok. cbn [fst snd]. split; [|reflexivity]. split; [exists A; exact Y2|].
    eapply numbered_set; [exact NL|exact C|reflexivity]. }
  destruct ((wf <? nf)%Z && (below =? f_layer c)%Z) eqn:T3.
  2:{ apply follows_ok. cbn [fst snd]. split; [split; [exists A; exact Y|exact NL]|reflexivity]. }
  assert (W : (wf <? nf)%Z = true) by (destruct (wf <? nf)%Z; [reflexivity|discriminate T3]).
  assert (W2 : (wf =? nf)%Z = false) by (apply Z.eqb_neq; apply Z.ltb_lt in W; lia).
  assert (EPN : pn = findFront (wf + 1) l) by (unfold pn; rewrite W, orb_true_r; reflexivity). clearbody pn. rewrite W, orb_true_r. rewrite W2 in Eb.
  destruct (pget l pn) as [n|] eqn:PN; [|discriminate Eb]. clear Eb. cbn [bind].
  assert (DF : exists j, pn = Some j /\ i <> j).
  { subst pn. destruct (findFront (wf + 1) l) as [j|] eqn:FJ; [|discriminate PN]. exists j. split; [reflexivity|]. intros <-.
    unfold findFront in *. apply pos_of_Some in FI, FJ. destruct FI as (x & X1 & X2 & _), FJ as (y & Y1 & Y2 & _). rewrite X1 in Y1. injection Y1 as <-. lia. }
  destruct DF as (j & EJ & NIJ). rewrite EJ in *. cbn [pget into] in *.
  pose proof (nth_lt _ _ _ _ C) as LC. rewrite <- (lset_id _ _ _ _ C) in Y.
  rewrite (get_into_old _ _ _ _ _ _ _ Y). cbv zeta.
  (* the tail common to the branches *)
  assert (TAIL : forall h2 d a, lay h2 p po A B (lset l i d) lo -> f_num d = f_num c ->
    follows (fun (x : list front * dbl) (y : heap * ptr * dbl) => img po B lo (fst x) (fst y) /\ snd x = snd y) (Ok (lset l i (set_psi d (h_of_Se s (Se_of_theta s (f_theta d)))), a))
      (c0 <- h_get h2 (nth_error A i) ;; h3 <- h_upd (fun f => set_psi f (h_of_Se s (Se_of_theta s (f_theta c0)))) h2 (nth_error A i) ;; Ok (h3, p, a))).
  { intros h2 d a Y2 EN. rewrite (lay_get _ _ _ _ _ _ _ Y2), (get_set _ _ _ _ C). cbn [bind]. wr (lay_upd_at _ _ _ _ _ _ _ _ _ Y2 LC).
    apply follows_ok. cbn [fst snd]. split; [|reflexivity]. split; [exists A; exact Y0|]. eapply numbered_set; [exact NL|exact C|exact EN]. }
  destruct (f_layer c =? 1)%Z.
  - destruct (pget lo q1) as [o|]; [|reflexivity]. cbn [bind]. rewrite (get_into_old _ _ _ _ _ _ _ Y). destruct (pget lo q2) as [no|]; [|reflexivity]. cbn [bind].
    wr (lay_upd_at _ _ _ _ _ _ _ _ _ Y LC). destruct (aget (e_cum e) (e_nlayers e)) as [column|]; [|reflexivity]. cbn [bind].
    wr (lay_upd_at _ _ _ _ _ _ _ _ _ Y0 LC). rewrite !(lay_get _ _ _ _ _ _ _ Y1), (get_set _ _ _ _ C), get_other by exact NIJ. cbn [bind].
    fs. set (d := dfmin (f_depth c + f_dzdt c * dt) column) in *. set (c2 := set_depth _ _) in Y1.
    destruct ((f_dzdt c =? Fin 0) && negb (f_bottom c)).
    + cbn [bind]. apply (TAIL h1 c2 aet Y1). reflexivity.
    + rewrite PN. cbn [bind].
      set (th := _ / d + _) in *.
      destruct (th <? s_theta_r s).
      * rewrite (mass_eq _ _ _ _ _ _ _ Y1). change (lset l i _) with (lset l i c2).
        match goal with |- follows _ (bind (lgar_calc_mass_bal _ ?x) _) _ => change x with (lset l i c2) end.
        destruct (lgar_calc_mass_bal (e_cum e) (lset l i c2)) as [m1|]; [|reflexivity]. cbn [bind].
        match goal with |- follows _ (bind (listDeleteFront _ ?x) _) _ => change x with (lset l i c2) end.
        destruct (listDeleteFront (f_num c) (lset l i c2)) as [[l' q]|r] eqn:DD.
        2:{ rewrite (lay_delete_stop _ _ _ _ _ _ _ Y1 _ _ DD). reflexivity. }
        destruct (lay_delete _ _ _ _ _ _ _ Y1 _ _ _ DD) as (h3 & p3 & A' & j' & U & Y3 & _ & PJ & EA & _ & FREE). rewrite U. cbn [bind]. clear U.
        rewrite (mass_eq _ _ _ _ _ _ _ Y3). destruct (lgar_calc_mass_bal (e_cum e) l') as [m2|]; [|reflexivity]. cbn [bind].
        assert (j' = i).
        { rewrite (NL _ _ C) in PJ. rewrite pos_of_numbered in PJ; [congruence| |rewrite lset_length; exact LC]. eapply numbered_set; [exact NL|exact C|reflexivity]. }
        subst j'. cbn [follows]. pose proof (lay_len _ _ _ _ _ _ _ Y1) as LA. rewrite lset_length in LA.
        destruct (nth_error A i) as [a|] eqn:EAi; [|apply nth_error_None in EAi; lia].
        unfold h_get, h_load. rewrite (FREE a eq_refl). reflexivity.
      * wr (lay_upd_at _ _ _ _ _ _ _ _ _ Y1 LC). eapply (TAIL h2 _ aet Y2). reflexivity.
  - wr (lay_upd_at _ _ _ _ _ _ _ _ _ Y LC). rewrite (get_into_old _ _ _ _ _ _ _ Y0). destruct (pget lo q1) as [o|] eqn:PO; [|reflexivity]. cbn [bind].
    destruct q1 as [i1|]; [|discriminate PO]. cbn [into pget] in *. rewrite (lay_next_old _ _ _ _ _ _ _ Y0), PO. cbn [bind].
    rewrite (lay_get_old _ _ _ _ _ _ _ Y0). destruct (lget lo (S i1)) as [no'|]; [|reflexivity]. cbn [bind].
    rewrite !(lay_get _ _ _ _ _ _ _ Y0), (get_set _ _ _ _ C), get_other, PN by exact NIJ. cbn [bind].
    rewrite (get_into_old _ _ _ _ _ _ _ Y0). destruct (pget lo q2) as [no|]; [|reflexivity]. cbn [bind]. fs.
    destruct (aget (e_cum e) (f_layer c - 1)) as [base|]; [|reflexivity]. cbn [bind].
    match goal with |- follows _ (bind ?m _) _ => destruct m as [[th aet']|]; [|reflexivity] end. cbn [bind].
    wr (lay_upd_at _ _ _ _ _ _ _ _ _ Y0 LC). eapply (TAIL h1 _ aet' Y1). reflexivity.
Qed.

Lemma move_loop_follows : forall e dt precip wfd nf po B lo, lo <> [] -> forall k h p A l aet, lay h p po A B l lo -> numbered l ->
  follows (fun x y => img po B lo (fst x) (fst y) /\ snd x = snd y)
    (move_loop k e dt precip wfd lo nf l aet) (h_move_loop k e dt precip wfd po nf h p aet).
Proof.
  intros e dt precip wfd nf po B lo NE. induction k as [|k IH]; intros h p A l aet Y NL.
  - apply follows_ok. cbn [fst snd]. split; [split; [exists A; exact Y|exact NL]|reflexivity].
  - cbn [move_loop h_move_loop]. eapply follows_bind; [eapply move_one_follows; eassumption|].
    intros [l1 a1] [[h1 p1] a1'] _ [[[A1 Y1] N1] EM]. cbn [fst snd] in *. subst a1'. eapply IH; eassumption.
Qed.

Lemma closure_loop_follows : forall e target p po A B lo i k h l mass err factor dn sw aug iter, lay h p po A B l lo -> numbered l ->
  follows (fun x y => (lay (fst (fst y)) p po A B (fst (fst x)) lo /\ numbered (fst (fst x))) /\ snd (fst x) = snd (fst y) /\ snd x = snd y)
    (closure_loop k e i target l mass err factor dn sw aug iter) (h_closure_loop k e (nth_error A i) target h p mass err factor dn sw aug iter).
Proof.
  intros e target p po A B lo i. induction k as [|k IH]; intros h l mass err factor dn sw aug iter Y NL;
    unfold closure_loop, h_closure_loop; fold closure_loop h_closure_loop;
    destruct (dabs (err - closure_tol) >? lit (1 / 10000000000)); try (apply follows_ok; cbn [fst snd]; auto).
  set (fac := if (iter + 1 >? 1000)%Z && negb aug then factor * lit 100 else factor).
  destruct (mass <? target); rewrite (lay_get _ _ _ _ _ _ _ Y); same f F; apply lget_some in F; same d Ed;
  rewrite <- (lset_id _ _ _ _ F) in Y; wr (lay_upd_at _ _ _ _ _ _ _ _ _ Y (nth_lt _ _ _ _ F));
  rewrite (mass_eq _ _ _ _ _ _ _ Y0); same m Em; (apply IH; [exact Y0|]); (eapply numbered_set; [exact NL|exact F|reflexivity]).
Qed.

Lemma closure_follows : forall e old precip h p po A B l lo aet, lay h p po A B l lo -> numbered l ->
  follows (fun x y => (lay (fst (fst y)) p po A B (fst (fst x)) lo /\ numbered (fst (fst x))) /\ snd (fst x) = snd (fst y) /\ snd x = snd y)
    (closure e old precip l aet) (h_closure e old precip h p aet).
Proof.
  intros e old precip h p po A B l lo aet Y NL. unfold closure, h_closure.
  eapply follows_bind; [eapply cross_follows; eassumption|]. intros l1 h1 _ [Y1 N1].
  rewrite (free_drainage_eq _ _ _ _ _ _ _ Y1). cbn [bind]. cbv zeta. same s Es.
  rewrite (lay_find _ _ _ _ _ _ _ Y1). cbn [bind]. same u Eu. clear u Eu.
  destruct (findFront (wetting_front_free_drainage l1) l1) as [i|]; [|reflexivity]. cbn [into].
  rewrite (lay_get _ _ _ _ _ _ _ Y1). same f F. apply lget_some in F.
  destruct (dabs (f_theta f - s_theta_e s) <? lit (1 / 1000000000000000)); [|apply follows_ok; cbn [fst snd]; auto].
  rewrite (mass_eq _ _ _ _ _ _ _ Y1). same m Em. rewrite (lay_next _ _ _ _ _ _ _ Y1), (some_lget _ _ _ F). cbn [bind].
  rewrite (lay_null _ _ _ _ _ _ _ Y1), (lay_get _ _ _ _ _ _ _ Y1).
  match goal with |- context [closure_loop _ _ _ _ _ _ _ ?fa] => set (fac := fa) end.
  match goal with |- follows _ _ (bind ?x _) => assert (EF : x = Ok fac) end.
  { unfold fac, lget. destruct (nth_error l1 (S i)); reflexivity. }
  rewrite EF. cbn [bind]. clear EF.
  eapply follows_bind; [apply closure_loop_follows; eassumption|].
  intros [[l2 err] g] [[h2 err'] g'] _ [[Y2 N2] [E1 E2]]. cbn [fst snd] in *. subst err' g'. destruct g; [|apply follows_ok; cbn [fst snd]; auto].
  rewrite (mass_eq _ _ _ _ _ _ _ Y2). same m2 Em2. apply follows_ok. cbn [fst snd]. auto.
Qed.

Lemma move_follows : forall e dt volin wfd old aet h p po A B l lo, lay h p po A B l lo -> numbered l -> lo <> [] ->
  follows (fun x y => img po B lo (fst (fst x)) (fst (fst y)) /\ snd (fst x) = snd (fst y) /\ snd x = snd y)
    (lgar_move_wetting_fronts e dt volin wfd old aet l lo) (h_move e dt volin wfd old aet h p po).
Proof.
  intros e dt volin wfd old aet h p po A B l lo Y NL NE. unfold lgar_move_wetting_fronts, h_move.
  same x Ex. clear x Ex. rewrite (lay_length _ _ _ _ _ _ _ Y). cbn [bind]. cbv zeta.
  replace (Z.to_nat (listLength l)) with (length l) by (unfold listLength; lia).
  eapply follows_bind; [eapply move_loop_follows; eassumption|].
  intros [l1 a1] [[h1 p1] a1'] _ [[[A1 Y1] N1] EM]. cbn [fst snd] in *. subst a1'.
  eapply (follows_bind (fun x y => (lay (fst (fst y)) p1 po A1 B (fst (fst x)) lo /\ numbered (fst (fst x))) /\ snd (fst x) = snd (fst y) /\ snd x = snd y)).
  { destruct l as [|c r]; [apply follows_ok; cbn [fst snd]; auto|].
    replace (listLength (c :: r) =? 0)%Z with false by (symmetry; apply Z.eqb_neq; unfold listLength; simpl; lia).
    apply closure_follows; assumption. }
  intros [[l2 a2] b2] [[h2 a2'] b2'] _ [[Y2 N2] [E1 E2]]. cbn [fst snd] in *. subst a2' b2'.
  eapply follows_bind; [eapply merge_phases_follows; eassumption|].
  intros [[l3 f3] mc] [[[h3 p3] f3'] mc'] _ [[[A3 Y3] N3] [E1 E2]]. cbn [fst snd] in *. subst f3' mc'. cbv zeta.
  eapply (follows_bind (fun l' y => lay (fst y) p3 po A3 B l' lo /\ numbered l' /\ snd y = nth_error A3 (length l' - 1)%nat)).
  { pose proof (lay_room _ _ _ _ _ _ _ Y3) as RM. eapply follows_imp.
    - rewrite (lay_head _ _ _ _ _ _ _ Y3) at 2. apply (refresh_follows e p3 po A3 B lo (room h3) l3 []); auto. lia.
    - intros z z' _ (H1 & H2 & H3 & H4). cbn [app length Nat.add] in *. rewrite H3. auto. }
  intros l4 [h4 cur] _ (Y4 & N4 & EC). cbn [fst snd] in *.
  eapply follows_bind; [eapply fix_single_follows; eassumption|]. intros l5 h5 _ [Y5 N5]. apply follows_ok. cbn [fst snd]. repeat split; auto. exists A3. exact Y5.
Qed.

End MoveFollows.
