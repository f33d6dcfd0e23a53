(** The motion of the fronts keeps the structure of the profile and touches only what exists. *)

From Coq Require Import Reals Lra ZArith List Bool Lia.
From Verif Require Import Outcome Dbl Types ListOps Soil Fronts Infil Move Lib Spec_Common Spec_List Spec_Update Spec_Profile Pf_List Pf_Profile Pf_Structure.
Import ListNotations.
Open Scope R_scope.

Section Any.
Context {fp : Fp} {cfg : Cfg}.

Definition spins (r : reason) : Prop := r = OutOfFuel.

(** ** Mass balance of one front *)

(** The array cells 1..k-1 (and the cell [lay]) have been written. *)
Definition filled (a : list (option dbl)) (k : Z) : Prop := forall j, (1 <= j < k)%Z -> exists x, uget a j = Ok x.

Lemma uget_aset : forall (a a' : list (option dbl)) i x j, aset a i (Some x) = Ok a' -> (1 <= j)%Z ->
  uget a' j = if (j =? i)%Z then Ok x else uget a j.
Proof.
  intros a a' i x j H Hj. apply aset_Ok in H as [Hi ->]. unfold uget, aget. destruct (Z.ltb_spec j 0); [lia|].
  destruct (Z.eqb_spec j i) as [->|Hne].
  - rewrite nth_error_lset_eq by lia. reflexivity.
  - rewrite nth_error_lset_neq by lia. reflexivity.
Qed.

Lemma aset_in : forall A (a : list A) i x, (0 <= i < Z.of_nat (length a))%Z -> exists a', aset a i x = Ok a' /\ length a' = length a.
Proof. intros A a i x H. exists (lset a (Z.to_nat i) x). split; [apply aset_Ok; auto|apply lset_length]. Qed.

Lemma masses_ok : forall e lay po p below prior newm, sound_env e -> (1 <= lay <= e_nlayers e)%Z ->
  let arr := repeat None (Z.to_nat (lay + 1)) in
  exists prior' newm' dth dz, masses_above e lay po p below (prior, newm, arr, arr) = Ok (prior', newm', dth, dz) /\
    length dth = Z.to_nat (lay + 1) /\ length dz = Z.to_nat (lay + 1) /\ filled dth lay /\ filled dz lay.
Proof.
  intros e lay po p below prior newm HE Hl arr. unfold masses_above.
  destruct (zfor_inv _ (fun j (st : dbl * dbl * list (option dbl) * list (option dbl)) =>
    length (snd (fst st)) = Z.to_nat (lay + 1) /\ length (snd st) = Z.to_nat (lay + 1) /\ filled (snd (fst st)) j /\ filled (snd st) j)
    (fun k '(prior, newm, dth, dz) =>
    s <- soil_of e k ;;
    c1 <- aget (e_cum e) k ;;
    c0 <- aget (e_cum e) (k - 1)%Z ;;
    let thick := (c1 - c0)%d in
    let below_old := match below with Some (po, _) => theta_of_h s po | None => Fin 0 end in
    let below_new := match below with Some (_, pn) => theta_of_h s pn | None => Fin 0 end in
    let prior := (prior + thick * (theta_of_h s po - below_old))%d in
    let newm := (newm + thick * (theta_of_h s p - below_new))%d in
    dth <- aset dth k (Some below_new) ;;
    dz <- aset dz k (Some thick) ;;
    Ok (prior, newm, dth, dz)) (Z.to_nat (lay - 1)) 1%Z (prior, newm, arr, arr)) as (st & E & HI).
  - intros j [[[pr nm] dth] dz] Hj (L1 & L2 & F1 & F2). cbn [fst snd] in *.
    destruct (env_soil e j HE ltac:(lia)) as [s Es]. destruct (env_cum e j HE ltac:(lia)) as (c1 & E1 & _).
    destruct (env_cum e (j - 1)%Z HE ltac:(lia)) as (c0 & E0 & _). rewrite Es. cbn [bind]. rewrite E1. cbn [bind]. rewrite E0. cbn [bind]. cbv zeta.
    match goal with |- context [aset dth j ?x] => destruct (aset_in _ dth j x ltac:(lia)) as (dth' & A1 & B1) end. rewrite A1. cbn [bind].
    match goal with |- context [aset dz j ?x] => destruct (aset_in _ dz j x ltac:(lia)) as (dz' & A2 & B2) end. rewrite A2. cbn [bind].
    eexists. split; [reflexivity|]. cbn [fst snd]. split; [lia|]. split; [lia|]. split; intros i Hi.
    + rewrite (uget_aset _ _ _ _ i A1) by lia. destruct (Z.eqb_spec i j); [eauto|apply F1; lia].
    + rewrite (uget_aset _ _ _ _ i A2) by lia. destruct (Z.eqb_spec i j); [eauto|apply F2; lia].
  - cbn [fst snd]. unfold arr. rewrite repeat_length. split; [reflexivity|]. split; [reflexivity|]. split; intros j Hj; lia.
  - destruct st as [[[pr nm] dth] dz]. cbn [fst snd] in HI. exists pr, nm, dth, dz. split; [exact E|].
    destruct HI as (L1 & L2 & F1 & F2). replace (1 + Z.of_nat (Z.to_nat (lay - 1)))%Z with lay in * by lia. auto.
Qed.

Lemma tmb_mass_ok : forall e lay th psi dth dz, sound_env e -> (1 <= lay <= e_nlayers e)%Z -> filled dth (lay + 1) -> filled dz (lay + 1) ->
  exists m, tmb_mass e lay th psi dth dz = Ok m.
Proof.
  intros e lay th psi dth dz HE Hl F1 F2. unfold tmb_mass.
  destruct (F2 lay ltac:(lia)) as [z Ez]. destruct (F1 lay ltac:(lia)) as [t Et]. rewrite Ez. cbn [bind]. rewrite Et. cbn [bind].
  match goal with |- exists m, zfor _ _ ?b ?s = _ => destruct (zfor_inv _ (fun _ _ => True) b (Z.to_nat (lay - 1)) 1%Z s) as (m & E & _) end; eauto.
  intros j m Hj _. destruct (env_soil e j HE ltac:(lia)) as [s Es]. destruct (F2 j ltac:(lia)) as [zk Ezk]. destruct (F1 j ltac:(lia)) as [tk Etk].
  rewrite Es. cbn [bind]. rewrite Ezk. cbn [bind]. rewrite Etk. cbn [bind]. eauto.
Qed.

Lemma tmb_step_ok : forall e lay s prior dth dz x, sound_env e -> (1 <= lay <= e_nlayers e)%Z -> filled dth (lay + 1) -> filled dz (lay + 1) ->
  exists y, tmb_step e lay s prior dth dz x = Ok y.
Proof.
  intros e lay s prior dth dz x HE Hl F1 F2. unfold tmb_step. cbv zeta.
  match goal with |- exists y, match ?t with _ => _ end = _ => destruct t as [[[[psi prev] factor] switched] sat] end.
  destruct (tmb_mass_ok e lay (theta_of_h s psi) psi dth dz HE Hl F1 F2) as [m Em]. rewrite Em. cbn [bind].
  repeat match goal with |- exists y, (if ?b then _ else _) = _ => destruct b; [eauto|] end. eauto.
Qed.

Lemma tmb_loop_ok : forall k e lay s prior dth dz x, sound_env e -> (1 <= lay <= e_nlayers e)%Z -> filled dth (lay + 1) -> filled dz (lay + 1) ->
  ends spins (fun _ => True) (tmb_loop k e lay s prior dth dz x).
Proof.
  induction k as [|k IH]; intros e lay s prior dth dz x HE Hl F1 F2; [reflexivity|]. cbn [tmb_loop].
  destruct (t_delta x >? tmb_tol)%d; [|exact I].
  destruct (tmb_step_ok e lay s prior dth dz x HE Hl F1 F2) as [[y b] Ey]. rewrite Ey. cbn [bind]. destruct b; [exact I|]. apply IH; assumption.
Qed.

Lemma tmb_ok : forall e lay s psi nm prior aet dth dz, sound_env e -> (1 <= lay <= e_nlayers e)%Z -> filled dth (lay + 1) -> filled dz (lay + 1) ->
  ends spins (fun _ => True) (lgar_theta_mass_balance e lay s psi nm prior aet dth dz).
Proof.
  intros. unfold lgar_theta_mass_balance. cbv zeta. destruct (_ <=? tmb_tol)%d; [exact I|].
  eapply ends_bind; [apply tmb_loop_ok; assumption|]. intros x _ _. exact I.
Qed.

Lemma balance_ok : forall e lay s po p below prior newm a b add aet, sound_env e -> (1 <= lay <= e_nlayers e)%Z ->
  ends spins (fun _ => True) (balance_theta e lay s po p below prior newm a b add aet).
Proof.
  intros e lay s po p below prior newm a b add aet HE Hl. unfold balance_theta.
  destruct (masses_ok e lay po p below prior newm HE Hl) as (pr & nm & dth & dz & E & L1 & L2 & F1 & F2). cbv zeta. rewrite E. cbn [bind].
  destruct (aset_in _ dth lay (Some a) ltac:(lia)) as (dth' & A1 & B1). rewrite A1. cbn [bind].
  destruct (aset_in _ dz lay (Some b) ltac:(lia)) as (dz' & A2 & B2). rewrite A2. cbn [bind].
  eapply ends_bind; [apply tmb_ok; auto|].
  - intros i Hi. rewrite (uget_aset _ _ _ _ i A1) by lia. destruct (Z.eqb_spec i lay); [eauto|apply F1; lia].
  - intros i Hi. rewrite (uget_aset _ _ _ _ i A2) by lia. destruct (Z.eqb_spec i lay); [eauto|apply F2; lia].
  - intros [th aet'] _ _. exact I.
Qed.

(** ** One front *)

Lemma still : forall z dt, rnd z = Fin z -> finite dt -> (Fin z + Fin 0 * dt)%d = Fin z.
Proof.
  intros z dt Hz (t & ->). cbn. rewrite Rmult_0_l, rnd_zero. cbn. rewrite Rplus_0_r. assumption.
Qed.

Definition move_one_stops (r : reason) : Prop := r = OutOfFuel \/ r = UB UseAfterFree.

Lemma find_num : forall l w, numbered l -> (w < length l)%nat -> findFront (Z.of_nat (S w)) l = Some w.
Proof. intros. apply pos_of_numbered; assumption. Qed.

Lemma find_old : forall l prev w, l <> [] -> numbered prev -> (w < length prev)%nat -> findFrontOld (Z.of_nat (S w)) l prev = (prev, Some w).
Proof.
  intros l prev w Hl Hn Hw. unfold findFrontOld. destruct l; [contradiction|]. destruct prev; [cbn in Hw; lia|].
  rewrite pos_of_numbered; auto.
Qed.

Lemma move_one_ok : forall e dt precip wfd prev w l aet, sound_env e -> Str e l -> numbered prev -> length prev = length l -> finite dt ->
  (w < length l)%nat ->
  ends move_one_stops (fun x => Str e (fst x) /\ length (fst x) = length l)
    (move_one e dt precip wfd prev (listLength l) (Z.of_nat (S w)) l aet).
Proof.
  intros e dt precip wfd prev w l aet HE H HN HL Hdt Hw. unfold move_one, listLength.
  assert (Hne : l <> []) by (destruct l; [cbn in Hw; lia|discriminate]).
  rewrite (find_num l w (st_num _ _ H) Hw). rewrite (find_old l prev w Hne HN) by lia.
  destruct (nth_error l w) as [c|] eqn:Ec; [|apply nth_error_None in Ec; lia].
  assert (Rc := Str_range _ _ _ _ H Ec). destruct (env_soil e _ HE Rc) as [s Es].
  destruct (findFrontOld (Z.of_nat (S w) + 1) l prev) as [lno pno] eqn:Eno. cbv zeta.
  rewrite (proj2 (lget_Ok _ _ _) Ec). cbn [bind]. rewrite Es. cbn [bind].
  assert (G : exists c0, (if (Z.of_nat (S w) =? 1)%Z then Ok c else pget l (findFront (Z.of_nat (S w) - 1) l)) = Ok c0).
  { destruct (Z.eqb_spec (Z.of_nat (S w)) 1); [eauto|]. destruct w as [|w]; [lia|].
    replace (Z.of_nat (S (S w)) - 1)%Z with (Z.of_nat (S w)) by lia. rewrite (find_num l w (st_num _ _ H)) by lia. cbn [pget].
    destruct (nth_error l w) as [d|] eqn:Ed; [|apply nth_error_None in Ed; lia]. exists d. apply lget_Ok. assumption. }
  destruct G as [c0 G]. rewrite G. cbn [bind].
  assert (HO : exists o, nth_error prev w = Some o).
  { destruct (nth_error prev w) as [o|] eqn:Eo; [eauto|]. apply nth_error_None in Eo. lia. }
  destruct HO as [o Eo].
  destruct (Z.eqb_spec (Z.of_nat (S w)) (Z.of_nat (length l))) as [Hlast|Hnl].
  - (* the deepest front *)
    cbn [bind]. destruct (Z.ltb_spec (Z.of_nat (S w)) (Z.of_nat (length l))); [lia|]. cbn [andb].
    destruct (Z.eqb_spec (f_layer c + 1) (f_layer c)); [lia|]. cbn [negb andb].
    destruct (Z.of_nat (length l) =? e_nlayers e)%Z; [|split; [exact H|reflexivity]].
    assert (Ec' : nth_error l (length l - 1) = Some c) by (rewrite <- Ec; f_equal; lia).
    destruct (deepest_is e l c H Ec') as (B1 & B2 & B3 & B4).
    cbn [pget]. rewrite (proj2 (lget_Ok _ _ _) Eo). cbn [bind].
    destruct (env_cum e (f_layer c - 1)%Z HE ltac:(lia)) as (b & Eb & _). rewrite Eb. cbn [bind].
    eapply ends_bind; [eapply ends_mono; [|intros a Ha; exact Ha|apply balance_ok; [exact HE|exact Rc]]; unfold spins, move_one_stops; auto|].
    intros [th aet'] _ _. cbn [ends fst]. split; [|apply lset_length].
    eapply Str_lset; [exact Ec| |exact H]. split; [|split; reflexivity]. split; [reflexivity|]. split; [reflexivity|]. intros _. cbn.
    rewrite B4. destruct (env_cum e (e_nlayers e) HE) as (z & Ez & Hz). { destruct HE. lia. }
    rewrite B3 in Ez. apply Ok_inj in Ez. rewrite Ez. symmetry. apply still; assumption.
  - destruct (nth_error l (S w)) as [n|] eqn:En; [|apply nth_error_None in En; lia].
    assert (Hlt : (Z.of_nat (S w) <? Z.of_nat (length l))%Z = true) by (apply Z.ltb_lt; lia).
    replace (Z.of_nat (S w) + 1)%Z with (Z.of_nat (S (S w))) in * by lia.
    rewrite Hlt, orb_true_r. rewrite (find_num l (S w) (st_num _ _ H)) by lia. cbn [pget]. rewrite (proj2 (lget_Ok _ _ _) En). cbn [bind andb].
    rewrite (find_old l prev (S w) Hne HN) in Eno by lia. injection Eno as <- <-.
    destruct (nth_error prev (S w)) as [no|] eqn:Eno; [|apply nth_error_None in Eno; lia].
    cbn [pget]. rewrite (proj2 (lget_Ok _ _ _) Eo), (proj2 (lget_Ok _ _ _) Eno).
    destruct (Z.eqb_spec (f_layer n) (f_layer c)) as [Hlay|Hlay]; cbn [negb].
    + cbn [andb bind].
      assert (Hc : f_bottom c = false) by (eapply Str_above; eauto).
      assert (HA : forall c', f_layer c' = f_layer c -> f_num c' = f_num c -> f_bottom c' = f_bottom c -> f_dzdt c' = f_dzdt c ->
                   Str e (lset l w c') /\ length (lset l w c') = length l).
      { intros c' A1 A2 A3 A4. split; [|apply lset_length]. eapply Str_lset; [exact Ec| |exact H].
        split; [|split; auto]. split; [auto|]. split; [auto|]. rewrite Hc. discriminate. }
      destruct (Z.eqb_spec (f_layer c) 1) as [H1|H1].
      * destruct (env_cum e (e_nlayers e) HE) as (z & Ez & _). { destruct HE. lia. } rewrite Ez. cbn [bind].
        destruct (_ && negb _)%bool; [apply HA; reflexivity|].
        destruct (_ <? s_theta_r s)%d; [|apply HA; reflexivity].
        match goal with |- context [lset l w ?x] => set (c' := x) end.
        destruct (HA c' eq_refl eq_refl eq_refl eq_refl) as [HS _].
        destruct (Str_mass e _ HE HS) as [m Em]. rewrite Em. cbn [bind].
        assert (Ec2 : nth_error (lset l w c') w = Some c') by (apply nth_error_lset_eq; lia).
        destruct (delete_str e _ w c' HS Ec2 Hc) as (l' & D1 & D2 & _).
        match goal with |- context [listDeleteFront ?x _] => change x with (f_num c') end. rewrite D1. cbn [bind].
        destruct (Str_mass e _ HE D2) as [m' Em']. rewrite Em'. cbn [bind]. right. reflexivity.
      * destruct (env_cum e (f_layer c - 1)%Z HE ltac:(lia)) as (b & Eb & _). rewrite Eb. cbn [bind].
        eapply ends_bind; [eapply ends_mono; [|intros a Ha; exact Ha|apply balance_ok; [exact HE|exact Rc]]; unfold spins, move_one_stops; auto|].
        intros [th aet'] _ _. cbn [ends fst]. apply HA; reflexivity.
    + cbn [ends fst]. split; [|apply lset_length]. eapply Str_lset; [exact Ec| |exact H]. repeat split.
Qed.

Lemma move_loop_ok : forall e dt precip wfd prev, sound_env e -> numbered prev -> finite dt -> forall k l aet, Str e l -> length prev = length l ->
  (k <= length l)%nat ->
  ends move_one_stops (fun x => Str e (fst x) /\ length (fst x) = length l) (move_loop k e dt precip wfd prev (listLength l) l aet).
Proof.
  intros e dt precip wfd prev HE HN Hdt. induction k as [|k IH]; intros l aet H HL Hk; [split; [exact H|reflexivity]|].
  cbn [move_loop]. eapply ends_bind; [apply move_one_ok; auto|].
  intros [l' aet'] _ [H' HL']. cbn [fst] in H', HL'.
  replace (listLength l) with (listLength l') by (unfold listLength; congruence).
  eapply ends_mono; [intros r Hr; exact Hr| |apply IH; auto; lia].
  intros [l2 a2] [Q1 Q2]. cbn [fst] in *. split; [assumption|congruence].
Qed.

(** ** Closure *)

Lemma closure_loop_ok : forall e, sound_env e -> forall k p target l mass err factor dn sw aug iter f, Str e l -> nth_error l p = Some f ->
  (f_bottom f = true -> f_layer f = e_nlayers e) ->
  exists l' err' g, closure_loop k e p target l mass err factor dn sw aug iter = Ok (l', err', g) /\ Str e l'.
Proof.
  intros e HE. induction k as [|k IH]; intros p target l mass err factor dn sw aug iter f H Ef Hf.
  - cbn [closure_loop]. destruct (_ >? _)%d; eauto.
  - cbn [closure_loop]. destruct (_ >? _)%d; [|eauto]. cbv zeta.
    match goal with |- exists l' err' g, match ?t with _ => _ end = _ /\ _ => destruct t as [[dn' sw'] fc'] end.
    rewrite (proj2 (lget_Ok _ _ _) Ef). cbn [bind].
    destruct (env_cum e (e_nlayers e) HE) as (z & Ez & _). { destruct HE. lia. }
    assert (G : exists d', (if f_bottom f && (f_layer f =? e_nlayers e)%Z then aget (e_cum e) (e_nlayers e) else Ok dn') = Ok d' /\
                Str e (lset l p (set_depth f d'))).
    { destruct (f_bottom f) eqn:Hb; cbn [andb].
      - rewrite (Hf eq_refl), Z.eqb_refl. rewrite Ez. exists (Fin z). split; [reflexivity|].
        eapply Str_lset; [exact Ef| |exact H]. split; [|split; reflexivity]. split; [reflexivity|]. split; [reflexivity|]. intros _. cbn.
        destruct (Str_bottom _ _ _ _ H Ef Hb) as [B _]. rewrite (Hf eq_refl), Ez in B. apply Ok_inj in B. auto.
      - exists dn'. split; [reflexivity|]. eapply Str_lset; [exact Ef| |exact H]. split; [|split; reflexivity]. split; [reflexivity|].
        split; [reflexivity|]. rewrite Hb. discriminate. }
    destruct G as (d' & G1 & G2). rewrite G1. cbn [bind].
    destruct (Str_mass e _ HE G2) as [m Em]. rewrite Em. cbn [bind].
    apply IH with (set_depth f d'); [exact G2| |exact Hf]. apply nth_error_lset_eq. eapply length_S. eassumption.
Qed.

Lemma closure_ok : forall e old precip l aet, sound_env e -> Str e l -> ~ cross_tie e l ->
  ends (fun r => r = AssertFail) (fun x => Str e (fst (fst x))) (closure e old precip l aet).
Proof.
  intros e old precip l aet HE H HT. unfold closure.
  destruct (cross_ok e l HE H HT) as (l1 & E1 & H1 & _). rewrite E1. cbn [bind]. cbv zeta.
  destruct (fd_ok e l1 HE H1) as (i & f & W & Ef & Hi & Hlay & _ & HB). rewrite W.
  destruct (env_soil e (Z.of_nat (S i)) HE ltac:(lia)) as [s Es]. rewrite Es. cbn [bind].
  destruct (old >? Fin 0)%d; [|reflexivity]. cbn [cassert bind].
  rewrite (find_num l1 i (st_num _ _ H1)) by (eapply length_S; eassumption). rewrite (proj2 (lget_Ok _ _ _) Ef). cbn [bind].
  destruct (_ <? _)%d; [|exact H1].
  destruct (Str_mass e _ HE H1) as [m Em]. rewrite Em. cbn [bind].
  match goal with |- context [closure_loop ?k e ?p ?t l1 ?m ?er ?fa ?d ?s ?a ?it] =>
    destruct (closure_loop_ok e HE k p t l1 m er fa d s a it f H1 Ef) as (l2 & err & g & E2 & H2) end.
  { destruct HB as [[B _]|(_ & B & _)]; [rewrite B; discriminate|auto]. }
  rewrite E2. cbn [bind]. destruct g; [|exact H2].
  destruct (Str_mass e _ HE H2) as [m2 Em2]. rewrite Em2. cbn [bind]. exact H2.
Qed.

(** ** The whole motion *)

Lemma refresh_ok : forall e l, sound_env e -> l <> [] -> (forall f, In f l -> (1 <= f_layer f <= e_nlayers e)%Z) ->
  exists l', refresh_psi e l = Ok l' /\ Forall2 alike l l'.
Proof.
  intros e l HE. induction l as [|c r IH]; intros Hl HR; [contradiction|]. cbn [refresh_psi].
  destruct r as [|n r]; [exists [c]; split; [reflexivity|apply alike_list]|].
  assert (Rc := HR c (or_introl eq_refl)). destruct (env_soil e _ HE Rc) as [s Es]. destruct (env_frozen e _ HE Rc) as [ff Ef].
  destruct IH as (r' & E & F); [discriminate|intros f Hf; apply HR; right; assumption|].
  destruct (f_psi c >? lit 1)%d.
  - rewrite Es. cbn [bind]. rewrite Ef. cbn [bind]. rewrite E. cbn [bind]. eexists. split; [reflexivity|]. constructor; [repeat split|assumption].
  - cbn [bind]. rewrite E. cbn [bind]. eexists. split; [reflexivity|]. constructor; [apply alike_refl|assumption].
Qed.

Lemma fix_single_ok : forall e l, sound_env e -> Str e l -> exists l', fix_single e l = Ok l' /\ Str e l'.
Proof.
  intros e l HE H. unfold fix_single. destruct l as [|c [|n r]]; eauto.
  assert (Ec : nth_error [c] (length [c] - 1) = Some c) by reflexivity.
  destruct (deepest_is e _ _ H Ec) as (B1 & B2 & B3 & B4).
  assert (H1 : e_nlayers e = 1%Z). { pose proof (st_pre _ _ H) as P. cbn [pre] in P. destruct P as (P & _). lia. }
  rewrite H1 in B3. rewrite B3. cbn [bind]. eexists. split; [reflexivity|]. destruct (_ <>? _)%d; [|assumption].
  replace (set_depth c (f_depth c)) with c by (destruct c; reflexivity). assumption.
Qed.

Theorem move_ok : forall e dt volin wfd old aet head prev, sound_env e -> Str e head -> numbered prev -> length prev = length head -> finite dt ->
  ~ move_tie e dt volin wfd old aet head prev ->
  ends move_stops (fun x => Str e (fst (fst x))) (lgar_move_wetting_fronts e dt volin wfd old aet head prev).
Proof.
  intros e dt volin wfd old aet head prev HE H HN HL Hdt HT. unfold lgar_move_wetting_fronts.
  destruct (env_cum e (e_nlayers e) HE) as (z & Ez & _). { destruct HE. lia. } rewrite Ez. cbn [bind].
  eapply ends_bind; [eapply ends_mono; [|intros x Hx; exact Hx|apply move_loop_ok; auto]; unfold move_one_stops, move_stops; tauto|].
  intros [l a] EM [H1 HL1]. cbn [fst] in H1, HL1.
  assert (Hne : head <> []) by (eapply Str_nonempty; eauto using se_n).
  eapply ends_bind with (P := fun x => Str e (fst (fst x))).
  { destruct head as [|c r]; [contradiction|]. eapply ends_mono; [|intros x Hx; exact Hx|apply closure_ok; auto].
    - intros r0 ->. left. reflexivity.
    - intro T. apply HT. exists l, a. auto. }
  intros [[l1 a1] fl] EC H2. cbn [fst] in H2.
  eapply ends_bind; [eapply ends_mono; [|intros x Hx; exact Hx|apply merge_phases_ok; [exact HE|exact H2|]]|].
  - intros r0 ->. left. reflexivity.
  - intros l2 mc l3 E1 E2 T. apply HT. exists l, a. split; [assumption|]. right. destruct head as [|c r]; [contradiction|].
    exists l1, a1, fl, l2, mc, l3. auto.
  - intros [[l2 fl2] mc] _ H3. cbn [fst] in H3. cbv zeta.
    destruct (refresh_ok e l2 HE) as (l4 & E4 & F4).
    + eapply Str_nonempty; eauto using se_n.
    + intros f Hf. apply In_nth_error in Hf as [i Ei]. eapply Str_range; eassumption.
    + rewrite E4. cbn [bind]. destruct (fix_single_ok e l4 HE) as (l5 & E5 & H5). { eapply Str_alike; eassumption. }
      rewrite E5. cbn [bind]. exact H5.
Qed.
End Any.
