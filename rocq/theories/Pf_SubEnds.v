(** A sub-step ends, if no front starts it with an infinite water content or speed, a negative head or above the surface. *)

From Coq Require Import Reals Lra ZArith List Bool Lia.
From RecordUpdate Require Import RecordSet.
From Verif Require Import Outcome Dbl Exact Types ListOps Soil Fronts Infil Move State Update Lib Spec_Common Spec_Soil Spec_Profile Spec_Storage Spec_Balance Spec_Velocity Spec_Fuel Spec_Ends
  Pf_Dbl Pf_Pow Pf_Soil Pf_Geff Pf_Structure Pf_Repair Pf_NoFuel Pf_Fuel Pf_GeffEnds Pf_HeadEnds Pf_TmbEnds.
Import ListNotations.
Open Scope R_scope.

(** From some bound on the run gives always the same, which is not the bound reached. *)
Definition finishes {A} (P : A -> Prop) (run : nat -> outcome A) : Prop := exists N m, (forall n, (N <= n)%nat -> run n = m) /\ fin P m.

Lemma fs_const : forall A (P : A -> Prop) m, fin P m -> finishes P (fun _ => m).
Proof. intros A P m H. exists 0%nat, m. split; [reflexivity|exact H]. Qed.
Lemma fs_bind : forall A B (P : A -> Prop) (Q : B -> Prop) (m : nat -> outcome A) (k : nat -> A -> outcome B),
  finishes P m -> (forall a, P a -> finishes Q (fun n => k n a)) -> finishes Q (fun n => bind (m n) (k n)).
Proof.
  intros A B P Q m k (N & v & H & F) HK. destruct v as [a|r].
  - destruct (HK a F) as (N2 & v2 & H2 & F2). exists (Nat.max N N2), v2. split; [|exact F2]. intros n Hn. rewrite (H n) by lia. cbn [bind]. apply H2. lia.
  - exists N, (Stop r). split; [|exact F]. intros n Hn. rewrite (H n Hn). reflexivity.
Qed.
Lemma fs_pre : forall A B (P : A -> Prop) (Q : B -> Prop) (m : outcome A) (k : nat -> A -> outcome B),
  fin P m -> (forall a, P a -> finishes Q (fun n => k n a)) -> finishes Q (fun n => bind m (k n)).
Proof. intros A B P Q m k H HK. apply (fs_bind A B P Q (fun _ => m) k); [apply fs_const; exact H|exact HK]. Qed.
Lemma fs_mono : forall A (P Q : A -> Prop) run, (forall a, P a -> Q a) -> finishes P run -> finishes Q run.
Proof. intros A P Q run H (N & m & E & F). exists N, m. split; [exact E|]. destruct m; [exact (H _ F)|exact F]. Qed.
Lemma fs_settles : forall A (P : A -> Prop) run, finishes P run -> settles run.
Proof. intros A P run (N & m & E & F). exists N. intros n Hn Z. rewrite (E n Hn) in Z. subst m. exact (F eq_refl). Qed.
Lemma settled_fs : forall A (P : A -> Prop) (run : nat -> outcome A), (forall n m, (n <= m)%nat -> agrees (run n) (run m)) -> settles run -> (forall n a, run n = Ok a -> P a) -> finishes P run.
Proof.
  intros A P run HK (N & HN) HP. exists N, (run N). split.
  - intros n Hn. destruct (HK N n Hn) as [E|E]; [exfalso; exact (HN N (le_n N) E)|exact E].
  - destruct (run N) as [a|r] eqn:E; [exact (HP N a E)|]. intros ->. exact (HN N (le_n N) E).
Qed.
Lemma fin_and : forall A (P : A -> Prop) (m : outcome A), fin any m -> (forall a, m = Ok a -> P a) -> fin P m.
Proof. intros A P [a|r] H1 H2; [exact (H2 a eq_refl)|exact H1]. Qed.

Section Exactly.
Local Existing Instance exact.
Variable b : bool.

Lemma geff_fs : forall closed t1 t2 s r e a n m k ks nint, vg_soil s r e a n m k -> (closed = true \/ (1 <= nint)%Z) -> finishes any (fun j => @calc_Geff exact (bounded b j) closed t1 t2 s ks nint).
Proof.
  intros closed t1 t2 s r e a n m k ks nint V H. destruct closed; [unfold calc_Geff; cbn [negb]; apply fs_const; exact I|]. destruct H as [H|H]; [discriminate H|].
  apply settled_fs; [intros i j L; apply (calc_Geff_more (bounded b i) (bounded b j)); exact L|exact (geff_settles b false t1 t2 s r e a n m k ks nint V H)|]. intros; exact I.
Qed.

Section Column.
Variable e : env.
Hypothesis SE : sound_env e.
Hypothesis VC : vg_column e.

Lemma vg_at : forall k s, (1 <= k <= e_nlayers e)%Z -> soil_of e k = Ok s -> exists r te a n m ks, vg_soil s r te a n m ks.
Proof. intros k s Hk Es. destruct (VC k s Hk Es) as (r & te & a & n & m & ks & V). eauto 8. Qed.
Lemma cum_at : forall k x, (0 <= k <= e_nlayers e)%Z -> aget (e_cum e) k = Ok x -> exists z, x = Fin z.
Proof. intros k x Hk E. destruct (se_cum e SE k Hk) as (z & Ez & _). exists z. congruence. Qed.

(** ** Motion of the fronts *)

Record calm (f : front) : Prop := { cm_layer : inside e f; cm_depth : tame (f_depth f); cm_theta : tame (f_theta f); cm_dzdt : tame (f_dzdt f); cm_psi : not_negative (f_psi f) }.

Definition entries (l : list (option dbl)) : Prop := forall k x, uget l k = Ok x -> tame x.
Lemma entries_none : forall n, entries (repeat None n).
Proof.
  intros n k x E. unfold uget, aget in E. destruct (k <? 0)%Z; [discriminate E|]. destruct (nth_error (repeat None n) (Z.to_nat k)) as [o|] eqn:En; [|discriminate E]. apply nth_error_In, repeat_spec in En. subst o. discriminate E.
Qed.
Lemma entries_set : forall l k x l', entries l -> tame x -> aset l k (Some x) = Ok l' -> entries l'.
Proof.
  intros l k x l' H Hx E i y Ei. unfold aset in E. destruct (k <? 0)%Z; [discriminate E|]. destruct (Z.to_nat k <? length l)%nat eqn:Lt; [|discriminate E]. apply Nat.ltb_lt in Lt. apply Ok_inj in E. subst l'.
  unfold uget, aget in Ei. destruct (i <? 0)%Z eqn:Ni; [discriminate Ei|]. destruct (Nat.eq_dec (Z.to_nat i) (Z.to_nat k)) as [Q|Q].
  - rewrite Q, nth_error_lset_eq in Ei by exact Lt. cbn [bind] in Ei. congruence.
  - rewrite nth_error_lset_neq in Ei by congruence. apply (H i y). unfold uget, aget. rewrite Ni. exact Ei.
Qed.

Lemma masses_tame : forall lay psi_old psi below prior newm dth dz, (1 <= lay <= e_nlayers e)%Z -> not_negative psi_old -> not_negative psi ->
  match below with Some (po, pn) => not_negative po /\ not_negative pn | None => True end -> tame prior -> tame newm -> entries dth -> entries dz ->
  fin (fun '(p, w, d1, d2) => tame p /\ tame w /\ entries d1 /\ entries d2) (masses_above e lay psi_old psi below (prior, newm, dth, dz)).
Proof.
  intros lay psi_old psi below prior newm dth dz HL H1 H2 HB HP HN HD HZ. unfold masses_above.
  assert (G : forall k i st, (1 <= i)%Z -> (i + Z.of_nat k - 1 <= e_nlayers e)%Z -> (fun '(p, w, d1, d2) => tame p /\ tame w /\ entries d1 /\ entries d2) st ->
    fin (fun '(p, w, d1, d2) => tame p /\ tame w /\ entries d1 /\ entries d2) (zfor i k (fun k '(prior, newm, dth, dz) =>
      s <- soil_of e k ;; c1 <- aget (e_cum e) k ;; c0 <- aget (e_cum e) (k - 1)%Z ;;
      let thick := (c1 - c0)%d in
      let below_old := match below with Some (po, _) => theta_of_h s po | None => Fin 0 end in
      let below_new := match below with Some (_, pn) => theta_of_h s pn | None => Fin 0 end in
      let prior := (prior + thick * (theta_of_h s psi_old - below_old))%d in
      let newm := (newm + thick * (theta_of_h s psi - below_new))%d in
      dth <- aset dth k (Some below_new) ;; dz <- aset dz k (Some thick) ;; Ok (prior, newm, dth, dz)) st)).
  { induction k as [|k IH]; intros i st Hi Hk Hst; [exact Hst|]. cbn [zfor]. destruct st as [[[p w] d1] d2]. destruct Hst as (T1 & T2 & T3 & T4).
    eapply fin_bind; [|intros st' Hst'; apply IH; [lia|lia|exact Hst']].
    destruct (soil_of e i) as [s|] eqn:Es; [|cbn [bind]; pose proof (fin_soil e i) as F; rewrite Es in F; exact F]. cbn [bind]. destruct (vg_at i s ltac:(lia) Es) as (r & te & a & n & m & ks & V).
    eapply fin_bind; [apply fin_and; [apply fin_aget|intros x Ex; exact (cum_at i x ltac:(lia) Ex)]|]. intros c1 [z1 ->].
    eapply fin_bind; [apply fin_and; [apply fin_aget|intros x Ex; exact (cum_at (i - 1) x ltac:(lia) Ex)]|]. intros c0 [z0 ->]. cbv zeta.
    assert (B1 : tame (match below with Some (po, _) => theta_of_h s po | None => Fin 0 end)) by (destruct below as [[po pn]|]; [exact (theta_tame _ _ _ _ _ _ _ _ V (proj1 HB))|apply tame_fin]).
    assert (B2 : tame (match below with Some (_, pn) => theta_of_h s pn | None => Fin 0 end)) by (destruct below as [[po pn]|]; [exact (theta_tame _ _ _ _ _ _ _ _ V (proj2 HB))|apply tame_fin]).
    assert (TH : tame (Fin z1 - Fin z0)%d) by (apply tame_sub; apply tame_fin).
    eapply fin_bind; [apply fin_and; [apply fin_aset|intros x Ex; exact (entries_set _ _ _ _ T3 B2 Ex)]|]. intros d1' E1.
    eapply fin_bind; [apply fin_and; [apply fin_aset|intros x Ex; exact (entries_set _ _ _ _ T4 TH Ex)]|]. intros d2' E2.
    split; [|split; [|split; [exact E1|exact E2]]]; (apply tame_add; [assumption|]; apply tame_mul; [exact TH|]; apply tame_sub; [eapply theta_tame; [exact V|assumption]|assumption]). }
  apply G; [lia|lia|]. auto.
Qed.

Lemma clamp_fin : forall s r te t, s_theta_r s = Fin r -> s_theta_e s = Fin te -> exists x, clamp_theta s t = Fin x.
Proof.
  intros s r te t E1 E2. unfold clamp_theta. rewrite E1, E2. destruct t as [x| | |]; cbn; repeat match goal with |- context [Rltb ?a ?b] => destruct (Rltb a b); cbn end; eauto.
Qed.

Lemma balance_fs : forall lay s psi_old psi below prior newm ldth ldz add aet, (1 <= lay <= e_nlayers e)%Z -> soil_of e lay = Ok s -> not_negative psi_old -> not_negative psi ->
  match below with Some (po, pn) => not_negative po /\ not_negative pn | None => True end -> tame prior -> tame newm -> tame ldth -> tame ldz -> tame add -> tame aet ->
  finishes (fun '(th, a) => tame th /\ tame a) (fun j => @balance_theta exact (bounded b j) e lay s psi_old psi below prior newm ldth ldz add aet).
Proof.
  intros lay s psi_old psi below prior newm ldth ldz add aet HL Es H1 H2 HB HP HN HD HZ HA HT. unfold balance_theta. cbv zeta.
  eapply fs_pre; [apply masses_tame; try assumption; apply entries_none|]. intros [[[p w] d1] d2] (T1 & T2 & T3 & T4). cbv beta iota.
  eapply fs_pre; [apply fin_and; [apply fin_aset|intros x Ex; exact (entries_set _ _ _ _ T3 HD Ex)]|]. intros d1' E1.
  eapply fs_pre; [apply fin_and; [apply fin_aset|intros x Ex; exact (entries_set _ _ _ _ T4 HZ Ex)]|]. intros d2' E2. cbv beta.
  assert (VGk : forall k sk, (1 <= k <= lay)%Z -> soil_of e k = Ok sk -> exists r te a n m ks, vg_soil sk r te a n m ks) by (intros k sk Hk; apply vg_at; lia).
  eapply fs_bind with (P := fun x => tame (snd x)).
  - apply settled_fs.
    + intros i j L. apply (tmb_more (bounded b i) (bounded b j)). exact L.
    + apply (tmb_settles e lay s d1' d2' VGk ltac:(lia) Es E2 E1); [exact H2|exact T2|apply tame_add; assumption].
    + intros j [th a] E. cbn [snd]. refine (tmb_demand e lay s d1' d2' VGk ltac:(lia) Es E2 E1 (bounded b j) _ _ _ _ _ _ H2 T2 _ HT E). apply tame_add; assumption.
  - intros [th a] Ha. cbn [snd] in Ha. apply fs_const. cbn. split; [|exact Ha]. destruct (vg_at lay s HL Es) as (r & te & aa & n & m & ks & V).
    destruct (clamp_fin s r te th (vg_r _ _ _ _ _ _ _ V) (vg_e _ _ _ _ _ _ _ V)) as [x ->]. apply tame_fin.
Qed.

Lemma calm_get : forall l i, Forall calm l -> fin calm (lget l i).
Proof. intros l i H. unfold lget. destruct (nth_error l i) as [f|] eqn:E; [|discriminate]. apply nth_error_In in E. cbn. exact (proj1 (Forall_forall _ _) H f E). Qed.
Lemma calm_pget : forall l p, Forall calm l -> fin calm (pget l p).
Proof. intros l [i|] H; [apply calm_get; assumption|discriminate]. Qed.
Lemma old_calm : forall wf l prev, Forall calm l -> Forall calm prev -> Forall calm (fst (findFrontOld wf l prev)).
Proof. intros wf l prev H1 H2. unfold findFrontOld. destruct l; [assumption|]. destruct prev; assumption. Qed.

Lemma move_one_fs : forall dt volin wfd prev nf wf l aet, tame (Fin dt) -> tame volin -> Forall calm prev -> Forall calm l -> tame aet ->
  finishes (fun '(l', a) => Forall calm l' /\ tame a) (fun j => @move_one exact (bounded b j) e (Fin dt) volin wfd prev nf wf l aet).
Proof.
  intros dt volin wfd prev nf wf l aet HD HV HP HL HA. unfold move_one. cbv zeta.
  pose proof (old_calm wf l prev HL HP) as O1. pose proof (old_calm (wf + 1) l prev HL HP) as O2. destruct (findFrontOld wf l prev) as [lo po]. destruct (findFrontOld (wf + 1) l prev) as [lno pno]. cbn [fst] in *.
  set (pn := if ((wf =? 1) || (wf <? nf))%Z then findFront (wf + 1) l else None). clearbody pn.
  destruct (findFront wf l) as [p|]; [|apply fs_const; discriminate].
  eapply fs_pre; [apply calm_get; exact HL|]. intros c Hc. cbv beta.
  destruct (soil_of e (f_layer c)) as [s|r0] eqn:Es; [|cbn [bind]; apply fs_const; pose proof (fin_soil e (f_layer c)) as F; rewrite Es in F; exact F]. cbn [bind].
  pose proof (cm_layer c Hc) as Lc. unfold inside in Lc. destruct (vg_at (f_layer c) s Lc Es) as (r & te & aa & n & m & ks & V).
  assert (WA : tame (water_added wfd wf volin aet)). { unfold water_added. destruct (_ =? _)%Z; [|apply tame_fin]. apply tame_sub; [exact HV|]. apply tame_add; [apply tame_fin|exact HA]. }
  assert (DC : tame (f_depth c + f_dzdt c * Fin dt)%d). { apply tame_add; [exact (cm_depth _ Hc)|]. apply tame_mul; [exact (cm_dzdt _ Hc)|apply tame_fin]. }
  assert (UP : forall th d, tame th -> tame d -> calm (set_psi (set_theta (set_depth c d) th) (h_of_Se s (Se_of_theta s th)))).
  { intros th d T1 T2. constructor; cbn; [exact Lc|exact T2|exact T1|exact (cm_dzdt _ Hc)|exact (head_up _ _ _ _ _ _ _ _ V)]. }
  eapply fs_pre with (P := any); [destruct (wf =? 1)%Z; [exact I|apply fin_pget_any]|]. intros _ _.
  eapply fs_pre with (P := any); [destruct (wf =? nf)%Z; [exact I|eapply fin_bind; [apply fin_pget_any|intros; exact I]]|]. intros below _. cbv beta.
  destruct ((wf <? nf)%Z && negb (below =? f_layer c)%Z)%bool.
  - eapply fs_pre; [apply calm_pget; exact HL|]. intros nx Hn. apply fs_const. split; [|exact HA]. apply Forall_lset; [exact HL|].
    constructor; cbn; [exact Lc|exact (cm_depth _ Hc)|exact (theta_tame _ _ _ _ _ _ _ _ V (cm_psi _ Hn))|exact (cm_dzdt _ Hc)|exact (cm_psi _ Hn)].
  - destruct ((wf =? nf)%Z && negb (below =? f_layer c)%Z && (nf =? e_nlayers e)%Z)%bool.
    + eapply fs_pre; [apply calm_pget; exact O1|]. intros o Ho. eapply fs_pre; [apply fin_and; [apply fin_aget|intros x Ex; exact (cum_at (f_layer c - 1) x ltac:(lia) Ex)]|]. intros base [z ->]. cbv beta.
      cbn [f_depth f_theta f_psi set_depth]. eapply fs_bind.
      * apply balance_fs; [exact Lc|exact Es|exact (cm_psi _ Ho)|exact (cm_psi _ Hc)|exact I| | |apply tame_fin| |exact WA|exact HA]; try (apply tame_mul); try (apply tame_sub); try apply tame_fin; try exact DC; try exact (cm_depth _ Ho); try exact (cm_theta _ Ho); try exact (cm_theta _ Hc).
      * intros [th a] [T1 T2]. apply fs_const. split; [|exact T2]. apply Forall_lset; [exact HL|]. apply UP; assumption.
    + destruct ((wf <? nf)%Z && (below =? f_layer c)%Z)%bool; [|apply fs_const; split; assumption].
      eapply fs_pre; [apply calm_pget; exact HL|]. intros nx Hn. eapply fs_pre; [apply calm_pget; exact O1|]. intros o Ho. cbv beta. destruct (f_layer c =? 1)%Z.
      * apply fs_const. eapply fin_bind; [apply calm_pget; exact O2|]. intros no Hno. destruct (se_cum e SE (e_nlayers e) ltac:(lia)) as (col & Ecol & _). rewrite Ecol. cbn [bind].
        set (d' := dfmin (f_depth c + f_dzdt c * Fin dt) (Fin col)). assert (TD : tame d') by (unfold d'; apply tame_min; [exact DC|apply tame_fin]). clearbody d'.
        destruct (_ && _)%bool.
        -- split; [|exact HA]. apply Forall_lset; [exact HL|]. constructor; cbn; [exact Lc|exact TD|exact (cm_theta _ Hc)|exact (cm_dzdt _ Hc)|exact (head_up _ _ _ _ _ _ _ _ V)].
        -- destruct (_ <? s_theta_r s)%d.
           ++ eapply fin_bind; [apply fin_mass|]. intros m1 _. eapply fin_bind; [apply (fin_delete e)|]. { apply Forall_lset; [|exact Lc]. eapply Forall_impl; [|exact HL]. intros f Hf. exact (cm_layer _ Hf). } intros [l' o'] _. eapply fin_bind; [apply fin_mass|]. intros; discriminate.
           ++ split; [|exact HA]. apply Forall_lset; [exact HL|]. apply UP; [|exact TD].
              match goal with |- tame (dfmax (s_theta_r s) (dfmin (s_theta_e s) ?t)) => generalize t end. intro t. rewrite (vg_r _ _ _ _ _ _ _ V), (vg_e _ _ _ _ _ _ _ V). destruct t as [x| | |]; cbn; repeat match goal with |- context [Rltb ?a ?b] => destruct (Rltb a b); cbn end; apply tame_fin.
      * eapply fs_pre; [apply calm_get; exact O1|]. intros no' Hno'. eapply fs_pre; [apply calm_pget; exact O2|]. intros no Hno. eapply fs_pre; [apply fin_and; [apply fin_aget|intros x Ex; exact (cum_at (f_layer c - 1) x ltac:(lia) Ex)]|]. intros base [z ->]. cbv beta.
        cbn [f_depth f_theta f_psi set_depth]. eapply fs_bind.
        -- apply balance_fs; [exact Lc|exact Es|exact (cm_psi _ Ho)|exact (cm_psi _ Hc)|split; [exact (cm_psi _ Hno')|exact (cm_psi _ Hn)]| | |exact (cm_theta _ Hn)| |exact WA|exact HA]; try (apply tame_mul); try (apply tame_sub); try apply tame_fin; try exact DC; try exact (cm_depth _ Ho); try exact (cm_theta _ Ho); try exact (cm_theta _ Hc); try exact (cm_theta _ Hno); try exact (cm_theta _ Hn).
        -- intros [th a] [T1 T2]. apply fs_const. split; [|exact T2]. apply Forall_lset; [exact HL|]. apply UP; assumption.
Qed.

Lemma move_loop_fs : forall dt volin wfd prev nf k l aet, tame volin -> Forall calm prev -> Forall calm l -> tame aet ->
  finishes (fun '(l', a) => Forall calm l' /\ tame a) (fun j => @move_loop exact (bounded b j) k e (Fin dt) volin wfd prev nf l aet).
Proof.
  intros dt volin wfd prev nf. induction k as [|k IH]; intros l aet HV HP HL HA; [cbn [move_loop]; apply fs_const; split; assumption|]. cbn [move_loop].
  eapply fs_bind; [apply move_one_fs; try assumption; apply tame_fin|]. intros [l' a'] [H1 H2]. cbv beta iota. apply IH; assumption.
Qed.

Lemma move_fs : forall dt volin wfd om aet head prev, tame volin -> Forall calm prev -> Forall calm head -> tame aet ->
  finishes (fun '(l, _, _) => Forall (inside e) l) (fun j => @lgar_move_wetting_fronts exact (bounded b j) e (Fin dt) volin wfd om aet head prev).
Proof.
  intros dt volin wfd om aet head prev HV HP HL HA. unfold lgar_move_wetting_fronts. cbv zeta. eapply fs_pre; [apply fin_aget|]. intros _ _.
  eapply fs_bind; [apply move_loop_fs; assumption|]. intros [l a] [H1 H2]. cbv beta iota. apply fs_const.
  assert (I1 : Forall (inside e) l) by (eapply Forall_impl; [|exact H1]; intros f Hf; exact (cm_layer _ Hf)).
  eapply fin_bind with (P := fun r => Forall (inside e) (fst (fst r))); [destruct head; [exact I1|apply fin_closure; exact I1]|]. intros [[l1 a1] bf] J1. cbn [fst] in J1.
  eapply fin_bind; [apply fin_phases; exact J1|]. intros [[l2 fl] mc] J2. cbn [fst] in J2. cbv zeta.
  eapply fin_bind; [apply fin_refresh; exact J2|]. intros l3 J3. eapply fin_bind; [apply fin_single; exact J3|]. intros l4 J4. exact J4.
Qed.

(** ** The rest of the sub-step *)

Variables (closed : bool) (nint : Z).
Hypothesis CAP : capillary closed nint e.
Lemma cap_or : closed = true \/ (1 <= nint)%Z.
Proof. unfold capillary in CAP. destruct closed; auto. Qed.

Lemma dzdt_front_fs : forall h c n, inside e c -> finishes any (fun j => @dzdt_front exact (bounded b j) e closed nint h c n).
Proof.
  intros h c n Lc. unfold dzdt_front. destruct (soil_of e (f_layer c)) as [s|r0] eqn:Es; [|cbn [bind]; apply fs_const; pose proof (fin_soil e (f_layer c)) as F; rewrite Es in F; exact F]. cbn [bind].
  destruct (vg_at (f_layer c) s Lc Es) as (r & te & aa & nn & m & ks & V). eapply fs_pre; [apply fin_aget|]. intros ff _. cbv zeta beta.
  eapply fs_pre with (P := any); [destruct (_ >? _)%Z; [eapply fin_bind; [apply fin_aget|intros; exact I]|exact I]|]. intros bs _. destruct (_ >? _)%d; [apply fs_const; discriminate|].
  eapply fs_bind; [exact (geff_fs _ _ _ _ _ _ _ _ _ _ _ _ V cap_or)|]. intros G _. apply fs_const. cbv zeta.
  eapply fin_bind with (P := any); [destruct (_ =? _)%Z; [exact I|eapply fin_bind; [apply fin_denominator|intros; exact I]]|]. intros dz _. exact I.
Qed.
Lemma dzdt_fs : forall h l, Forall (inside e) l -> finishes any (fun j => @lgar_dzdt_calc exact (bounded b j) e closed nint h l).
Proof.
  intros h l H. assert (G : finishes any (fun j => @dzdt_loop exact (bounded b j) e closed nint h l)).
  { induction l as [|c l IH]; [cbn [dzdt_loop]; apply fs_const; exact I|]. inversion H as [|? ? Hc Hl]; subst. cbn [dzdt_loop]. destruct (_ <? _)%d; [apply fs_const; discriminate|].
    eapply fs_pre; [apply fin_soil|]. intros _ _. eapply fs_pre; [apply fin_aget|]. intros _ _. cbv beta. destruct l as [|n l]; [apply fs_const; exact I|].
    eapply fs_bind with (P := any); [destruct (f_bottom c); [apply fs_const; exact I|apply dzdt_front_fs; exact Hc]|]. intros v _. cbv beta. eapply fs_bind; [apply IH; exact Hl|]. intros; apply fs_const; exact I. }
  unfold lgar_dzdt_calc. destruct l; [apply fs_const; discriminate|exact G].
Qed.
Lemma dry_fs : forall dt l, Forall (inside e) l -> finishes any (fun j => @lgar_calc_dry_depth exact (bounded b j) e closed nint dt l).
Proof.
  intros dt l H. unfold lgar_calc_dry_depth. eapply fs_pre; [apply fin_lget; exact H|]. intros c Hc. cbv beta.
  destruct (soil_of e (f_layer c)) as [s|r0] eqn:Es; [|cbn [bind]; apply fs_const; pose proof (fin_soil e (f_layer c)) as F; rewrite Es in F; exact F]. cbn [bind].
  destruct (vg_at (f_layer c) s Hc Es) as (r & te & aa & nn & m & ks & V). eapply fs_pre; [apply fin_aget|]. intros ff _. cbv zeta beta.
  eapply fs_bind; [exact (geff_fs _ _ _ _ _ _ _ _ _ _ _ _ V cap_or)|]. intros G _. apply fs_const. eapply fin_bind; [apply fin_aget|]. intros; exact I.
Qed.

(** *** Infiltration *)

Lemma up_add : forall x y, x <> NInf -> y <> NInf -> (x + y)%d <> NInf.
Proof. intros [| | |] [| | |] H1 H2; cbn; congruence. Qed.
Lemma up_mul : forall x k, x <> NInf -> 0 < k -> (x * Fin k)%d <> NInf.
Proof. intros [| | |] k H1 H2; cbn; unfold inf_sign; try congruence. destruct (Rlt_dec 0 k); [discriminate|lra]. Qed.
Lemma up_mul' : forall x k, x <> NInf -> 0 < k -> (Fin k * x)%d <> NInf.
Proof. intros [| | |] k H1 H2; cbn; unfold inf_sign; try congruence. destruct (Rlt_dec 0 k); [discriminate|lra]. Qed.
Lemma up_div : forall x k, x <> NInf -> 0 < k -> (x / Fin k)%d <> NInf.
Proof. intros [| | |] k H1 H2; cbn; try congruence; [destruct (Req_EM_T k 0); [lra|discriminate]|destruct (Rlt_dec k 0); [lra|discriminate]]. Qed.
Lemma up_nn : forall x, not_negative x -> x <> NInf.
Proof. intros [| | |] H; try discriminate. Qed.

Lemma geff_up : forall (cfg : Cfg) k s t1 t2 ks g, (1 <= k <= e_nlayers e)%Z -> soil_of e k = Ok s -> calc_Geff closed t1 t2 s ks nint = Ok g -> g <> NInf.
Proof.
  intros cfg k s t1 t2 ks g Hk Es E. pose proof CAP as C. unfold capillary in C. destruct closed.
  - destruct (C k s Hk Es) as (lam & pb & El & Ep & Hl & Hp). unfold calc_Geff in E. cbn [negb] in E. cbv zeta in E. rewrite El, Ep in E. apply Ok_inj in E. subst g.
    assert (HC : exists x, (Fin pb * ((lit 2 + lit 3 * Fin lam) / (lit 1 + lit 3 * Fin lam)))%d = Fin x).
    { change ((lit 2 + lit 3 * Fin lam))%d with (Fin (2 + 3 * lam)). change (lit 1 + lit 3 * Fin lam)%d with (Fin (1 + 3 * lam)). rewrite div_fin by lra. eexists. reflexivity. }
    destruct HC as [x ->]. match goal with |- context [disinf ?G] => generalize G end. intros [| | |]; discriminate.
  - apply up_nn. exact (geff_integral_nn _ _ _ _ _ _ E).
Qed.

Lemma sum_fin : forall lay z0, conducting e -> (1 <= lay <= e_nlayers e)%Z -> fin (fun x => exists z, x = Fin z) (layers_above_sum e lay (Fin z0)).
Proof.
  intros lay z0 HC HL. unfold layers_above_sum.
  assert (G : forall k i z, (1 <= i)%Z -> (i + Z.of_nat k <= lay)%Z -> fin (fun x => exists z, x = Fin z) (zfor i k (fun k sum =>
    s <- soil_of e (lay - k)%Z ;; ff <- aget (e_frozen e) (lay - k)%Z ;; let Kk := (s_Ksat s * ff)%d in c1 <- aget (e_cum e) (lay - k)%Z ;; c0 <- aget (e_cum e) (lay - (k + 1))%Z ;; Ok (sum + (c1 - c0) / Kk)%d) (Fin z))).
  { induction k as [|k IH]; intros i z Hi Hk; [exists z; reflexivity|]. cbn [zfor].
    destruct (soil_of e (lay - i)) as [s|r0] eqn:Es; [|cbn [bind]; pose proof (fin_soil e (lay - i)) as F; rewrite Es in F; exact F]. cbn [bind]. destruct (vg_at (lay - i) s ltac:(lia) Es) as (r & te & a & n & m & ks & V).
    destruct (HC (lay - i)%Z ltac:(lia)) as (x & Ex & Hx). rewrite Ex. cbn [bind]. cbv zeta.
    destruct (se_cum e SE (lay - i)%Z ltac:(lia)) as (z1 & E1 & _). rewrite E1. cbn [bind]. destruct (se_cum e SE (lay - (i + 1))%Z ltac:(lia)) as (z2 & E2 & _). rewrite E2. cbn [bind]. destruct V. rewrite vg_k. change (Fin ks * Fin x)%d with (Fin (ks * x)).
    change (Fin z1 - Fin z2)%d with (Fin (z1 - z2)). rewrite div_fin by (apply Rgt_not_eq; apply Rmult_lt_0_compat; assumption). apply IH; lia. }
  apply G; lia.
Qed.
Lemma storage_fin : fin (fun x => exists z, x = Fin z) (max_storage e).
Proof.
  unfold max_storage.
  assert (G : forall k i z, (1 <= i)%Z -> (i + Z.of_nat k - 1 <= e_nlayers e)%Z -> fin (fun x => exists z, x = Fin z) (zfor i k (fun k sum =>
    s <- soil_of e k ;; c1 <- aget (e_cum e) k ;; c0 <- aget (e_cum e) (k - 1)%Z ;; Ok (sum + s_theta_e s * (c1 - c0))%d) (Fin z))).
  { induction k as [|k IH]; intros i z Hi Hk; [exists z; reflexivity|]. cbn [zfor].
    destruct (soil_of e i) as [s|r0] eqn:Es; [|cbn [bind]; pose proof (fin_soil e i) as F; rewrite Es in F; exact F]. cbn [bind]. destruct (vg_at i s ltac:(lia) Es) as (r & te & a & n & m & ks & V).
    destruct (se_cum e SE i ltac:(lia)) as (z1 & E1 & _). rewrite E1. cbn [bind]. destruct (se_cum e SE (i - 1)%Z ltac:(lia)) as (z2 & E2 & _). rewrite E2. cbn [bind]. destruct V. rewrite vg_e. apply IH; lia. }
  apply G; [lia|]. pose proof (se_n e SE). lia.
Qed.
Lemma mass_tame : forall l, Forall calm l -> fin tame (lgar_calc_mass_bal (e_cum e) l).
Proof.
  intros l H. unfold lgar_calc_mass_bal. generalize (tame_fin 0). generalize (Fin 0). induction H as [|c l Hc Hl IH]; intros sum HS; [exact HS|]. cbn [mass_loop].
  pose proof (cm_layer _ Hc) as Lc. unfold inside in Lc. destruct (se_cum e SE (f_layer c - 1)%Z ltac:(lia)) as (z & Ez & _). rewrite Ez. cbn [bind].
  assert (T : tame (f_depth c - Fin z)%d) by (apply tame_sub; [exact (cm_depth _ Hc)|apply tame_fin]).
  destruct l as [|n l].
  - cbn. apply tame_add; [exact HS|]. apply tame_mul; [exact (cm_theta _ Hc)|exact T].
  - cbv zeta. apply IH. apply tame_add; [exact HS|]. inversion Hl as [|? ? Hn _]; subst. destruct (_ =? _)%Z; apply tame_mul; try exact T; [apply tame_sub; [exact (cm_theta _ Hc)|exact (cm_theta _ Hn)]|exact (cm_theta _ Hc)].
Qed.

Definition eased (f : front) : Prop := calm f /\ exists d, f_depth f = Fin d /\ 0 < d.
Lemma eased_get : forall l i, Forall eased l -> fin eased (lget l i).
Proof. intros l i H. unfold lget. destruct (nth_error l i) as [f|] eqn:E; [|discriminate]. apply nth_error_In in E. cbn. exact (proj1 (Forall_forall _ _) H f E). Qed.
Lemma eased_pget : forall l p, Forall eased l -> fin eased (pget l p).
Proof. intros l [i|] H; [apply eased_get; assumption|discriminate]. Qed.

Lemma capacity_fs : forall dt aet ponded precip wfd head, conducting e -> 0 < dt -> tame aet -> Forall eased head ->
  finishes (fun f => f <> NInf) (fun j => @infiltration_capacity exact (bounded b j) e closed nint (Fin dt) aet ponded precip wfd head).
Proof.
  intros dt aet ponded precip wfd head HC HD HA HL. unfold infiltration_capacity. cbv zeta.
  eapply fs_pre; [apply eased_pget; exact HL|]. intros fd [Cfd (d & Ed & Pd)]. cbv beta. pose proof (cm_layer _ Cfd) as Lf. unfold inside in Lf.
  destruct (soil_of e (f_layer fd)) as [s|r0] eqn:Es; [|cbn [bind]; apply fs_const; pose proof (fin_soil e (f_layer fd)) as F; rewrite Es in F; exact F]. cbn [bind]. destruct (vg_at _ s Lf Es) as (r & te & a & n & m & ks & V).
  eapply fs_pre; [apply eased_get; exact HL|]. intros cur [Ccur _]. cbv beta. pose proof (cm_layer _ Ccur) as Lcur. unfold inside in Lcur.
  destruct (HC _ Lcur) as (x & Ex & Hx). rewrite Ex. cbn [bind]. rewrite (vg_k _ _ _ _ _ _ _ V). change (Fin ks * Fin x)%d with (Fin (ks * x)). assert (PK : 0 < ks * x) by (apply Rmult_lt_0_compat; [exact (vg_k0 _ _ _ _ _ _ _ V)|exact Hx]).
  eapply fs_bind with (P := fun g => g <> NInf).
  { destruct (_ =? _)%Z; [apply fs_const; discriminate|]. eapply fs_pre; [apply fin_pget_any|]. intros nx _. cbv beta. apply settled_fs.
    - intros i j L. apply (calc_Geff_more (bounded b i) (bounded b j)). exact L.
    - eapply fs_settles. exact (geff_fs _ _ _ _ _ _ _ _ _ _ _ _ V cap_or).
    - intros j g E. exact (geff_up (bounded b j) _ _ _ _ _ _ Lf Es E). }
  intros G HG. cbv beta. apply fs_const. set (h_p := dfmax (ponded - precip * Fin dt) (Fin 0)).
  assert (HH : h_p <> NInf). { apply up_nn. unfold h_p. apply nn_fmax0. } clearbody h_p.
  assert (GH : (G + h_p)%d <> NInf) by (apply up_add; assumption).
  eapply fin_bind with (P := fun f => f <> NInf).
  { rewrite Ed. destruct (_ =? _)%Z.
    - apply up_mul'; [|exact PK]. apply up_add; [discriminate|]. apply up_div; [exact GH|exact Pd].
    - destruct (se_cum e SE (f_layer fd - 1)%Z ltac:(lia)) as (z & Ez & _). rewrite Ez. cbn [bind]. change (Fin d - Fin z)%d with (Fin (d - z)). rewrite div_fin by lra.
      eapply fin_bind; [apply sum_fin; [exact HC|exact Lf]|]. intros bs [q ->]. apply up_add; [|apply up_div; [apply up_mul; [exact GH|exact PK]|exact Pd]].
      unfold ddiv. destruct (Req_EM_T q 0); [|discriminate]. unfold inf_sign. destruct (Rlt_dec 0 d); [discriminate|lra]. }
  intros f1 H1. eapply fin_bind; [apply fin_soil|]. intros s1 _.
  match goal with |- context [if ?c then dfmin f1 (aet / Fin dt)%d else f1] => set (f2 := if c then dfmin f1 (aet / Fin dt)%d else f1); assert (H2 : f2 <> NInf) end.
  { unfold f2. destruct (_ && _ && _)%bool; [|exact H1]. assert (T : tame (aet / Fin dt)%d) by (apply tame_div; [exact HA|lra]). destruct T as [_ T]. unfold dfmin. destruct f1, (aet / Fin dt)%d; try exact H1; try exact T; destruct (_ <? _)%d; assumption. }
  clearbody f2. eapply fin_bind; [apply mass_tame; eapply Forall_impl; [|exact HL]; intros f [Hf _]; exact Hf|]. intros cm Hcm. eapply fin_bind; [apply storage_fin|]. intros ms [y ->].
  assert (T : tame ((Fin y - cm) / Fin dt)%d) by (apply tame_div; [apply tame_sub; [apply tame_fin|exact Hcm]|lra]). destruct (_ >? _)%d; [exact (proj2 T)|exact H2].
Qed.

Lemma partition_tame : forall dt w volin pmax f ro po v, 0 < dt -> tame volin -> f <> NInf -> surface_partition (Fin dt) (Fin w) volin pmax f = (ro, po, v) -> tame v.
Proof.
  intros dt w volin pmax f ro po v HD HV HF E. unfold surface_partition in E. cbv zeta in E.
  assert (Z0 : (Fin 0 / Fin dt)%d = Fin 0) by (rewrite div_fin by lra; f_equal; field; lra). rewrite Z0 in E.
  assert (M : tame (dfmin (Fin w) (f * Fin dt + Fin 0)%d)).
  { destruct f as [x| | |]; [| |congruence|].
    - cbn. destruct (Rltb _ _); apply tame_fin.
    - cbn. unfold inf_sign. destruct (Rlt_dec 0 dt); [|lra]. cbn. apply tame_fin.
    - cbn. apply tame_fin. }
  destruct (pmax >? Fin 0)%d eqn:P; [|congruence].
  destruct (_ <? pmax)%d; [congruence|]. destruct (_ >? pmax)%d eqn:Q; [|congruence]. injection E as _ _ <-.
  destruct f as [x| | |]; [apply tame_fin| |congruence|apply tame_nan]. exfalso. cbn in Q. unfold inf_sign in Q. destruct (Rlt_dec 0 dt); [|lra]. cbn in Q.
  destruct pmax as [y| | |]; try discriminate. cbn in *. unfold Rltb in *. destruct (Rlt_dec y 0), (Rlt_dec 0 y); try discriminate. lra.
Qed.

Lemma hydro_fs : forall u dt precip_prev precip_rate pet precip volon w volend head prev, u_env u = e -> u_dt u = Fin dt -> u_closed u = closed -> u_nint u = nint -> conducting e -> 0 < dt -> Forall eased head -> Forall calm prev ->
  finishes any (fun j => @sub_hydro exact (bounded b j) u precip_prev precip_rate (Fin pet) precip volon (Fin w) volend head prev).
Proof.
  intros u dt precip_prev precip_rate pet precip volon w volend head prev Ee Ed Ec En HC HD HL HP. unfold sub_hydro. rewrite Ee, Ed, Ec, En. cbv zeta.
  assert (HL' : Forall calm head) by (eapply Forall_impl; [|exact HL]; intros f [Hf _]; exact Hf).
  assert (HI : Forall (inside e) head) by (eapply Forall_impl; [|exact HL']; intros f Hf; exact (cm_layer _ Hf)).
  eapply fs_pre with (P := tame).
  { destruct (_ >? _)%d; [|apply tame_fin]. apply fin_and; [apply fin_calc_aet|]. intros x E. unfold calc_aet in E. destruct (lget head 0) as [c|]; [|discriminate E]. cbn [bind] in E. destruct (soil_of e (f_layer c)) as [s|]; [|discriminate E]. cbn [bind] in E. cbv zeta in E. apply Ok_inj in E.
    change (Fin pet * Fin dt)%d with (Fin (pet * dt)) in E. match type of E with (if (?t <? Fin 0)%d then _ else _) = _ => generalize dependent t end. intros t E. destruct (t <? Fin 0)%d eqn:Q1; [subst; apply tame_fin|]. destruct (t >? Fin (pet * dt))%d eqn:Q2; [subst; apply tame_fin|]. subst t.
    destruct x as [y| | |]; [apply tame_fin|discriminate Q2|discriminate Q1|apply tame_nan]. }
  intros aet HA. cbv beta. eapply fs_pre with (P := any).
  { unfold create_decision. eapply fin_bind; [apply fin_lget_any|]. intros h _. eapply fin_bind; [apply fin_soil|]. intros; exact I. }
  intros create _. cbv beta. destruct create.
  - eapply fs_bind with (P := fun x => Forall (inside e) (b_head x)).
    + unfold sub_create. rewrite Ee, Ed, Ec, En. cbv zeta. eapply fs_bind; [apply move_fs; [apply tame_fin|exact HP|exact HL'|exact HA]|]. intros [[l a] pd] H1. cbv beta iota. eapply fs_bind; [apply dry_fs; exact H1|]. intros [dry dth] _. cbv beta iota.
      apply fs_const. eapply fin_bind; [apply fin_lget_any|]. intros h _. eapply fin_bind; [apply fin_create_front; [exact (se_n e SE)|exact H1]|]. intros [[l2 po] vi] H2. exact H2.
    + intros x Hx. cbv beta. rewrite andb_false_r. cbn [bind]. eapply fs_bind; [apply dzdt_fs; unfold sub_no_insert; destruct (_ <? _)%d; exact Hx|]. intros l _. apply fs_const. exact I.
  - cbn [bind]. cbn [b_ponded]. rewrite andb_true_r.
    eapply fs_bind with (P := fun x => b_head x = head /\ b_prev x = prev /\ b_aet x = aet /\ tame (b_volin x)).
    + destruct (_ >? _)%d.
      * unfold sub_insert, lgar_insert_water. rewrite Ee, Ed, Ec, En. cbn [b_aet b_ponded b_volin b_head b_prev b_rech].
        eapply fs_bind with (P := fun '(ro, po, v) => tame v).
        -- eapply fs_bind; [apply capacity_fs; assumption|]. intros f Hf. apply fs_const. cbn. destruct (surface_partition _ _ _ _ _) as [[ro po] v] eqn:Q. exact (partition_tame _ _ _ _ _ _ _ _ HD (tame_fin 0) Hf Q).
        -- intros [[ro po] v] Hv. cbv beta iota. apply fs_const. destruct (ro <? Fin 0)%d; [discriminate|]. repeat split; apply Hv.
      * apply fs_const. unfold sub_no_insert. cbn [b_ponded]. destruct (Fin w <? u_pmax u)%d; repeat split; discriminate.
    + intros x (E1 & E2 & E3 & T). cbv beta. eapply fs_bind with (P := fun x => Forall (inside e) (b_head x)).
      * unfold sub_move. rewrite Ee, Ed. eapply fs_bind; [apply move_fs; [exact T|rewrite E2; exact HP|rewrite E1; exact HL'|rewrite E3; exact HA]|]. intros [[l a] q] H1. apply fs_const. exact H1.
      * intros y Hy. cbv beta. eapply fs_bind; [apply dzdt_fs; exact Hy|]. intros; apply fs_const; exact I.
Qed.
End Column.

Lemma eased_at : forall e f, at_ease e f -> eased e f.
Proof. intros e f [H1 H2 H3 H4 H5]. split; [|exact H2]. constructor; try assumption. destruct H2 as (d & -> & _). apply tame_fin. Qed.
Lemma copy_calm : forall e l, Forall (calm e) l -> Forall (calm e) (listCopy l).
Proof. intros e l H. unfold listCopy. exact H. Qed.

Theorem substep_finishes : forall u dt st a on, sound_env (u_env u) -> vg_column (u_env u) -> conducting (u_env u) -> capillary (u_closed u) (u_nint u) (u_env u) -> u_dt u = Fin dt -> 0 < dt ->
  Forall (at_ease (u_env u)) (st_head st) -> finite (st_precip st) -> finite (st_pet st) -> a_on a = Fin on -> finishes any (fun j => @substep exact (bounded b j) u st a).
Proof.
  intros u dt st a on SE VC HC CP Ed HD HL [pr Ep] [pe Ee] Eo. unfold substep. cbv zeta. rewrite Ep, Ee, Eo, Ed.
  assert (E1 : exists x, (dfmax (Fin pr) (Fin 0) * mm_to_cm)%d = Fin x) by (cbn; destruct (Rltb pr 0); eexists; reflexivity).
  assert (E2 : exists x, (dfmax (Fin pe) (Fin 0) * mm_to_cm)%d = Fin x) by (cbn; destruct (Rltb pe 0); eexists; reflexivity). destruct E1 as [x1 E1]. destruct E2 as [x2 E2]. rewrite E1, E2.
  eapply fs_pre; [apply fin_mass|]. intros vs _. cbv beta. change (Fin x1 * Fin dt + Fin on)%d with (Fin (x1 * dt + on)).
  assert (HE : Forall (eased (u_env u)) (st_head st)) by (eapply Forall_impl; [|exact HL]; intros f Hf; apply eased_at; exact Hf).
  eapply fs_bind; [eapply hydro_fs; try eassumption; try reflexivity; apply copy_calm; eapply Forall_impl; [|exact HE]; intros f [Hf _]; exact Hf|]. intros x _. cbv beta. apply fs_const.
  eapply fin_bind; [apply fin_mass|]. intros ve _. destruct (_ >? _)%d; [discriminate|]. eapply fin_bind; [apply fin_lget_any|]. intros h _. eapply fin_bind; [apply fin_cassert|]. intros; exact I.
Qed.
End Exactly.
