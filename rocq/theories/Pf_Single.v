(** The motion of the fronts in a column of one layer, in exact arithmetic. *)

From Coq Require Import Reals Lra ZArith List Bool Lia.
From Verif Require Import Outcome Dbl Exact Types ListOps Soil Fronts Infil Move Lib Spec_Common Spec_List Spec_Soil Spec_Update Spec_Profile Spec_Storage Spec_Single
  Pf_Dbl Pf_Pow Pf_Infil Pf_List Pf_Soil Pf_Profile Pf_Structure Pf_Storage Pf_Merge Pf_Cross Pf_Repair Pf_SafeMove.
Import ListNotations.
Open Scope R_scope.
Local Existing Instance exact.

Lemma fmin_fin : forall x y, dfmin (Fin x) (Fin y) = Fin (Rmin x y).
Proof. intros. unfold dfmin, dltb, Rltb, Rmin. destruct (Rlt_dec x y), (Rle_dec x y); try reflexivity; f_equal; lra. Qed.
Lemma fmax_fin : forall x y, dfmax (Fin x) (Fin y) = Fin (Rmax x y).
Proof. intros. unfold dfmax, dltb, Rltb, Rmax. destruct (Rlt_dec x y), (Rle_dec x y); try reflexivity; f_equal; lra. Qed.

(** ** One layer *)

Lemma single_D : forall e s r te D, single e s r te D -> 0 < D.
Proof. intros e s r te D [HE Hn H0 H1 _ _ _]. apply (cum_mono e HE 0 1 0 D); auto; lia. Qed.

Lemma single_layer : forall e s r te D l p c, single e s r te D -> Str e l -> nth_error l p = Some c -> f_layer c = 1%Z.
Proof. intros e s r te D l p c HS H E. assert (R := Str_range _ _ _ _ H E). rewrite (sg_n _ _ _ _ _ HS) in R. lia. Qed.

Lemma slabs_two : forall c n r, slabs 0 (c :: n :: r) = val (f_depth c) * (val (f_theta c) - val (f_theta n)) + slabs 0 (n :: r).
Proof. intros. cbn [slabs]. lra. Qed.

(** ** One front *)

Section Move.
Context {cfg : Cfg}.

Lemma move_last : forall e dt precip wfd prev w l aet s r te D, single e s r te D -> Str e l -> numbered prev -> length prev = length l ->
  (2 <= length l)%nat -> S w = length l -> move_one e dt precip wfd prev (listLength l) (Z.of_nat (S w)) l aet = Ok (l, aet).
Proof.
  intros e dt precip wfd prev w l aet s r te D HS H HN HL H2 Hw. unfold move_one, listLength.
  assert (Hne : l <> []) by (destruct l; [cbn in Hw; lia|discriminate]).
  rewrite (find_num l w (st_num _ _ H)) by lia. rewrite (find_old l prev w Hne HN) by lia.
  destruct (nth_error l w) as [c|] eqn:Ec; [|apply nth_error_None in Ec; lia].
  destruct (findFrontOld (Z.of_nat (S w) + 1) l prev) as [lno pno] eqn:Eno. cbv zeta.
  rewrite (proj2 (lget_Ok _ _ _) Ec). cbn [bind]. rewrite (single_layer e s r te D l w c HS H Ec), (sg_soil _ _ _ _ _ HS). cbn [bind].
  destruct (Z.eqb_spec (Z.of_nat (S w)) 1); [lia|]. destruct w as [|w]; [lia|].
  replace (Z.of_nat (S (S w)) - 1)%Z with (Z.of_nat (S w)) by lia. rewrite (find_num l w (st_num _ _ H)) by lia. cbn [pget].
  destruct (nth_error l w) as [d|] eqn:Ed; [|apply nth_error_None in Ed; lia]. rewrite (proj2 (lget_Ok _ _ _) Ed). cbn [bind].
  rewrite Hw, Z.eqb_refl. cbn [bind]. rewrite Z.ltb_irrefl. cbn [andb negb Z.eqb Z.add Pos.add Pos.eqb].
  rewrite (sg_n _ _ _ _ _ HS). destruct (Z.eqb_spec (Z.of_nat (length l)) 1); [lia|]. reflexivity.
Qed.

Lemma move_free : forall e dt precip wfd prev a c n b no aet s r te D d v tc tn tno x l' aet', single e s r te D ->
  let l := a ++ c :: n :: b in
  Str e l -> numbered prev -> length prev = length l -> nth_error prev (length a) = Some c -> nth_error prev (S (length a)) = Some no ->
  f_depth c = Fin d -> f_dzdt c = Fin v -> 0 < v -> 0 < d -> 0 < dt -> f_theta c = Fin tc -> f_theta n = Fin tn -> f_theta no = Fin tno ->
  water_added wfd (Z.of_nat (S (length a))) precip aet = Fin x ->
  let d' := Rmin (d + v * dt) D in let t' := (d * (tc - tno) + x) / d' + tn in
  move_one e (Fin dt) precip wfd prev (listLength l) (Z.of_nat (S (length a))) l aet = Ok (l', aet') ->
  aet' = aet /\ r <= t' /\ exists psi, head_ok psi /\ l' = a ++ set_psi (set_theta (set_depth c (Fin d')) (Fin (Rmin te t'))) psi :: n :: b.
Proof.
  intros e dt precip wfd prev a c n b no aet s r te D d v tc tn tno x l' aet' HS l H HN HL Eo Eno Ed Ev Hv Hd Hdt Etc Etn Etno Ex d' t' E.
  set (w := length a) in *. assert (Hw : (S w < length l)%nat) by (unfold l, w; rewrite app_length; cbn [length]; lia).
  assert (Hne : l <> []) by (destruct l; [cbn in Hw; lia|discriminate]).
  assert (Ec : nth_error l w = Some c) by (unfold l; rewrite nth_error_app2, Nat.sub_diag by (unfold w; lia); reflexivity).
  assert (En : nth_error l (S w) = Some n) by (unfold l; rewrite nth_error_app2 by (unfold w; lia); replace (S w - length a)%nat with 1%nat by (unfold w; lia); reflexivity).
  assert (Hd' : 0 < d'). { pose proof (single_D _ _ _ _ _ HS). assert (0 < v * dt) by (apply Rmult_lt_0_compat; assumption). unfold d'. apply Rmin_glb_lt; lra. }
  unfold move_one, listLength in E.
  rewrite (find_num l w (st_num _ _ H)) in E by lia. rewrite (find_old l prev w Hne HN) in E by lia.
  replace (Z.of_nat (S w) + 1)%Z with (Z.of_nat (S (S w))) in E by lia. rewrite (find_old l prev (S w) Hne HN) in E by lia.
  assert (Hlt : (Z.of_nat (S w) <? Z.of_nat (length l))%Z = true) by (apply Z.ltb_lt; lia).
  rewrite Hlt, orb_true_r in E. rewrite (find_num l (S w) (st_num _ _ H)) in E by lia. cbv zeta in E. cbn [pget] in E.
  rewrite (proj2 (lget_Ok _ _ _) Ec), (proj2 (lget_Ok _ _ _) En) in E. cbn [bind] in E.
  rewrite (single_layer e s r te D l w c HS H Ec), (single_layer e s r te D l (S w) n HS H En), (sg_soil _ _ _ _ _ HS) in E. cbn [bind] in E.
  apply bind_Ok in E as (c0 & _ & E).
  destruct (Z.eqb_spec (Z.of_nat (S w)) (Z.of_nat (length l))); [lia|]. cbn [bind andb negb Z.eqb Pos.eqb] in E.
  rewrite (proj2 (lget_Ok _ _ _) Eo), (proj2 (lget_Ok _ _ _) Eno) in E. cbn [bind] in E.
  rewrite (sg_n _ _ _ _ _ HS), (sg_bottom _ _ _ _ _ HS) in E. cbn [bind] in E.
  rewrite Ex in E. cbn [f_dzdt f_bottom f_theta f_depth set_depth] in E. rewrite Ev, Ed, Etc, Etn, Etno in E.
  assert (E1 : (Fin v =? Fin 0)%d = false) by (apply Reqb_false; lra). rewrite E1 in E. cbn [andb] in E.
  change (Fin d + Fin v * Fin dt)%d with (Fin (d + v * dt)) in E. rewrite fmin_fin in E. fold d' in E.
  change (Fin d * (Fin tc - Fin tno) + Fin x)%d with (Fin (d * (tc - tno) + x)) in E. rewrite div_fin in E by lra.
  change (Fin ((d * (tc - tno) + x) / d') + Fin tn)%d with (Fin t') in E.
  destruct (sg_vg _ _ _ _ _ HS) as (al & nn & m & k & V). rewrite (vg_r _ _ _ _ _ _ _ V), (vg_e _ _ _ _ _ _ _ V) in E.
  destruct (Fin t' <? Fin r)%d eqn:T.
  - apply bind_Ok in E as (z1 & _ & E). apply bind_Ok in E as ([z2 z3] & _ & E). apply bind_Ok in E as (z4 & _ & E). discriminate.
  - apply Rltb_false in T. rewrite fmin_fin, fmax_fin in E. apply Ok_inj in E. apply pair_equal_spec in E as [E <-]. split; [reflexivity|]. split; [assumption|].
    rewrite Rmax_right in E by (apply Rmin_glb; [pose proof (vg_re _ _ _ _ _ _ _ V); lra|assumption]).
    eexists. split; [apply (head_of_water s r te al nn m k (Rmin te t') V); split; [apply Rmin_glb; [pose proof (vg_re _ _ _ _ _ _ _ V); lra|assumption]|apply Rmin_l]|].
    rewrite <- E. unfold l, w. rewrite lset_app. reflexivity.
Qed.

(** ** All fronts *)

(** What happens to the fronts [h] below the first one: they become [t]. *)
Record sunk (e : env) (D : R) (h t : list front) : Prop := {
  sk_like : Forall2 (fun f g => alike f g /\ (conducts f -> conducts g)) h t;
  sk_slabs : slabs 0 t = slabs 0 h;
  sk_theta : forall f g, hd_error h = Some f -> hd_error t = Some g -> val (f_theta g) <= val (f_theta f);
  sk_measured : measured t;
  sk_within : within_soils e t;
  sk_drier : drier_downwards t;
  sk_below : below_surface t;
  sk_inside : Forall (fun f => val (f_depth f) <= D) t;
  sk_rooted : forall s, rooted s h -> rooted s t
}.

(** What the fronts below the first one have to satisfy. *)
Definition calm_below (e : env) (D : R) (h : list front) : Prop :=
  measured h /\ within_soils e h /\ drier_downwards h /\ below_surface h /\ Forall (fun f => val (f_depth f) <= D) h /\ Forall sinks h.

Lemma calm_tl : forall e D c h, calm_below e D (c :: h) -> calm_below e D h.
Proof.
  intros e D c h (A & B & C & F & G & I). inversion A; inversion B; inversion F; inversion G; inversion I; subst.
  repeat split; auto. destruct h as [|n h]; [exact Logic.I|apply C].
Qed.

Lemma added_below : forall w precip aet, water_added 1 (Z.of_nat (S (S w))) precip aet = Fin 0.
Proof. intros. unfold water_added. destruct (Z.eqb_spec 1 (Z.of_nat (S (S w)))); [lia|reflexivity]. Qed.

Lemma sink_step : forall e s r te D c no h n b dt d v tc tn tno psi, single e s r te D -> head_ok psi -> f_layer c = 1%Z -> f_layer n = 1%Z -> f_layer no = 1%Z -> f_bottom c = false ->
  calm_below e D (c :: no :: h) -> sunk e D (no :: h) (n :: b) ->
  f_depth c = Fin d -> f_dzdt c = Fin v -> 0 < v -> 0 < dt -> f_theta c = Fin tc -> f_theta n = Fin tn -> f_theta no = Fin tno ->
  let d' := Rmin (d + v * dt) D in let t' := (d * (tc - tno) + 0) / d' + tn in
  sunk e D (c :: no :: h) (set_psi (set_theta (set_depth c (Fin d')) (Fin (Rmin te t'))) psi :: n :: b).
Proof.
  intros e s r te D c no h n b dt d v tc tn tno psi HS Hpsi Lc Ln Lo Hb (Cm & Cw & Cd & Cs & Ci & Cv) [K1 K2 K3 K4 K5 K6 K7 K8 K9] Ed Ev Hv Hdt Etc Etn Etno d' t'.
  assert (Hd : 0 < d). { inversion Cs as [|z1 z2 Z1 Z2]; subst z1 z2. rewrite Ed in Z1. exact Z1. }
  assert (HdD : d <= D). { inversion Ci as [|z1 z2 Z1 Z2]; subst z1 z2. rewrite Ed in Z1. exact Z1. }
  assert (Hvd : 0 < v * dt) by (apply Rmult_lt_0_compat; assumption).
  assert (Hd' : d <= d') by (unfold d'; apply Rmin_glb; lra). assert (HD' : d' <= D) by (unfold d'; apply Rmin_r).
  assert (Hco : tno < tc). { destruct Cd as [Cd _]. rewrite Etno, Etc in Cd. apply Cd. congruence. }
  assert (Hno : tn <= tno). { specialize (K3 no n eq_refl eq_refl). rewrite Etn, Etno in K3. exact K3. }
  destruct (sg_vg _ _ _ _ _ HS) as (al & nn & m & k & V).
  assert (Wc : r <= tc <= te). { inversion Cw as [|z1 z2 (s0 & r0 & e0 & t0 & W1 & W2 & W3 & W4 & W5) Z2]; subst z1 z2. rewrite Lc, (sg_soil _ _ _ _ _ HS) in W1. apply Ok_inj in W1. subst s0.
    rewrite (vg_r _ _ _ _ _ _ _ V) in W2. rewrite (vg_e _ _ _ _ _ _ _ V) in W3. rewrite Etc in W4. injection W2 as <-. injection W3 as <-. injection W4 as <-. exact W5. }
  assert (Wn : r <= tn <= te). { inversion K5 as [|z1 z2 (s0 & r0 & e0 & t0 & W1 & W2 & W3 & W4 & W5) Z2]; subst z1 z2. rewrite Ln, (sg_soil _ _ _ _ _ HS) in W1. apply Ok_inj in W1. subst s0.
    rewrite (vg_r _ _ _ _ _ _ _ V) in W2. rewrite (vg_e _ _ _ _ _ _ _ V) in W3. rewrite Etn in W4. injection W2 as <-. injection W3 as <-. injection W4 as <-. exact W5. }
  assert (HM : d' * (t' - tn) = d * (tc - tno)) by (unfold t'; field; lra).
  assert (P1 : 0 < d * (tc - tno)) by (apply Rmult_lt_0_compat; lra).
  assert (T1 : tn < t'). { apply Rmult_lt_reg_l with d'; [lra|]. lra. }
  assert (T2 : t' <= tc). { apply Rmult_le_reg_l with d'; [lra|]. assert (d * (tc - tno) <= d' * (tc - tno)) by (apply Rmult_le_compat_r; lra).
    assert (d' * tn <= d' * tno) by (apply Rmult_le_compat_l; lra). lra. }
  rewrite Rmin_right by lra.
  constructor.
  - constructor; [|exact K1]. split; [|intros [X _]; split; [exact X|exact Hpsi]]. split; [|split; reflexivity]. split; [reflexivity|]. split; [reflexivity|]. rewrite Hb. discriminate.
  - rewrite !slabs_two, K2. cbn [f_depth f_theta set_psi set_theta set_depth val]. rewrite Ed, Etc, Etn, Etno. cbn [val]. lra.
  - intros f g Ef Eg. injection Ef as <-. injection Eg as <-. cbn. rewrite Etc. exact T2.
  - constructor; [|exact K4]. split; eexists; reflexivity.
  - constructor; [|exact K5]. exists s, r, te, t'. cbn. rewrite Lc. repeat split; try lra; [apply (sg_soil _ _ _ _ _ HS)|apply (vg_r _ _ _ _ _ _ _ V)|apply (vg_e _ _ _ _ _ _ _ V)].
  - split; [|exact K6]. intros _. cbn. rewrite Etn. exact T1.
  - constructor; [cbn; lra|exact K7].
  - constructor; [cbn; lra|exact K8].
  - intros s0 RH. inversion RH; subst. constructor; [cbn; rewrite Hb; discriminate|]. apply K9. assumption.
Qed.

Lemma like_length : forall h t, Forall2 (fun f g => alike f g /\ (conducts f -> conducts g)) h t -> length t = length h.
Proof. induction 1; cbn; auto. Qed.
Lemma like_alike : forall h t, Forall2 (fun f g => alike f g /\ (conducts f -> conducts g)) h t -> Forall2 alike h t.
Proof. induction 1; constructor; auto. apply H. Qed.
Lemma alike_app : forall a b c, Forall2 alike b c -> Forall2 alike (a ++ b) (a ++ c).
Proof. induction a; intros; cbn; [assumption|]. constructor; [apply alike_refl|auto]. Qed.

Lemma fin_val : forall d, finite d -> d = Fin (val d).
Proof. intros d (x & ->). reflexivity. Qed.

Lemma loop_down : forall e s r te D dt precip aet0 head, single e s r te D -> Str e head -> calm_below e D (tl head) -> (2 <= length head)%nat -> 0 < dt ->
  forall k a h t l' aet', head = a ++ h -> length a = S k -> sunk e D h t -> h <> [] ->
  move_loop (S k) e (Fin dt) precip 1 head (listLength head) (a ++ t) aet0 = Ok (l', aet') ->
  exists c0 t0, hd_error head = Some c0 /\ sunk e D (tl head) t0 /\ move_loop 1 e (Fin dt) precip 1 head (listLength head) (c0 :: t0) aet0 = Ok (l', aet').
Proof.
  intros e s r te D dt precip aet0 head HS H HC H2 Hdt. induction k as [|k IH]; intros a h t l' aet' EH Ha K Hne E.
  - destruct a as [|c0 [|]]; try discriminate. exists c0, t. subst head. split; [reflexivity|]. split; [exact K|exact E].
  - cbn [move_loop] in E. fold move_loop in E.
    destruct (exists_last (l := a) ltac:(intros ->; discriminate)) as (a1 & c & Ea). subst a. rewrite app_length in Ha. cbn [length] in Ha.
    rewrite <- app_assoc in E, EH. cbn [app] in E, EH. destruct h as [|no h]; [contradiction|].
    pose proof (sk_like _ _ _ _ K) as KL. inversion KL as [|z1 n z2 b [Kn1 Kn2] KL']; subst z1 z2 t.
    assert (Hlen : length (a1 ++ c :: n :: b) = length head). { rewrite EH, !app_length. cbn [length]. f_equal. do 2 f_equal. apply like_length in KL'. exact KL'. }
    assert (Str' : Str e (a1 ++ c :: n :: b)).
    { apply (Str_alike e head); [|exact H]. rewrite EH. apply alike_app. constructor; [apply alike_refl|]. apply (like_alike _ _ KL). }
    assert (Ec : nth_error head (length a1) = Some c) by (rewrite EH, nth_error_app2, Nat.sub_diag by lia; reflexivity).
    assert (Eno : nth_error head (S (length a1)) = Some no) by (rewrite EH, nth_error_app2 by lia; replace (S (length a1) - length a1)%nat with 1%nat by lia; reflexivity).
    assert (HCs : calm_below e D (c :: no :: h)).
    { clear - HC EH Ha. subst head. destruct a1 as [|x a1]; [cbn in Ha; lia|]. cbn [app tl] in HC. clear Ha. induction a1 as [|y a1 IHa]; [exact HC|]. apply IHa. apply (calm_tl _ _ _ _ HC). }
    assert (Lc := single_layer _ _ _ _ _ _ _ _ HS H Ec). assert (Lno := single_layer _ _ _ _ _ _ _ _ HS H Eno).
    assert (Ln : f_layer n = 1%Z) by (destruct Kn1 as [(X & _) _]; congruence).
    assert (Bc : f_bottom c = false) by (eapply Str_above; [exact H|exact Ec|exact Eno|congruence]).
    pose proof HCs as (Cm & Cw & Cd & Cs & Ci & Cv).
    inversion Cv as [|z1 z2 Sc _]; subst z1 z2. destruct (Sc Bc) as (v & Ev & Hv).
    inversion Cm as [|z1 z2 [Fd Ft] Cm']; subst z1 z2. inversion Cm' as [|z1 z2 [_ Fno] _]; subst z1 z2.
    pose proof (sk_measured _ _ _ _ K) as Mt. inversion Mt as [|z1 z2 [_ Fn] _]; subst z1 z2.
    apply fin_val in Fd, Ft, Fno, Fn.
    assert (Hd : 0 < val (f_depth c)) by (inversion Cs; assumption).
    apply bind_Ok in E as ([l1 aet1] & E1 & E).
    replace (Z.of_nat (S (S k))) with (Z.of_nat (S (length a1))) in E1 by lia.
    replace (listLength head) with (listLength (a1 ++ c :: n :: b)) in E1 by (unfold listLength; rewrite Hlen; reflexivity).
    assert (HA : water_added 1 (Z.of_nat (S (length a1))) precip aet0 = Fin 0) by (destruct a1 as [|x1 a1]; [cbn in Ha; lia|apply added_below]).
    destruct (move_free e dt precip 1 head a1 c n b no aet0 s r te D _ v _ _ _ 0 l1 aet1 HS Str' (st_num _ _ H) (eq_sym Hlen) Ec Eno Fd Ev Hv Hd Hdt Ft Fn Fno HA E1) as (-> & _ & psi & Hpsi & ->).
    apply (IH a1 (c :: no :: h) _ l' aet' EH ltac:(lia)) in E; [exact E| |discriminate].
    apply (sink_step e s r te D c no h n b dt _ v _ _ _ psi HS Hpsi Lc Ln Lno Bc HCs K Fd Ev Hv Hdt Ft Fn Fno).
Qed.

Lemma loop_single : forall e s r te D dt precip aet c no h l' aet' d v tc tno x, single e s r te D -> let head := c :: no :: h in
  Str e head -> calm_below e D (no :: h) -> sinks c -> 0 < dt ->
  f_depth c = Fin d -> 0 < d -> f_dzdt c = Fin v -> f_theta c = Fin tc -> f_theta no = Fin tno -> water_added 1 1 precip aet = Fin x ->
  move_loop (length head) e (Fin dt) precip 1 head (listLength head) head aet = Ok (l', aet') ->
  aet' = aet /\ exists n b tn psi, let d' := Rmin (d + v * dt) D in let t' := (d * (tc - tno) + x) / d' + tn in
    sunk e D (no :: h) (n :: b) /\ head_ok psi /\ f_theta n = Fin tn /\ r <= t' /\ l' = set_psi (set_theta (set_depth c (Fin d')) (Fin (Rmin te t'))) psi :: n :: b.
Proof.
  intros e s r te D dt precip aet c no h l' aet' d v tc tno x HS head H HC Sc Hdt Ed Hd Ev Etc Etno Ex E.
  assert (H2 : (2 <= length head)%nat) by (cbn; lia).
  destruct (exists_last (l := head) ltac:(discriminate)) as (a & bt & EH). assert (HL : length head = S (length a)) by (rewrite EH, app_length; cbn; lia).
  assert (Ebt : nth_error head (length a) = Some bt) by (rewrite EH, nth_error_app2, Nat.sub_diag by lia; reflexivity).
  rewrite HL in E. cbn [move_loop] in E. fold move_loop in E.
  rewrite (move_last e _ _ _ head (length a) head aet s r te D HS H (st_num _ _ H) eq_refl H2 (eq_sym HL)) in E. cbn [bind] in E.
  assert (Ec : nth_error head 0 = Some c) by reflexivity. assert (Eno : nth_error head 1 = Some no) by reflexivity.
  assert (Lc := single_layer _ _ _ _ _ _ _ _ HS H Ec). assert (Lno := single_layer _ _ _ _ _ _ _ _ HS H Eno).
  assert (Bc : f_bottom c = false) by (eapply Str_above; [exact H|exact Ec|exact Eno|congruence]).
  destruct (Sc Bc) as (v' & Ev' & Hv). assert (v' = v) by congruence. subst v'.
  destruct (length a) as [|k] eqn:La; [lia|].
  assert (KB : sunk e D [bt] [bt]).
  { assert (HB : calm_below e D [bt]). { assert (EH' : no :: h = tl a ++ [bt]) by (destruct a as [|x0 a0]; [discriminate|]; injection EH as _ EH; exact EH).
      rewrite EH' in HC. clear - HC. induction (tl a) as [|y a1 IHa]; [exact HC|]. apply IHa. apply (calm_tl _ _ _ _ HC). }
    destruct HB as (A1 & A2 & A3 & A4 & A5 & _). constructor; auto.
    - constructor; [split; [apply alike_refl|auto]|constructor].
    - intros f g Ef Eg. assert (f = g) by congruence. subst. lra. }
  destruct (loop_down e s r te D dt precip aet head HS H HC H2 Hdt k a [bt] [bt] l' aet' EH La KB ltac:(discriminate)) as (c0 & t0 & E0 & K & E1); [rewrite <- EH; exact E|].
  injection E0 as <-. cbn [tl head] in K. pose proof (sk_like _ _ _ _ K) as KL. inversion KL as [|z1 n z2 b [Kn1 Kn2] KL']; subst z1 z2 t0.
  pose proof (sk_measured _ _ _ _ K) as Mt. inversion Mt as [|z1 z2 [_ Fn] _]; subst z1 z2. apply fin_val in Fn.
  cbn [move_loop] in E1. apply bind_Ok in E1 as ([l1 a1] & E1 & E2). apply Ok_inj in E2. apply pair_equal_spec in E2 as [-> ->].
  assert (Hlen : length (c :: n :: b) = length head). { unfold head. cbn [length]. f_equal. f_equal. apply like_length in KL'. exact KL'. }
  assert (Str' : Str e (c :: n :: b)). { apply (Str_alike e head); [|exact H]. constructor; [apply alike_refl|]. apply (like_alike _ _ KL). }
  replace (listLength head) with (listLength (c :: n :: b)) in E1 by (unfold listLength; rewrite Hlen; reflexivity).
  destruct (move_free e dt precip 1 head [] c n b no aet s r te D d v tc _ tno x l' aet' HS Str' (st_num _ _ H) (eq_sym Hlen) Ec Eno Ed Ev Hv Hd Hdt Etc Fn Etno Ex E1) as (-> & R1 & psi & Hpsi & ->).
  split; [reflexivity|]. exists n, b, (val (f_theta n)), psi. auto.
Qed.

(** ** Closure *)

Lemma cross_single : forall e s r te D l, single e s r te D -> Str e l -> lgar_wetting_fronts_cross_layer_boundary e l = Ok l.
Proof.
  intros e s r te D l HS H. unfold lgar_wetting_fronts_cross_layer_boundary.
  assert (G : forall k p, (p < length l)%nat -> (length l - p <= k)%nat -> cross_loop k e p l = Ok l).
  { induction k as [|k IH]; intros p Hp Hk; [lia|]. cbn [cross_loop]. unfold listLength.
    destruct (Z.eqb_spec (Z.of_nat (S p)) (Z.of_nat (length l))); [reflexivity|].
    destruct (nth_error l p) as [c|] eqn:Ec; [|apply nth_error_None in Ec; lia]. destruct (nth_error l (S p)) as [n0|] eqn:En; [|apply nth_error_None in En; lia].
    unfold cross_step. rewrite (proj2 (lget_Ok _ _ _) Ec), (proj2 (lget_Ok _ _ _) En). cbn [bind].
    rewrite (single_layer _ _ _ _ _ _ _ _ HS H Ec), (sg_soil _ _ _ _ _ HS). cbn [bind].
    destruct (env_frozen e 1 (sg_env _ _ _ _ _ HS)) as [ff Ef]; [rewrite (sg_n _ _ _ _ _ HS); lia|]. rewrite Ef. cbn [bind].
    rewrite (sg_bottom _ _ _ _ _ HS). cbn [bind]. rewrite (sg_n _ _ _ _ _ HS), Z.eqb_refl, andb_false_r. cbn [bind]. apply IH; lia. }
  assert (l <> []) by (eapply Str_nonempty; [|exact H]; rewrite (sg_n _ _ _ _ _ HS); lia). destruct l; [contradiction|]. apply G; cbn [length]; lia.
Qed.

Lemma drains_first : forall e s r te D c n b, single e s r te D -> Str e (c :: n :: b) -> wetting_front_free_drainage (c :: n :: b) = 1%Z.
Proof.
  intros e s r te D c n b HS H. unfold wetting_front_free_drainage. cbn [free_drainage_loop].
  rewrite (single_layer _ _ _ _ _ _ 0%nat c HS H eq_refl), (single_layer _ _ _ _ _ _ 1%nat n HS H eq_refl), Z.eqb_refl. unfold listLength.
  destruct (Z.gtb_spec 1 (Z.of_nat (length (c :: n :: b)))) as [G|G]; [cbn [length] in G; lia|reflexivity].
Qed.

Lemma single_mass : forall e s r te D l, single e s r te D -> Str e l -> measured l -> lgar_calc_mass_bal (e_cum e) l = Ok (Fin (storage l)).
Proof.
  intros e s r te D l HS H M. apply mass_is_storage with (e_nlayers e); auto; [rewrite (sg_n _ _ _ _ _ HS); lia| |apply (sg_top _ _ _ _ _ HS)].
  apply Str_iff; [rewrite (sg_n _ _ _ _ _ HS); lia|assumption].
Qed.

Definition at_depth (c : front) (d : R) : front := set_depth c (Fin d).
Lemma at_own_depth : forall c d, f_depth c = Fin d -> at_depth c d = c.
Proof. intros c d E. unfold at_depth. rewrite <- E. destruct c; reflexivity. Qed.
Lemma storage_at : forall c n b d, storage (at_depth c d :: n :: b) = d * (val (f_theta c) - val (f_theta n)) + storage (n :: b).
Proof. intros. unfold storage. rewrite slabs_two. reflexivity. Qed.

Lemma moved_str : forall e c n b d, f_bottom c = false -> Str e (c :: n :: b) -> Str e (at_depth c d :: n :: b).
Proof.
  intros e c n b d Hb H. apply (Str_lset e (c :: n :: b) 0 c (at_depth c d) eq_refl); [|exact H]. split; [|split; reflexivity]. split; [reflexivity|]. split; [reflexivity|]. rewrite Hb. discriminate.
Qed.
Lemma moved_measured : forall c n b d, measured (c :: n :: b) -> measured (at_depth c d :: n :: b).
Proof. intros c n b d M. inversion M as [|x y [_ Ft] M']; subst. constructor; [split; [eexists; reflexivity|exact Ft]|exact M']. Qed.

Lemma closure_loop_eq : forall k e p target l mass err factor dn sw aug iter,
  closure_loop k e p target l mass err factor dn sw aug iter =
  if (dabs (err - closure_tol) >? lit (1 / 10000000000))%d then
    match k with
    | O => Ok (l, err, true)
    | S k' =>
        let iter := (iter + 1)%Z in
        let aug' := (iter >? 1000)%Z && negb aug in
        let factor := if aug' then (factor * lit 100)%d else factor in
        let '(depth_new, switched, factor) :=
          if (mass <? target)%d then ((dn + lit (1 / 100) * factor)%d, false, factor)
          else
            let factor := if sw then factor else (factor * lit (1 / 1000))%d in
            ((dn - lit (1 / 100) * factor)%d, true, factor) in
        f <- lget l p ;;
        depth_new <- (if f_bottom f && (f_layer f =? e_nlayers e)%Z then aget (e_cum e) (e_nlayers e) else Ok depth_new) ;;
        let l := lset l p (set_depth f depth_new) in
        mass <- lgar_calc_mass_bal (e_cum e) l ;;
        closure_loop k' e p target l mass (dabs (mass - target)) factor depth_new switched (aug' || aug) iter
    end
  else Ok (l, err, false).
Proof. intros. destruct k; reflexivity. Qed.

Definition tight (S T : R) : Prop := Rabs (S - T) <= 2 / 10000000000.

Lemma tight_test : forall x, (dabs (Fin (Rabs x) - closure_tol) >? lit (1 / 10000000000))%d = false -> Rabs x <= 2 / 10000000000.
Proof.
  intros x H. unfold closure_tol in H. change (lit (1 / 10000000000)) with (Fin (1 / 10000000000)) in H. unfold dgtb in H. cbn [dltb dabs dsub rnd exact] in H.
  apply Rltb_false in H. pose proof (Rle_abs (Rabs x - 1 / 10000000000)). lra.
Qed.
Lemma tight_zero : (dabs (Fin (Rabs 0) - closure_tol) >? lit (1 / 10000000000))%d = false.
Proof.
  unfold closure_tol. change (lit (1 / 10000000000)) with (Fin (1 / 10000000000)). unfold dgtb. cbn [dltb dabs dsub rnd exact]. apply Rltb_false.
  rewrite Rabs_R0. replace (0 - 1 / 10000000000) with (- (1 / 10000000000)) by lra. rewrite Rabs_Ropp, Rabs_right; lra.
Qed.

Lemma closure_loop_single : forall e s r te D T c n b, single e s r te D -> f_bottom c = false -> Str e (c :: n :: b) -> measured (c :: n :: b) ->
  forall k d fa sw aug iter l' err g,
  let l := at_depth c d :: n :: b in
  closure_loop k e 0 (Fin T) l (Fin (storage l)) (Fin (Rabs (storage l - T))) (Fin fa) (Fin d) sw aug iter = Ok (l', err, g) ->
  exists d', l' = at_depth c d' :: n :: b /\ err = Fin (Rabs (storage l' - T)) /\ (g = false -> tight (storage l') T).
Proof.
  intros e s r te D T c n b HS Hb H M. induction k as [|k IH]; intros d fa sw aug iter l' err g l E; rewrite closure_loop_eq in E.
  - destruct (_ >? _)%d eqn:T0; apply Ok_inj in E; injection E as E1 E2 E3; subst; exists d; (split; [reflexivity|]); (split; [reflexivity|]).
    + discriminate.
    + intros _. apply tight_test in T0. exact T0.
  - destruct (_ >? _)%d eqn:T0; [|apply Ok_inj in E; injection E as E1 E2 E3; subst; exists d; (split; [reflexivity|]); (split; [reflexivity|]); intros _; apply tight_test in T0; exact T0].
    cbv zeta in E.
    assert (G : exists fa1, (if (iter + 1 >? 1000)%Z && negb aug then (Fin fa * lit 100)%d else Fin fa) = Fin fa1) by (destruct ((iter + 1 >? 1000)%Z && negb aug)%bool; eexists; reflexivity).
    destruct G as [fa1 G]. rewrite G in E. clear G.
    match type of E with (match ?t with _ => _ end) = _ => assert (G : exists d1 sw1 fa2, t = (Fin d1, sw1, Fin fa2)) end.
    { destruct (Fin (storage l) <? Fin T)%d; [do 3 eexists; reflexivity|]. destruct sw; do 3 eexists; reflexivity. }
    destruct G as (d1 & sw1 & fa2 & G). rewrite G in E. clear G.
    unfold l in E. cbn [lget nth_error] in E. change (lget (at_depth c d :: n :: b) 0) with (Ok (at_depth c d)) in E. cbn [bind] in E.
    change (f_bottom (at_depth c d)) with (f_bottom c) in E. rewrite Hb in E. cbn [andb bind lset] in E.
    change (set_depth (at_depth c d) (Fin d1)) with (at_depth c d1) in E.
    rewrite (single_mass e s r te D _ HS (moved_str e c n b d1 Hb H) (moved_measured c n b d1 M)) in E. cbn [bind] in E.
    apply IH in E. exact E.
Qed.

Lemma closure_single : forall e s r te D S0 p a c n b d t1 tn l' a' q, single e s r te D -> f_bottom c = false -> Str e (c :: n :: b) -> measured (c :: n :: b) ->
  f_depth c = Fin d -> 0 < d -> f_theta c = Fin t1 -> f_theta n = Fin tn -> let T := S0 + p - a in let S := storage (c :: n :: b) in
  (S = T \/ t1 = te /\ tn < te /\ S < T) ->
  closure e (Fin S0) (Fin p) (c :: n :: b) (Fin a) = Ok (l', a', q) ->
  exists d' a2 q2, l' = at_depth c d' :: n :: b /\ a' = Fin a2 /\ q = Fin q2 /\
    (d' = d /\ a2 = a /\ q2 = 0 /\ S = T \/
     t1 = te /\ tn < te /\ Rabs (storage l' - (S0 + p - a2 - q2)) <= 2 / 10000000000).
Proof.
  intros e s r te D S0 p a c n b d t1 tn l' a' q HS Hb H M Ed Hd Et1 Etn T S HST E. unfold closure in E.
  rewrite (cross_single e s r te D _ HS H) in E. cbn [bind] in E. cbv zeta in E. rewrite (drains_first e s r te D _ _ _ HS H), (sg_soil _ _ _ _ _ HS) in E. cbn [bind] in E.
  assert (F : findFront 1 (c :: n :: b) = Some 0%nat) by (apply (find_num _ 0 (st_num _ _ H)); cbn; lia). rewrite F in E. clear F.
  apply bind_Ok in E as (u & _ & E). change (lget (c :: n :: b) 0) with (Ok c) in E. cbn [bind nth_error] in E.
  destruct (sg_vg _ _ _ _ _ HS) as (al & nn & m & kk & V). rewrite (vg_e _ _ _ _ _ _ _ V), Et1, Etn in E.
  change (Fin S0 + Fin p - (Fin a + Fin 0))%d with (Fin (S0 + p - (a + 0))) in E. replace (S0 + p - (a + 0)) with T in E by (unfold T; lra).
  assert (Same : at_depth c d :: n :: b = c :: n :: b) by (rewrite (at_own_depth c d Ed); reflexivity).
  destruct (_ <? _)%d eqn:TE.
  2:{ apply Ok_inj in E. apply pair_equal_spec in E as [E <-]. apply pair_equal_spec in E as [<- <-]. exists d, a, 0. split; [rewrite Same; reflexivity|]. split; [reflexivity|]. split; [reflexivity|].
      left. repeat (split; [reflexivity|]). destruct HST as [|(X & _)]; [assumption|]. exfalso. subst t1.
      unfold dltb, dabs, dsub in TE. cbn [rnd exact] in TE. change (lit (1 / 1000000000000000)) with (Fin (1 / 1000000000000000)) in TE. cbn in TE. replace (te - te) with 0 in TE by lra. rewrite Rabs_R0 in TE. apply Rltb_false in TE. lra. }
  rewrite (single_mass e s r te D _ HS H M) in E. cbn [bind] in E. fold S in E.
  change (dabs (Fin S - Fin T)) with (Fin (Rabs (S - T))) in E.
  match type of E with context [closure_loop ?k e 0 (Fin T) _ _ _ ?f] => set (K := k) in E; set (fa := f) in E end.
  destruct (Req_dec S T) as [EQ|NE].
  - (* closed already *)
    rewrite closure_loop_eq in E. replace (S - T) with 0 in E by lra. rewrite tight_zero in E. cbn [bind] in E.
    apply Ok_inj in E. apply pair_equal_spec in E as [E <-]. apply pair_equal_spec in E as [<- <-]. exists d, a, 0. split; [rewrite Same; reflexivity|]. split; [reflexivity|]. split; [reflexivity|].
    left. auto.
  - destruct HST as [|(X1 & X2 & X3)]; [contradiction|].
    assert (G : exists f, fa = Fin f).
    { unfold fa. change (dabs (Fin t1 - Fin tn)) with (Fin (Rabs (t1 - tn))). match goal with |- exists f, (if ?t then _ else _) = _ => destruct t end; [|eexists; reflexivity].
      change (lit 1) with (Fin 1). rewrite div_fin; [eexists; reflexivity|]. rewrite Rabs_right; lra. }
    destruct G as [f G]. rewrite G in E. clear fa G. rewrite Ed in E. unfold S in E. rewrite <- Same in E.
    apply bind_Ok in E as ([[l1 err] g] & EL & E).
    apply (closure_loop_single e s r te D T c n b HS Hb H M) in EL. destruct EL as (d1 & -> & -> & HT).
    destruct g.
    + rewrite (single_mass e s r te D _ HS (moved_str e c n b d1 Hb H) (moved_measured c n b d1 M)) in E. cbn [bind] in E.
      apply Ok_inj in E. apply pair_equal_spec in E as [E E3]. apply pair_equal_spec in E as [E1 E2].
      exists d1, (a + Rabs (storage l' - T)), (0 + (S0 + p - (a + Rabs (storage l' - T) + 0) - storage l')). rewrite <- E1. split; [reflexivity|]. split; [symmetry; exact E2|]. split; [symmetry; exact E3|].
      right. split; [assumption|]. split; [assumption|]. match goal with |- Rabs ?x <= _ => replace x with 0 by lra end. rewrite Rabs_R0. lra.
    + apply Ok_inj in E. apply pair_equal_spec in E as [E <-]. apply pair_equal_spec in E as [<- <-]. exists d1, a, 0. split; [reflexivity|]. split; [reflexivity|]. split; [reflexivity|].
      right. split; [assumption|]. split; [assumption|]. replace (S0 + p - a - 0) with T by (unfold T; lra). exact (HT eq_refl).
Qed.
End Move.
