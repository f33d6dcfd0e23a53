(** How the motion of the fronts in a column of one layer can stop, in exact arithmetic. *)

From Coq Require Import Reals Lra ZArith List Bool Lia.
From Verif Require Import Outcome Dbl Exact Types ListOps Soil Fronts Infil Move Lib Spec_Common Spec_List Spec_Soil Spec_Update Spec_Profile Spec_Storage Spec_Single
  Pf_Dbl Pf_Pow Pf_Infil Pf_List Pf_Soil Pf_Profile Pf_Structure Pf_Storage Pf_Merge Pf_Cross Pf_Repair Pf_SafeMove Pf_Single Pf_SingleMerge.
Import ListNotations.
Open Scope R_scope.
Local Existing Instance exact.

Lemma bind_Stop : forall A B (m : outcome A) (f : A -> outcome B) w, bind m f = Stop w -> m = Stop w \/ exists a, m = Ok a /\ f a = Stop w.
Proof. intros A B [a|w0] f w E; [right; eauto|left; cbn in E; congruence]. Qed.

Section Stop.
Context {cfg : Cfg}.

Lemma move_free_stop : forall e dt precip wfd prev a c n b no aet s r te D d v tc tn tno x why, single e s r te D ->
  let l := a ++ c :: n :: b in
  Str e l -> measured l -> numbered prev -> length prev = length l -> nth_error prev (length a) = Some c -> nth_error prev (S (length a)) = Some no ->
  f_depth c = Fin d -> f_dzdt c = Fin v -> 0 < v -> 0 < d -> 0 < dt -> f_theta c = Fin tc -> f_theta n = Fin tn -> f_theta no = Fin tno ->
  water_added wfd (Z.of_nat (S (length a))) precip aet = Fin x ->
  let d' := Rmin (d + v * dt) D in let t' := (d * (tc - tno) + x) / d' + tn in
  move_one e (Fin dt) precip wfd prev (listLength l) (Z.of_nat (S (length a))) l aet = Stop why ->
  why = UB UseAfterFree /\ t' < r.
Proof.
  intros e dt precip wfd prev a c n b no aet s r te D d v tc tn tno x why HS l H M HN HL Eo Eno Ed Ev Hv Hd Hdt Etc Etn Etno Ex d' t' E.
  set (w := length a) in *. assert (Hw : (S w < length l)%nat) by (unfold l, w; rewrite app_length; cbn [length]; lia).
  assert (Hne : l <> []) by (destruct l; [cbn in Hw; lia|discriminate]).
  assert (Ec : nth_error l w = Some c) by (unfold l; rewrite nth_error_app2, Nat.sub_diag by (unfold w; lia); reflexivity).
  assert (En : nth_error l (S w) = Some n) by (unfold l; rewrite nth_error_app2 by (unfold w; lia); replace (S w - length a)%nat with 1%nat by (unfold w; lia); reflexivity).
  assert (Lc := single_layer e s r te D l w c HS H Ec). assert (Ln := single_layer e s r te D l (S w) n HS H En).
  assert (Bc : f_bottom c = false) by (eapply Str_above; [exact H|exact Ec|exact En|congruence]).
  assert (Hd' : 0 < d'). { pose proof (single_D _ _ _ _ _ HS). assert (0 < v * dt) by (apply Rmult_lt_0_compat; assumption). unfold d'. apply Rmin_glb_lt; lra. }
  unfold move_one, listLength in E.
  rewrite (find_num l w (st_num _ _ H)) in E by lia. rewrite (find_old l prev w Hne HN) in E by lia.
  replace (Z.of_nat (S w) + 1)%Z with (Z.of_nat (S (S w))) in E by lia. rewrite (find_old l prev (S w) Hne HN) in E by lia.
  assert (Hlt : (Z.of_nat (S w) <? Z.of_nat (length l))%Z = true) by (apply Z.ltb_lt; lia).
  rewrite Hlt, orb_true_r in E. rewrite (find_num l (S w) (st_num _ _ H)) in E by lia. cbv zeta in E. cbn [pget] in E.
  rewrite (proj2 (lget_Ok _ _ _) Ec), (proj2 (lget_Ok _ _ _) En) in E. cbn [bind] in E.
  rewrite Lc, Ln, (sg_soil _ _ _ _ _ HS) in E. cbn [bind] in E.
  match type of E with bind ?m _ = _ => assert (X : exists c0, m = Ok c0) end.
  { destruct (Z.eqb_spec (Z.of_nat (S w)) 1); [eauto|]. destruct w as [|w0]; [lia|]. replace (Z.of_nat (S (S w0)) - 1)%Z with (Z.of_nat (S w0)) by lia.
    rewrite (find_num l w0 (st_num _ _ H)) by lia. cbn [pget]. destruct (nth_error l w0) as [g|] eqn:Eg; [|apply nth_error_None in Eg; lia]. rewrite (proj2 (lget_Ok _ _ _) Eg). eauto. }
  destruct X as [c0 X]. rewrite X in E. clear X. cbn [bind] in E.
  destruct (Z.eqb_spec (Z.of_nat (S w)) (Z.of_nat (length l))); [lia|]. cbn [bind andb negb Z.eqb Pos.eqb] in E.
  rewrite (proj2 (lget_Ok _ _ _) Eo), (proj2 (lget_Ok _ _ _) Eno) in E. cbn [bind] in E.
  rewrite (sg_n _ _ _ _ _ HS), (sg_bottom _ _ _ _ _ HS) in E. cbn [bind] in E.
  rewrite Ex in E. cbn [f_dzdt f_bottom f_theta f_depth f_num set_depth] in E. rewrite Ev, Ed, Etc, Etn, Etno in E.
  assert (E1 : (Fin v =? Fin 0)%d = false) by (apply Reqb_false; lra). rewrite E1 in E. cbn [andb] in E.
  change (Fin d + Fin v * Fin dt)%d with (Fin (d + v * dt)) in E. rewrite fmin_fin in E. fold d' in E.
  change (Fin d * (Fin tc - Fin tno) + Fin x)%d with (Fin (d * (tc - tno) + x)) in E. rewrite div_fin in E by lra.
  change (Fin ((d * (tc - tno) + x) / d') + Fin tn)%d with (Fin t') in E.
  destruct (sg_vg _ _ _ _ _ HS) as (al & nn & m & k & V). rewrite (vg_r _ _ _ _ _ _ _ V), (vg_e _ _ _ _ _ _ _ V) in E.
  destruct (Fin t' <? Fin r)%d eqn:T; [|discriminate]. apply Rltb_true in T.
  set (c2 := set_depth c (Fin d')) in *.
  assert (HS2 : Str e (lset l w c2)). { eapply Str_lset; [exact Ec| |exact H]. split; [|split; reflexivity]. split; [reflexivity|]. split; [reflexivity|]. rewrite Bc. discriminate. }
  assert (M2 : measured (lset l w c2)). { unfold l, w. rewrite lset_app. apply measured_app in M as [Ma Mb]. apply measured_app. split; [exact Ma|]. inversion Mb as [|x0 y0 [_ Ft] Mb']; subst x0 y0.
    constructor; [split; [eexists; reflexivity|exact Ft]|exact Mb']. }
  assert (Ec2 : nth_error (lset l w c2) w = Some c2) by (apply nth_error_lset_eq; lia).
  rewrite (single_mass e s r te D _ HS HS2 M2) in E. cbn [bind] in E.
  destruct (delete_str e _ w c2 HS2 Ec2 Bc) as (l' & E2 & HS3 & _ & EQ). change (f_num c2) with (f_num c) in E2. rewrite E2 in E. cbn [bind] in E.
  assert (M3 : measured l'). { rewrite EQ. destruct (Forall_firstn_skipn _ _ _ w M2) as [Q1 _]. destruct (Forall_firstn_skipn _ _ _ (S w) M2) as [_ Q2]. apply measured_app. split; [exact Q1|apply measured_bump; exact Q2]. }
  rewrite (single_mass e s r te D _ HS HS3 M3) in E. cbn [bind] in E. split; [congruence|exact T].
Qed.

Lemma loop_down_stop : forall e s r te D dt precip aet0 head, single e s r te D -> Str e head -> measured head -> calm_below e D (tl head) -> (2 <= length head)%nat -> 0 < dt ->
  forall k a h t why, head = a ++ h -> length a = S k -> sunk e D h t -> h <> [] ->
  move_loop (S k) e (Fin dt) precip 1 head (listLength head) (a ++ t) aet0 = Stop why ->
  exists c0 t0, hd_error head = Some c0 /\ sunk e D (tl head) t0 /\ move_loop 1 e (Fin dt) precip 1 head (listLength head) (c0 :: t0) aet0 = Stop why.
Proof.
  intros e s r te D dt precip aet0 head HS H M HC H2 Hdt. induction k as [|k IH]; intros a h t why EH Ha K Hne E.
  - destruct a as [|c0 [|]]; try discriminate. exists c0, t. subst head. split; [reflexivity|]. split; [exact K|exact E].
  - cbn [move_loop] in E. fold move_loop in E.
    destruct (exists_last (l := a) ltac:(intros ->; discriminate)) as (a1 & c & Ea). subst a. rewrite app_length in Ha. cbn [length] in Ha.
    rewrite <- app_assoc in E, EH. cbn [app] in E, EH. destruct h as [|no h]; [contradiction|].
    pose proof (sk_like _ _ _ _ K) as KL. inversion KL as [|z1 n z2 b [Kn1 Kn2] KL']; subst z1 z2 t.
    assert (Hlen : length (a1 ++ c :: n :: b) = length head). { rewrite EH, !app_length. cbn [length]. f_equal. do 2 f_equal. apply like_length in KL'. exact KL'. }
    assert (Str' : Str e (a1 ++ c :: n :: b)).
    { apply (Str_alike e head); [|exact H]. rewrite EH. apply alike_app. constructor; [apply alike_refl|]. apply (like_alike _ _ KL). }
    assert (Ec : nth_error head (length a1) = Some c) by (rewrite EH, nth_error_app2, Nat.sub_diag by lia; reflexivity).
    assert (Eno : nth_error head (S (length a1)) = Some no) by (rewrite EH, nth_error_app2 by lia; replace (S (length a1) - length a1)%nat with 1%nat by lia; reflexivity).
    assert (HCs : calm_below e D (c :: no :: h)).
    { clear - HC EH Ha. subst head. destruct a1 as [|x a1]; [cbn in Ha; lia|]. cbn [app tl] in HC. clear Ha. induction a1 as [|y a1 IHa]; [exact HC|]. apply IHa. apply (calm_tl _ _ _ _ HC). }
    assert (Lc := single_layer _ _ _ _ _ _ _ _ HS H Ec). assert (Lno := single_layer _ _ _ _ _ _ _ _ HS H Eno).
    assert (Ln : f_layer n = 1%Z) by (destruct Kn1 as [(X & _) _]; congruence).
    assert (Bc : f_bottom c = false) by (eapply Str_above; [exact H|exact Ec|exact Eno|congruence]).
    pose proof HCs as (Cm & Cw & Cd & Cs & Ci & Cv).
    inversion Cv as [|z1 z2 Sc _]; subst z1 z2. destruct (Sc Bc) as (v & Ev & Hv).
    inversion Cm as [|z1 z2 [Fd Ft] Cm']; subst z1 z2. inversion Cm' as [|z1 z2 [_ Fno] _]; subst z1 z2.
    pose proof (sk_measured _ _ _ _ K) as Mt. inversion Mt as [|z1 z2 [_ Fn] _]; subst z1 z2.
    assert (M' : measured (a1 ++ c :: n :: b)). { rewrite EH in M. apply measured_app in M as [Ma Mb]. apply measured_app. split; [exact Ma|]. inversion Mb; subst. constructor; [assumption|exact Mt]. }
    apply fin_val in Fd, Ft, Fno, Fn.
    assert (Hd : 0 < val (f_depth c)) by (inversion Cs; assumption).
    assert (HA : water_added 1 (Z.of_nat (S (length a1))) precip aet0 = Fin 0) by (destruct a1 as [|x1 a1]; [cbn in Ha; lia|apply added_below]).
    assert (Wn : r <= val (f_theta n) <= te).
    { destruct (within_single e s r te D n HS Ln) as (tn & Etn & Htn); [pose proof (sk_within _ _ _ _ K) as X; inversion X; subst; constructor; [assumption|constructor]|]. rewrite Etn. exact Htn. }
    assert (Cd' : val (f_theta no) < val (f_theta c)) by (destruct Cd as [X _]; apply X; congruence).
    replace (Z.of_nat (S (S k))) with (Z.of_nat (S (length a1))) in E by lia.
    replace (listLength head) with (listLength (a1 ++ c :: n :: b)) in E by (unfold listLength; rewrite Hlen; reflexivity).
    apply bind_Stop in E as [E|([l1 aet1] & E1 & E)].
    + (* the fronts below the first one do not dry out *)
      exfalso.
      destruct (move_free_stop e dt precip 1 head a1 c n b no aet0 s r te D _ v _ _ _ 0 why HS Str' M' (st_num _ _ H) (eq_sym Hlen) Ec Eno Fd Ev Hv Hd Hdt Ft Fn Fno HA E) as [_ X].
      set (d' := Rmin (val (f_depth c) + v * dt) D) in *.
      assert (Hd' : 0 < d'). { pose proof (single_D _ _ _ _ _ HS). assert (0 < v * dt) by (apply Rmult_lt_0_compat; assumption). unfold d'. apply Rmin_glb_lt; lra. }
      assert (0 <= (val (f_depth c) * (val (f_theta c) - val (f_theta no)) + 0) / d'); [|lra].
      apply Rmult_le_pos; [|left; apply Rinv_0_lt_compat; exact Hd']. rewrite Rplus_0_r. apply Rmult_le_pos; lra.
    + replace (listLength (a1 ++ c :: n :: b)) with (listLength head) in E by (unfold listLength; rewrite Hlen; reflexivity).
      destruct (move_free e dt precip 1 head a1 c n b no aet0 s r te D _ v _ _ _ 0 l1 aet1 HS Str' (st_num _ _ H) (eq_sym Hlen) Ec Eno Fd Ev Hv Hd Hdt Ft Fn Fno HA E1) as (-> & _ & psi & Hpsi & ->).
      apply (IH a1 (c :: no :: h) _ why EH ltac:(lia)) in E; [exact E| |discriminate].
      apply (sink_step e s r te D c no h n b dt _ v _ _ _ psi HS Hpsi Lc Ln Lno Bc HCs K Fd Ev Hv Hdt Ft Fn Fno).
Qed.

(** Only the first front can dry out. *)
Lemma loop_stop : forall e s r te D dt precip aet c no h why d v tc tno x, single e s r te D -> let head := c :: no :: h in
  Str e head -> measured head -> calm_below e D (no :: h) -> sinks c -> 0 < dt ->
  f_depth c = Fin d -> 0 < d -> f_dzdt c = Fin v -> f_theta c = Fin tc -> f_theta no = Fin tno -> water_added 1 1 precip aet = Fin x ->
  move_loop (length head) e (Fin dt) precip 1 head (listLength head) head aet = Stop why ->
  why = UB UseAfterFree /\ exists n b tn, let d' := Rmin (d + v * dt) D in
    sunk e D (no :: h) (n :: b) /\ f_theta n = Fin tn /\ (d * (tc - tno) + x) / d' + tn < r.
Proof.
  intros e s r te D dt precip aet c no h why d v tc tno x HS head H M HC Sc Hdt Ed Hd Ev Etc Etno Ex E.
  assert (H2 : (2 <= length head)%nat) by (cbn; lia).
  destruct (exists_last (l := head) ltac:(discriminate)) as (a & bt & EH). assert (HL : length head = S (length a)) by (rewrite EH, app_length; cbn; lia).
  rewrite HL in E. cbn [move_loop] in E. fold move_loop in E.
  rewrite (move_last e _ _ _ head (length a) head aet s r te D HS H (st_num _ _ H) eq_refl H2 (eq_sym HL)) in E. cbn [bind] in E.
  assert (Ec : nth_error head 0 = Some c) by reflexivity. assert (Eno : nth_error head 1 = Some no) by reflexivity.
  assert (Lc := single_layer _ _ _ _ _ _ _ _ HS H Ec). assert (Lno := single_layer _ _ _ _ _ _ _ _ HS H Eno).
  assert (Bc : f_bottom c = false) by (eapply Str_above; [exact H|exact Ec|exact Eno|congruence]).
  destruct (Sc Bc) as (v' & Ev' & Hv). assert (v' = v) by congruence. subst v'.
  destruct (length a) as [|k] eqn:La; [lia|].
  assert (KB : sunk e D [bt] [bt]).
  { assert (HB : calm_below e D [bt]). { assert (EH' : no :: h = tl a ++ [bt]) by (destruct a as [|x0 a0]; [discriminate|]; injection EH as _ EH; exact EH).
      rewrite EH' in HC. clear - HC. induction (tl a) as [|y a1 IHa]; [exact HC|]. apply IHa. apply (calm_tl _ _ _ _ HC). }
    destruct HB as (A1 & A2 & A3 & A4 & A5 & _). constructor; auto.
    - constructor; [split; [apply alike_refl|auto]|constructor].
    - intros f g Ef Eg. assert (f = g) by congruence. subst. lra. }
  destruct (loop_down_stop e s r te D dt precip aet head HS H M HC H2 Hdt k a [bt] [bt] why EH La KB ltac:(discriminate)) as (c0 & t0 & E0 & K & E1); [rewrite <- EH; exact E|].
  injection E0 as <-. cbn [tl head] in K. pose proof (sk_like _ _ _ _ K) as KL. inversion KL as [|z1 n z2 b [Kn1 Kn2] KL']; subst z1 z2 t0.
  pose proof (sk_measured _ _ _ _ K) as Mt. inversion Mt as [|z1 z2 [_ Fn] _]; subst z1 z2. apply fin_val in Fn.
  cbn [move_loop] in E1. apply bind_Stop in E1 as [E1|([l1 a1] & _ & E2)]; [|discriminate].
  assert (Hlen : length (c :: n :: b) = length head). { unfold head. cbn [length]. f_equal. f_equal. apply like_length in KL'. exact KL'. }
  assert (Str' : Str e (c :: n :: b)). { apply (Str_alike e head); [|exact H]. constructor; [apply alike_refl|]. apply (like_alike _ _ KL). }
  assert (M' : measured (c :: n :: b)) by (inversion M; subst; constructor; assumption).
  replace (listLength head) with (listLength (c :: n :: b)) in E1 by (unfold listLength; rewrite Hlen; reflexivity).
  destruct (move_free_stop e dt precip 1 head [] c n b no aet s r te D d v tc _ tno x why HS Str' M' (st_num _ _ H) (eq_sym Hlen) Ec Eno Ed Ev Hv Hd Hdt Etc Fn Etno Ex E1) as (-> & R1).
  split; [reflexivity|]. exists n, b, (val (f_theta n)). auto.
Qed.

Lemma closure_loop_total : forall e s r te D T c n b, single e s r te D -> f_bottom c = false -> Str e (c :: n :: b) -> measured (c :: n :: b) ->
  forall k d fa sw aug iter,
  let l := at_depth c d :: n :: b in
  exists y, closure_loop k e 0 (Fin T) l (Fin (storage l)) (Fin (Rabs (storage l - T))) (Fin fa) (Fin d) sw aug iter = Ok y.
Proof.
  intros e s r te D T c n b HS Hb H M. induction k as [|k IH]; intros d fa sw aug iter l; rewrite closure_loop_eq.
  - destruct (_ >? _)%d; eauto.
  - destruct (_ >? _)%d; [|eauto]. cbv zeta.
    assert (G : exists fa1, (if (iter + 1 >? 1000)%Z && negb aug then (Fin fa * lit 100)%d else Fin fa) = Fin fa1) by (destruct ((iter + 1 >? 1000)%Z && negb aug)%bool; eexists; reflexivity).
    destruct G as [fa1 G]. rewrite G. clear G.
    match goal with |- exists y, (match ?t with _ => _ end) = _ => assert (G : exists d1 sw1 fa2, t = (Fin d1, sw1, Fin fa2)) end.
    { destruct (Fin (storage l) <? Fin T)%d; [do 3 eexists; reflexivity|]. destruct sw; do 3 eexists; reflexivity. }
    destruct G as (d1 & sw1 & fa2 & G). rewrite G. clear G.
    unfold l. change (lget (at_depth c d :: n :: b) 0) with (Ok (at_depth c d)). cbn [bind].
    change (f_bottom (at_depth c d)) with (f_bottom c). rewrite Hb. cbn [andb bind lset].
    change (set_depth (at_depth c d) (Fin d1)) with (at_depth c d1).
    rewrite (single_mass e s r te D _ HS (moved_str e c n b d1 Hb H) (moved_measured c n b d1 M)). cbn [bind]. apply IH.
Qed.

Lemma closure_total : forall e s r te D S0 p a c n b d t1 tn, single e s r te D -> f_bottom c = false -> Str e (c :: n :: b) -> measured (c :: n :: b) ->
  f_depth c = Fin d -> f_theta c = Fin t1 -> f_theta n = Fin tn -> tn <> t1 \/ storage (c :: n :: b) = S0 + p - a -> 0 < S0 ->
  exists y, closure e (Fin S0) (Fin p) (c :: n :: b) (Fin a) = Ok y.
Proof.
  intros e s r te D S0 p a c n b d t1 tn HS Hb H M Ed Et1 Etn Hne HS0. unfold closure.
  rewrite (cross_single e s r te D _ HS H). cbn [bind]. cbv zeta. rewrite (drains_first e s r te D _ _ _ HS H), (sg_soil _ _ _ _ _ HS). cbn [bind].
  assert (X : (Fin S0 >? Fin 0)%d = true) by (apply ltb_t; lra). rewrite X. clear X. cbn [cassert bind].
  assert (F : findFront 1 (c :: n :: b) = Some 0%nat) by (apply (find_num _ 0 (st_num _ _ H)); cbn; lia). rewrite F. clear F.
  change (lget (c :: n :: b) 0) with (Ok c). cbn [bind nth_error].
  destruct (sg_vg _ _ _ _ _ HS) as (al & nn & m & kk & V). rewrite (vg_e _ _ _ _ _ _ _ V), Et1, Etn.
  match goal with |- exists y, (if ?t then _ else _) = _ => destruct t end; [|eauto].
  rewrite (single_mass e s r te D _ HS H M). cbn [bind].
  change (Fin S0 + Fin p - (Fin a + Fin 0))%d with (Fin (S0 + p - (a + 0))). replace (S0 + p - (a + 0)) with (S0 + p - a) by lra. set (T := S0 + p - a) in *.
  change (dabs (Fin (storage (c :: n :: b)) - Fin T)) with (Fin (Rabs (storage (c :: n :: b) - T))).
  match goal with |- context [closure_loop ?k e 0 (Fin T) _ _ _ ?f] => set (K := k); set (fa := f) end.
  assert (Same : at_depth c d :: n :: b = c :: n :: b) by (rewrite (at_own_depth c d Ed); reflexivity).
  assert (Loop : exists y, closure_loop K e 0 (Fin T) (c :: n :: b) (Fin (storage (c :: n :: b))) (Fin (Rabs (storage (c :: n :: b) - T))) fa (f_depth c) false false 0 = Ok y).
  { destruct (Req_dec (storage (c :: n :: b)) T) as [EQ|NE].
    - rewrite closure_loop_eq. replace (storage (c :: n :: b) - T) with 0 by lra. rewrite tight_zero. eauto.
    - destruct Hne as [Hne|]; [|contradiction].
      assert (G : exists f, fa = Fin f).
      { unfold fa. change (dabs (Fin t1 - Fin tn)) with (Fin (Rabs (t1 - tn))). match goal with |- exists f, (if ?t then _ else _) = _ => destruct t end; [|eexists; reflexivity].
        change (lit 1) with (Fin 1). rewrite div_fin; [eexists; reflexivity|]. intro X. apply Hne. assert (t1 - tn = 0) by (destruct (Req_dec (t1 - tn) 0) as [|N]; [assumption|apply Rabs_no_R0 in N; contradiction]). lra. }
      destruct G as [f G]. rewrite G, Ed. rewrite <- Same. apply (closure_loop_total e s r te D T c n b HS Hb H M). }
  destruct Loop as ([[l1 err] g] & EL). rewrite EL. cbn [bind]. destruct g; [|eauto].
  destruct (Req_dec (storage (c :: n :: b)) T) as [EQ|NE].
  { rewrite closure_loop_eq in EL. replace (storage (c :: n :: b) - T) with 0 in EL by lra. rewrite tight_zero in EL. apply Ok_inj in EL. apply pair_equal_spec in EL as [_ EL]. discriminate. }
  destruct Hne as [Hne|]; [|contradiction].
  assert (G : exists f, fa = Fin f).
  { unfold fa. change (dabs (Fin t1 - Fin tn)) with (Fin (Rabs (t1 - tn))). match goal with |- exists f, (if ?t then _ else _) = _ => destruct t end; [|eexists; reflexivity].
    change (lit 1) with (Fin 1). rewrite div_fin; [eexists; reflexivity|]. intro X. apply Hne. assert (t1 - tn = 0) by (destruct (Req_dec (t1 - tn) 0) as [|N]; [assumption|apply Rabs_no_R0 in N; contradiction]). lra. }
  destruct G as [f G]. rewrite G, Ed in EL. rewrite <- Same in EL. apply (closure_loop_single e s r te D T c n b HS Hb H M) in EL. destruct EL as (d1 & -> & -> & _).
  rewrite (single_mass e s r te D _ HS (moved_str e c n b d1 Hb H) (moved_measured c n b d1 M)). cbn [bind]. eauto.
Qed.

Lemma storage_pos : forall e s r te D l, single e s r te D -> Str e l -> measured l -> within_soils e l -> drier_downwards l -> below_surface l -> 0 <= r -> (2 <= length l)%nat -> 0 < storage l.
Proof.
  intros e s r te D l HS H M W DR BS Hr H2.
  assert (L : Forall (fun f => f_layer f = 1%Z) l). { apply Forall_forall. intros f Hf. apply In_nth_error in Hf as [i Hi]. eapply single_layer; eassumption. }
  clear H. unfold storage.
  assert (X : forall l, Forall (fun f => f_layer f = 1%Z) l -> within_soils e l -> drier_downwards l -> below_surface l -> 0 <= slabs 0 l).
  { clear - HS Hr. induction l as [|c l IH]; intros L W DR BS; [cbn; lra|]. inversion L; inversion W; inversion BS; subst. destruct l as [|n l].
    - cbn [slabs]. destruct (within_single e s r te D c HS) as (t & -> & Ht); [assumption|constructor; [assumption|constructor]|]. cbn [val]. assert (0 <= val (f_depth c) * t) by (apply Rmult_le_pos; lra). lra.
    - rewrite slabs_two. destruct DR as [D1 D2]. inversion H2; subst. assert (0 <= slabs 0 (n :: l)) by (apply IH; assumption).
      assert (val (f_theta n) < val (f_theta c)) by (apply D1; congruence). assert (0 <= val (f_depth c) * (val (f_theta c) - val (f_theta n))) by (apply Rmult_le_pos; lra). lra. }
  destruct l as [|c [|n l]]; try (cbn in H2; lia). inversion L as [|x y Lc L1]; subst x y. inversion L1 as [|x y Ln L2]; subst x y. inversion W; inversion BS; subst. destruct DR as [D1 D2]. rewrite slabs_two.
  assert (0 <= slabs 0 (n :: l)) by (apply X; assumption). assert (val (f_theta n) < val (f_theta c)) by (apply D1; congruence).
  assert (0 < val (f_depth c) * (val (f_theta c) - val (f_theta n))) by (apply Rmult_lt_0_compat; lra). lra.
Qed.

(** If the demand does not exceed the infiltration and what the first front holds above the second, the motion returns; otherwise it may
    use a deleted front. *)
Theorem motion_stop : forall e s r te D dt vin a c no h why, single e s r te D -> settled e te D (c :: no :: h) -> 0 < dt -> 0 <= r ->
  lgar_move_wetting_fronts e (Fin dt) (Fin vin) 1 (Fin (storage (c :: no :: h))) (Fin a) (c :: no :: h) (c :: no :: h) = Stop why ->
  why = UB UseAfterFree /\ val (f_depth c) * (val (f_theta c) - val (f_theta no)) + vin < a.
Proof.
  intros e s r te D dt vin a c no h why HS [G HB HV] Hdt Hr0 E. assert (HE := sg_env _ _ _ _ _ HS). assert (H := graded_str _ _ _ _ _ _ _ HS G).
  unfold lgar_move_wetting_fronts in E. rewrite (sg_n _ _ _ _ _ HS), (sg_bottom _ _ _ _ _ HS) in E. cbn [bind] in E. cbv zeta in E.
  assert (Lc := single_layer _ _ _ _ _ _ 0%nat c HS H eq_refl). assert (Lno := single_layer _ _ _ _ _ _ 1%nat no HS H eq_refl).
  assert (Bc : f_bottom c = false) by (eapply (Str_above e (c :: no :: h) 0); [exact H|reflexivity|reflexivity|congruence]).
  inversion HV as [|x y Vc Vt]; subst x y. destruct (Vc Bc) as (v & Ev & Hv).
  pose proof G as [_ _ M W DR S I F K].
  inversion M as [|x y [Fd Ft] Mt]; subst x y. inversion Mt as [|x y [_ Fno] _]; subst x y. apply fin_val in Fd, Ft, Fno.
  set (d := val (f_depth c)) in *. set (tc := val (f_theta c)) in *. set (tno := val (f_theta no)) in *.
  assert (Hd : 0 < d) by (inversion HB; assumption).
  inversion W as [|x y Wc Wt]; subst x y. inversion K as [|x y Kc Kt]; subst x y.
  assert (Hco : tno < tc) by (destruct DR as [DR _]; apply DR; congruence).
  assert (CB : calm_below e D (no :: h)) by (repeat split; auto; apply DR).
  assert (EX : water_added 1 1 (Fin vin) (Fin a) = Fin (vin - a)) by (unfold water_added; cbn; f_equal; lra).
  assert (Hd' : 0 < Rmin (d + v * dt) D). { pose proof (single_D _ _ _ _ _ HS). assert (0 < v * dt) by (apply Rmult_lt_0_compat; assumption). apply Rmin_glb_lt; lra. }
  apply bind_Stop in E as [E|([l1 a1] & E1 & E)].
  { apply (loop_stop e s r te D dt (Fin vin) (Fin a) c no h why d v tc tno (vin - a) HS H M CB Vc Hdt Fd Hd Ev Ft Fno EX) in E.
    destruct E as (-> & n & b & tn & K1 & Etn & X). split; [reflexivity|].
    assert (Wn : r <= tn). { destruct (within_single e s r te D n HS) as (t & Et & Ht).
      - pose proof (sk_like _ _ _ _ K1) as KL. inversion KL as [|z1 z2 z3 z4 [[(Y & _) _] _] _]; subst. congruence.
      - pose proof (sk_within _ _ _ _ K1) as Y. inversion Y; subst. constructor; [assumption|constructor].
      - rewrite Etn in Et. injection Et as <-. lra. }
    destruct (Rlt_dec (d * (tc - tno) + vin) a) as [|N]; [assumption|exfalso].
    assert (0 <= (d * (tc - tno) + (vin - a)) / Rmin (d + v * dt) D) by (apply Rmult_le_pos; [lra|left; apply Rinv_0_lt_compat; assumption]). lra. }
  exfalso.
  apply (loop_single e s r te D dt (Fin vin) (Fin a) c no h l1 a1 d v tc tno (vin - a) HS H CB Vc Hdt Fd Hd Ev Ft Fno EX) in E1.
  destruct E1 as (-> & n & b & tn & psi & K1 & Hpsi & Etn & Hr & ->).
  set (d' := Rmin (d + v * dt) D) in *. set (t' := (d * (tc - tno) + (vin - a)) / d' + tn) in *.
  assert (HD' : d' <= D) by (unfold d'; apply Rmin_r).
  assert (Hno : tn <= tno). { pose proof (sk_theta _ _ _ _ K1 no n eq_refl eq_refl) as X. rewrite Etn in X. exact X. }
  set (c1 := set_psi (set_theta (set_depth c (Fin d')) (Fin (Rmin te t'))) psi) in *.
  pose proof (sk_like _ _ _ _ K1) as KL.
  assert (H1 : Str e (c1 :: n :: b)). { apply (Str_alike e (c :: no :: h)); [|exact H]. constructor; [|apply (like_alike _ _ KL)]. split; [|split; reflexivity]. split; [reflexivity|]. split; [reflexivity|]. rewrite Bc. discriminate. }
  assert (M1 : measured (c1 :: n :: b)) by (constructor; [split; eexists; reflexivity|apply (sk_measured _ _ _ _ K1)]).
  destruct (sg_vg _ _ _ _ _ HS) as (al & nn & m & kk & V).
  assert (Htc : r <= tc <= te). { destruct (within_single e s r te D c HS Lc) as (t & Et & Ht); [constructor; [assumption|constructor]|]. rewrite Ft in Et. injection Et as Et. fold tc in Et. rewrite <- Et in Ht. exact Ht. }
  assert (W1 : within_soils e (c1 :: n :: b)).
  { constructor; [|apply (sk_within _ _ _ _ K1)]. exists s, r, te, (Rmin te t'). cbn. rewrite Lc. repeat split; [apply (sg_soil _ _ _ _ _ HS)|apply (vg_r _ _ _ _ _ _ _ V)|apply (vg_e _ _ _ _ _ _ _ V)| |apply Rmin_l].
    apply Rmin_glb; lra. }
  assert (KK : Forall conducts (n :: b)). { clear - KL Kt. revert Kt. generalize (no :: h), (n :: b), KL. clear. intros x y R. induction R as [|f g x y [_ R] RR IH]; intro F; [constructor|]. inversion F; subst. constructor; auto. }
  assert (S1 : storage (c1 :: n :: b) = storage (c :: no :: h) + vin - a - d' * (t' - Rmin te t')).
  { unfold storage. rewrite !slabs_two, (sk_slabs _ _ _ _ K1). fold d tc tno. rewrite Etn. cbn [c1 f_depth f_theta set_psi set_theta set_depth val].
    assert (X : d' * (t' - tn) = d * (tc - tno) + (vin - a)) by (unfold t'; field; lra). lra. }
  assert (HTe : Rmin te t' = te /\ tn < te /\ storage (c1 :: n :: b) < storage (c :: no :: h) + vin - a \/ storage (c1 :: n :: b) = storage (c :: no :: h) + vin - a).
  { destruct (Rlt_dec te t') as [X|X].
    - left. rewrite Rmin_left in S1 |- * by lra. split; [reflexivity|]. split; [lra|]. rewrite S1. assert (0 < d' * (t' - te)) by (apply Rmult_lt_0_compat; lra). lra.
    - right. rewrite Rmin_right in S1 by lra. rewrite S1. lra. }
  assert (SP : 0 < storage (c :: no :: h)) by (apply (storage_pos e s r te D _ HS H M W DR HB Hr0); cbn; lia).
  destruct (closure_total e s r te D (storage (c :: no :: h)) vin a c1 n b d' (Rmin te t') tn HS Bc H1 M1 eq_refl eq_refl Etn) as ([[l2 a2] q2] & E2); [destruct HTe as [(X1 & X2 & _)|X]; [left; lra|right; exact X]|exact SP|].
  rewrite E2 in E. cbn [bind] in E.
  apply (closure_single e s r te D (storage (c :: no :: h)) vin a c1 n b d' (Rmin te t') tn l2 a2 q2 HS Bc H1 M1 eq_refl Hd' eq_refl Etn) in E2; [|destruct HTe as [X|X]; [right; exact X|left; exact X]].
  destruct E2 as (d2 & a3 & q3 & -> & -> & -> & C).
  assert (H3 := moved_str e c1 n b d2 Bc H1). assert (M3 := moved_measured c1 n b d2 M1).
  assert (F3 : d2 <= D \/ te - 1 < val (f_theta (at_depth c1 d2))).
  { destruct C as [(-> & _)|(X & _)]; [left; exact HD'|right]. cbn. rewrite X. lra. }
  assert (W3 : within_soils e (at_depth c1 d2 :: n :: b)) by (inversion W1; subst; constructor; assumption).
  assert (K3 : Forall conducts (at_depth c1 d2 :: n :: b)) by (constructor; [split; [apply Kc|exact Hpsi]|exact KK]).
  destruct (phases_single (te - 1) e s r te D (at_depth c1 d2) n b d2 HS H3 M3 W3 (sk_drier _ _ _ _ K1) (sk_below _ _ _ _ K1) (sk_inside _ _ _ _ K1) K3 eq_refl F3) as (l4 & fl & x & E4 & G4 & _).
  rewrite E4 in E. cbn [bind] in E.
  destruct (refresh_single (te - 1) e s r te D l4 HS G4) as (l5 & E5 & G5 & _). rewrite E5 in E. cbn [bind] in E.
  rewrite (alone_single e s r te D l5 HS (graded_str _ _ _ _ _ _ _ HS G5)) in E. cbn [bind] in E. discriminate.
Qed.
End Stop.
