(** The motion of the only front of a column of one layer. *)

From Coq Require Import Reals Lra ZArith List Bool Lia.
From Verif Require Import Outcome Dbl Exact Types ListOps Soil Fronts Infil Move Lib Spec_Common Spec_List Spec_Soil Spec_Balance Spec_Update Spec_Profile Spec_Storage Spec_Single
  Pf_Dbl Pf_Pow Pf_Soil Pf_List Pf_Structure Pf_SafeMove Pf_Single Pf_SingleMerge Pf_SafeUpdate Pf_Storage Pf_Balance Pf_Drying Pf_HeadEnds.
Import ListNotations.
Open Scope R_scope.
Local Existing Instance exact.

Section Alone.
Context {cfg : Cfg}.

(** The front with a new water content. *)
Definition rewet (s : soil) (c : front) (t : dbl) : front := set_psi (set_theta c t) (h_of_Se s (Se_of_theta s t)).

Definition alone_dth : list (option dbl) := [None; Some (Fin 0)].
Definition alone_dz (D : R) : list (option dbl) := [None; Some (Fin D)].

Lemma alone_parts : forall e s r te D al n m k, single e s r te D -> vg_soil s r te al n m k -> layer_parts e alone_dth (alone_dz D) 1 [] (mkPart D 0 r te al n m).
Proof.
  intros e s r te D al n m k HS V. split; [reflexivity|]. split; [intros [|j] p E; discriminate|]. exists s, k. split; [apply (sg_soil _ _ _ _ _ HS)|]. split; [exact V|]. split; reflexivity.
Qed.

Lemma alone_filled : forall v, filled [None; Some v] (1 + 1).
Proof. intros v j Hj. assert (j = 1%Z) as -> by lia. exists v. reflexivity. Qed.

Lemma alone_front : forall e s r te D c, single e s r te D -> Str e [c] -> f_bottom c = true /\ f_depth c = Fin D /\ f_layer c = 1%Z /\ f_num c = 1%Z /\ f_dzdt c = Fin 0.
Proof.
  intros e s r te D c HS H. assert (B : f_bottom c = true). { destruct (f_bottom c) eqn:B; [reflexivity|]. destruct (Str_next _ _ 0%nat c H eq_refl B) as (n & En & _). discriminate. }
  destruct (Str_bottom _ _ 0%nat c H eq_refl B) as [D1 _]. pose proof (single_layer _ _ _ _ _ _ 0%nat c HS H eq_refl) as L. rewrite L, (sg_bottom _ _ _ _ _ HS) in D1. apply Ok_inj in D1.
  repeat split; auto; [exact (st_num _ _ H 0%nat c eq_refl)|exact (st_rest _ _ H c eq_refl)].
Qed.

Lemma alone_loop : forall e s r te D al n m k dt vin a c h, single e s r te D -> vg_soil s r te al n m k -> Str e [c] -> 0 <= h -> f_psi c = Fin h -> f_theta c = theta_of_h s (Fin h) ->
  let M := held [mkPart D 0 r te al n m] h in
  move_loop 1 e (Fin dt) (Fin vin) 1 [c] 1 [c] (Fin a) =
    ('(t, a') <- lgar_theta_mass_balance e 1 s (Fin h) (Fin M) (Fin (M + (vin - a))) (Fin a) alone_dth (alone_dz D) ;; Ok ([rewet s c (clamp_theta s t)], a')).
Proof.
  intros e s r te D al n m k dt vin a c h HS V H Hh Ep Et M. destruct (alone_front _ _ _ _ _ _ HS H) as (B & Ed & L & N & Z0).
  assert (Eth : f_theta c = Fin (vg_theta r te al n m h)) by (rewrite Et; apply (theta_of_h_is _ _ _ _ _ _ _ _ V Hh)).
  assert (EM : M = D * vg_theta r te al n m h) by (unfold M, held, pt_theta; cbn; ring).
  cbn [move_loop]. unfold move_one. change (Z.of_nat 1) with 1%Z. change (1 =? 1)%Z with true. change (1 <? 1)%Z with false. cbn [orb andb].
  unfold findFrontOld, findFront. assert (P1 : pos_of 1 [c] = Some 0%nat) by (cbn; rewrite N; reflexivity). rewrite P1. cbn [lget nth_error bind pget]. rewrite L.
  rewrite (sg_soil _ _ _ _ _ HS). cbn [bind]. change (1 + 1 =? 1)%Z with false. rewrite (sg_n _ _ _ _ _ HS). change (1 =? 1)%Z with true. cbn [negb andb].
  change (1 - 1)%Z with 0%Z. rewrite (sg_top _ _ _ _ _ HS). cbn [bind]. rewrite Ed, Z0. cbn [f_depth f_theta f_psi set_depth].
  change (Fin D + Fin 0 * Fin dt)%d with (Fin (D + 0 * dt)). replace (D + 0 * dt) with D by ring. change (Fin D - Fin 0)%d with (Fin (D - 0)). replace (D - 0) with D by ring.
  rewrite Eth, Ep. set (th := vg_theta r te al n m h) in *. change (Fin th - Fin 0)%d with (Fin (th - 0)). replace (th - 0) with th by ring. change (Fin D * Fin th)%d with (Fin (D * th)).
  unfold balance_theta, masses_above. change (Z.to_nat (1 - 1)) with 0%nat. change (Z.to_nat (1 + 1)) with 2%nat. cbn [zfor repeat bind].
  change (aset [None; None] 1 (Some (Fin 0))) with (Ok alone_dth). change (aset [None; None] 1 (Some (Fin D))) with (Ok (alone_dz D)). cbn [bind].
  unfold water_added. change (1 =? 1)%Z with true. cbv iota. change (Fin (D * th) + (Fin vin - (Fin 0 + Fin a)))%d with (Fin (D * th + (vin - (0 + a)))). replace (0 + a) with a by ring. rewrite <- EM.
  destruct (lgar_theta_mass_balance _ _ _ _ _ _ _ _ _) as [[t a']|why]; [|reflexivity]. cbn [bind lset].
  replace (set_depth c (Fin D)) with c; [reflexivity|]. symmetry. exact (at_own_depth c D Ed).
Qed.

(** Clamping. *)
Lemma clamp_above : forall s r te al n m k D t, vg_soil s r te al n m k -> not_dry (mkPart D 0 r te al n m) t -> exists x, clamp_theta s t = Fin x /\ r < x <= te.
Proof.
  intros s r te al n m k D t V N. destruct V. unfold clamp_theta. rewrite vg_r, vg_e. unfold not_dry in N. cbn [pt_r] in N. destruct t as [x| | |]; [|exists te|contradiction|exists te].
  - rewrite fmin_fin, fmax_fin. exists (Rmax r (Rmin x te)). split; [reflexivity|]. pose proof (Rmin_r x te). assert (r < Rmin x te) by (apply Rmin_glb_lt; lra). rewrite Rmax_right by lra. lra.
  - cbn. rewrite (proj2 (Rltb_true _ _)) by lra. split; [reflexivity|lra].
  - cbn. rewrite (proj2 (Rltb_true _ _)) by lra. split; [reflexivity|lra].
Qed.

(** The loop that closes the mass balance leaves the front where it is. *)
Lemma alone_closure_loop : forall e s r te D c T M, single e s r te D -> Str e [c] -> lgar_calc_mass_bal (e_cum e) [c] = Ok M ->
  forall k factor dn sw aug iter, closure_loop k e 0 T [c] M (dabs (M - T)) factor dn sw aug iter = Ok ([c], dabs (M - T), (dabs (dabs (M - T) - closure_tol) >? lit (1 / 10000000000)))%d.
Proof.
  intros e s r te D c T M HS H EM. destruct (alone_front _ _ _ _ _ _ HS H) as (B & Ed & L & N & Z0).
  induction k as [|k IH]; intros factor dn sw aug iter; cbn [closure_loop]; destruct (dabs (dabs (M - T) - closure_tol) >? lit (1 / 10000000000))%d eqn:Q; try reflexivity.
  match goal with |- (match ?t with _ => _ end) = _ => destruct t as [[dn' sw'] f'] end. cbn [lget nth_error bind]. rewrite B, L, (sg_n _ _ _ _ _ HS). change (1 =? 1)%Z with true. cbn [andb].
  rewrite (sg_bottom _ _ _ _ _ HS). cbn [bind lset]. change (set_depth c (Fin D)) with (at_depth c D). rewrite (at_own_depth c D Ed), EM. cbn [bind]. rewrite IH. try rewrite Q. reflexivity.
Qed.

Lemma alone_closure : forall e s r te D S0 vin a c t, single e s r te D -> Str e [c] -> f_theta c = Fin t -> let T := S0 + vin - a in 0 < S0 ->
  exists a2 q2, closure e (Fin S0) (Fin vin) [c] (Fin a) = Ok ([c], Fin a2, Fin q2) /\
    (a2 = a /\ q2 = 0 /\ (Rabs (storage [c] - T) <= 2 / 10000000000 \/ 1 / 1000000000000000 <= Rabs (t - te)) \/ storage [c] = S0 + vin - a2 - q2).
Proof.
  intros e s r te D S0 vin a c t HS H Et T H0. destruct (alone_front _ _ _ _ _ _ HS H) as (B & Ed & L & N & Z0).
  assert (ME : measured [c]) by (constructor; [split; eexists; eassumption|constructor]). pose proof (single_mass _ _ _ _ _ _ HS H ME) as EM.
  unfold closure. rewrite (cross_single _ _ _ _ _ _ HS H). cbn [bind]. change (wetting_front_free_drainage [c]) with 1%Z. rewrite (sg_soil _ _ _ _ _ HS). cbn [bind].
  unfold dgtb at 1. rewrite ltb_t by assumption. cbn [cassert bind]. unfold findFront. assert (P1 : pos_of 1 [c] = Some 0%nat) by (cbn; rewrite N; reflexivity). rewrite P1. cbn [lget nth_error bind].
  destruct (sg_vg _ _ _ _ _ HS) as (al & n & m & k & V). rewrite Et, (vg_e _ _ _ _ _ _ _ V). change (dabs (Fin t - Fin te))%d with (Fin (Rabs (t - te))). change (lit (1 / 1000000000000000)) with (Fin (1 / 1000000000000000)).
  destruct (Rlt_dec (Rabs (t - te)) (1 / 1000000000000000)) as [Q|Q].
  - rewrite ltb_t by assumption. rewrite EM. cbn [bind]. change (Fin S0 + Fin vin - (Fin a + Fin 0))%d with (Fin (S0 + vin - (a + 0))). replace (S0 + vin - (a + 0)) with T by (unfold T; ring).
    rewrite (alone_closure_loop _ _ _ _ _ _ _ _ HS H EM). cbn [bind]. set (err := storage [c] - T). change (dabs (Fin (storage [c]) - Fin T))%d with (Fin (Rabs err)).
    destruct (dabs (Fin (Rabs err) - closure_tol) >? lit (1 / 10000000000))%d eqn:G.
    + rewrite EM. cbn [bind]. change (Fin a + Fin (Rabs err))%d with (Fin (a + Rabs err)).
      change (Fin 0 + (Fin S0 + Fin vin - (Fin (a + Rabs err) + Fin 0) - Fin (storage [c])))%d with (Fin (0 + (S0 + vin - (a + Rabs err + 0) - storage [c]))).
      do 2 eexists. split; [reflexivity|]. right. ring.
    + apply tight_test in G. do 2 eexists. split; [reflexivity|]. left. auto.
  - rewrite ltb_f by lra. do 2 eexists. split; [reflexivity|]. left. split; [reflexivity|]. split; [reflexivity|]. right. lra.
Qed.

(** After the motion of the main loop nothing is left to merge. *)
Lemma alone_graded : forall e s r te D T c, single e s r te D -> Str e [c] -> (exists t, f_theta c = Fin t /\ r <= t <= te) -> conducts c -> graded e T D [c].
Proof.
  intros e s r te D T c HS H (t & Et & Ht) K. destruct (alone_front _ _ _ _ _ _ HS H) as (B & Ed & L & N & Z0). destruct (sg_vg _ _ _ _ _ HS) as (al & n & m & k & V).
  assert (PR : profile (e_nlayers e) (e_cum e) [c] /\ deepest_rests [c]) by (apply Str_iff; [apply (sg_env _ _ _ _ _ HS)|assumption]). destruct PR as [PR1 PR2].
  constructor; [exact PR1|exact PR2| | | | | | |].
  - constructor; [split; eexists; eassumption|constructor].
  - constructor; [|constructor]. exists s, r, te, t. rewrite L. split; [apply (sg_soil _ _ _ _ _ HS)|]. split; [apply (vg_r _ _ _ _ _ _ _ V)|]. split; [apply (vg_e _ _ _ _ _ _ _ V)|]. split; assumption.
  - exact Logic.I.
  - constructor.
  - constructor.
  - intros f E. injection E as <-. left. rewrite Ed. cbn. lra.
  - constructor; [assumption|constructor].
Qed.

Lemma alone_phases : forall e s r te D c T, single e s r te D -> graded e T D [c] -> merge_phases e [c] = Ok ([c], Fin 0, Fin 0) /\ refresh_psi e [c] = Ok [c] /\ fix_single e [c] = Ok [c].
Proof.
  intros e s r te D c T HS G. pose proof (graded_str _ _ _ _ _ _ _ HS G) as H. split; [|split; [reflexivity|exact (alone_single _ _ _ _ _ _ HS H)]].
  unfold merge_phases. rewrite (graded_upright _ _ _ _ _ _ _ (Fin 0) HS G). cbn [bind]. change (lgar_merge_wetting_fronts e [c]) with (Ok [c]). cbn [bind].
  rewrite (cross_single _ _ _ _ _ _ HS H). cbn [bind]. rewrite (graded_upright _ _ _ _ _ _ _ (Fin 0) HS G). cbn [bind]. change (lgar_merge_wetting_fronts e [c]) with (Ok [c]). cbn [bind].
  rewrite (sg_n _ _ _ _ _ HS), (sg_bottom _ _ _ _ _ HS). cbn [bind]. change (lgar_wetting_front_cross_domain_boundary e (Fin D) [c]) with (Ok (Fin 0, [c])). cbn [bind].
  rewrite (graded_upright _ _ _ _ _ _ _ (Fin 0) HS G). reflexivity.
Qed.

Lemma alone_motion : forall e s r te D dt vin a c, single e s r te D -> settled e te D [c] -> rooted s [c] -> 0 <= r ->
  ends (fun why => why = OutOfFuel) (fun x : list front * dbl * dbl => let '(l', a', q) := x in exists c' a2 q2, l' = [c'] /\ a' = Fin a2 /\ q = Fin q2 /\ (forall T, graded e T D [c']) /\ rooted s [c'] /\
      below_surface [c'] /\ (vin <= a -> val (f_theta c') <= val (f_theta c)))
    (lgar_move_wetting_fronts e (Fin dt) (Fin vin) 1 (Fin (storage [c])) (Fin a) [c] [c]).
Proof.
  intros e s r te D dt vin a c HS [G HB _] RT Hr. pose proof (graded_str _ _ _ _ _ _ _ HS G) as H. destruct (alone_front _ _ _ _ _ _ HS H) as (B & Ed & L & N & Z0). pose proof (single_D _ _ _ _ _ HS) as HD.
  inversion RT as [|x y RC _]; subst x y. destruct (RC B) as (h & Hh & Ep & Et). destruct (sg_vg _ _ _ _ _ HS) as (al & n & m & k & V).
  pose proof (alone_parts _ _ _ _ _ _ _ _ _ HS V) as LP. set (p := mkPart D 0 r te al n m) in *.
  assert (TH : forall x, 0 <= x -> pt_theta p x = vg_theta r te al n m x) by reflexivity.
  assert (Eth : f_theta c = Fin (vg_theta r te al n m h)) by (rewrite Et; apply (theta_of_h_is _ _ _ _ _ _ _ _ V Hh)).
  assert (RG : forall x, 0 <= x -> r < vg_theta r te al n m x <= te) by (intros; destruct V; apply theta_range; assumption).
  assert (S0 : storage [c] = D * vg_theta r te al n m h) by (unfold storage; cbn [slabs]; rewrite Ed, Eth; cbn; ring).
  assert (HS0 : 0 < storage [c]) by (rewrite S0; specialize (RG h Hh); apply Rmult_lt_0_compat; lra).
  unfold lgar_move_wetting_fronts. rewrite (sg_n _ _ _ _ _ HS), (sg_bottom _ _ _ _ _ HS). cbn [bind length]. change (listLength [c]) with 1%Z.
  rewrite (alone_loop _ _ _ _ _ _ _ _ _ _ _ _ _ _ HS V H Hh Ep Et). fold p. set (M := held [p] h).
  pose proof (tmb_ok e 1 s (Fin h) (Fin M) (Fin (M + (vin - a))) (Fin a) alone_dth (alone_dz D) (sg_env _ _ _ _ _ HS) ltac:(rewrite (sg_n _ _ _ _ _ HS); lia) (alone_filled _) (alone_filled _)) as TB.
  destruct (lgar_theta_mass_balance e 1 s (Fin h) (Fin M) (Fin (M + (vin - a))) (Fin a) alone_dth (alone_dz D)) as [[t a']|why] eqn:E.
  2:{ cbn [bind ends] in *. apply TB. }
  clear TB. cbn [bind]. pose proof (balance_spec _ _ _ _ _ _ _ _ _ _ _ _ _ _ LP (sg_soil _ _ _ _ _ HS) Hh E) as BA.
  assert (HT : exists x, clamp_theta s t = Fin x /\ r < x <= te /\ (vin <= a -> x <= vg_theta r te al n m h)).
  { destruct (clamp_above s r te al n m k D t V) as (x & Ex & Hx). { fold p. destruct BA; try assumption; unfold not_dry; cbn [pt_r p]; apply RG; assumption. }
    exists x. split; [exact Ex|]. split; [exact Hx|]. intro Hva. assert (PL : M + (vin - a) <= M) by lra.
    destruct (drying_never_wets _ _ _ _ _ _ _ _ _ _ _ _ _ LP (sg_soil _ _ _ _ _ HS) ltac:(constructor; [cbn; lra|constructor]) Hh PL E) as (psi & P1 & -> & P2 & _).
    unfold pt_theta in P2, Ex. cbn [pt_r pt_e pt_a pt_n pt_m p] in P2, Ex. unfold clamp_theta in Ex. rewrite (vg_r _ _ _ _ _ _ _ V), (vg_e _ _ _ _ _ _ _ V), fmin_fin, fmax_fin in Ex.
    specialize (RG psi ltac:(lra)). rewrite Rmin_left, Rmax_right in Ex by (rewrite ?Rmin_left; lra). injection Ex as <-. exact P2. }
  destruct HT as (x & Ex & Hx & DRY). rewrite Ex. set (c' := rewet s c (Fin x)).
  assert (FA : exists av, a' = Fin av). { destruct BA as [| | | |? ? ? ? [->| ->]]; eexists; reflexivity. } destruct FA as (av & ->).
  assert (H' : Str e [c']). { apply (Str_alike e [c]); [|exact H]. constructor; [|constructor]. split; [|split; reflexivity]. split; [reflexivity|]. split; [reflexivity|]. reflexivity. }
  destruct (vg_root s r te al n m k x V Hx) as (h' & Hh' & Eh' & Et').
  assert (K' : conducts c'). { pose proof (gr_K _ _ _ _ G) as K. inversion K as [|q1 q2 [KC _] _]; subst q1 q2. split; [exact KC|]. right. exists h'. split; assumption. }
  assert (G' : forall T, graded e T D [c']) by (intro T; apply (alone_graded e s r te D T c' HS H'); [exists x; split; [reflexivity|lra]|exact K']).
  destruct (alone_closure e s r te D (storage [c]) vin av c' x HS H' eq_refl HS0) as (a2 & q2 & EC & _). rewrite EC. cbn [bind].
  destruct (alone_phases e s r te D c' (te - 1 / 1000000000000000) HS (G' _)) as (EP & ER & EF). rewrite EP. cbn [bind]. rewrite ER. cbn [bind]. rewrite EF. cbn [bind ends].
  assert (Q0 : (dabs (Fin 0) >? lit (1 / 10000000))%d = false) by (change (lit (1 / 10000000)) with (Fin (1 / 10000000)); unfold dgtb; apply ltb_f; rewrite Rabs_R0; lra). rewrite Q0.
  exists c', a2, (q2 + 0). split; [reflexivity|]. split; [reflexivity|]. split; [reflexivity|]. split; [exact G'|]. split; [|split].
  - constructor; [|constructor]. intros _. exists h'. split; [exact Hh'|]. split; [exact Eh'|exact Et'].
  - constructor; [|constructor]. unfold below_surface in HB. inversion HB; assumption.
  - intro Hva. cbn. rewrite Eth. cbn. apply DRY. exact Hva.
Qed.
End Alone.
