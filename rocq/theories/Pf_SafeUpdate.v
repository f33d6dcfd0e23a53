(** Update keeps the structure of the profile and touches only what exists. *)

From Coq Require Import Reals Lra ZArith List Bool Lia.
From RecordUpdate Require Import RecordSet.
From Verif Require Import Outcome Dbl Types ListOps Soil Giuh Fronts Infil Move State Update Lib Spec_Common Spec_List Spec_Update Spec_Profile
  Pf_List Pf_Profile Pf_Structure Pf_SafeMove Pf_Update Pf_SoilAny Pf_Frozen.
Import ListNotations.
Import RecordSetNotations.
Open Scope R_scope.

Section Any.
Context {fp : Fp} {cfg : Cfg}.

(** ** Pieces of a sub-step *)

Lemma Str_head : forall e l, sound_env e -> Str e l -> exists c r, l = c :: r /\ f_layer c = 1%Z.
Proof.
  intros e l HE H. pose proof (st_pre _ _ H) as P. destruct l as [|c r].
  - cbn in P. destruct HE. lia.
  - exists c, r. split; [reflexivity|]. cbn [pre] in P. destruct P as (P & _). exact P.
Qed.

Lemma geff_loop_ok : forall k s K h_i h2 dh K1 G, ends spins (fun _ => True) (geff_loop k s K h_i h2 dh K1 G).
Proof.
  induction k as [|k IH]; intros; [reflexivity|]. cbn [geff_loop]. destruct (h2 <? h_i)%d; [|exact I]. apply IH.
Qed.

Lemma geff_ok : forall closed t1 t2 s K n, ends spins (fun _ => True) (calc_Geff closed t1 t2 s K n).
Proof.
  intros. unfold calc_Geff. destruct (negb closed); [|exact I]. cbv zeta.
  eapply ends_bind; [apply geff_loop_ok|]. intros; exact I.
Qed.

Lemma aet_ok : forall e pet dt w fc l, sound_env e -> Str e l -> exists a, calc_aet e pet dt w fc l = Ok a.
Proof.
  intros e pet dt w fc l HE H. destruct (Str_head e l HE H) as (c & r & -> & Hc). unfold calc_aet. cbn [lget nth_error bind].
  destruct (env_soil e (f_layer c) HE) as [s Es]. { destruct HE. lia. } rewrite Es. cbn [bind]. eauto.
Qed.

Lemma decision_ok : forall e l a b c, sound_env e -> Str e l -> exists d, create_decision e l a b c = Ok d.
Proof.
  intros e l a b d HE H. destruct (Str_head e l HE H) as (c & r & -> & Hc). unfold create_decision. cbn [lget nth_error bind].
  destruct (env_soil e (f_layer c) HE) as [s Es]. { destruct HE. lia. } rewrite Es. cbn [bind]. eauto.
Qed.

Lemma dry_ok : forall e closed n dt l, sound_env e -> Str e l -> ends spins (fun _ => True) (lgar_calc_dry_depth e closed n dt l).
Proof.
  intros e closed n dt l HE H. destruct (Str_head e l HE H) as (c & r & -> & Hc). unfold lgar_calc_dry_depth. cbn [lget nth_error bind].
  assert (R1 : (1 <= f_layer c <= e_nlayers e)%Z) by (destruct HE; lia).
  destruct (env_soil e _ HE R1) as [s Es]. destruct (env_frozen e _ HE R1) as [ff Ef]. rewrite Es. cbn [bind]. rewrite Ef. cbn [bind].
  eapply ends_bind; [apply geff_ok|]. intros G _ _.
  destruct (env_cum e (f_layer c) HE ltac:(lia)) as (z & Ez & _). rewrite Ez. exact I.
Qed.

(** Inserting a front on top of the profile. *)
Lemma insert_str : forall e l f, sound_env e -> Str e l -> f_layer f = 1%Z -> f_num f = 1%Z -> f_bottom f = false -> Str e (f :: bump 1 l).
Proof.
  intros e l f HE H F1 F2 F3. constructor.
  - intros [|i] g E; cbn in E.
    + injection E as <-. rewrite F2. reflexivity.
    + rewrite nth_error_bump in E. destruct (nth_error l i) as [h|] eqn:Eh; [|discriminate]. cbn in E. injection E as <-. cbn.
      rewrite (st_num _ _ H _ _ Eh). lia.
  - cbn [pre]. rewrite F3. split; [assumption|]. split; [destruct HE; lia|]. apply pre_bump. apply H.
  - intros g E. cbn [length] in E. rewrite bump_length in E.
    assert (Hne : l <> []) by (eapply Str_nonempty; eauto using se_n).
    destruct l as [|c r]; [contradiction|]. cbn [length] in E. replace (S (S (length r)) - 1)%nat with (S (length r)) in E by lia. cbn [nth_error] in E.
    rewrite nth_error_bump in E. destruct (nth_error (c :: r) (length r)) as [h|] eqn:Eh; [|discriminate]. cbn in E. injection E as <-. cbn.
    apply (st_rest _ _ H). cbn [length]. rewrite <- Eh. f_equal. lia.
Qed.

Lemma create_ok : forall e ponded dry th l, sound_env e -> Str e l -> ~ create_tie e ponded dry th l ->
  ends (fun r => r = AssertFail) (fun x => Str e (fst (fst x))) (lgar_create_surficial_front e ponded dry th l).
Proof.
  intros e ponded dry th l HE H HT. unfold lgar_create_surficial_front. cbv zeta.
  assert (R1 : (1 <= 1 <= e_nlayers e)%Z) by (destruct HE; lia).
  destruct (env_soil e 1 HE R1) as [s Es]. rewrite Es. cbn [bind]. destruct (env_frozen e 1 HE R1) as [ff Ef].
  destruct (env_cum e 1 HE ltac:(lia)) as (z1 & Ez1 & _).
  set (fits := (dry * (s_theta_e s - th) >? ponded)%d).
  assert (G : exists x, (if fits then Ok (Fin 0) else aget (e_cum e) 1) = Ok x) by (destruct fits; eauto).
  destruct G as [x G]. rewrite G. cbn [bind]. rewrite Ef. cbn [bind]. unfold listInsertFirst.
  match goal with |- context [ _ :: bump 1 l ] => idtac end.
  set (f := surficial s ff ponded dry th).
  match goal with |- ends _ _ (bind ?m _) => enough (E : ends (fun r => r = AssertFail) (Str e) m) end.
  { eapply ends_bind; [exact E|]. intros l' _ Hl'. exact Hl'. }
  assert (HS : Str e (f :: bump 1 l)) by (apply insert_str; auto).
  destruct (Str_head e l HE H) as (n & r & -> & Hn). cbn [bump map].
  change (set_dzdt _ _) with f. change (f :: set_num n (f_num n + 1) :: map _ r) with (f :: bump 1 (n :: r)).
  match goal with |- ends _ _ (if ?b then _ else _) => destruct b eqn:C end; [|exact HS].
  eapply ends_bind; [apply merge_ok; [exact HE|exact HS]|]. intros l1 E1 H1.
  destruct (cross_ok e l1 HE H1) as (l2 & E2 & H2 & _).
  { intro T. apply HT. exists s, ff, n, r, l1. split; [assumption|]. split; [assumption|]. split; [reflexivity|]. split; [exact C|]. split; [exact E1|exact T]. }
  rewrite E2. exact H2.
Qed.

Lemma layers_above_ok : forall e lay x, sound_env e -> (1 <= lay <= e_nlayers e)%Z -> exists y, layers_above_sum e lay x = Ok y.
Proof.
  intros e lay x HE Hl. unfold layers_above_sum.
  match goal with |- exists m, zfor _ _ ?b ?s = _ => destruct (zfor_inv _ (fun _ _ => True) b (Z.to_nat (lay - 1)) 1%Z s) as (m & E & _) end; eauto.
  intros j m Hj _. destruct (env_soil e (lay - j)%Z HE ltac:(lia)) as [s Es]. destruct (env_frozen e (lay - j)%Z HE ltac:(lia)) as [ff Ef].
  destruct (env_cum e (lay - j)%Z HE ltac:(lia)) as (c1 & E1 & _). destruct (env_cum e (lay - (j + 1))%Z HE ltac:(lia)) as (c0 & E0 & _).
  rewrite Es. cbn [bind]. rewrite Ef. cbn [bind]. rewrite E1. cbn [bind]. rewrite E0. cbn [bind]. eauto.
Qed.

Lemma max_storage_ok : forall e, sound_env e -> exists y, max_storage e = Ok y.
Proof.
  intros e HE. unfold max_storage.
  match goal with |- exists m, zfor _ _ ?b ?s = _ => destruct (zfor_inv _ (fun _ _ => True) b (Z.to_nat (e_nlayers e)) 1%Z s) as (m & E & _) end; eauto.
  intros j m Hj _. destruct (env_soil e j HE ltac:(lia)) as [s Es].
  destruct (env_cum e j HE ltac:(lia)) as (c1 & E1 & _). destruct (env_cum e (j - 1)%Z HE ltac:(lia)) as (c0 & E0 & _).
  rewrite Es. cbn [bind]. rewrite E1. cbn [bind]. rewrite E0. cbn [bind]. eauto.
Qed.

Lemma capacity_ok : forall e closed nint dt aet ponded precip l, sound_env e -> Str e l ->
  ends spins (fun _ => True) (infiltration_capacity e closed nint dt aet ponded precip (wetting_front_free_drainage l) l).
Proof.
  intros e closed nint dt aet ponded precip l HE H. unfold infiltration_capacity. cbv zeta.
  destruct (fd_ok e l HE H) as (i & f & W & Ef & Hi & Hlay & _ & HB). rewrite W.
  rewrite (find_num l i (st_num _ _ H)) by (eapply length_S; eassumption). cbn [pget]. rewrite (proj2 (lget_Ok _ _ _) Ef). cbn [bind].
  assert (Rf := Str_range _ _ _ _ H Ef). destruct (env_soil e _ HE Rf) as [s Es]. rewrite Es. cbn [bind].
  destruct (Str_head e l HE H) as (c & r & -> & Hc). cbn [lget nth_error bind].
  assert (R1 : (1 <= f_layer c <= e_nlayers e)%Z) by (destruct HE; lia).
  destruct (env_frozen e _ HE R1) as [ff Eff]. rewrite Eff. cbn [bind].
  eapply ends_bind with (P := fun _ => True).
  { destruct (Z.eqb_spec (listLength (c :: r)) (e_nlayers e)) as [|Hne]; [exact I|]. unfold listLength in Hne.
    destruct HB as [[_ [n En]]|(_ & HB1 & HB2)]; [|lia].
    replace (Z.of_nat (S i) + 1)%Z with (Z.of_nat (S (S i))) by lia.
    rewrite (find_num (c :: r) (S i) (st_num _ _ H)) by (eapply length_S; eassumption). cbn [pget]. rewrite (proj2 (lget_Ok _ _ _) En). cbn [bind]. apply geff_ok. }
  intros G _ _. eapply ends_bind with (P := fun _ => True).
  { destruct (f_layer f =? 1)%Z; [exact I|]. destruct (env_cum e (f_layer f - 1)%Z HE ltac:(lia)) as (c0 & E0 & _). rewrite E0. cbn [bind].
    match goal with |- context [layers_above_sum e ?a ?b] => destruct (layers_above_ok e a b HE Rf) as [y Ey] end. rewrite Ey. exact I. }
  intros f_p _ _. destruct (env_soil e _ HE R1) as [s1 Es1]. rewrite Es1. cbn [bind].
  destruct (Str_mass e _ HE H) as [m Em]. rewrite Em. cbn [bind]. destruct (max_storage_ok e HE) as [ms Ems]. rewrite Ems. exact I.
Qed.

Lemma denominator_ok : forall e lay psi x, sound_env e -> (1 <= lay <= e_nlayers e)%Z -> exists y, dzdt_denominator e lay psi x = Ok y.
Proof.
  intros e lay psi x HE Hl. unfold dzdt_denominator.
  match goal with |- exists m, zfor _ _ ?b ?s = _ => destruct (zfor_inv _ (fun _ _ => True) b (Z.to_nat (lay - 1)) 1%Z s) as (m & E & _) end; eauto.
  intros j m Hj _. destruct (env_soil e (lay - j)%Z HE ltac:(lia)) as [s Es]. destruct (env_frozen e (lay - j)%Z HE ltac:(lia)) as [ff Ef].
  destruct (env_cum e j HE ltac:(lia)) as (c1 & E1 & _). destruct (env_cum e (j - 1)%Z HE ltac:(lia)) as (c0 & E0 & _).
  rewrite Es. cbn [bind]. rewrite Ef. cbn [bind]. rewrite E1. cbn [bind]. rewrite E0. cbn [bind]. eauto.
Qed.

Definition velocity_stops (r : reason) : Prop := r = OutOfFuel \/ r = Abort \/ r = ExitCode 0.

Lemma velocity_ok : forall e closed nint h c n, sound_env e -> (1 <= f_layer c <= e_nlayers e)%Z ->
  ends velocity_stops (fun _ => True) (dzdt_front e closed nint h c n).
Proof.
  intros e closed nint h c n HE Rc. unfold dzdt_front. cbv zeta.
  destruct (env_soil e _ HE Rc) as [s Es]. destruct (env_frozen e _ HE Rc) as [ff Ef]. rewrite Es. cbn [bind]. rewrite Ef. cbn [bind].
  destruct (env_cum e (f_layer c - 1)%Z HE ltac:(lia)) as (c0 & E0 & _).
  eapply ends_bind with (P := fun _ => True). { destruct (f_layer c >? 1)%Z; [rewrite E0|]; exact I. }
  intros bs _ _. destruct (_ >? _)%d; [right; right; reflexivity|].
  eapply ends_bind; [eapply ends_mono; [|intros a Ha; exact Ha|apply geff_ok]; intros r0 Hr; left; exact Hr|]. intros G _ _.
  eapply ends_bind with (P := fun _ => True); [|intros; exact I].
  destruct (f_layer c =? 1)%Z; [exact I|]. destruct (denominator_ok e (f_layer c) (f_psi c) bs HE Rc) as [y Ey]. rewrite Ey. exact I.
Qed.

(** Only velocities change. *)
Definition but_velocity (f g : front) : Prop := g = set_dzdt f (f_dzdt g).

Lemma dzdt_loop_ok : forall e closed nint h l, sound_env e -> (forall f, In f l -> (1 <= f_layer f <= e_nlayers e)%Z) ->
  ends velocity_stops (fun l' => Forall2 but_velocity l l' /\ nth_error l' (length l - 1) = nth_error l (length l - 1))
    (dzdt_loop e closed nint h l).
Proof.
  intros e closed nint h l HE. induction l as [|c r IH]; intro HR; cbn [dzdt_loop]; [split; [constructor|reflexivity]|].
  destruct (f_K c <? Fin 0)%d; [right; left; reflexivity|].
  assert (Rc := HR c (or_introl eq_refl)).
  destruct (env_soil e _ HE Rc) as [s Es]. destruct (env_frozen e _ HE Rc) as [ff Ef]. rewrite Es. cbn [bind]. rewrite Ef. cbn [bind].
  destruct r as [|n r].
  - split; [|reflexivity]. constructor; [|constructor]. unfold but_velocity. destruct c; reflexivity.
  - eapply ends_bind with (P := fun _ => True). { destruct (f_bottom c); [exact I|]. apply velocity_ok; assumption. }
    intros v _ _. eapply ends_bind; [apply IH; intros f Hf; apply HR; right; exact Hf|].
    intros l' _ [F L]. cbn [ends]. split.
    + constructor; [destruct c; reflexivity|exact F].
    + cbn [length] in *. replace (S (S (length r)) - 1)%nat with (S (length r)) by lia. cbn [nth_error].
      replace (S (length r) - 1)%nat with (length r) in L by lia. exact L.
Qed.

Lemma but_velocity_shape : forall l l', Forall2 but_velocity l l' -> Forall2 same_shape l l'.
Proof. induction 1 as [|f g l l' H HF IH]; constructor; auto. unfold but_velocity in H. rewrite H. repeat split. Qed.

Lemma but_velocity_str : forall e l l', Forall2 but_velocity l l' -> nth_error l' (length l - 1) = nth_error l (length l - 1) -> Str e l -> Str e l'.
Proof.
  intros e l l' HF HL [N P R]. assert (Hlen := Forall2_length _ _ _ _ _ HF). constructor.
  - intros i f E. destruct (Forall2_nth _ _ _ _ HF _ _ E) as (g & Eg & Hg). unfold but_velocity in Hg. rewrite Hg. cbn. apply N. assumption.
  - eapply pre_shape; [apply but_velocity_shape; exact HF|exact P].
  - intros f E. apply R. rewrite <- HL, Hlen. exact E.
Qed.

Lemma dzdt_ok : forall e closed nint h l, sound_env e -> Str e l -> ends velocity_stops (Str e) (lgar_dzdt_calc e closed nint h l).
Proof.
  intros e closed nint h l HE H. unfold lgar_dzdt_calc. destruct (Str_head e l HE H) as (c & r & -> & Hc).
  eapply ends_mono; [intros x Hx; exact Hx| |apply dzdt_loop_ok; auto].
  - intros l' [F L]. eapply but_velocity_str; eassumption.
  - intros f Hf. apply In_nth_error in Hf as [i Ei]. eapply Str_range; eassumption.
Qed.

(** ** Sub-step *)

Lemma safe_spins : forall r, spins r -> memory_safe r.
Proof. intros r -> u Hu. discriminate. Qed.
Lemma safe_assert : forall r, r = AssertFail -> memory_safe r.
Proof. intros r -> u Hu. discriminate. Qed.
Lemma safe_move : forall r, move_stops r -> memory_safe r.
Proof. intros r [->|[->| ->]] u Hu; try discriminate. injection Hu as <-. reflexivity. Qed.
Lemma safe_velocity : forall r, velocity_stops r -> memory_safe r.
Proof. intros r [->|[->| ->]] u Hu; discriminate. Qed.

Lemma hydro_ok : forall u pp pr pe pc vo po ve l, sound_env (u_env u) -> Str (u_env u) l -> finite (u_dt u) ->
  ~ hydro_tie u pp pr pe pc vo po ve l l ->
  ends memory_safe (fun b => Str (u_env u) (b_head b)) (sub_hydro u pp pr pe pc vo po ve l l).
Proof.
  intros u pp pr pe pc vo po ve l HE H Hdt HT. unfold sub_hydro. cbv zeta. set (e := u_env u) in *.
  assert (GA : exists aet, (if (pe >? Fin 0)%d then calc_aet e pe (u_dt u) (u_wilting u) (u_fc u) l else Ok (Fin 0)) = Ok aet).
  { destruct (pe >? Fin 0)%d; [apply aet_ok; assumption|eauto]. }
  destruct GA as [aet EA]. rewrite EA. cbn [bind].
  destruct (decision_ok e l pp pc vo HE H) as [create ED]. rewrite ED. cbn [bind].
  assert (FIN : forall b, Str e (b_head b) -> ends memory_safe (fun b => Str e (b_head b))
    (l0 <- lgar_dzdt_calc e (u_closed u) (u_nint u) (b_ponded b) (b_head b);;
     Ok (mkSub l0 (b_prev b) (b_aet b) (b_ponded b) (b_volin b) (b_runoff b) (b_on b) (b_rech b)))).
  { intros b Hb. eapply ends_bind; [eapply ends_mono; [apply safe_velocity|intros a Ha; exact Ha|apply dzdt_ok; assumption]|]. intros l' _ Hl'. exact Hl'. }
  destruct create.
  - eapply ends_bind with (P := fun b => Str e (b_head b)).
    + unfold sub_create. cbv zeta.
      eapply ends_bind; [eapply ends_mono; [apply safe_move|intros a Ha; exact Ha|apply move_ok; auto]|].
      * apply H.
      * intro T. apply HT. exists aet, true. split; [assumption|]. split; [assumption|]. left. exact T.
      * intros [[l1 aet1] pd] EM H1. cbn [fst] in H1.
        eapply ends_bind; [eapply ends_mono; [apply safe_spins|intros a Ha; exact Ha|apply dry_ok; assumption]|]. intros [dry d] EDry _.
        destruct (Str_head e l1 HE H1) as (h & r & Hl1 & _).
        assert (Eh : lget l1 0 = Ok h) by (rewrite Hl1; reflexivity). rewrite Eh. cbn [bind].
        eapply ends_bind; [eapply ends_mono; [apply safe_assert|intros a Ha; exact Ha|apply create_ok; auto]|].
        -- intro T. apply HT. exists aet, true. split; [assumption|]. split; [assumption|]. right.
           exists l1, aet1, pd, dry, d, h. split; [exact EM|]. split; [exact EDry|]. split; [exact Eh|exact T].
        -- intros [[l2 pon] vin] _ H2. exact H2.
    + intros b _ Hb. rewrite andb_false_r. cbn [bind]. apply FIN. unfold sub_no_insert. destruct (_ <? _)%d; exact Hb.
  - cbn [bind]. rewrite andb_true_r. cbn [b_ponded].
    set (b0 := mkSub l l aet po (Fin 0) (Fin 0) (Fin 0) (Fin 0)).
    eapply ends_bind with (P := fun b => b_head b = l /\ b_prev b = l).
    + destruct (po >? Fin 0)%d; [|unfold sub_no_insert; destruct (_ <? _)%d; split; reflexivity].
      unfold sub_insert. cbn [b_head b_prev b0 b_aet b_ponded b_volin].
      eapply ends_bind with (P := fun _ => True).
      { unfold lgar_insert_water. eapply ends_bind; [eapply ends_mono; [apply safe_spins|intros a Ha; exact Ha|apply capacity_ok; assumption]|]. intros f_p _ _. exact I. }
      intros [[ro pon] vin] _ _. destruct (ro <? Fin 0)%d; [intros x Hx; discriminate|]. split; reflexivity.
    + intros b Eb [B1 B2]. eapply ends_bind with (P := fun b => Str e (b_head b)); [|intros b' _ Hb'; apply FIN; exact Hb'].
      unfold sub_move. rewrite B1, B2.
      eapply ends_bind; [eapply ends_mono; [apply safe_move|intros a Ha; exact Ha|apply move_ok; auto]|].
      * apply H.
      * intro T. apply HT. exists aet, false. split; [assumption|]. split; [assumption|]. exists b. split; [exact Eb|exact T].
      * intros [[l1 aet1] pd] _ H1. exact H1.
Qed.

Lemma substep_ok : forall u s a, sound_env (u_env u) -> env_of s = u_env u -> Str (u_env u) (st_head s) -> finite (u_dt u) -> ~ step_tie u s a ->
  ends memory_safe (fun x => env_of (fst x) = u_env u /\ Str (u_env u) (st_head (fst x)) /\ mb_local (st_mb (fst x)) <> None /\
     g_N (fst x) = g_N s /\ g_ord (fst x) = g_ord s /\ g_queue (fst x) = g_queue s) (substep u s a).
Proof.
  intros u s a HE EV H Hdt HT. unfold substep. cbv zeta.
  match goal with |- context [p_cum ?p] => change (p_cum p) with (e_cum (env_of s)) end. rewrite EV.
  destruct (Str_mass _ _ HE H) as [m Em]. rewrite Em. cbn [bind]. unfold listCopy.
  eapply ends_bind; [apply hydro_ok; [exact HE|exact H|exact Hdt|exact HT]|]. intros b _ Hb.
  destruct (Str_mass _ _ HE Hb) as [m2 Em2]. rewrite Em2. cbn [bind].
  destruct (_ >? _)%d; [intros x Hx; discriminate|].
  destruct (Str_head _ _ HE Hb) as (c & r & Hc & _). rewrite Hc. cbn [lget nth_error bind].
  destruct (f_depth c >? Fin 0)%d; [|intros x Hx; discriminate]. cbn [cassert bind ends fst].
  split; [exact EV|]. split; [exact Hb || (cbn; rewrite <- Hc; exact Hb)|]. split; [discriminate|]. auto.
Qed.

Lemma loop_ok : forall u, sound_env (u_env u) -> finite (u_dt u) -> forall k s a, env_of s = u_env u -> Str (u_env u) (st_head s) ->
  (mb_local (st_mb s) <> None \/ (0 < k)%nat) ->
  (forall xs s3 a3, runs u s a xs s3 a3 -> (length xs < k)%nat -> ~ step_tie u s3 a3) ->
  ends memory_safe (fun x => env_of (fst x) = u_env u /\ Str (u_env u) (st_head (fst x)) /\
     mb_local (st_mb (fst x)) <> None /\ g_N (fst x) = g_N s /\ g_ord (fst x) = g_ord s /\ g_queue (fst x) = g_queue s) (subcycle_loop k u s a).
Proof.
  intros u HE Hdt. induction k as [|k IH]; intros s a EV H HM HT; cbn [subcycle_loop].
  - cbn. destruct HM as [HM|HM]; [auto 10|lia].
  - eapply ends_bind; [apply substep_ok; auto|].
    + apply (HT [] s a); [constructor|cbn; lia].
    + intros [s' a'] ES (EV' & H' & HM' & G1 & G2 & G3). cbn [fst] in *.
      destruct (_ && negb ngen)%bool; [cbn; auto 10|].
      eapply ends_mono; [intros r Hr; exact Hr| |apply IH; auto].
      * intros [s2 a2] (Q1 & Q2 & Q3 & Q4 & Q5 & Q6). cbn [fst] in *. split; [assumption|]. split; [assumption|].
        split; [assumption|]. split; [congruence|]. split; congruence.
      * intros xs s3 a3 HR HL. apply (HT (mkStep s a s' a' :: xs)); [econstructor; eassumption|cbn; lia].
Qed.

(** ** Unit hydrograph *)

Lemma giuh_ok : forall r N ord q, (1 <= N)%Z -> (N <= Z.of_nat (length ord))%Z -> (N < Z.of_nat (length q))%Z ->
  exists o q', giuh_convolution_integral r N ord q = Ok (o, q') /\ length q' = length q.
Proof.
  intros r N ord q H1 H2 H3. unfold giuh_convolution_integral.
  destruct (aset_in _ q N (Fin 0) ltac:(lia)) as (q1 & E1 & L1). rewrite E1. cbn [bind].
  match goal with |- context [zfor 0 (Z.to_nat N) ?b q1] => destruct (zfor_inv _ (fun _ x => length x = length q) b (Z.to_nat N) 0%Z q1) as (q2 & E2 & L2) end; auto.
  { intros j st Hj Hst. destruct (aget_in_range _ st j ltac:(lia)) as [x Ex]. destruct (aget_in_range _ ord j ltac:(lia)) as [o Eo].
    rewrite Ex. cbn [bind]. rewrite Eo. cbn [bind]. match goal with |- context [aset st j ?v] => destruct (aset_in _ st j v ltac:(lia)) as (st' & Es & Ls) end.
    rewrite Es. exists st'. split; [reflexivity|lia]. }
  rewrite E2. cbn [bind]. destruct (aget_in_range _ q2 0 ltac:(lia)) as [now En]. rewrite En. cbn [bind].
  match goal with |- context [zfor 1 ?n ?b q2] => destruct (zfor_inv _ (fun _ x => length x = length q) b n 1%Z q2) as (q3 & E3 & L3) end; auto.
  { intros j st Hj Hst. destruct (aget_in_range _ st j ltac:(lia)) as [x Ex]. rewrite Ex. cbn [bind].
    match goal with |- context [aset st ?i ?v] => destruct (aset_in _ st i v ltac:(lia)) as (st' & Es & Ls) end. rewrite Es. exists st'. split; [reflexivity|lia]. }
  rewrite E3. cbn [bind]. destruct (aset_in _ q3 (N - 1)%Z (Fin 0) ltac:(lia)) as (q4 & E4 & L4). rewrite E4. cbn [bind].
  exists now, q4. split; [reflexivity|lia].
Qed.

(** ** Start of an Update *)

Lemma calib_loop_ok : forall e cal k done rest soils,
  (forall f, In f (done ++ rest) -> (1 <= f_layer f <= e_nlayers e)%Z) ->
  (forall y, (1 <= y <= e_nlayers e)%Z -> exists t s, uget (e_stype e) y = Ok t /\ uget soils t = Ok s) ->
  Forall (fun c => (e_nlayers e <= Z.of_nat (length c))%Z) [c_theta_e cal; c_theta_r cal; c_n cal; c_alpha cal; c_Ksat cal] ->
  (k <= length rest)%nat ->
  exists l soils', calib_loop k (e_stype e) cal done rest soils = Ok (l, soils') /\ Forall2 alike (done ++ rest) l /\
    (forall y, (1 <= y <= e_nlayers e)%Z -> exists t s, uget (e_stype e) y = Ok t /\ uget soils' t = Ok s).
Proof.
  intros e cal. induction k as [|k IH]; intros done rest soils HR HS HC Hk; cbn [calib_loop].
  - exists (done ++ rest), soils. split; [reflexivity|]. split; [apply alike_list|assumption].
  - destruct rest as [|c r]; [cbn in Hk; lia|]. cbv zeta.
    assert (Rc : (1 <= f_layer c <= e_nlayers e)%Z) by (apply HR; apply in_or_app; right; left; reflexivity).
    destruct (HS _ Rc) as (t & s & Et & Es). rewrite Et. cbn [bind].
    inversion HC as [|x1 y1 C1 HC1]; subst. inversion HC1 as [|x2 y2 C2 HC2]; subst. inversion HC2 as [|x3 y3 C3 HC3]; subst.
    inversion HC3 as [|x4 y4 C4 HC4]; subst. inversion HC4 as [|x5 y5 C5 HC5]; subst.
    destruct (aget_in_range _ (c_theta_e cal) (f_layer c - 1) ltac:(lia)) as [te Ete]. rewrite Ete. cbn [bind].
    destruct (aget_in_range _ (c_theta_r cal) (f_layer c - 1) ltac:(lia)) as [tr Etr]. rewrite Etr. cbn [bind].
    destruct (aget_in_range _ (c_n cal) (f_layer c - 1) ltac:(lia)) as [nn Enn]. rewrite Enn. cbn [bind].
    destruct (aget_in_range _ (c_alpha cal) (f_layer c - 1) ltac:(lia)) as [al Eal]. rewrite Eal. cbn [bind].
    destruct (aget_in_range _ (c_Ksat cal) (f_layer c - 1) ltac:(lia)) as [ks Eks]. rewrite Eks. cbn [bind].
    rewrite Es. cbn [bind]. set (sl := calib_soil s te tr nn al ks).
    assert (Ht : (0 <= t < Z.of_nat (length soils))%Z).
    { unfold uget in Es. bind_inv Es x Ex. apply aget_Ok in Ex as [Ht Ex]. apply length_S in Ex. lia. }
    destruct (aset_in _ soils t (Some sl) Ht) as (soils' & E' & L'). rewrite E'. cbn [bind].
    set (c' := set_theta c (theta_of_h sl (f_psi c))).
    destruct (IH (done ++ [c']) r soils') as (l & soils2 & E2 & F2 & S2).
    + intros f Hf. apply in_app_or in Hf as [Hf|Hf].
      * apply in_app_or in Hf as [Hf|[<-|[]]]; [apply HR; apply in_or_app; auto|exact Rc].
      * apply HR. apply in_or_app. right. right. exact Hf.
    + intros y Hy. destruct (HS y Hy) as (ty & sy & A & B). exists ty.
      apply aset_Ok in E' as [_ ->]. unfold uget in B |- *. bind_inv B x Ex. apply aget_Ok in Ex as [Hx Ex].
      unfold aget. destruct (Z.ltb_spec ty 0); [lia|]. destruct (Nat.eq_dec (Z.to_nat t) (Z.to_nat ty)) as [Heq|Hne].
      * rewrite <- Heq, nth_error_lset_eq by lia. exists sl. split; [exact A|reflexivity].
      * rewrite nth_error_lset_neq by assumption. rewrite Ex. exists sy. split; [exact A|exact B].
    + exact HC.
    + cbn in Hk. lia.
    + exists l, soils2. split; [exact E2|]. split; [|exact S2]. rewrite <- app_assoc in F2. cbn [app] in F2.
      apply Forall2_app_inv_l in F2 as (la & lb & Fa & Fb & ->). inversion Fb as [|x y xs ys Hxy Hxs]; subst.
      apply Forall2_app; [assumption|]. constructor; [|assumption].
      destruct Hxy as ((X1 & X2 & X3) & X4 & X5). split; [split; [exact X1|split; [exact X2|exact X3]]|split; assumption].
Qed.

Lemma sound_env_update : forall e e', sound_env e -> e_nlayers e' = e_nlayers e -> e_cum e' = e_cum e ->
  (forall y, (1 <= y <= e_nlayers e)%Z -> exists s, soil_of e' y = Ok s) ->
  (forall y, (1 <= y <= e_nlayers e)%Z -> exists x, aget (e_frozen e') y = Ok x) -> sound_env e'.
Proof.
  intros e e' [H1 H2 H3 H4 H5] E1 E2 E3 E4. constructor; rewrite ?E1, ?E2; auto.
Qed.

Lemma soils_ok : forall e, sound_env e -> forall y, (1 <= y <= e_nlayers e)%Z -> exists t s, uget (e_stype e) y = Ok t /\ uget (e_soils e) t = Ok s.
Proof. intros e HE y Hy. destruct (env_soil e y HE Hy) as [s Es]. destruct (env_stype _ _ _ Es) as (t & A & B). eauto. Qed.

(** The parts of the state that matter for memory. *)
Definition shape_kept (s s' : state) : Prop :=
  p_nlayers (st_p s') = p_nlayers (st_p s) /\ p_cum (st_p s') = p_cum (st_p s) /\ g_N s' = g_N s /\ g_ord s' = g_ord s /\
  g_queue s' = g_queue s /\ p_mints (st_p s') = p_mints (st_p s) /\ p_fres (st_p s') = p_fres (st_p s) /\ p_adaptive (st_p s') = p_adaptive (st_p s) /\
  p_timestep (st_p s') = p_timestep (st_p s) /\ st_precip s' = st_precip s /\ mb_on_ts (st_mb s') = mb_on_ts (st_mb s) /\ mb_local (st_mb s') = mb_local (st_mb s).

Definition calib_ready (s : state) : Prop := p_calib (st_p s) = true -> (p_nfronts (st_p s) <= listLength (st_head s))%Z /\
    Forall (fun c => (p_nlayers (st_p s) <= Z.of_nat (length c))%Z)
      [c_theta_e (st_cal s); c_theta_r (st_cal s); c_n (st_cal s); c_alpha (st_cal s); c_Ksat (st_cal s)].

Lemma calibration_ok : forall s, sound_env (env_of s) -> Str (env_of s) (st_head s) -> p_calib (st_p s) = true -> calib_ready s ->
  exists s1 v, update_calibratable_parameters s = Ok (s1, v) /\ sound_env (env_of s1) /\ Str (env_of s1) (st_head s1) /\ shape_kept s s1.
Proof.
  intros s HE H HC HR. destruct (HR HC) as [R1 R2]. unfold update_calibratable_parameters. cbv zeta.
  destruct (Str_mass _ _ HE H) as [m Em]. change (e_cum (env_of s)) with (p_cum (st_p s)) in Em. rewrite Em. cbn [bind].
  destruct (calib_loop_ok (env_of s) (st_cal s) (Z.to_nat (p_nfronts (st_p s))) [] (st_head s) (st_soils s)) as (l & soils & E & F & S).
  - intros f Hf. cbn [app] in Hf. apply In_nth_error in Hf as [i Ei]. exact (Str_range _ _ _ _ H Ei).
  - exact (soils_ok _ HE).
  - exact R2.
  - unfold listLength in R1. lia.
  - change (e_stype (env_of s)) with (p_stype (st_p s)) in E. rewrite E. cbn [bind]. cbn [app] in F.
    assert (Hl : Str (env_of s) l) by (eapply Str_alike; eassumption).
    destruct (Str_mass _ _ HE Hl) as [m2 Em2]. change (e_cum (env_of s)) with (p_cum (st_p s)) in Em2. rewrite Em2. cbn [bind].
    eexists _, _. split; [reflexivity|]. split; [|split].
    + eapply sound_env_update; [exact HE|reflexivity|reflexivity| |].
      * intros y Hy. destruct (S y Hy) as (t & s0 & A & B). exists s0. unfold soil_of. cbn. change (e_stype (env_of s)) with (p_stype (st_p s)) in A.
        rewrite A. cbn [bind]. exact B.
      * intros y Hy. exact (env_frozen _ y HE Hy).
    + destruct Hl as [A B C]. constructor; assumption.
    + repeat split.
Qed.

Lemma prologue_ok : forall s, sound_env (env_of s) -> Str (env_of s) (st_head s) -> calib_ready s ->
  (p_sft (st_p s) = true -> forall u, frozen_factor (p_nlayers (st_p s)) (p_cum (st_p s)) (p_soilTz (st_p s)) (p_soilT (st_p s)) (p_ncells (st_p s))
     (p_frozen (st_p s)) <> Stop (UB u)) ->
  ends memory_safe (fun x => sound_env (env_of (fst x)) /\ Str (env_of (fst x)) (st_head (fst x)) /\ shape_kept s (fst x)) (update_prologue s).
Proof.
  intros s HE H HC HF. unfold update_prologue. cbv zeta.
  eapply ends_bind with (P := fun p => exists fr, p = (st_p s) <| p_frozen := fr |> /\ forall y, (1 <= y <= p_nlayers (st_p s))%Z -> exists x, aget fr y = Ok x).
  { destruct (p_sft (st_p s)).
    - eapply ends_bind with (P := fun fr => forall y, (1 <= y <= p_nlayers (st_p s))%Z -> exists x, aget fr y = Ok x).
      + destruct (frozen_factor _ _ _ _ _ _) as [fr|r] eqn:E.
        * destruct (frozen_factor_range _ _ _ _ _ _ _ E) as (_ & G & _). intros y Hy. destruct (G y Hy) as (x & Ex & _). eauto.
        * intros u Hu. subst r. exfalso. exact (HF eq_refl u eq_refl).
      + intros fr _ G. exists fr. auto.
    - exists (p_frozen (st_p s)). split; [destruct (st_p s); reflexivity|]. exact (fun y => env_frozen _ y HE). }
  intros p _ (fr & -> & Hfr). cbn [p_calib].
  set (s0 := s <| st_p := (st_p s) <| p_frozen := fr |> |>).
  assert (HE0 : sound_env (env_of s0)).
  { eapply sound_env_update; [exact HE|reflexivity|reflexivity| |exact Hfr]. intros y Hy. exact (env_soil _ y HE Hy). }
  assert (H0 : Str (env_of s0) (st_head s0)) by (destruct H as [A B C]; constructor; assumption).
  assert (K0 : shape_kept s s0) by (repeat split).
  match goal with |- ends _ _ (if ?b then _ else _) => change b with (p_calib (st_p s0)) end.
  destruct (p_calib (st_p s0)) eqn:C.
  - destruct (calibration_ok s0 HE0 H0 C) as (s1 & v & E1 & HE1 & H1 & K1); [exact HC|]. rewrite E1. cbn [bind ends fst].
    split; [exact HE1|]. split; [destruct H1 as [A B D]; constructor; assumption|].
    unfold shape_kept in *. cbn. intuition congruence.
  - cbn [ends fst]. auto.
Qed.

Lemma step_finite : forall s s2 dt n, update_steps s = Ok (s2, dt, n) ->
  finite (p_timestep (st_p s)) /\ finite (p_mints (st_p s)) /\ not_negative (p_mints (st_p s)) /\ finite (p_fres (st_p s)) -> finite dt.
Proof.
  intros s s2 dt n H (T1 & (m & T2) & T3 & (f & T4)). apply steps_inv in H as (-> & _ & _). destruct (p_adaptive (st_p s)); [|exact T1].
  unfold adaptive_step. rewrite T2, T4. rewrite T2 in T3. unfold not_negative in T3. cbn in T3. apply Rltb_false in T3.
  assert (G : forall x, x <> NInf -> finite (dfmin x (Fin f))).
  { intros [x| | |] Hx; cbn; try (destruct (Rltb _ _)); unfold finite; eauto; contradiction. }
  apply G. destruct (_ || _)%bool; [discriminate|]. destruct (_ >? _)%d; [|discriminate].
  unfold lit. destruct (rnd 2) as [y| | |] eqn:E2.
  - cbn. assert (Hy : 0 <= y). { pose proof (rnd_mono 0 2 ltac:(lra)) as M. rewrite rnd_zero, E2 in M. cbn in M. apply Rleb_true in M. exact M. }
    pose proof (rnd_mono 0 (m * y)) as M. rewrite rnd_zero in M. intro C. rewrite C in M. specialize (M ltac:(apply Rmult_le_pos; lra)). discriminate.
  - cbn. unfold inf_sign. destruct (Rlt_dec 0 m); [discriminate|]. destruct (Rlt_dec m 0); [lra|discriminate].
  - pose proof (rnd_mono 0 2 ltac:(lra)) as M. rewrite rnd_zero, E2 in M. discriminate.
  - exfalso. exact (rnd_not_nan 2 E2).
Qed.

Lemma sound_str : forall s, sound_state s -> Str (env_of s) (st_head s).
Proof. intros s [HE HP HR _ _]. apply Str_iff; [apply HE|]. split; assumption. Qed.

(** ** Update *)

Theorem update_safe : forall s, sound_state s -> ready s -> ~ update_tie s -> ends memory_safe (fun _ => True) (Update s).
Proof.
  intros s HS [RD1 RD2 RD3] HT. unfold Update. destruct (p_invalid (st_p s)); [exact I|].
  assert (HE := ss_env _ HS). assert (H := sound_str _ HS).
  eapply ends_bind; [apply prologue_ok; auto|]. intros [s1 vcal] EP (HE1 & H1 & K1). cbn [fst] in *.
  destruct (Str_mass _ _ HE1 H1) as [m Em]. change (e_cum (env_of s1)) with (p_cum (st_p s1)) in Em. rewrite Em. cbn [bind].
  destruct (st_precip s1 >=? Fin 0)%d; [|intros u Hu; discriminate]. cbn [cassert bind].
  destruct (st_pet s1 >=? Fin 0)%d; [|intros u Hu; discriminate]. cbn [cassert bind].
  destruct RD1 as (s20 & dt & n & ES & Hn).
  assert (ES1 : exists s2, update_steps s1 = Ok (s2, dt, n)).
  { apply steps_inv in ES as (A & B & _). unfold update_steps. cbv zeta.
    destruct K1 as (K1 & K2 & K3 & K4 & K5 & K6 & K7 & K8 & K9 & K10 & K11 & K12).
    assert (D : (if p_adaptive (st_p s1) then adaptive_step (st_p s1) (st_precip s1) (mb_on_ts (st_mb s1)) else p_timestep (st_p s1)) = dt).
    { rewrite A, K8, K9, K10, K11. unfold adaptive_step. rewrite K6, K7. reflexivity. }
    rewrite D. cbn. rewrite K7, B. cbn [bind]. eauto. }
  destruct ES1 as [s2 ES2]. rewrite ES2. cbn [bind].
  assert (EV : env_of s2 = env_of s1 /\ st_head s2 = st_head s1 /\ g_N s2 = g_N s1 /\ g_ord s2 = g_ord s1 /\ g_queue s2 = g_queue s1).
  { apply steps_inv in ES2 as (_ & _ & ->). repeat split. }
  destruct EV as (EV & EH & EG1 & EG2 & EG3).
  assert (Hdt : finite dt) by (eapply step_finite; [exact ES|apply (ss_times _ HS)]).
  match goal with |- context [subcycle_loop _ ?u s2 ?a] => set (u0 := u); set (a0 := a) end.
  eapply ends_bind; [apply loop_ok|].
  - change (u_env u0) with (env_of s2). rewrite EV. exact HE1.
  - exact Hdt.
  - reflexivity.
  - change (u_env u0) with (env_of s2). rewrite EV, EH. exact H1.
  - right. lia.
  - intros xs s3 a3 HR HL T. apply HT. exists s1, vcal, m, s2, dt, n, xs, s3, a3.
    split; [exact EP|]. split; [exact Em|]. split; [exact ES2|]. split; [exact HR|]. split; [exact HL|exact T].
  - intros [s3 a3] _ (Q1 & Q2 & Q3 & Q4 & Q5 & Q6). cbn [fst] in *. unfold finish_update.
    destruct K1 as (_ & _ & K3 & K4 & K5 & _). destruct (ss_giuh _ HS) as (G1 & G2 & G3).
    destruct (giuh_ok (a_runoff a3) (g_N s3) (g_ord s3) (g_queue s3)) as (o & q & EO & _); [congruence|congruence|congruence|].
    rewrite EO. cbn [bind]. destruct (mb_local (st_mb s3)); [exact I|]. exfalso. apply Q3. reflexivity.
Qed.

(** ** Histories *)

Lemma runs_str : forall u s a xs s' a', runs u s a xs s' a' -> sound_env (u_env u) -> finite (u_dt u) ->
  Forall (fun x => ~ step_tie u (x_s x) (x_a x)) xs -> env_of s = u_env u -> Str (u_env u) (st_head s) ->
  env_of s' = u_env u /\ Str (u_env u) (st_head s') /\ g_N s' = g_N s /\ g_ord s' = g_ord s /\ g_queue s' = g_queue s /\
  p_timestep (st_p s') = p_timestep (st_p s) /\ p_mints (st_p s') = p_mints (st_p s) /\ p_fres (st_p s') = p_fres (st_p s).
Proof.
  intros u s a xs s' a' HR HE Hdt. induction HR as [s a|s a s1 a1 xs s2 a2 HS HR IH]; intros HT EV H; [auto 10|].
  inversion HT as [|x y T1 T2]; subst. cbn [x_s x_a] in T1.
  pose proof (ends_Ok _ _ _ _ _ (substep_ok u s a HE EV H Hdt T1) HS) as (A & B & _ & C1 & C2 & C3). cbn [fst] in *.
  destruct (IH T2 A B) as (D1 & D2 & D3 & D4 & D5 & D6 & D7 & D8).
  apply substep_inv in HS as (v1 & b & v2 & m & pc & pe & pr & per & _ & _ & _ & _ & _ & _ & _ & _ & _ & -> & _).
  split; [exact D1|]. split; [exact D2|]. cbn in *. auto 10.
Qed.

Lemma calib_loop_kept : forall st cal k done rest soils l soils', calib_loop k st cal done rest soils = Ok (l, soils') ->
  Forall2 alike (done ++ rest) l /\ (forall t s, uget soils t = Ok s -> exists s', uget soils' t = Ok s').
Proof.
  intros st cal. induction k as [|k IH]; intros done rest soils l soils' E; cbn [calib_loop] in E.
  - apply Ok_inj in E. apply pair_equal_spec in E as [<- <-]. split; [apply alike_list|eauto].
  - destruct rest as [|c r]; [discriminate|]. cbv zeta in E.
    bind_inv E t Et. bind_inv E te Ete. bind_inv E tr Etr. bind_inv E nn Enn. bind_inv E al Eal. bind_inv E ks Eks. bind_inv E sl Esl. bind_inv E so Eso.
    set (sl' := calib_soil sl te tr nn al ks) in *. set (c' := set_theta c (theta_of_h sl' (f_psi c))) in *.
    destruct (IH _ _ _ _ _ E) as [F2 HS]. split.
    + rewrite <- app_assoc in F2. cbn [app] in F2.
      apply Forall2_app_inv_l in F2 as (la & lb & Fa & Fb & ->). inversion Fb as [|x y xs ys Hxy Hxs]; subst.
      apply Forall2_app; [assumption|]. constructor; [|assumption].
      destruct Hxy as ((X1 & X2 & X3) & X4 & X5). split; [split; [exact X1|split; [exact X2|exact X3]]|split; assumption].
    + intros y sy B. assert (G : exists s1, uget so y = Ok s1); [|destruct G as [s1 G]; eauto].
      apply aset_Ok in Eso as [Ht ->]. unfold uget in B |- *. bind_inv B x Ex. apply aget_Ok in Ex as [Hx Ex].
      unfold aget. destruct (Z.ltb_spec y 0); [lia|]. destruct (Nat.eq_dec (Z.to_nat t) (Z.to_nat y)) as [Heq|Hne].
      * rewrite <- Heq, nth_error_lset_eq by lia. exists sl'. reflexivity.
      * rewrite nth_error_lset_neq by assumption. rewrite Ex. exists sy. exact B.
Qed.

Lemma prologue_kept : forall s s1 v, sound_env (env_of s) -> Str (env_of s) (st_head s) -> update_prologue s = Ok (s1, v) ->
  sound_env (env_of s1) /\ Str (env_of s1) (st_head s1) /\ shape_kept s s1.
Proof.
  intros s s1 v HE H E. unfold update_prologue in E. cbv zeta in E. bind_inv E p Ep.
  assert (G : exists fr, p = (st_p s) <| p_frozen := fr |> /\ forall y, (1 <= y <= p_nlayers (st_p s))%Z -> exists x, aget fr y = Ok x).
  { destruct (p_sft (st_p s)).
    - bind_inv Ep fr Efr. apply Ok_inj in Ep. subst p. exists fr. split; [reflexivity|].
      destruct (frozen_factor_range _ _ _ _ _ _ _ Efr) as (_ & G & _). intros y Hy. destruct (G y Hy) as (x & Ex & _). eauto.
    - apply Ok_inj in Ep. subst p. exists (p_frozen (st_p s)). split; [destruct (st_p s); reflexivity|]. exact (fun y => env_frozen _ y HE). }
  destruct G as (fr & -> & Hfr).
  set (s0 := s <| st_p := (st_p s) <| p_frozen := fr |> |>) in *.
  assert (HE0 : sound_env (env_of s0)).
  { eapply sound_env_update; [exact HE|reflexivity|reflexivity| |exact Hfr]. intros y Hy. exact (env_soil _ y HE Hy). }
  assert (H0 : Str (env_of s0) (st_head s0)) by (destruct H as [A B C]; constructor; assumption).
  assert (K0 : shape_kept s s0) by (repeat split).
  destruct (p_calib _) eqn:C.
  - bind_inv E x Ex. destruct x as [s2 v2]. apply Ok_inj in E. apply pair_equal_spec in E as [<- _].
    unfold update_calibratable_parameters in Ex. cbv zeta in Ex. bind_inv Ex m Em. bind_inv Ex ls El. destruct ls as [l soils]. bind_inv Ex m2 Em2.
    apply Ok_inj in Ex. apply pair_equal_spec in Ex as [<- _].
    destruct (calib_loop_kept _ _ _ _ _ _ _ _ El) as [F S]. cbn [app] in F.
    assert (Hl : Str (env_of s0) l) by (eapply Str_alike; eassumption).
    split; [|split].
    + eapply sound_env_update; [exact HE0|reflexivity|reflexivity| |].
      * intros y Hy. destruct (soils_ok _ HE0 y Hy) as (t & sy & A & B). destruct (S t sy B) as [sy' B'].
        exists sy'. unfold soil_of. cbn. cbn in A. rewrite A. exact B'.
      * exact Hfr.
    + destruct Hl as [A B D]. constructor; assumption.
    + repeat split.
  - apply Ok_inj in E. apply pair_equal_spec in E as [<- _]. auto.
Qed.

Lemma executed_sound : forall s u xs s', sound_state s -> executed s u xs s' -> Forall (fun x => ~ step_tie u (x_s x) (x_a x)) xs -> sound_state s'.
Proof.
  intros s u xs s' HS [HU HX] HT. destruct (p_invalid (st_p s)) eqn:Hv.
  - unfold Update in HU. rewrite Hv in HU. apply Ok_inj in HU. subst s'. destruct HS as [A B C D F]. constructor; assumption.
  - destruct HX as (s1 & vcal & volend & s2 & n & s3 & a & EP & EM & ES & EU & HR & _ & EF).
    assert (HE := ss_env _ HS). assert (H := sound_str _ HS).
    assert (HP : sound_env (env_of s1) /\ Str (env_of s1) (st_head s1) /\ shape_kept s s1).
    { eapply prologue_kept; eassumption. }
    destruct HP as (HE1 & H1 & K1).
    assert (KK := K1). destruct KK as (K2 & K3 & K4 & K5 & K6 & K7 & K8 & K9 & K10 & _).
    assert (Hdt : finite (u_dt u)).
    { eapply step_finite; [exact ES|]. rewrite K10, K7, K8. apply HS. }
    pose proof (steps_inv _ _ _ _ ES) as (_ & _ & E2).
    assert (EV : env_of s2 = u_env u) by (rewrite EU; reflexivity).
    assert (EV1 : env_of s1 = u_env u) by (rewrite <- EV, E2; reflexivity).
    destruct (runs_str _ _ _ _ _ _ HR) as (D1 & D2 & D3 & D4 & D5 & D6 & D7 & D8); auto.
    + rewrite <- EV1. exact HE1.
    + rewrite <- EV1, E2. exact H1.
    + apply finish_inv in EF as (g & q & mbl & EG & _ & EQ).
      assert (G : (1 <= g_N s3)%Z /\ (g_N s3 <= Z.of_nat (length (g_ord s3)))%Z /\ (g_N s3 < Z.of_nat (length (g_queue s3)))%Z).
      { rewrite D3, D4, D5, E2. cbn. rewrite K4, K5, K6. apply HS. }
      destruct G as (G1 & G2 & G3).
      destruct (giuh_ok (a_runoff a) (g_N s3) (g_ord s3) (g_queue s3) G1 G2 G3) as (o2 & q2 & EO & LO).
      rewrite EG in EO. apply Ok_inj in EO. apply pair_equal_spec in EO as [_ ->].
      assert (EVs : env_of s' = u_env u) by (rewrite EQ; exact D1).
      assert (HStr : Str (env_of s') (st_head s')) by (rewrite EVs, EQ; exact D2).
      assert (HEs : sound_env (env_of s')) by (rewrite EVs, <- EV1; exact HE1).
      apply Str_iff in HStr as [P1 P2]; [|apply HEs].
      constructor; [exact HEs|exact P1|exact P2| |].
      * rewrite EQ. cbn. rewrite D6, D7, D8, E2. cbn. rewrite K7, K8. destruct (ss_times _ HS) as (_ & T2 & T3 & T4). auto.
      * rewrite EQ. cbn. rewrite LO. auto.
Qed.

Lemma edit_sound : forall s s', sound_state s -> user_edit s s' -> sound_state s'.
Proof.
  intros s s' [A B C D F] (pr & pet & T & cal & out & nf & tw & dw & ->). constructor; assumption.
Qed.
End Any.
