(** Lemmas: sessions on the heap, from Initialize to Finalize. *)

From Coq Require Import String Reals ZArith List Bool Arith Lia.
From RecordUpdate Require Import RecordSet.
From Verif Require Import Outcome Dbl Exact Types ListOps HeapList Soil Giuh Spec_List Spec_Heap Pf_List Pf_Heap Fronts Infil Move State Update Config Life HeapFronts HeapUpdate
  Spec_Life Spec_Refine Spec_Update Spec_Profile Spec_Config Pf_Init Pf_InitState Pf_LifeRun Pf_Lay Pf_Lay2 Pf_Refine Pf_Refine2 Pf_Refine3 Pf_Refine4 Pf_Refine5.
Import ListNotations.
Import RecordSetNotations.
Open Scope nat_scope.

(** ** Every pair of lists has a picture *)
Definition empty_heap : heap := mkH 0 (fun _ => Unalloc).
Lemma empty_pictures : pictures empty_heap None None [] [].
Proof. exists [], []. repeat split; try reflexivity. - constructor. - intros a n E. discriminate E. Qed.

Lemma seg_malloc : forall L h n q, heap_ok h -> seg h q L None -> seg (fst (h_malloc h n)) q L None.
Proof.
  intros L h n q K S. eapply seg_frame; [|exact S]. intros a Ha. cbn. destruct (Nat.eqb_spec a (h_top h)) as [->|]; [|reflexivity].
  exfalso. assert (exists m, h_cell h (h_top h) = Live m) as [m E].
  { clear - S Ha. revert q S. induction L as [|[b v] L IH]; intros q S; [destruct Ha|]. destruct S as [-> [nx [C S]]]. destruct Ha as [<-|Ha]; [eauto|]. eapply IH; eauto. }
  rewrite K in E by lia. discriminate E.
Qed.
Lemma seg_below : forall L h q, heap_ok h -> seg h q L None -> forall a, In a (addrs L) -> a < h_top h.
Proof.
  induction L as [|[b v] L IH]; intros h q K S a Ha; [destruct Ha|]. destruct S as [-> [nx [C S]]]. destruct Ha as [<-|Ha]; [|eapply IH; eauto].
  destruct (Nat.lt_ge_cases b (h_top h)) as [|G]; [assumption|]. rewrite K in C by assumption. discriminate C.
Qed.

Lemma grow_head : forall h p po l lo f, pictures h p po l lo -> exists h' p', pictures h' p' po (f :: l) lo.
Proof.
  intros h p po l lo f (L & P & K & S1 & S2 & N & V1 & V2 & F). exists (fst (h_malloc h (mkN f p))), (Some (h_top h)), ((h_top h, f) :: L), P.
  assert (B1 := seg_below _ _ _ K S1). assert (B2 := seg_below _ _ _ K S2).
  split; [|split; [|split; [|split; [|split; [|split]]]]].
  - intros a Ha. cbn in *. destruct (Nat.eqb_spec a (h_top h)); [lia|]. apply K. lia.
  - split; [reflexivity|]. exists p. split; [cbn; rewrite Nat.eqb_refl; reflexivity|]. apply seg_malloc; assumption.
  - apply seg_malloc; assumption.
  - cbn [addrs map fst app]. constructor; [|exact N]. intros Ha. apply in_app_or in Ha. destruct Ha as [Ha|Ha]; [apply B1 in Ha|apply B2 in Ha]; lia.
  - cbn. f_equal. exact V1.
  - exact V2.
  - intros a n E. cbn in E. destruct (Nat.eqb_spec a (h_top h)) as [->|]; [left; reflexivity|right]. eapply F; exact E.
Qed.
Lemma swap : forall h p po l lo, pictures h p po l lo -> pictures h po p lo l.
Proof.
  intros h p po l lo (L & P & K & S1 & S2 & N & V1 & V2 & F). exists P, L. repeat split; auto.
  - eapply Permutation.Permutation_NoDup; [apply Permutation.Permutation_app_comm|exact N].
  - intros a n E. apply F in E. apply in_app_or in E. apply in_or_app. tauto.
Qed.
Lemma pictured : forall l lo, exists h p po, pictures h p po l lo.
Proof.
  intros l lo. assert (exists h po, pictures h None po [] lo) as (h0 & po & H0).
  { induction lo as [|f lo (h & po & IH)]; [exists empty_heap, None; apply empty_pictures|]. apply swap in IH. destruct (grow_head _ _ _ _ _ f IH) as (h' & p' & G).
    exists h', p'. apply swap. exact G. }
  induction l as [|f l (h & p & po' & IH)]; [exists h0, None, po; exact H0|]. destruct (grow_head _ _ _ _ _ f IH) as (h' & p' & G). exists h', p', po'. exact G.
Qed.
Lemma every_shown : forall s, exists o, shows o s.
Proof.
  intros s. destruct (pictured (st_head s) (st_prev s)) as (h & p & po & H). exists (mkHS h p po s). split; [exact H|]. destruct s. reflexivity.
Qed.

Lemma every_picture : forall l lo, exists h p po, pictures h p po l lo. Proof. exact pictured. Qed.

(** ** The number of nodes *)
Lemma count_nodup : forall (f : nat -> bool) (A : list nat) n, NoDup A -> (forall a, In a A <-> (a < n)%nat /\ f a = true) -> length (filter f (seq 0 n)) = length A.
Proof.
  intros f A n N H. apply Nat.le_antisymm.
  - apply NoDup_incl_length; [apply NoDup_filter, seq_NoDup|]. intros a Ha. apply filter_In in Ha. destruct Ha as [Ha E]. apply in_seq in Ha. apply H. split; [lia|exact E].
  - apply NoDup_incl_length; [exact N|]. intros a Ha. apply H in Ha. apply filter_In. split; [apply in_seq; lia|tauto].
Qed.
Lemma seg_live : forall L h q, seg h q L None -> forall a, In a (addrs L) -> exists n, h_cell h a = Live n.
Proof. induction L as [|[b v] L IH]; intros h q S a Ha; [destruct Ha|]. destruct S as [-> [nx [C S]]]. destruct Ha as [<-|Ha]; [eauto|]. eapply IH; eauto. Qed.
Lemma picture_size : forall h p po l lo, pictures h p po l lo -> live_nodes h = length l + length lo.
Proof.
  intros h p po l lo (L & P & K & S1 & S2 & N & V1 & V2 & F). unfold live_nodes. rewrite (count_nodup _ (addrs L ++ addrs P)); [|exact N|].
  - rewrite app_length. subst. unfold addrs, vals. rewrite !map_length. reflexivity.
  - intros a. split.
    + intros Ha. apply in_app_or in Ha. split; [destruct Ha as [Ha|Ha]; [eapply seg_below in Ha|eapply seg_below in Ha]; eauto|].
      destruct Ha as [Ha|Ha]; [destruct (seg_live _ _ _ S1 _ Ha) as [n ->]|destruct (seg_live _ _ _ S2 _ Ha) as [n ->]]; reflexivity.
    + intros [_ E]. destruct (h_cell h a) eqn:C; try discriminate E. eapply F; exact C.
Qed.

(** ** Both lists released *)
Lemma apart : forall (A B : list nat) z, NoDup (A ++ B) -> In z A -> In z B -> False.
Proof. induction A as [|a A IH]; intros B z N H1 H2; [destruct H1|]. inversion N as [|? ? N1 N2]; subst. destruct H1 as [<-|H1]; [apply N1, in_or_app; right; exact H2|eapply IH; eassumption]. Qed.
Lemma nodup_app : forall (A B : list nat), NoDup A -> NoDup B -> (forall a, In a A -> ~ In a B) -> NoDup (A ++ B).
Proof.
  induction A as [|a A IH]; intros B N1 N2 D; [exact N2|]. inversion N1; subst. cbn. constructor.
  - intros Q. apply in_app_or in Q. destruct Q as [Q|Q]; [contradiction|]. apply (D a); [left; reflexivity|exact Q].
  - apply IH; auto. intros b Hb. apply D. right. exact Hb.
Qed.
Lemma picture_released : forall h p po l lo k, pictures h p po l lo -> length l < k -> length lo < k ->
  exists h1 h2, h_listDelete k h p = Ok h1 /\ h_listDelete k h1 po = Ok h2 /\ no_front h2.
Proof.
  intros h p po l lo k (L & P & K & S1 & S2 & N & V1 & V2 & F) Hl Hp.
  assert (NL : NoDup (addrs L)) by (eapply NoDup_left; exact N).
  assert (NP : NoDup (addrs P)). { eapply NoDup_right; exact N. }
  assert (D : forall a, In a (addrs P) -> ~ In a (addrs L)). { intros a H1 H2. exact (apart _ _ _ N H2 H1). }
  destruct (h_listDelete_ok L k h p S1 NL) as (h1 & E1 & T1 & O1 & F1); [subst l; unfold vals in Hl; rewrite map_length in Hl; exact Hl|].
  destruct (h_listDelete_ok P k h1 po) as (h2 & E2 & T2 & O2 & F2).
  - eapply seg_frame; [|exact S2]. intros a Ha. apply O1. auto.
  - exact NP.
  - subst lo. unfold vals in Hp. rewrite map_length in Hp. exact Hp.
  - exists h1, h2. split; [exact E1|]. split; [exact E2|]. intros a n E. destruct (in_dec Nat.eq_dec a (addrs P)) as [i|i].
    + rewrite F2 in E by exact i. discriminate E.
    + rewrite O2 in E by exact i. destruct (in_dec Nat.eq_dec a (addrs L)) as [j|j]; [rewrite F1 in E by exact j; discriminate E|].
      rewrite O1 in E by exact j. apply F in E. apply in_app_or in E. tauto.
Qed.

Section Sessions.
Context {fp : Fp} {cfg : Cfg}.

Lemma Update_shows : forall o s, shows o s -> numbered (st_head s) -> follows (fun s' o' => shows o' s' /\ numbered (st_head s')) (Update s) (h_Update o).
Proof.
  intros o s H N. eapply follows_imp; [apply Update_follows; apply shown_shows; split; assumption|]. intros x y _ Q. apply shown_shows. exact Q.
Qed.

(** A client's change, seen on both sides. *)
Lemma client : forall o s w, shows o s -> st_head w = st_head s -> st_prev w = st_prev s -> shows (mkHS (hs_heap o) (hs_head o) (hs_prev o) w) w.
Proof. intros o s w [Pi _] E1 E2. split; [cbn; rewrite E1, E2; exact Pi|]. destruct w. reflexivity. Qed.
Lemma h_client : forall o s w, shows o s -> hs_heap w = hs_heap o -> hs_head w = hs_head o -> hs_prev w = hs_prev o ->
  shows w (hs_rest w <| st_head := st_head s |> <| st_prev := st_prev s |>).
Proof. intros o s w [Pi _] E1 E2 E3. split; [|destruct (hs_rest w); reflexivity]. rewrite E1, E2, E3. destruct (hs_rest w). exact Pi. Qed.

Lemma session_forth : forall s s', session s s' -> forall o, shows o s -> numbered (st_head s) -> exists o', h_session o o' /\ shows o' s' /\ numbered (st_head s').
Proof.
  intros s s' R. induction R as [s|s s1 w s2 R IH E1 E2 U]; intros o H N.
  - exists o. split; [constructor|]. split; assumption.
  - destruct (IH o H N) as (o1 & R1 & H1 & N1). pose proof (client _ _ _ H1 E1 E2) as H2.
    assert (N2 : numbered (st_head w)) by (rewrite E1; exact N1). pose proof (Update_shows _ _ H2 N2) as Fo. rewrite U in Fo. cbn in Fo.
    destruct Fo as (o2 & E & H3 & N3). exists o2. split; [|split; assumption].
    eapply hses_update; [exact R1| | | |exact E]; reflexivity.
Qed.

Lemma session_back : forall o o', h_session o o' -> forall s, shows o s -> numbered (st_head s) -> exists s', session s s' /\ shows o' s' /\ numbered (st_head s').
Proof.
  intros o o' R. induction R as [o|o o1 w o2 R IH E1 E2 E3 U]; intros s H N.
  - exists s. split; [constructor|]. split; assumption.
  - destruct (IH s H N) as (s1 & R1 & H1 & N1). pose proof (h_client _ _ _ H1 E1 E2 E3) as H2. set (w' := hs_rest w <| st_head := st_head s1 |> <| st_prev := st_prev s1 |>) in *.
    assert (Q1 : st_head w' = st_head s1) by (unfold w'; destruct (hs_rest w); reflexivity). assert (Q2 : st_prev w' = st_prev s1) by (unfold w'; destruct (hs_rest w); reflexivity).
    assert (N2 : numbered (st_head w')) by (rewrite Q1; exact N1). pose proof (Update_shows _ _ H2 N2) as Fo. unfold follows in Fo.
    destruct (Update w') as [s2|r] eqn:E; [|rewrite U in Fo; discriminate Fo]. destruct Fo as (o3 & E4 & H3 & N3). rewrite U in E4. injection E4 as <-.
    exists s2. split; [|split; assumption]. eapply ses_update; [exact R1|exact Q1|exact Q2|exact E].
Qed.

(** ** From Initialize on *)
Lemma holds_pictures : forall o l p, holds o l p -> pictures (lf_nodes o) (lf_head o) (lf_prev o) l p.
Proof.
  intros o l p (L & P & K & [S1 N1] & [S2 N2] & V1 & V2 & D & F). exists L, P. split; [exact K|]. split; [exact S1|]. split; [exact S2|]. split.
  - apply nodup_app; [exact N1|exact N2|]. exact D.
  - split; [exact V1|]. split; [exact V2|]. intros a n E. apply in_or_app. eapply F. exact E.
Qed.

Lemma initial_prev : forall files junk ls s, Initialize files junk ls = Ok s -> st_prev s = [].
Proof.
  intros files junk ls s H. destruct (init_inv _ _ _ _ H) as (c & st & rw & tab & thick & ps & ord & I). destruct (in_s _ _ _ _ _ _ _ _ _ _ _ I) as (Q & _). exact Q.
Qed.
Lemma initial_numbered : forall files junk ls s, Initialize files junk ls = Ok s -> numbered (st_head s).
Proof. intros files junk ls s H. destruct (init_inv _ _ _ _ H) as (c & st & rw & tab & thick & ps & ord & I). destruct (init_fronts _ _ _ _ _ _ _ _ _ _ _ I) as (N & _). exact N. Qed.

Lemma initial_shows : forall files junk ls s, Initialize files junk ls = Ok s -> forall k o, S (length (st_head s)) < k ->
  l_Initialize k ls (p_sft (st_p s)) (st_head s) l_construct = Ok o -> shows (started o s) s.
Proof.
  intros files junk ls s H k o Hk E. destruct (start_whole _ _ _ _ H k Hk) as (o' & E' & Ho & _). rewrite E in E'. injection E' as <-.
  split; [|destruct s; reflexivity]. cbn. rewrite (initial_prev _ _ _ _ H). apply holds_pictures. exact Ho.
Qed.

Lemma whole_life : forall files junk ls s, Initialize files junk ls = Ok s -> forall k o, S (length (st_head s)) < k ->
  l_Initialize k ls (p_sft (st_p s)) (st_head s) l_construct = Ok o -> forall o', h_session (started o s) o' ->
  exists s', session s s' /\ shows o' s' /\ live_nodes (hs_heap o') = length (st_head s') + length (st_prev s')
    /\ forall k', length (st_head s') < k' -> length (st_prev s') < k' ->
       exists h1 h2, h_listDelete k' (hs_heap o') (hs_head o') = Ok h1 /\ h_listDelete k' h1 (hs_prev o') = Ok h2 /\ no_front h2.
Proof.
  intros files junk ls s H k o Hk E o' R. destruct (session_back _ _ R s (initial_shows _ _ _ _ H _ _ Hk E) (initial_numbered _ _ _ _ H)) as (s' & R' & H' & N').
  exists s'. split; [exact R'|]. split; [exact H'|]. destruct H' as [Pi _]. split; [eapply picture_size; exact Pi|]. intros k' H1 H2. eapply picture_released; eassumption.
Qed.

(** ** The routines, without the names of the addresses *)
Lemma img_pictures : forall po B lo l y, img po B lo l y -> pictures (fst y) (snd y) po l lo /\ numbered l.
Proof. intros po B lo l y [[A Y] N]. split; [|exact N]. apply lay_pictures. eauto. Qed.

Lemma mass_pictures : forall cum h p po l lo, pictures h p po l lo -> h_mass cum h p = lgar_calc_mass_bal cum l.
Proof. intros cum h p po l lo Pi. apply lay_pictures in Pi. destruct Pi as (A & B & Y). eapply mass_eq. exact Y. Qed.
Lemma dzdt_pictures : forall e closed nint h_p h p po l lo, pictures h p po l lo -> numbered l ->
  follows (fun l' h' => pictures h' p po l' lo /\ numbered l') (lgar_dzdt_calc e closed nint h_p l) (h_dzdt e closed nint h_p h p).
Proof.
  intros e closed nint h_p h p po l lo Pi N. apply lay_pictures in Pi. destruct Pi as (A & B & Y). eapply follows_imp; [eapply dzdt_follows; eassumption|].
  cbv beta. intros z z' _ [Y' N']. split; [apply lay_pictures; eauto|exact N'].
Qed.
Lemma create_pictures : forall e ponded dry theta1 h p po l lo, pictures h p po l lo -> numbered l ->
  follows (fun '(l', a, b) '(h', p', a', b') => pictures h' p' po l' lo /\ numbered l' /\ a = a' /\ b = b')
    (lgar_create_surficial_front e ponded dry theta1 l) (h_create e ponded dry theta1 h p).
Proof.
  intros e ponded dry theta1 h p po l lo Pi N. apply lay_pictures in Pi. destruct Pi as (A & B & Y). eapply follows_imp; [eapply create_follows; eassumption|].
  cbv beta. intros [[l' a] b] [[[h' p'] a'] b'] _ (Q & E1 & E2). cbn [fst snd] in *. apply img_pictures in Q. cbn [fst snd] in Q. tauto.
Qed.
Lemma merge_pictures : forall e h p po l lo, pictures h p po l lo -> numbered l ->
  follows (fun l' '(h', p') => pictures h' p' po l' lo /\ numbered l') (lgar_merge_wetting_fronts e l) (h_merge e h p).
Proof.
  intros e h p po l lo Pi N. apply lay_pictures in Pi. destruct Pi as (A & B & Y). eapply follows_imp; [eapply merge_follows; eassumption|].
  cbv beta. intros z [h' p'] _ Q. apply img_pictures in Q. exact Q.
Qed.
Lemma cross_pictures : forall e h p po l lo, pictures h p po l lo -> numbered l ->
  follows (fun l' h' => pictures h' p po l' lo /\ numbered l') (lgar_wetting_fronts_cross_layer_boundary e l) (h_cross e h p).
Proof.
  intros e h p po l lo Pi N. apply lay_pictures in Pi. destruct Pi as (A & B & Y). eapply follows_imp; [eapply cross_follows; eassumption|].
  cbv beta. intros z z' _ [Y' N']. split; [apply lay_pictures; eauto|exact N'].
Qed.
Lemma domain_pictures : forall e D h p po l lo, pictures h p po l lo -> numbered l ->
  follows (fun '(q, l') '(q', h', p') => pictures h' p' po l' lo /\ numbered l' /\ q = q') (lgar_wetting_front_cross_domain_boundary e D l) (h_domain e D h p).
Proof.
  intros e D h p po l lo Pi N. apply lay_pictures in Pi. destruct Pi as (A & B & Y). eapply follows_imp; [eapply domain_follows; eassumption|].
  cbv beta. intros [q l'] [[q' h'] p'] _ [E Q]. cbn [fst snd] in *. apply img_pictures in Q. cbn [fst snd] in Q. tauto.
Qed.
Lemma fix_pictures : forall e mc h p po l lo, pictures h p po l lo -> numbered l ->
  follows (fun '(l', m) '(h', p', m') => pictures h' p' po l' lo /\ numbered l' /\ m = m') (lgar_fix_dry_over_wet_wetting_fronts e mc l) (h_fix e mc h p).
Proof.
  intros e mc h p po l lo Pi N. apply lay_pictures in Pi. destruct Pi as (A & B & Y). eapply follows_imp; [eapply fix_follows; eassumption|].
  cbv beta. intros [l' m] [[h' p'] m'] _ [Q E]. cbn [fst snd] in *. apply img_pictures in Q. cbn [fst snd] in Q. tauto.
Qed.
Lemma move_pictures : forall e dt volin wfd old aet h p po l lo, pictures h p po l lo -> numbered l -> lo <> [] ->
  follows (fun '(l', a, q) '(h', p', a', q') => pictures h' p' po l' lo /\ numbered l' /\ a = a' /\ q = q')
    (lgar_move_wetting_fronts e dt volin wfd old aet l lo) (h_move e dt volin wfd old aet h p po).
Proof.
  intros e dt volin wfd old aet h p po l lo Pi N NE. apply lay_pictures in Pi. destruct Pi as (A & B & Y). eapply follows_imp; [eapply move_follows; eassumption|].
  cbv beta. intros [[l' a] b] [[[h' p'] a'] b'] _ (Q & E1 & E2). cbn [fst snd] in *. apply img_pictures in Q. cbn [fst snd] in Q. tauto.
Qed.

End Sessions.
