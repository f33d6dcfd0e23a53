(** Lemmas: the routines of linked_list.cxx in a heap that pictures two lists. *)

From Coq Require Import Reals ZArith List Bool Arith Lia.
From Verif Require Import Outcome Dbl Types ListOps HeapList Lib Spec_List Spec_Heap Pf_List Pf_Heap HeapFronts HeapUpdate Spec_Refine Pf_Lay.
Import ListNotations.

Lemma ptr_addrs : forall L i, ptr_at L i = nth_error (addrs L) i.
Proof. intros L i. unfold ptr_at, addrs. rewrite nth_error_map. reflexivity. Qed.

Lemma len_vals : forall L, length L = length (vals L).
Proof. intros. symmetry. apply vals_length. Qed.

Section Ops.
Variables (h : heap) (p po : ptr) (A B : list nat) (l lo : list front).
Hypothesis Y : lay h p po A B l lo.

Lemma lay_length : h_length h p = Ok (listLength l).
Proof.
  pose proof (lay_room _ _ _ _ _ _ _ Y) as R. destruct Y as (L & P & EA & EB & <- & <- & K & S1 & S2 & N & F).
  unfold h_length. rewrite (h_listLength_ok L (room h) h p 0 S1) by (rewrite len_vals; lia). unfold listLength. rewrite vals_length. reflexivity.
Qed.

Definition into (C : list nat) (q : option nat) : ptr := match q with Some i => nth_error C i | None => None end.

Lemma lay_find : forall key, h_findFront key h p None = Ok (into A (findFront key l)).
Proof.
  intros key. pose proof (lay_room _ _ _ _ _ _ _ Y) as R. destruct Y as (L & P & <- & <- & <- & <- & K & S1 & S2 & N & F).
  unfold h_findFront. rewrite (h_findFront_ok key L [] (room h) h p None S1) by (try reflexivity; rewrite ?len_vals; simpl; lia).
  unfold findFront, into. destruct L as [|x L]; [reflexivity|]. destruct (pos_of key (vals (x :: L))); [rewrite ptr_addrs|]; reflexivity.
Qed.

Lemma lay_find_old : forall key, lo <> [] -> h_findFront key h p po = Ok (into B (snd (findFrontOld key l lo))) /\ fst (findFrontOld key l lo) = lo.
Proof.
  intros key NE. pose proof (lay_room _ _ _ _ _ _ _ Y) as R. destruct Y as (L & P & <- & <- & <- & <- & K & S1 & S2 & N & F).
  unfold h_findFront. rewrite (h_findFront_ok key L P (room h) h p po S1 S2) by (rewrite len_vals; lia).
  destruct L as [|x L]; [split; reflexivity|]. destruct P as [|y P]; [exfalso; apply NE; reflexivity|].
  unfold findFrontOld. cbn [vals map]. fold (vals L) (vals P). split; [|reflexivity]. cbn [snd]. change (snd y :: vals P) with (vals (y :: P)).
  cbv zeta. destruct (pos_of key (vals (y :: P))); [cbn [into]; rewrite ptr_addrs|]; reflexivity.
Qed.

Lemma lay_delete : forall num l' q, listDeleteFront num l = Ok (l', q) ->
  exists h' p' A' i, h_deleteFront num h p = Ok (h', p', nth_error A' i) /\ lay h' p' po A' B l' lo /\ h_top h' = h_top h
    /\ pos_of num l = Some i /\ A' = without i A /\ q = (if (i <? length l')%nat then Some i else None)
    /\ (forall a, nth_error A i = Some a -> h_cell h' a = Freed).
Proof.
  intros num l' q E. pose proof (lay_room _ _ _ _ _ _ _ Y) as R. destruct Y as (L & P & EA & EB & V1 & V2 & K & S1 & S2 & N & F).
  destruct (pos_of num l) as [i|] eqn:Ei; [|unfold listDeleteFront in E; rewrite Ei in E; discriminate E].
  rewrite <- V1 in Ei. assert (HL : (length L < room h)%nat) by (rewrite len_vals, V1; lia).
  assert (NL : NoDup (addrs L)) by (rewrite EA; eapply NoDup_left; eassumption).
  destruct (h_deleteFront_ok num L (room h) h p i K S1 NL HL Ei) as (h' & p' & L' & a & E' & K' & S' & N' & Ha & EL & ED & HF & HS & HT).
  exists h', p', (addrs L'), i. unfold h_deleteFront. rewrite E', ptr_addrs. split; [reflexivity|].
  rewrite V1 in ED. rewrite E in ED. injection ED as -> ->.
  assert (IN : forall b, In b (addrs L) -> ~ In b (addrs P)).
  { intros b H1 H2. rewrite EA in H1. rewrite EB in H2. clear - N H1 H2. revert H1. induction A as [|x A0 IH]; intros H1; [destruct H1|].
    simpl in N. inversion N as [|? ? N1 N2]; subst. destruct H1 as [-> | H1]; [apply N1, in_or_app; auto|auto]. }
  split; [|split; [exact HT|split; [reflexivity|split; [rewrite EL, EA; reflexivity|split; [reflexivity|]]]]].
  - exists L', P. split; [reflexivity|]. split; [exact EB|]. split; [reflexivity|]. split; [exact V2|].
    split; [exact K'|]. split; [exact S'|]. split.
    + eapply seg_frame; [|exact S2]. intros b Hb. apply HS. intros Hc. exact (IN b Hc Hb).
    + assert (SP : exists A1 A2, A = A1 ++ a :: A2 /\ without i A = A1 ++ A2).
      { rewrite EA in Ha. clear - Ha. revert i Ha. induction A as [|x A0 IH]; intros i Ha; [destruct i; discriminate Ha|].
        destruct i as [|i]; simpl in Ha.
        - injection Ha as ->. exists [], A0. split; reflexivity.
        - destruct (IH i Ha) as (A1 & A2 & -> & W). exists (x :: A1), A2. split; [reflexivity|]. unfold without in *. simpl. f_equal. exact W. }
      destruct SP as (A1 & A2 & SA & SW). rewrite EL, EA, SW. rewrite SA in N. rewrite <- app_assoc in N. simpl in N.
      destruct (NoDup_mid A1 a (A2 ++ B) N) as [N2 NI]. rewrite <- app_assoc. split; [exact N2|].
      intros b n Hb. rewrite app_assoc. rewrite <- app_assoc.
      destruct (in_dec Nat.eq_dec b (addrs L)) as [Hi | Hi].
      * rewrite EA, SA in Hi. apply in_app_or in Hi. destruct Hi as [Hi | [<- | Hi]].
        -- apply in_or_app; auto.
        -- rewrite HF in Hb. discriminate Hb.
        -- apply in_or_app. right. apply in_or_app. auto.
      * rewrite HS in Hb by assumption. specialize (F b n Hb). rewrite SA in F. rewrite <- app_assoc in F.
        apply in_app_or in F. destruct F as [F | F]; [apply in_or_app; auto|]. destruct F as [<- | F]; [|apply in_or_app; auto].
        exfalso. apply Hi. rewrite EA, SA. apply in_or_app. right. left. reflexivity.
  - intros b Hb. rewrite EA in Ha. rewrite Ha in Hb. injection Hb as <-. exact HF.
Qed.

Lemma lay_delete_stop : forall num r, listDeleteFront num l = Stop r -> h_deleteFront num h p = Stop r.
Proof.
  intros num r E. pose proof (lay_room _ _ _ _ _ _ _ Y) as R. destruct Y as (L & P & EA & EB & V1 & V2 & K & S1 & S2 & N & F).
  unfold listDeleteFront in E. destruct (pos_of num l) as [i|] eqn:Ei; [discriminate E|]. injection E as <-.
  unfold h_deleteFront. apply h_deleteFront_absent with (L := L); auto.
  - rewrite len_vals, V1. lia.
  - rewrite V1. apply pos_of_None. exact Ei.
Qed.

Lemma lay_insert : forall gp gK d t num lay' b,
  exists h' p' A', h_listInsertFirst (room h) gp gK d t num lay' b h p = Ok (h', p') /\ lay h' p' po A' B (listInsertFirst gp gK d t num lay' b l) lo.
Proof.
  intros gp gK d t num lay' b. pose proof (lay_room _ _ _ _ _ _ _ Y) as R. destruct Y as (L & P & EA & EB & V1 & V2 & K & S1 & S2 & N & F).
  assert (NL : NoDup (addrs L)) by (rewrite EA; eapply NoDup_left; eassumption).
  assert (HL : (length L < room h)%nat) by (rewrite len_vals, V1; lia).
  destruct (h_insertFirst_ok L (room h) gp gK d t num lay' b h p K S1 NL HL) as (h' & L' & E & K' & S' & EL & N' & VL & HS).
  exists h', (Some (h_top h)), (addrs L'). split; [exact E|].
  assert (BP : forall b0, In b0 (addrs P) -> (b0 < h_top h)%nat) by (intros; eapply seg_below; eassumption).
  assert (IN : forall b0, In b0 (addrs L) -> ~ In b0 (addrs P)).
  { intros b0 H1 H2. rewrite EA in H1. rewrite EB in H2. clear - N H1 H2. revert H1. induction A as [|x A0 IH]; intros H1; [destruct H1|].
    simpl in N. inversion N as [|? ? N1 N2]; subst. destruct H1 as [-> | H1]; [apply N1, in_or_app; auto|auto]. }
  exists L', P. split; [reflexivity|]. split; [exact EB|]. split; [rewrite VL, V1; reflexivity|]. split; [exact V2|].
  split; [exact K'|]. split; [exact S'|]. split; [|split].
  - eapply seg_frame; [|exact S2]. intros c Hc. apply HS. intros [<- | Hc']; [apply BP in Hc; lia|exact (IN c Hc' Hc)].
  - rewrite EL. simpl. constructor; [|rewrite EA; exact N].
    intros H. apply in_app_or in H. destruct H as [H | H].
    + assert (h_top h < h_top h)%nat by (eapply seg_below with (L := L); eassumption). lia.
    + rewrite <- EB in H. apply BP in H. lia.
  - intros c n Hc. rewrite EL. simpl. destruct (Nat.eq_dec (h_top h) c) as [-> | Ne]; [auto|]. right.
    destruct (in_dec Nat.eq_dec c (addrs L)) as [Hi | Hi]; [apply in_or_app; auto|].
    rewrite HS in Hc; [|intros [Q | Q]; [exact (Ne Q)|exact (Hi Q)]]. rewrite EA. eapply F. exact Hc.
Qed.

Lemma lay_recopy : exists h' po' B', h_recopy h p po = Ok (h', po') /\ lay h' p po' A B' l l.
Proof.
  pose proof (lay_room _ _ _ _ _ _ _ Y) as R. destruct Y as (L & P & EA & EB & V1 & V2 & K & S1 & S2 & N & F).
  assert (IN : forall b0, In b0 (addrs L) -> ~ In b0 (addrs P)).
  { intros b0 H1 H2. rewrite EA in H1. rewrite EB in H2. clear - N H1 H2. revert H1. induction A as [|x A0 IH]; intros H1; [destruct H1|].
    simpl in N. inversion N as [|? ? N1 N2]; subst. destruct H1 as [-> | H1]; [apply N1, in_or_app; auto|auto]. }
  assert (NL : NoDup (addrs L)) by (rewrite EA; eapply NoDup_left; eassumption).
  assert (NP : NoDup (addrs P)) by (rewrite EB; eapply NoDup_right; eassumption).
  assert (HP : (length P < room h)%nat) by (rewrite len_vals, V2; lia).
  assert (HL : (length L < room h)%nat) by (rewrite len_vals, V1; lia).
  assert (D : exists h1, (if negb (is_null po) then h_listDelete (room h) h po else Ok h) = Ok h1 /\ h_top h1 = h_top h
            /\ same_outside (addrs P) h h1 /\ (forall a, In a (addrs P) -> h_cell h1 a = Freed)).
  { destruct P as [|x P].
    - simpl in S2. subst po. exists h. split; [reflexivity|]. split; [reflexivity|]. split; [apply same_outside_refl|]. intros a [].
    - assert (Q : is_null po = false) by (destruct x; destruct S2 as [-> _]; reflexivity). rewrite Q. cbn [negb].
      exact (h_listDelete_ok (x :: P) (room h) h po S2 NP HP). }
  destruct D as (h1 & E1 & T1 & O1 & F1). unfold h_recopy. rewrite E1. cbn [bind].
  assert (K1 : heap_ok h1).
  { intros a Ha. rewrite T1 in Ha. destruct (in_dec Nat.eq_dec a (addrs P)) as [Hi | Hi].
    - assert (a < h_top h)%nat by (eapply seg_below with (L := P); eassumption). lia.
    - rewrite O1 by assumption. apply K. exact Ha. }
  assert (S1' : seg h1 p L None) by (eapply seg_frame; [|exact S1]; intros b Hb; apply O1; exact (IN b Hb)).
  replace (room h1) with (room h) by (unfold room; rewrite T1; reflexivity).
  destruct (h_listCopy_ok L (room h) h1 p K1 S1' HL) as (h2 & p' & L' & E2 & K2 & S2' & N2 & V & HA & HC & HT).
  rewrite E2. exists h2, p', (addrs L'). split; [reflexivity|].
  exists L, L'. split; [exact EA|]. split; [reflexivity|]. split; [exact V1|]. split; [rewrite V; exact V1|].
  split; [exact K2|]. split.
  { eapply seg_frame; [|exact S1']. intros b Hb. apply HC. eapply seg_below; eassumption. }
  split; [exact S2'|]. split.
  - rewrite <- EA. clear - NL N2 HA K1 S1'. assert (BL : forall b, In b (addrs L) -> (b < h_top h1)%nat) by (intros; eapply seg_below; eassumption).
    induction (addrs L) as [|x Q IH]; [exact N2|]. inversion NL; subst. simpl. constructor; [|apply IH; auto; intros; apply BL; right; assumption].
    intros H. apply in_app_or in H. destruct H as [H | H]; [contradiction|]. apply HA in H. specialize (BL x (or_introl eq_refl)). lia.
  - intros a n Ha. apply in_or_app. destruct (le_lt_dec (h_top h1) a) as [H | H].
    + right. apply HA. split; [exact H|]. eapply live_below; eassumption.
    + rewrite HC in Ha by assumption. left. destruct (in_dec Nat.eq_dec a (addrs P)) as [Hi | Hi].
      * rewrite F1 in Ha by assumption. discriminate Ha.
      * rewrite O1 in Ha by assumption. specialize (F a n Ha). apply in_app_or in F. destruct F as [F | F]; [exact F|]. rewrite <- EB in F. contradiction.
Qed.

End Ops.
