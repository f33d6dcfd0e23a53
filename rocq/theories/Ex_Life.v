(** The life of the Phillipsburg object. *)

From Coq Require Import String Reals ZArith List Bool Arith Lia.
From Verif Require Import Outcome Dbl Exact Types ListOps HeapList State Config Life Spec_List Spec_Heap Spec_Config Spec_Life Pf_Config Pf_Init Pf_InitState Pf_InitTotal Pf_LifeRun Ex_Config.
Import ListNotations.
Open Scope string_scope.
Open Scope list_scope.
Open Scope nat_scope.

Local Existing Instance exact.

(** The same configuration with the cells of the soil temperature, but without coupling. *)
Definition with_cells : list string := "soil_z=10,20[cm]" :: phillipsburg.

Lemma last_cons : forall k l x ls, last_line k l ls -> last_line k l (x :: ls).
Proof. intros k l x ls (S & a & b & -> & N). split; [assumption|]. exists (x :: a), b. auto. Qed.

Lemma with_cells_usable : usable_config repository' with_cells (map num ["44.0"; "131.0"; "25.0"]) (map num ["13"; "14"; "15"]) (map num ["0.06"; "0.51"; "0.28"; "0.12"; "0.03"]) (num "2000.0") (1 / 12) 1 15 seen.
Proof.
  destruct phillipsburg_good as [[G T] _]. split; [|assumption]. destruct G as [A1 A2 A3 A4 A5 A6 A7 A8 A9 A10 A11 A12 A13]. unfold with_cells. constructor.
  - constructor; [|assumption]. a_vector "soil_z" "10" ["20"].
  - intros k Hk. destruct (A2 k Hk) as (l & Il & Sl). exists l. split; [right; assumption|assumption].
  - destruct A3 as (l & L & R). exists l. split; [apply last_cons; assumption|assumption].
  - destruct A4 as (l & L & R). exists l. split; [apply last_cons; assumption|assumption].
  - destruct A5 as (l & L & R). exists l. split; [apply last_cons; assumption|assumption].
  - destruct A6 as (l & L & R). exists l. split; [apply last_cons; assumption|assumption].
  - destruct A7 as (l & f & L & R). exists l, f. split; [apply last_cons; assumption|assumption].
  - destruct A8 as (n & u & sec & L & R). exists n, u, sec. split; [apply last_cons; assumption|assumption].
  - destruct A9 as (n & u & sec & L & R). exists n, u, sec. split; [apply last_cons; assumption|assumption].
  - assumption.
  - destruct A11 as [(l & n & k & L & R)|[_ N]]; [left; exists l, n, k; split; [apply last_cons; assumption|assumption]|right].
    split; [reflexivity|]. intros l [<-|Il]; [|auto]. intro Q. apply sets_key in Q; [discriminate Q|cbn; tauto].
  - assumption.
  - left. exists "soil_z=10,20[cm]". split; [left; reflexivity|]. right. exists "10,20[cm]". reflexivity.
Qed.

Lemma not_coupled : forall files junk ls s ts types gs psi dt fres max rows, basic_config files ls ts types gs psi dt fres max rows -> ~ In "sft_coupled=true" ls ->
  Initialize files junk ls = Ok s -> p_sft (st_p s) = false.
Proof.
  intros files junk ls s ts types gs psi dt fres max rows G N H. destruct (init_inv _ _ _ _ H) as (c & st & rw & tab & thick & ps & ord & I).
  assert (S : p_sft (st_p s) = cf_sft c). { pose proof (in_p _ _ _ _ _ _ _ _ _ _ _ I) as P. repeat match goal with H : _ /\ _ |- _ => destruct H end. assumption. }
  rewrite S. destruct (cf_sft c) eqn:E; [|reflexivity]. exfalso. destruct (sft_lines _ _ _ (gc_lines _ _ _ _ _ _ _ _ _ _ G) (in_conf _ _ _ _ _ _ _ _ _ _ _ I) E) as [Q|Q]; [discriminate Q|contradiction].
Qed.

(** A time step: the previous profile is copied, a front is created and edited, the second one is deleted, and the arrays of the outputs are renewed. *)
Definition a_front : front := mkF (Fin 2) (Fin (4 / 10)) (Fin 0) (Fin 1) 1 1 false (Fin 0).
Definition a_step : list action := [ACopy; AInsert a_front; AEdit 0 (set_num a_front 1); ADelete 2; ACopy; ARealloc].
Lemma a_step_possible : forall l, numbered l -> l <> [] -> exists l' p', effects a_step l [] l' p'.
Proof.
  intros [|f l] N NE; [contradiction|]. unfold a_step.
  eexists _, _. eapply eff_cons; [split; reflexivity|]. eapply eff_cons; [split; reflexivity|]. eapply eff_cons.
  { cbn [effect]. split; [cbn; lia|]. split; [reflexivity|reflexivity]. }
  cbn [firstn skipn app map]. eapply eff_cons.
  { split; [|reflexivity]. exists 1%nat, (set_num f (f_num f + 1)). split; [reflexivity|]. split; [|split; [|reflexivity]].
    - rewrite (N 0%nat f eq_refl). reflexivity.
    - intros [|j] g Hj E; [|lia]. injection E as <-. cbn. lia. }
  eapply eff_cons; [split; reflexivity|]. eapply eff_cons; [split; reflexivity|]. constructor.
Qed.

Lemma head_ne : forall files junk ls s, Initialize files junk ls = Ok s -> numbered (st_head s) /\ st_head s <> [].
Proof.
  intros files junk ls s H. destruct (init_inv _ _ _ _ H) as (c & st & rows & tab & thick & psi & ord & I). destruct (init_fronts _ _ _ _ _ _ _ _ _ _ _ I) as (N & L & _).
  split; [assumption|]. intro E. rewrite E in L. pose proof (thick_ne _ _ _ _ _ _ _ _ _ _ _ I) as T. destruct thick; [contradiction|discriminate].
Qed.

(** The shipped configuration gives everything back. *)
Lemma phillipsburg_life : forall junk, exists s o o1 o2 k, Initialize repository junk phillipsburg = Ok s /\ reached phillipsburg (p_sft (st_p s)) (st_head s) a_step o /\
  l_Finalize k o = Ok o1 /\ l_destroy o1 = Ok o2 /\ no_front (lf_nodes o2) /\ live_blocks o2 = 0.
Proof.
  intro junk. destruct (phillipsburg_starts junk) as (s & H & _). destruct (head_ne _ _ _ _ H) as [N NE]. destruct (a_step_possible _ N NE) as (l & p & E).
  destruct (all_reached _ _ _ _ _ H _ _ _ E) as (o & R & Ho). set (k := S (length l + length p)).
  destruct (releases _ _ _ _ H a_step o l p k R Ho) as (o1 & o2 & E1 & E2 & _); [unfold k; lia|unfold k; lia|].
  exists s, o, o1, o2, k. split; [assumption|]. split; [assumption|]. split; [assumption|]. split; [assumption|].
  eapply (nothing_left _ _ _ _ H); [| |exact R|exact E1|exact E2].
  - intros key i j a b K A B Sa Sb. apply sets_key in Sa; [|assumption]. apply sets_key in Sb; [|assumption].
    assert (D : forall x y, x <> y -> nth_error (map line_key phillipsburg) x = nth_error (map line_key phillipsburg) y -> x < 16 -> y < 16 -> nth_error (map line_key phillipsburg) x = Some key -> False).
    { clear - K. intros x y Nxy Exy Lx Ly Ek.
      do 16 (destruct x as [|x]; [cbn in Ek; injection Ek as <-; do 16 (destruct y as [|y]; [try (exfalso; apply Nxy; reflexivity); cbn in Exy; discriminate Exy|]); lia|]). lia. }
    destruct (Nat.eq_dec i j) as [Q|Q]; [assumption|]. exfalso. assert (Li : i < 16) by (apply (nth_error_Some phillipsburg i); congruence). assert (Lj : j < 16) by (apply (nth_error_Some phillipsburg j); congruence).
    apply (D i j Q); try assumption; rewrite ?(map_nth_error line_key i phillipsburg A), ?(map_nth_error line_key j phillipsburg B); congruence.
  - right. intros l0 Il Sl. apply sets_key in Sl; [|cbn; tauto]. cbn in Il. repeat (destruct Il as [<-|Il]; [cbn in Sl; discriminate Sl|]). contradiction.
Qed.

(** With cells but no coupling a block is lost. *)
Lemma cells_life : forall junk, exists s o o1 o2 k, Initialize repository junk with_cells = Ok s /\ reached with_cells (p_sft (st_p s)) (st_head s) a_step o /\
  l_Finalize k o = Ok o1 /\ l_destroy o1 = Ok o2 /\ 1 <= live_blocks o2.
Proof.
  intro junk. destruct (init_total repository' junk _ _ _ _ _ _ _ _ _ with_cells_usable) as (s & H & _). rewrite <- repository_seen in H.
  destruct (head_ne _ _ _ _ H) as [N NE]. destruct (a_step_possible _ N NE) as (l & p & E).
  destruct (all_reached _ _ _ _ _ H _ _ _ E) as (o & R & Ho). set (k := S (length l + length p)).
  destruct (releases _ _ _ _ H a_step o l p k R Ho) as (o1 & o2 & E1 & E2 & _); [unfold k; lia|unfold k; lia|].
  exists s, o, o1, o2, k. split; [assumption|]. split; [assumption|]. split; [assumption|]. split; [assumption|].
  eapply (cells_leak _ _ _ _ H); [| |exact R|exact E1|exact E2].
  - rewrite repository_seen in H. eapply not_coupled; [apply with_cells_usable| |exact H]. cbn. intuition discriminate.
  - exists "soil_z=10,20[cm]". split; [left; reflexivity|]. right. exists "10,20[cm]". reflexivity.
Qed.
