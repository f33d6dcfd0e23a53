(** C74: the wetting fronts in memory.  Every routine that walks, edits, creates or deletes fronts, and Update as a whole, does on a heap of linked nodes
    what the model with sequences does. *)

From Coq Require Import String Reals ZArith List Bool Arith.
From Verif Require Import Outcome Dbl Exact Types ListOps HeapList Fronts Infil Move State Update Config Life HeapFronts HeapUpdate Spec_List Spec_Heap Spec_Life
  Spec_Update Spec_Profile Spec_Refine Pf_Refine6 Ex_TwoLayers Ex_Refine.
Import ListNotations.
Open Scope nat_scope.

(** ** C74, the routines.  Both lists are pictured again afterwards: no node is lost, shared, or freed while it is in a list. *)

Theorem C74_mass : forall (fp : Fp) (cum : list dbl) h p po l lo, pictures h p po l lo -> h_mass cum h p = lgar_calc_mass_bal cum l.
Proof. exact @mass_pictures. Qed.
Print Assumptions C74_mass.

Theorem C74_velocities :
  forall (fp : Fp) (cfg : Cfg) (e : env) closed nint h_p h p po l lo, pictures h p po l lo -> numbered l ->
    follows (fun l' h' => pictures h' p po l' lo /\ numbered l') (lgar_dzdt_calc e closed nint h_p l) (h_dzdt e closed nint h_p h p).
Proof. exact @dzdt_pictures. Qed.
Print Assumptions C74_velocities.

Theorem C74_creation :
  forall (fp : Fp) (e : env) ponded dry theta1 h p po l lo, pictures h p po l lo -> numbered l ->
    follows (fun '(l', a, b) '(h', p', a', b') => pictures h' p' po l' lo /\ numbered l' /\ a = a' /\ b = b')
      (lgar_create_surficial_front e ponded dry theta1 l) (h_create e ponded dry theta1 h p).
Proof. exact @create_pictures. Qed.
Print Assumptions C74_creation.

Theorem C74_merging :
  forall (fp : Fp) (e : env) h p po l lo, pictures h p po l lo -> numbered l ->
    follows (fun l' '(h', p') => pictures h' p' po l' lo /\ numbered l') (lgar_merge_wetting_fronts e l) (h_merge e h p).
Proof. exact @merge_pictures. Qed.
Print Assumptions C74_merging.

Theorem C74_layer_crossing :
  forall (fp : Fp) (e : env) h p po l lo, pictures h p po l lo -> numbered l ->
    follows (fun l' h' => pictures h' p po l' lo /\ numbered l') (lgar_wetting_fronts_cross_layer_boundary e l) (h_cross e h p).
Proof. exact @cross_pictures. Qed.
Print Assumptions C74_layer_crossing.

Theorem C74_domain_crossing :
  forall (fp : Fp) (e : env) D h p po l lo, pictures h p po l lo -> numbered l ->
    follows (fun '(q, l') '(q', h', p') => pictures h' p' po l' lo /\ numbered l' /\ q = q') (lgar_wetting_front_cross_domain_boundary e D l) (h_domain e D h p).
Proof. exact @domain_pictures. Qed.
Print Assumptions C74_domain_crossing.

Theorem C74_dry_over_wet :
  forall (fp : Fp) (e : env) mc h p po l lo, pictures h p po l lo -> numbered l ->
    follows (fun '(l', m) '(h', p', m') => pictures h' p' po l' lo /\ numbered l' /\ m = m') (lgar_fix_dry_over_wet_wetting_fronts e mc l) (h_fix e mc h p).
Proof. exact @fix_pictures. Qed.
Print Assumptions C74_dry_over_wet.

(** The previous profile is not empty: Update copies it from the current one, which a subcycle has read by then. *)
Theorem C74_motion :
  forall (fp : Fp) (cfg : Cfg) (e : env) dt volin wfd old aet h p po l lo, pictures h p po l lo -> numbered l -> lo <> [] ->
    follows (fun '(l', a, q) '(h', p', a', q') => pictures h' p' po l' lo /\ numbered l' /\ a = a' /\ q = q')
      (lgar_move_wetting_fronts e dt volin wfd old aet l lo) (h_move e dt volin wfd old aet h p po).
Proof. exact @move_pictures. Qed.
Print Assumptions C74_motion.

(** ** C74, Update and sessions *)

Theorem C74_Update :
  forall (fp : Fp) (cfg : Cfg) (o : hstate) (s : state), shows o s -> numbered (st_head s) ->
    follows (fun s' o' => shows o' s' /\ numbered (st_head s')) (Update s) (h_Update o).
Proof. exact @Update_shows. Qed.
Print Assumptions C74_Update.

(** Each session on one side is the image of a session on the other one, whatever the client writes between the Updates. *)
Theorem C74_sessions :
  forall (fp : Fp) (cfg : Cfg) (o : hstate) (s : state), shows o s -> numbered (st_head s) ->
    (forall s', session s s' -> exists o', h_session o o' /\ shows o' s' /\ numbered (st_head s')) /\
    (forall o', h_session o o' -> exists s', session s s' /\ shows o' s' /\ numbered (st_head s')).
Proof. intros fp cfg o s H N. split; [intros s' R; exact (session_forth s s' R o H N)|intros o' R; exact (session_back o o' R s H N)]. Qed.
Print Assumptions C74_sessions.

(** From Initialize to Finalize: at any time the allocated fronts are those of the two lists, and releasing the two lists releases all of them. *)
Theorem C74_whole_life :
  forall (fp : Fp) (cfg : Cfg) (files : string -> option (list row)) (junk : dbl) (ls : list string) (s : state), Initialize files junk ls = Ok s ->
    forall k o, S (length (st_head s)) < k -> l_Initialize k ls (p_sft (st_p s)) (st_head s) l_construct = Ok o ->
    forall o', h_session (started o s) o' ->
    exists s', session s s' /\ shows o' s' /\ live_nodes (hs_heap o') = length (st_head s') + length (st_prev s') /\
      forall k', length (st_head s') < k' -> length (st_prev s') < k' ->
        exists h1 h2, h_listDelete k' (hs_heap o') (hs_head o') = Ok h1 /\ h_listDelete k' h1 (hs_prev o') = Ok h2 /\ no_front h2.
Proof. exact @whole_life. Qed.
Print Assumptions C74_whole_life.

(** Every pair of sequences is pictured by a heap, so no hypothesis above is empty. *)
Theorem C74_pictures_exist : forall l lo, exists h p po, pictures h p po l lo.
Proof. exact every_picture. Qed.
Print Assumptions C74_pictures_exist.

(** C74 refuted for memory safety: a proper profile of one layer whose Update reads a node after its release. *)
Theorem C74_no_use_after_free_refuted :
  forall cfg : Cfg, exists o s, shows o s /\ @sound_state exact s /\ @ready exact s /\ @h_Update exact cfg o = Stop (UB UseAfterFree).
Proof. exact uf_in_memory. Qed.
Print Assumptions C74_no_use_after_free_refuted.

(** An Update of a column of two layers on a heap with the two fronts of the profile and the two of the previous one. *)
Example C74_concrete : forall cfg : Cfg, exists o o' s', shows o tw_start /\ numbered (st_head tw_start) /\ @h_Update exact cfg o = Ok o' /\ shows o' s' /\
  live_nodes (hs_heap o) = 4 /\ live_nodes (hs_heap o') = 2 + length (st_prev s').
Proof. exact tw_in_memory. Qed.

(** A heap: nodes 3 and 5 form the list, node 4 is the previous profile, node 1 was released. *)
Example C74_a_heap : pictures ex_heap (Some 5) (Some 4) [ex_f1; ex_f2] [ex_f1] /\ numbered [ex_f1; ex_f2] /\ live_nodes ex_heap = 3 /\
  exists h, h_deleteFront 1 ex_heap (Some 5) = Ok (h, Some 3, Some 3) /\ pictures h (Some 3) (Some 4) [set_num ex_f2 1] [ex_f1] /\ live_nodes h = 2.
Proof. exact ex_heap_ok. Qed.
