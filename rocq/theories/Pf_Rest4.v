(** The configurations from which a column starts at rest. *)

From Coq Require Import String Reals Lra ZArith List Bool Lia.
From Verif Require Import Outcome Dbl Exact Types ListOps State Update Config Bmi Lib Spec_Common Spec_Update Spec_Config Spec_Balance Spec_Layered Spec_Rest Pf_Dbl Pf_Init Pf_InitState Pf_OneConfig Pf_Layered3.
Import ListNotations.
Open Scope R_scope.
Local Existing Instance exact.

Lemma rooting_start : forall files junk ls s, Initialize files junk ls = Ok s -> rooting_lines ls -> rooting (p_wilting (st_p s)) (p_fc (st_p s)).
Proof.
  intros files junk ls s H (wp & fc & lw & lc & L1 & A1 & G1 & P1 & L2 & A2 & G2 & P2 & P3).
  destruct (init_inv _ _ _ _ H) as (c & st & rows & tab & thick & ps & ord & I). pose proof (in_conf _ _ _ _ _ _ _ _ _ _ _ I) as C.
  pose proof (conf_wp _ _ _ _ L1 A1 G1 C) as W. rewrite (in_wp _ _ _ _ _ _ _ _ _ _ _ I) in W. injection W as W.
  pose proof (conf_fc _ _ _ _ L2 A2 G2 C) as Q. rewrite (in_fc _ _ _ _ _ _ _ _ _ _ _ I) in Q. injection Q as Q.
  exists (value wp), (value fc). split; [exact W|]. split; [exact Q|]. lra.
Qed.

Theorem resting_start : forall files junk ls ts types gs psi dt fres max rows, good_config files ls ts types gs psi dt fres max rows -> ~ In "calib_params=true"%string ls -> rooting_lines ls ->
  exists s M qs, Initialize files junk ls = Ok s /\ layered M qs s /\ fresh s /\ map pt_z qs = map value ts /\ resting qs (value psi) s /\ dry s /\ no_demand s.
Proof.
  intros files junk ls ts types gs psi dt fres max rows G C R. destruct (layered_start files junk ls ts types gs psi dt fres max rows G C) as (s & M & qs & I & L & F & E & _ & H & D & N).
  exists s, M, qs. split; [exact I|]. split; [exact L|]. split; [exact F|]. split; [exact E|]. split; [|split; [exact D|exact N]].
  split; [exact H|]. split; [|exact (rooting_start _ _ _ _ I R)]. destruct F as (_ & _ & _ & _ & _ & _ & _ & Z & _). exact Z.
Qed.
