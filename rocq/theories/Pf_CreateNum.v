(** A new front takes in a finite part of the surface water, for any rounding. *)

From Coq Require Import Reals Lra ZArith List Bool Lia.
From Verif Require Import Outcome Dbl Types ListOps Soil Fronts Infil Lib Spec_Common Spec_RoundMono Pf_Dbl Pf_SoilAny Pf_RoundMono.
Import ListNotations.
Open Scope R_scope.

Section Any.
Context {fp : Fp} {cfg : Cfg}.

Lemma create_parts : forall e w z t1 te s head l p v, rnd w = Fin w -> 0 <= w -> 0 <= z -> soil_of e 1 = Ok s -> s_theta_e s = Fin te -> t1 <= te -> finite (rnd (te - t1)) ->
  lgar_create_surficial_front e (Fin w) (Fin z) (Fin t1) head = Ok (l, p, v) ->
  exists x y, p = Fin x /\ v = Fin y /\ 0 <= x <= w /\ 0 <= y <= w /\ (x = 0 /\ y = w \/ (Fin z * (Fin te - Fin t1))%d = Fin y /\ rnd (w - y) = Fin x).
Proof.
  intros e w z t1 te s head l p v Rw Hw Hz Es Ee Ht (d & Ed) H. unfold lgar_create_surficial_front in H. rewrite Es in H. cbn [bind] in H. cbv zeta in H. rewrite Ee in H. cbn [dsub] in H. rewrite Ed in H.
  assert (D : 0 <= d). { pose proof (nn_rnd (te - t1) ltac:(lra)) as N. rewrite Ed in N. apply below_fin in N. exact N. }
  cbn [dmul] in H. pose proof (nn_rnd (z * d) ltac:(nra)) as N. set (b := dgtb (rnd (z * d)) (Fin w)) in *.
  bind_inv H u1 EU. bind_inv H ff EF. bind_inv H l2 EL. clear EU EF EL. injection H as _ <- <-. cbn [dsub]. rewrite Ed. cbn [dmul]. destruct b eqn:B; unfold b in B; clear b.
  - exists 0, w. repeat (split; [first [reflexivity|lra]|]). left. auto.
  - unfold dgtb in B. destruct (nn_cases _ N) as [E|(y & E & Hy)]; rewrite E in *; [discriminate B|]. cbn in B. unfold Rltb in B. destruct (Rlt_dec w y) as [|L]; [discriminate B|].
    destruct (rnd_between w (w - y) Rw ltac:(lra)) as (x & X & Hx). exists x, y. cbn [dsub]. split; [exact X|]. split; [reflexivity|]. split; [exact Hx|]. split; [lra|]. right. auto.
Qed.
End Any.
