(** The frozen factor of every layer. *)

From Coq Require Import Reals Lra ZArith Bool List Lia.
From Verif Require Import Outcome Dbl Exact Types Infil Lib Spec_Common Spec_Frozen Pf_Dbl Pf_Pow.
Import ListNotations.
Open Scope R_scope.

Section Exactly.
Local Existing Instance exact.


Lemma scan_stop : forall k pre c post nc lim count sum, lim < fst c ->
  frozen_scan (S k) (zs (pre ++ c :: post)) (Ts (pre ++ c :: post)) nc (Fin lim) (Z.of_nat (length pre)) count sum = Ok (Z.of_nat (length pre), count, sum).
Proof.
  intros k pre c post nc lim count sum H. cbn [frozen_scan]. unfold zs at 1. rewrite map_app. cbn [map]. rewrite aget_app by (rewrite map_length; reflexivity).
  cbn [bind]. rewrite leb_f by assumption. reflexivity.
Qed.

Lemma scan_group : forall g k pre post lim count sum, g <> [] -> (length g < k)%nat ->
  Forall (fun c => fst c <= lim) g -> match post with [] => True | c :: _ => lim < fst c end ->
  frozen_scan k (zs (pre ++ g ++ post)) (Ts (pre ++ g ++ post)) (Z.of_nat (length (pre ++ g ++ post))) (Fin lim) (Z.of_nat (length pre)) count (Fin sum)
  = Ok (Z.of_nat (length (pre ++ g)), (count + Z.of_nat (length g))%Z, Fin (sum + Rsum (map snd g))).
Proof.
  induction g as [|c g IH]; intros k pre post lim count sum Hne Hk HF Hp; [congruence|]. destruct k as [|k]; [cbn in Hk; lia|].
  inversion HF as [|? ? Hc HF']; subst. cbn [frozen_scan app].
  unfold zs at 1. rewrite map_app. cbn [map]. rewrite aget_app by (rewrite map_length; reflexivity). cbn [bind]. rewrite leb_t by assumption.
  unfold Ts at 1. rewrite map_app. cbn [map]. rewrite aget_app by (rewrite map_length; reflexivity). cbn [bind].
  change (Fin sum + Fin (snd c))%d with (Fin (sum + snd c)).
  assert (E : forall r, pre ++ c :: r = (pre ++ [c]) ++ r) by (intro; rewrite <- app_assoc; reflexivity).
  assert (EL : (Z.of_nat (length pre) + 1)%Z = Z.of_nat (length (pre ++ [c]))) by (rewrite app_length; cbn [length]; lia).
  rewrite EL. destruct g as [|c2 g].
  - destruct post as [|p post].
    + cbn [app]. rewrite Z.eqb_refl. cbn [length map Rsum]. apply f_equal; apply f_equal2; [apply f_equal2; [rewrite ?app_nil_r; reflexivity|lia]|f_equal; ring].
    + cbn [app]. rewrite (E (p :: post)).
      destruct (Z.eqb_spec (Z.of_nat (length (pre ++ [c]))) (Z.of_nat (length ((pre ++ [c]) ++ p :: post)))) as [Q|Q].
      * rewrite (app_length (pre ++ [c])) in Q. cbn [length] in Q. lia.
      * destruct k as [|k]; [cbn in Hk; lia|]. rewrite scan_stop by assumption. cbn [length map Rsum]. apply f_equal; apply f_equal2; [apply f_equal2; [rewrite ?app_nil_r; reflexivity|lia]|f_equal; ring].
  - rewrite (E ((c2 :: g) ++ post)).
    destruct (Z.eqb_spec (Z.of_nat (length (pre ++ [c]))) (Z.of_nat (length ((pre ++ [c]) ++ (c2 :: g) ++ post)))) as [Q|Q].
    + rewrite (app_length (pre ++ [c])) in Q. cbn [app length] in Q. lia.
    + rewrite IH; [|discriminate|cbn in Hk |- *; lia|assumption|assumption].
      rewrite <- app_assoc. cbn [app]. cbn [length map Rsum]. apply f_equal; apply f_equal2; [apply f_equal2; [rewrite ?app_nil_r; reflexivity|lia]|f_equal; ring].
Qed.

Lemma frozen_reduction : forall T, frozen_of_temp (Fin T) = Fin (reduction T).
Proof.
  intro T. unfold frozen_of_temp, reduction. change (dexp (lit (-10) * (lit (27315 / 100) - Fin T))%d) with (Fin (exp (-10 * (27315 / 100 - T)))).
  replace (-10 * (273.15 - T)) with (-10 * (27315 / 100 - T)) by lra. set (x := exp _). change (lit 1) with (Fin 1). change (lit (5 / 100)) with (Fin (5 / 100)).
  unfold Rmax, Rmin. dcrush; try reflexivity; try (f_equal; lra); exfalso; lra.
Qed.

Lemma frozen_layers : forall f0 lims groups rest fs,
  layered lims groups rest -> length fs = length lims ->
  frozen_factor (Z.of_nat (length lims)) (Fin 0 :: map Fin lims) (zs (concat groups ++ rest)) (Ts (concat groups ++ rest))
    (Z.of_nat (length (concat groups ++ rest))) (f0 :: fs) = Ok (f0 :: map (fun g => Fin (reduction (mean (map snd g)))) groups).
Proof.
  intros f0 lims groups rest fs HL Hfs. unfold frozen_factor. rewrite Nat2Z.id.
  set (cells := concat groups ++ rest). set (cum := Fin 0 :: map Fin lims).
  assert (G : forall ls gs pre lpre fpre fs1, layered ls gs rest -> cum = lpre ++ map Fin ls -> length fpre = length lpre -> length fs1 = length ls ->
    cells = pre ++ concat gs ++ rest ->
    exists c, zfor (Z.of_nat (length lpre)) (length ls) (fun layer '(c, fr) => limit <- aget cum layer ;; '(c', count, sum) <- frozen_scan (S (length (zs cells))) (zs cells) (Ts cells) (Z.of_nat (length cells)) limit c 0 (Fin 0) ;;
      _ <- cassert (count >? 0)%Z ;; fr' <- aset fr layer (frozen_of_temp (sum / dofZ count)) ;; Ok (c', fr')) (Z.of_nat (length pre), fpre ++ fs1)
    = Ok (c, fpre ++ map (fun g => Fin (reduction (mean (map snd g)))) gs)).
  { induction ls as [|lim ls IH]; intros gs pre lpre fpre fs1 HL1 Hcum Hf Hfs1 Hcells; destruct gs as [|g gs]; cbn [layered] in HL1; try contradiction.
    - destruct fs1; [|discriminate]. cbn. eauto.
    - destruct HL1 as (Hne & HF & Hnext & HL1). destruct fs1 as [|f fs1]; [discriminate|]. cbn [length zfor].
      assert (Eg : aget cum (Z.of_nat (length lpre)) = Ok (Fin lim)) by (rewrite Hcum; cbn [map]; apply aget_app; reflexivity).
      rewrite Eg. cbn [bind]. cbn [concat] in Hcells. rewrite <- app_assoc in Hcells.
      assert (Es : frozen_scan (S (length (zs cells))) (zs cells) (Ts cells) (Z.of_nat (length cells)) (Fin lim) (Z.of_nat (length pre)) 0 (Fin 0)
        = Ok (Z.of_nat (length (pre ++ g)), (0 + Z.of_nat (length g))%Z, Fin (0 + Rsum (map snd g)))).
      { rewrite Hcells. apply scan_group; try assumption. unfold zs. rewrite map_length, !app_length. lia. }
      rewrite Es. cbn [bind]. assert (Lg : (0 < length g)%nat) by (destruct g; [congruence|cbn; lia]).
      replace (0 + Z.of_nat (length g) >? 0)%Z with true by (symmetry; apply Z.gtb_lt; lia). cbn [cassert bind].
      rewrite aset_app by (rewrite Hf; reflexivity). cbn [bind].
      assert (Em : (Fin (0 + Rsum (map snd g)) / dofZ (0 + Z.of_nat (length g)))%d = Fin (mean (map snd g))).
      { unfold dofZ. cbn [rnd exact]. rewrite Z.add_0_l, <- INR_IZR_INZ. rewrite div_fin by (apply not_0_INR; lia). unfold mean. rewrite map_length, Rplus_0_l. reflexivity. }
      rewrite Em, frozen_reduction.
      destruct (IH gs (pre ++ g) (lpre ++ [Fin lim]) (fpre ++ [Fin (reduction (mean (map snd g)))]) fs1) as (c & Ec).
      + assumption.
      + rewrite Hcum, <- app_assoc. reflexivity.
      + rewrite !app_length, Hf. reflexivity.
      + cbn in Hfs1. lia.
      + rewrite Hcells, app_assoc. reflexivity.
      + exists c. replace (Z.of_nat (length lpre) + 1)%Z with (Z.of_nat (length (lpre ++ [Fin lim]))) by (rewrite app_length; cbn [length]; lia).
        rewrite <- app_assoc in Ec. cbn [app] in Ec. rewrite Ec. rewrite <- app_assoc. reflexivity. }
  destruct (G lims groups [] [Fin 0] [f0] fs HL) as (c & Ec); [reflexivity|reflexivity|assumption|reflexivity|].
  change (Z.of_nat (length [Fin 0])) with 1%Z in Ec. change (Z.of_nat (length (@nil (R * R)))) with 0%Z in Ec. cbn [app] in Ec. 
  rewrite Ec. reflexivity.
Qed.

(** All temperatures consumed by the first layer: the second one reads past the end. *)
Lemma frozen_overrun : frozen_factor 2 [Fin 0; Fin 10; Fin 20] [Fin 5; Fin 8] [Fin 280; Fin 281] 2 [Fin 1; Fin 1; Fin 1] = Stop (UB OutOfBounds).
Proof.
  unfold frozen_factor. change (Z.to_nat 2) with 2%nat. cbn [zfor length].
  change (aget [Fin 0; Fin 10; Fin 20] 1) with (Ok (Fin 10)). cbn [bind frozen_scan].
  change (aget [Fin 5; Fin 8] 0) with (Ok (Fin 5)). change (aget [Fin 280; Fin 281] 0) with (Ok (Fin 280)). cbn [bind]. rewrite leb_t by lra. cbn [bind Z.add Z.eqb Pos.eqb].
  change (aget [Fin 5; Fin 8] 1) with (Ok (Fin 8)). change (aget [Fin 280; Fin 281] 1) with (Ok (Fin 281)). cbn [bind]. rewrite leb_t by lra. cbn [bind Z.add Z.eqb Pos.eqb Pos.add Pos.succ Z.gtb Z.compare cassert].
  change (aset [Fin 1; Fin 1; Fin 1] 1 ?x) with (Ok [Fin 1; x; Fin 1]). cbn [bind].
  change (aget [Fin 0; Fin 10; Fin 20] 2) with (Ok (Fin 20)). cbn [bind frozen_scan].
  reflexivity.
Qed.
End Exactly.
