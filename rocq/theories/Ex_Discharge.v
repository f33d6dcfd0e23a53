(** The run of C88 with intervals of half an hour: the runoff of each is spread over two of them. *)

From Coq Require Import String Ascii Reals Lra ZArith List Bool Lia.
From Verif Require Import Outcome Dbl Exact Types ListOps State Bmi Config Driver Lib Spec_Common Spec_Giuh Spec_Config Spec_Driver Pf_Dbl Pf_Ledger Ex_Config Ex_Driver Spec_Split Prop_Split Spec_Discharge Pf_Discharge.
Import ListNotations.
Open Scope R_scope.
Open Scope list_scope.

Section Run.
Local Existing Instance exact.
Context {cfg : Cfg}.

Lemma half_hours : forall junk, exists r a b, good_config dr_files sp_lines [num "100.0"] [num "1"] [num "1.0"] (num "0.0") (1 / 2) (1 / 2) 1 [dr_row] /\
  simulate dr_files sp_texts junk sp_lines = Ok r /\ shows 3 (rs_rows r) [a; b] /\ a + b = 1 / 200 /\ shows 4 (rs_rows r) [a / 2; 1 / 400] /\ shows 6 (rs_rows r) [a / 2; 1 / 400].
Proof.
  intro junk. destruct (C88_half_hours cfg junk) as (_ & _ & _ & r & q1 & q2 & x1 & x2 & S & R & _ & _ & A1 & A2 & E).
  apply fin_add in E as (a & b' & -> & E & E1). apply fin_add in E as (b & z & -> & Z & E2). assert (z = 0) as -> by (injection Z; congruence). assert (AB : a + b = 1 / 200) by lra.
  assert (S3 : shows 3 (rs_rows r) [a; b]) by (rewrite R; unfold shows; cbn [map]; rewrite A1, A2; reflexivity).
  destruct (program_discharge _ _ _ _ _ _ _ _ _ _ _ _ _ _ sp_good S S3) as (k & Gs & K1 & K2 & G4 & G6 & L & C & _). exists r, a, b. split; [exact sp_good|]. split; [exact S|]. split; [exact S3|]. split; [exact AB|].
  assert (k = 2%nat) as ->. { unfold steps_per_hour in K2. assert (INR k < 3 /\ 1 < INR k) as [Q1 Q2] by lra. assert (k < 3)%nat by (apply INR_lt; cbn; lra). assert (1 < k)%nat by (apply INR_lt; cbn; lra). lia. }
  destruct Gs as [|g0 [|g1 [|? ?]]]; try discriminate L. assert (V : value (num "1.0") = 1) by (values; lra). cbn [map] in C. rewrite V in C.
  pose proof (C 0%nat ltac:(cbn; lia)) as C0. pose proof (C 1%nat ltac:(cbn; lia)) as C1. cbn in C0, C1.
  assert (g0 = a / 2) as -> by lra. assert (g1 = 1 / 400) as -> by lra. split; assumption.
Qed.
End Run.
