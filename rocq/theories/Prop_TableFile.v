(** C80: the soil table, from the bytes of its file to the table in memory. *)

From Coq Require Import String Ascii Reals Lra ZArith List Bool Lia.
From Verif Require Import Outcome Dbl Exact Types State Config TableFile Spec_Common Spec_Config Spec_Table Pf_TableFile Ex_Config.
Import ListNotations.
Open Scope Z_scope.

(** ** C80 *)

(** Whatever the bytes of the file, reading it through fgets and the character arrays has the same result, or stops for the same reason, as reading the list of rows. *)
Theorem C80_buffers :
  forall (fp : Fp) (file : option string) (nst : Z) (wp junk : dbl) (tab : list (option entry)),
    read_table file nst wp junk tab = lgar_read_vG_param_file (option_map table_file file) nst wp junk tab.
Proof. exact @buffers. Qed.
Print Assumptions C80_buffers.

(** If no line has more than 253 characters, each line after the header is one row.  The last line need not end with a line feed. *)
Theorem C80_lines_are_rows :
  forall (fp : Fp) (h : string) (ls : list string), line_of 253 h -> Forall (line_of 253) ls ->
    table_file (text_file (h :: ls)) = map sscanf_row ls /\
    forall x, line_of 254 x -> x <> ""%string -> table_file (text_file (h :: ls) ++ x) = map sscanf_row (ls ++ [x]).
Proof. intros fp h ls H F. split; [exact (file_rows h ls H F)|]. intros x Hx N. exact (file_rows_open h ls x H F Hx N). Qed.
Print Assumptions C80_lines_are_rows.

(** Refuted for a longer header: what exceeds the buffer is read as the first soil and every soil moves down by one; with 254 characters, the values of the first soil are read from
    variables that were never set. *)
Theorem C80_long_header_refuted :
  forall (fp : Fp) (h : string) (ls : list string), free_of line_feed h -> free_of (ascii_of_nat 0) h -> Forall (line_of 253) ls ->
    ((254 <= String.length h <= 507)%nat -> table_file (text_file (h :: ls)) = sscanf_row (drop 254 h) :: map sscanf_row ls) /\
    (String.length h = 254%nat -> forall nst wp junk tab, read_table (Some (text_file (h :: ls))) nst wp junk tab = Stop (UB Uninit)).
Proof. intros fp h ls F1 F2 F. split; [intro L; exact (long_header h ls F1 F2 L F)|intros L nst wp junk tab; exact (full_header h ls nst wp junk tab F1 F2 L F)]. Qed.
Print Assumptions C80_long_header_refuted.

(** A name of at most 24 characters is stored; from 26 to 29 characters it stops the program, as intended. *)
Theorem C80_names :
  forall (fp : Fp) (wp junk : dbl) (p nm : string) (tr te al n k : dbl) (b : buffer) (vals : list (option dbl)) (i : Z) (tab : list (option entry)),
    sscanf_row (cstring p) = full_row nm tr te al n k -> List.length b = 30%nat -> List.length vals = 5%nat -> 0 <= i < Z.of_nat (List.length tab) ->
    ((String.length nm <= 24)%nat -> exists b', read_piece wp junk p b vals i tab =
       (en <- derive wp junk tr te al n k nm ;; Ok (b', map Some [tr; te; al; n; k], lset tab (Z.to_nat i) (Some en)))) /\
    ((26 <= String.length nm <= 29)%nat -> read_piece wp junk p b vals i tab = Stop (ExitCode 0)).
Proof. intros. destruct (named wp junk p nm tr te al n k b vals i tab) as (A & B & _); auto. Qed.
Print Assumptions C80_names.

(** Refuted for 25 characters, which pass the test and do not fit the table, and for 30 or more, which do not fit the array that the test looks at: both write past the end of an array. *)
Theorem C80_name_overrun_refuted :
  forall (fp : Fp) (wp junk : dbl) (p nm : string) (tr te al n k : dbl) (b : buffer) (vals : list (option dbl)) (i : Z) (tab : list (option entry)),
    sscanf_row (cstring p) = full_row nm tr te al n k -> List.length b = 30%nat -> List.length vals = 5%nat -> 0 <= i < Z.of_nat (List.length tab) ->
    (String.length nm = 25 \/ 30 <= String.length nm)%nat -> read_piece wp junk p b vals i tab = Stop (UB OutOfBounds).
Proof. intros. destruct (named wp junk p nm tr te al n k b vals i tab) as (_ & _ & C); auto. Qed.
Print Assumptions C80_name_overrun_refuted.

(** The table of the repository as a file: its rows are those of the shipped table, so that Initialize reads it the same way. *)
Definition shipped_disk : string -> option string := fun f => if String.eqb f data_file then Some (text_file shipped_table) else None.
Fixpoint line_ofb (k : nat) (l : string) : bool :=
  match l with EmptyString => true | String c r => match k with O => false | S k' => negb (Ascii.eqb c LF) && negb (Ascii.eqb c NUL) && line_ofb k' r end end.
Lemma line_ofb_ok : forall l k, line_ofb k l = true -> line_of k l.
Proof.
  induction l as [|c r IH]; intros k E; [repeat split; cbn; lia|]. destruct k as [|k]; [discriminate|]. cbn [line_ofb] in E. apply andb_true_iff in E as [E E3]. apply andb_true_iff in E as [E1 E2].
  destruct (IH k E3) as (A & B & C). destruct (Ascii.eqb_spec c LF); [discriminate|]. destruct (Ascii.eqb_spec c NUL); [discriminate|]. repeat split; try assumption. cbn. lia.
Qed.
Example C80_shipped_table : forall (fp : Fp) (f : string),
  Forall (line_of 253) shipped_table /\ on_disk shipped_disk f = (if String.eqb f data_file then Some (table_of shipped_table) else None).
Proof.
  intros fp f. assert (H : Forall (line_of 253) shipped_table) by (repeat (apply Forall_cons || apply Forall_nil); apply line_ofb_ok; reflexivity). split; [exact H|].
  unfold on_disk, shipped_disk. destruct (String.eqb f data_file); [|reflexivity]. cbn [option_map]. unfold shipped_table in H |- *. inversion H as [|x y Hh Hl]; subst.
  apply f_equal. exact (file_rows _ _ Hh Hl).
Qed.

(** A header of 254 characters in front of the same rows. *)
Fixpoint xs (k : nat) : string := match k with O => EmptyString | S k' => String "x" (xs k') end.
Example C80_wide_header : forall (fp : Fp) (nst : Z) (wp junk : dbl) (tab : list (option entry)),
  read_table (Some (text_file (xs 254 :: tl shipped_table))) nst wp junk tab = Stop (UB Uninit).
Proof.
  intros fp nst wp junk tab. assert (H : Forall (line_of 253) (tl shipped_table)) by (repeat (apply Forall_cons || apply Forall_nil); apply line_ofb_ok; reflexivity).
  destruct (line_ofb_ok (xs 254) 254 eq_refl) as (A & B & _). destruct (C80_long_header_refuted fp (xs 254) (tl shipped_table) A B H) as [_ C]. apply C. reflexivity.
Qed.

(** A soil whose name has 25 characters. *)
Local Existing Instance exact.
Example C80_long_name : exists tr te al n k, sscanf_row (cstring ("Sandy_loam_with_fine_clay 0.1 0.4 0.02 1.5 1.0" ++ String LF "")) = full_row "Sandy_loam_with_fine_clay" tr te al n k.
Proof.
  do 5 eexists. change (cstring ("Sandy_loam_with_fine_clay 0.1 0.4 0.02 1.5 1.0" ++ String LF "")) with ("Sandy_loam_with_fine_clay 0.1 0.4 0.02 1.5 1.0" ++ nl)%string.
  rewrite row_lf. unfold full_row. reflexivity.
Qed.
