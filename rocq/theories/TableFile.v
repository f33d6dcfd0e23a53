(** The soil table as the bytes of a file and the character buffers through which it is read, lgar.cxx:2277-2356.  [Config.v] reads the same table from a list of rows. *)

From Coq Require Import Reals ZArith List Bool String Ascii.
From Verif Require Import Outcome Dbl Types Config.
Import ListNotations.
Open Scope Z_scope.

Definition NUL : ascii := ascii_of_nat 0.
Definition LF : ascii := ascii_of_nat 10.

(** fgets(jstr, k + 1, f): at most [k] characters, up to and with the first line feed; and the rest of the file. *)
Fixpoint fgets (k : nat) (s : string) : string * string :=
  match k with
  | O => (EmptyString, s)
  | S k' =>
      match s with
      | EmptyString => (EmptyString, EmptyString)
      | String c r => if Ascii.eqb c LF then (String c EmptyString, r) else let '(a, b) := fgets k' r in (String c a, b)
      end
  end.
(** What fgets(jstr, 255, f) delivers one after the other, until it returns NULL at the end of the file (:2301, :2304).  Every call takes at least one
    character, so that the length of the file is enough fuel. *)
Fixpoint gets (fuel : nat) (s : string) : list string :=
  match fuel with
  | O => []
  | S f => match s with EmptyString => [] | _ => let '(a, b) := fgets 254 s in a :: gets f b end
  end.
Definition pieces (s : string) : list string := gets (String.length s) s.
(** The routines on strings see the characters before the first NUL. *)
Fixpoint cstring (s : string) : string :=
  match s with EmptyString => EmptyString | String c r => if Ascii.eqb c NUL then EmptyString else String c (cstring r) end.

(** A char array; None is a byte that was never written. *)
Definition buffer : Type := list (option ascii).
(** The characters of [s] and a NUL, from position [i] on: what "%s" (:2306) and strcpy (:2316) write. *)
Fixpoint put (b : buffer) (i : Z) (s : string) : outcome buffer :=
  match s with
  | EmptyString => aset b i (Some NUL)
  | String c r => b' <- aset b i (Some c) ;; put b' (i + 1) r
  end.
(** The characters up to the NUL: what strlen (:2307) and strcpy (:2316) read.  [k] is at least the number of bytes. *)
Fixpoint chars (k : nat) (b : buffer) (i : Z) : outcome string :=
  c <- uget b i ;;
  if Ascii.eqb c NUL then Ok EmptyString
  else match k with O => Stop (UB OutOfBounds) | S k' => s <- chars k' b (i + 1) ;; Ok (String c s) end.

Section TableFile.
Context {fp : Fp}.

(** The rows that sscanf sees, :2306, without the header, :2301. *)
Definition table_file (s : string) : list row := map (fun p => sscanf_row (cstring p)) (tl (pieces s)).

(** One iteration of the loop, :2304-2350, with char soil_name[30] (:2288), MAX_SOIL_NAME_CHARS = 25 (all.hxx:40) and the member char soil_name[25] (all.hxx:68).
    [vals] are the five numbers. *)
Definition read_piece (wp junk : dbl) (p : string) (name : buffer) (vals : list (option dbl)) (i : Z) (tab : list (option entry))
  : outcome (buffer * list (option dbl) * list (option entry)) :=
  let r := sscanf_row (cstring p) in
  name <- match r_name r with None => Ok name | Some w => put name 0 w end ;;
  let vals := match r_name r with None => vals | Some _ => over (r_vals r) vals end in
  s <- chars (List.length name) name 0 ;;
  if 25 <? Z.of_nat (String.length s) then Stop (ExitCode 0)
  else
    _ <- aget tab i ;;
    field <- put (repeat None 25) 0 s ;;
    stored <- chars 25 field 0 ;;
    match vals with
    | [r0; r1; r2; r3; r4] =>
        theta_r <- known r0 ;; theta_e <- known r1 ;; alpha <- known r2 ;; n <- known r3 ;; Ksat <- known r4 ;;
        en <- derive wp junk theta_r theta_e alpha n Ksat stored ;;
        tab' <- aset tab i (Some en) ;;
        Ok (name, vals, tab')
    | _ => Stop (UB Uninit)
    end.
(** The loop, :2304-2350: until [nst] soils have been read. *)
Fixpoint read_pieces (wp junk : dbl) (nst : Z) (ps : list string) (name : buffer) (vals : list (option dbl)) (i : Z) (tab : list (option entry)) : outcome (list (option entry)) :=
  match ps with
  | [] => Ok tab
  | p :: ps' =>
      '(name', vals', tab') <- read_piece wp junk p name vals i tab ;;
      if nst =? i then Ok tab' else read_pieces wp junk nst ps' name' vals' (i + 1) tab'
  end.
(** lgar_read_vG_param_file, :2277-2356; None if the file cannot be opened, :2297-2299. *)
Definition read_table (file : option string) (nst : Z) (wp junk : dbl) (tab : list (option entry)) : outcome (list (option entry)) :=
  match file with
  | None => Stop (ExitCode (-1))
  | Some s => read_pieces wp junk nst (tl (pieces s)) (repeat None 30) (repeat None 5) 1 tab
  end.

(** The files of [Initialize] given as bytes. *)
Definition on_disk (disk : string -> option string) (f : string) : option (list row) := option_map table_file (disk f).

End TableFile.
