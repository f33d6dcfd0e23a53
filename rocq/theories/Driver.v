(** The standalone program: src/bmi_main_lgar.cxx.

    Simplifications, everywhere in this file: files have fewer than 2^31 lines; the output files can be opened; what is written is kept as values, not as
    text (the text is in [Output.v]); with verbosity "low" or "high" the time and the forcing of a step are read (and printed) before the Update too. *)

From Coq Require Import String Ascii Reals ZArith List Bool.
From Verif Require Import Outcome Dbl Types State Update Bmi Config.
Import ListNotations.
Open Scope string_scope.
Open Scope Z_scope.
Open Scope list_scope.

(** ** Input streams *)

(** std::ifstream or std::stringstream: what is not read yet, eofbit and failbit. *)
Record stream : Type := mkStream { sm_rest : string; sm_eof : bool; sm_fail : bool }.
Definition opened (text : string) : stream := mkStream text false false.

(** std::getline(st, old, delim): the string and the stream afterwards.  If a flag is set before, the string keeps its value and failbit is set.
    Otherwise characters are extracted up to the delimiter, which is dropped; at the end of the text eofbit is set, and failbit too if nothing was extracted. *)
Definition getline (delim : ascii) (old : string) (st : stream) : string * stream :=
  if (sm_eof st || sm_fail st)%bool then (old, mkStream (sm_rest st) (sm_eof st) true)
  else match find delim (sm_rest st) with
       | Some i => (take i (sm_rest st), mkStream (drop (S i) (sm_rest st)) false false)
       | None => (sm_rest st, mkStream "" true (String.eqb (sm_rest st) ""))
       end.

Definition newline : ascii := ascii_of_nat 10.

(** The cells that while (std::getline(lineStream, cell, ',')) visits, bmi_main_lgar.cxx:239; [k] is larger than the number of commas. *)
Fixpoint cells (k : nat) (cell : string) (st : stream) : list string :=
  match k with
  | O => []
  | S k' => let '(c, st') := getline "," cell st in if sm_fail st' then [] else c :: cells k' c st'
  end.
Definition line_cells (line : string) : list string := cells (S (String.length line)) "" (opened line).

(** ** ReadForcingData, bmi_main_lgar.cxx:183-262 *)

(** The file name: everything behind the first '=' of the first line with the key forcing_file, :200-221.  Without '=' find returns npos, npos + 1 is 0 and
    key and value are both the whole line. *)
Fixpoint forcing_file (lines : list string) : option string :=
  match lines with
  | [] => None
  | l :: r => if String.eqb (line_key l) "forcing_file"
              then Some (drop (match find "=" l with Some i => S i | None => O end) l)
              else forcing_file r
  end.

(** The three vectors. *)
Record forcing : Type := mkForcing { fo_time : list string; fo_precip : list dbl; fo_pet : list dbl }.

Section Driver.
Context {fp : Fp} {cfg : Cfg}.

(** The cells of one line, :237-257: the first is the time, the second and the third are converted, others are ignored. *)
Definition push_cells (cs : list string) (f : forcing) : outcome forcing :=
  match cs with
  | [] => Ok f
  | [t] => Ok (mkForcing (fo_time f ++ [t]) (fo_precip f) (fo_pet f))
  | [t; p] => p <- stod p ;; Ok (mkForcing (fo_time f ++ [t]) (fo_precip f ++ [p]) (fo_pet f))
  | t :: p :: e :: _ => p <- stod p ;; e <- stod e ;; Ok (mkForcing (fo_time f ++ [t]) (fo_precip f ++ [p]) (fo_pet f ++ [e]))
  end.

(** The loop while (fp) of :235-259; [line] is declared before the loop and keeps its value when getline fails.  [k] bounds the number of lines. *)
Fixpoint read_loop (k : nat) (line : string) (st : stream) (f : forcing) : outcome forcing :=
  if sm_fail st then Ok f
  else match k with
       | O => Stop OutOfFuel
       | S k' =>
           let '(line, st) := getline newline line st in
           f <- push_cells (line_cells line) f ;;
           read_loop k' line st f
       end.

(** The whole file, :230-259: the first line holds names. *)
Definition read_text (text : string) : outcome forcing :=
  let '(line, st) := getline newline "" (opened text) in
  read_loop (S (S (String.length text))) line st (mkForcing [] [] []).

(** [texts] are the files that exist. *)
Definition ReadForcingData (texts : string -> option string) (lines : list string) : outcome forcing :=
  match forcing_file lines with
  | None => Stop Throw
  | Some name => match texts name with None => Stop Abort | Some t => read_text t end
  end.

(** ** main *)

(** The names of :62-72 in the order of the columns of data_variables.csv. *)
Definition column_names : list string :=
  ["precipitation"; "potential_evapotranspiration"; "actual_evapotranspiration"; "surface_runoff"; "giuh_runoff"; "soil_storage"; "total_discharge";
   "infiltration"; "percolation"; "groundwater_to_stream_recharge"; "mass_balance"].

(** One step of output: the time and the eleven values of the line in data_variables.csv, and the fronts that write_state prints to data_layers.csv. *)
Record outrow : Type := mkRowOut { w_time : string; w_vars : list item; w_fronts : list front }.

(** GetValue copies into a buffer of [n] items. *)
Definition into (n : Z) (v : list item) : outcome (list item) := if Z.of_nat (List.length v) <=? n then Ok v else Stop (UB OutOfBounds).

Fixpoint get_columns (names : list string) (o : obj) : outcome (list item) :=
  match names with
  | [] => Ok []
  | n :: r => v <- GetValue n o ;; v <- into 1 v ;; vs <- get_columns r o ;; Ok (v ++ vs)
  end.

(** The body of the loop :116-162. *)
Definition drive_step (f : forcing) (i : Z) (o : obj) : outcome (obj * outrow) :=
  p <- aget (fo_precip f) i ;;
  o <- SetValue "precipitation_rate" [D p] o ;;
  e <- aget (fo_pet f) i ;;
  o <- SetValue "potential_evapotranspiration_rate" [D e] o ;;
  o <- bmi_Update o ;;
  let n := p_nfronts (st_p (ob_s o)) in
  th <- GetValue "soil_moisture_wetting_fronts" o ;; _ <- into n th ;;
  dp <- GetValue "soil_depth_wetting_fronts" o ;; _ <- into n dp ;;
  t <- aget (fo_time f) i ;;
  vars <- get_columns column_names o ;;
  Ok (o, mkRowOut t vars (st_head (ob_s o))).

(** Steps i .. i + k - 1. *)
Fixpoint drive (k : nat) (f : forcing) (i : Z) (o : obj) : outcome (obj * list outrow) :=
  match k with
  | O => Ok (o, [])
  | S k' => '(o, r) <- drive_step f i o ;; '(o, rs) <- drive k' f (i + 1) o ;; Ok (o, r :: rs)
  end.

(** What a run leaves: the lines of the two output files, the object before Finalize, and the balance that Finalize prints. *)
Record result : Type := mkResult { rs_rows : list outrow; rs_obj : obj; rs_printed : dbl }.

(** main with one argument, the name of the configuration file with these lines, :32-179.  Releasing the memory in Finalize is modelled in Life.v. *)
Definition simulate (files : string -> option (list row)) (texts : string -> option string) (junk : dbl) (lines : list string) : outcome result :=
  s <- Initialize files junk lines ;;
  let o := mkObj s (repeat None 11) in
  nsteps <- d2i (GetEndTime o / GetTimeStep o)%d ;;
  f <- ReadForcingData texts lines ;;
  _ <- cassert (nsteps <=? Z.of_nat (List.length (fo_pet f))) ;;
  '(o, rs) <- drive (Z.to_nat nsteps) f 0 o ;;
  Ok (mkResult rs o (global_error (st_mb (ob_s o)))).

End Driver.
