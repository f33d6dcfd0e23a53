(** Vocabulary for statements about configuration files. *)

From Coq Require Import String Ascii Reals ZArith List Bool.
From Verif Require Import Outcome Dbl Types State Config Spec_Common Spec_Soil.
Import ListNotations.
Open Scope string_scope.
Open Scope list_scope.

(** ** Text *)

(** The character does not occur. *)
Fixpoint free_of (c : ascii) (s : string) : Prop :=
  match s with EmptyString => True | String a r => a <> c /\ free_of c r end.

(** [f] applied to every item, in order. *)
Fixpoint each {A B : Type} (f : A -> outcome B) (l : list A) : outcome (list B) :=
  match l with [] => Ok [] | a :: r => b <- f a ;; bs <- each f r ;; Ok (b :: bs) end.

(** Decimal numerals: an optional sign, digits, optionally a point and digits, optionally an exponent; at least one digit before the exponent. *)
Record numeral : Type := mkNum {
  nu_sign : option bool;                       (* Some true: '-', Some false: '+' *)
  nu_int : list nat;                           (* digits before the point *)
  nu_frac : option (list nat);                 (* digits after the point *)
  nu_exp : option (option bool * list nat);    (* sign and digits of the exponent *)
  nu_upper : bool                              (* 'E' instead of 'e' *)
}.
Definition good_numeral (n : numeral) : Prop :=
  Forall (fun d => (d < 10)%nat) (nu_int n) /\
  match nu_frac n with Some l => Forall (fun d => (d < 10)%nat) l | None => True end /\
  match nu_exp n with Some (_, l) => Forall (fun d => (d < 10)%nat) l /\ l <> [] | None => True end /\
  (nu_int n <> [] \/ exists d l, nu_frac n = Some (d :: l)).

Definition sign_text (s : option bool) : string := match s with Some true => "-" | Some false => "+" | None => "" end.
Fixpoint digits_text (l : list nat) : string := match l with [] => "" | d :: r => String (ascii_of_nat (48 + d)) (digits_text r) end.
Definition text (n : numeral) : string :=
  (sign_text (nu_sign n) ++ digits_text (nu_int n) ++ match nu_frac n with Some l => "." ++ digits_text l | None => "" end ++
   match nu_exp n with Some (s, l) => (if nu_upper n then "E" else "e") ++ sign_text s ++ digits_text l | None => "" end)%string.

(** The value of digits before and after the point. *)
Definition whole (l : list nat) : R := fold_left (fun a d => 10 * a + INR d)%R l 0%R.
Fixpoint fraction (l : list nat) : R := match l with [] => 0%R | d :: r => ((INR d + fraction r) / 10)%R end.
Definition signed (s : option bool) (x : R) : R := match s with Some true => (- x)%R | _ => x end.
(** 10 to the power that the digits of the exponent say. *)
Definition power10 (s : option bool) (l : list nat) : R :=
  let k := fold_left (fun a d => 10 * a + d)%nat l 0%nat in match s with Some true => (/ 10 ^ k)%R | _ => (10 ^ k)%R end.
Definition value (n : numeral) : R :=
  (signed (nu_sign n) (whole (nu_int n) + match nu_frac n with Some l => fraction l | None => 0 end) *
   match nu_exp n with Some (s, l) => power10 s l | None => 1 end)%R.

(** ** Lines *)

(** The line sets [k]: it is [k] followed by '=' and anything, or nothing. *)
Definition line_sets (k l : string) : Prop := l = k \/ exists r, l = (k ++ "=" ++ r)%string.

(** All keys that the code knows, and those that it requires. *)
Definition required_keys : list string :=
  ["layer_soil_type"; "soil_params_file"; "layer_thickness"; "initial_psi"; "timestep"; "endtime"; "wilting_point_psi"; "field_capacity_psi";
   "forcing_resolution"; "giuh_ordinates"].
Definition optional_keys : list string :=
  ["soil_z"; "max_valid_soil_types"; "use_closed_form_G"; "adaptive_timestep"; "sft_coupled"; "ponded_depth_max"; "calib_params"].
(** The line sets none of these. *)
Definition comment_line (l : string) : Prop := forall k, In k (required_keys ++ optional_keys) -> ~ line_sets k l.

(** No key is set twice. *)
Definition once (ls : list string) : Prop :=
  forall k i j a b, In k (required_keys ++ optional_keys) -> nth_error ls i = Some a -> nth_error ls j = Some b -> line_sets k a -> line_sets k b -> i = j.

(** ** Units of time, in seconds *)
Definition unit_seconds : list (string * R) :=
  [("", 1%R); ("[s]", 1%R); ("[sec]", 1%R); ("[min]", 60%R); ("[minute]", 60%R); ("[h]", 3600%R); ("[hr]", 3600%R)].

(** [l] is the last line that sets [k]. *)
Definition last_line (k l : string) (ls : list string) : Prop :=
  line_sets k l /\ exists a b, ls = a ++ l :: b /\ forall x, In x b -> ~ line_sets k x.
(** A line that assigns the text [v], possibly followed by a text in brackets. *)
Definition assigns (k v l : string) : Prop := l = (k ++ "=" ++ v)%string \/ exists u, l = (k ++ "=" ++ v ++ "[" ++ u)%string.
(** A comma separated list of numerals. *)
Definition numbers (ns : list numeral) : string := String.concat "," (map text ns).

(** ** Soil tables *)

(** A line of the soil table with a name that fits and all five numbers: residual and saturated water content, alpha (1/cm), n, saturated conductivity (cm/h). *)
Definition full_row (nm : string) (tr te al n k : dbl) : row := mkRow (Some nm) [tr; te; al; n; k].
Definition physical_row (r : row) : Prop :=
  exists nm tr te al n k, r = full_row nm (Fin tr) (Fin te) (Fin al) (Fin n) (Fin k) /\ (String.length nm <= 24)%nat /\
    (tr < te)%R /\ (0 < al)%R /\ (1 < n)%R /\ (0 < k)%R.

(** Text made of blanks and tabs only; text without white space. *)
Fixpoint blanks (s : string) : Prop := match s with EmptyString => True | String c r => (c = " "%char \/ c = ascii_of_nat 9) /\ blanks r end.
Fixpoint no_space (s : string) : Prop :=
  match s with EmptyString => True | String c r => nat_of_ascii c <> 32%nat /\ ~ (9 <= nat_of_ascii c <= 13)%nat /\ no_space r end.
(** Numerals, each with the blanks before it. *)
Fixpoint columns (cs : list (string * numeral)) : string := match cs with [] => "" | (b, n) :: r => (b ++ text n ++ columns r)%string end.
Definition good_columns (cs : list (string * numeral)) : Prop := Forall (fun c => blanks (fst c) /\ fst c <> "" /\ good_numeral (snd c)) cs.
(** Text that begins with white space or is empty. *)
Definition blank_next (t : string) : Prop := match t with EmptyString => True | String c _ => nat_of_ascii c = 32%nat \/ (9 <= nat_of_ascii c <= 13)%nat end.
(** Text after the numbers: empty, or blanks and then a letter that begins no number (numbers may begin with i or n: infinity and nan). *)
Definition no_number (t : string) : Prop :=
  blanks t \/ exists b c r, t = (b ++ String c r)%string /\ blanks b /\ b <> "" /\
    (97 <= nat_of_ascii c <= 122)%nat /\ c <> "i"%char /\ c <> "n"%char.

(** A row with a name and all five numbers. *)
Definition complete (r : row) : Prop := r_name r <> None /\ length (r_vals r) = 5%nat.
(** Row [r] with the items that it lacks taken from row [p]; every row completed from the one before it. *)
Definition fill (p r : row) : row :=
  match r_name r with None => p | Some s => mkRow (Some s) (r_vals r ++ skipn (length (r_vals r)) (r_vals p)) end.
Fixpoint carried (p : row) (rs : list row) : list row := match rs with [] => [] | r :: rs' => fill p r :: carried (fill p r) rs' end.
(** The rows as the code sees them, if the first one is complete. *)
Definition completed (rs : list row) : list row := match rs with [] => [] | r :: rs' => r :: carried r rs' end.

(** ** The initial column *)

(** The sum over the layers of thickness times water content. *)
Fixpoint layer_storage (ts ths : list R) : R := match ts, ths with t :: r, th :: q => (t * th + layer_storage r q)%R | _, _ => 0%R end.

(** Front [i] of the profile rests at the bottom of layer [i] of thickness [ts], with head [psi] everywhere; water content and conductivity are those of the
    van Genuchten soil of the layer at this head, and [ths] are the water contents. *)
Definition hydrostatic (ts : list R) (psi : R) (ss : list soil) (ths : list R) (l : list front) : Prop :=
  length ss = length ts /\ length ths = length ts /\ length l = length ts /\
  forall i f, nth_error l i = Some f -> exists s r e a n m k th,
    nth_error ss i = Some s /\ vg_soil s r e a n m k /\ nth_error ths i = Some th /\
    f_num f = Z.of_nat (S i) /\ f_layer f = Z.of_nat (S i) /\ f_bottom f = true /\ f_dzdt f = Fin 0 /\
    f_depth f = Fin (Rsum (firstn (S i) ts)) /\ f_psi f = Fin psi /\
    f_theta f = Fin th /\ th = vg_theta r e a n m psi /\ (r <= th <= e)%R /\
    exists K, f_K f = Fin K /\ K = vg_K k m (vg_Se a n m psi) /\ (0 <= K <= k)%R.

(** ** The unit hydrograph *)

(** Every ordinate divided by [x] and repeated [k] times. *)
Definition spread {fp : Fp} (k : nat) (x : dbl) (ord : list dbl) : list dbl := flat_map (fun o => repeat (o / x)%d k) ord.

(** ** Well-formed configurations *)

(** A natural number written with digits only. *)
Definition natural (n : numeral) (k : nat) : Prop :=
  good_numeral n /\ nu_sign n = None /\ nu_frac n = None /\ nu_exp n = None /\ fold_left (fun a d => 10 * a + d)%nat (nu_int n) 0%nat = k.

(** Lines that the code can read: comments, or a known key with a value of its kind. *)
Inductive good_line : string -> Prop :=
| gl_comment : forall l, comment_line l -> good_line l
| gl_vector : forall k l n ns, In k ["layer_thickness"; "giuh_ordinates"; "soil_z"] -> assigns k (numbers (n :: ns)) l -> Forall good_numeral (n :: ns) -> good_line l
| gl_types : forall l n ns, assigns "layer_soil_type" (numbers (n :: ns)) l -> Forall (fun m => exists k, natural m k /\ (k <= 1000)%nat) (n :: ns) -> good_line l
| gl_max : forall l n k, assigns "max_valid_soil_types" (text n) l -> natural n k -> (k <= 1000)%nat -> good_line l
| gl_number : forall k l n, In k ["initial_psi"; "wilting_point_psi"; "field_capacity_psi"; "ponded_depth_max"] -> assigns k (text n) l -> good_numeral n -> good_line l
| gl_time : forall k n u sec, In k ["timestep"; "endtime"; "forcing_resolution"] -> In (u, sec) unit_seconds -> good_numeral n -> (0 < value n)%R ->
    good_line (k ++ "=" ++ text n ++ u)
| gl_file : forall l f, assigns "soil_params_file" f l -> free_of "[" f -> good_line l
| gl_flag : forall k b, In k ["use_closed_form_G"; "adaptive_timestep"; "sft_coupled"; "calib_params"] -> good_line (k ++ "=" ++ (if b : bool then "true" else "false")).

(** A configuration for layers of thickness [ts] with the soils of the rows [types] of the table [rows], ordinates [gs], initial head [psi], and time steps and
    forcing resolutions of [dt] and [fres] hours.  [max] is the number of valid soil types. *)
Record basic_config (files : string -> option (list row)) (ls : list string) (ts types gs : list numeral) (psi : numeral) (dt fres : R) (max : nat) (rows : list row) : Prop := mkBasic {
  gc_lines : Forall good_line ls;
  gc_required : forall k, In k required_keys -> exists l, In l ls /\ line_sets k l;
  gc_thick : exists l, last_line "layer_thickness" l ls /\ assigns "layer_thickness" (numbers ts) l /\ ts <> [] /\ Forall good_numeral ts /\ Forall (fun n => 0 < value n)%R ts;
  gc_types : exists l, last_line "layer_soil_type" l ls /\ assigns "layer_soil_type" (numbers types) l /\ types <> [] /\ Forall good_numeral types;
  gc_giuh : exists l, last_line "giuh_ordinates" l ls /\ assigns "giuh_ordinates" (numbers gs) l /\ gs <> [] /\ Forall good_numeral gs /\ Forall (fun n => 0 <= value n)%R gs;
  gc_psi : exists l, last_line "initial_psi" l ls /\ assigns "initial_psi" (text psi) l /\ good_numeral psi /\ (0 <= value psi)%R;
  gc_file : exists l f, last_line "soil_params_file" l ls /\ assigns "soil_params_file" f l /\ free_of "[" f /\ files f = Some rows /\ Forall physical_row rows;
  gc_dt : exists n u sec, last_line "timestep" ("timestep=" ++ text n ++ u) ls /\ In (u, sec) unit_seconds /\ good_numeral n /\ dt = (value n * sec / 3600)%R;
  gc_fres : exists n u sec, last_line "forcing_resolution" ("forcing_resolution=" ++ text n ++ u) ls /\ In (u, sec) unit_seconds /\ good_numeral n /\ fres = (value n * sec / 3600)%R;
  gc_range : (0 < dt)%R /\ (0 < fres)%R /\ (1 / fres < 2147483647)%R /\ (fres / dt + 1 < 2147483647)%R;
  gc_max : (exists l n k, last_line "max_valid_soil_types" l ls /\ assigns "max_valid_soil_types" (text n) l /\ natural n k /\ (k <= 1000)%nat /\ max = Nat.min k 15) \/
           (max = 15%nat /\ forall l, In l ls -> ~ line_sets "max_valid_soil_types" l);
  gc_pos : (1 <= max)%nat;
  gc_cells : (exists l, In l ls /\ line_sets "soil_z" l) \/ ~ In "sft_coupled=true" ls
}.

(** Layer [i], counted from 0, has a soil type that is valid and in the table. *)
Definition good_type (types : list numeral) (max : nat) (rows : list row) (i : nat) : Prop :=
  exists m k, nth_error types i = Some m /\ natural m k /\ (1 <= k <= max)%nat /\ (k <= length rows)%nat.
(** The same for every layer. *)
Definition usable_config (files : string -> option (list row)) (ls : list string) (ts types gs : list numeral) (psi : numeral) (dt fres : R) (max : nat) (rows : list row) : Prop :=
  basic_config files ls ts types gs psi dt fres max rows /\ forall i, (i < length ts)%nat -> good_type types max rows i.
(** The forcing resolution is not coarser than one hour. *)
Definition good_config (files : string -> option (list row)) (ls : list string) (ts types gs : list numeral) (psi : numeral) (dt fres : R) (max : nat) (rows : list row) : Prop :=
  usable_config files ls ts types gs psi dt fres max rows /\ (fres <= 1)%R.
(** Layer [i] is the first without a good type, and its type is above the number of valid types. *)
Definition bad_type (types : list numeral) (max : nat) (rows : list row) (i : nat) : Prop :=
  (forall j, (j < i)%nat -> good_type types max rows j) /\ exists m k, nth_error types i = Some m /\ natural m k /\ (max < k <= 1000)%nat.
