(** The text of a soil table. *)

From Coq Require Import String Ascii List.
From Verif Require Import Spec_Config.
Import ListNotations.

Definition line_feed : ascii := ascii_of_nat 10.
(** The file with these lines, each ended by a line feed. *)
Definition text_file (ls : list string) : string := fold_right (fun l t => (l ++ String line_feed t)%string) EmptyString ls.
(** A line of text with at most [k] characters. *)
Definition line_of (k : nat) (l : string) : Prop := free_of line_feed l /\ free_of (ascii_of_nat 0) l /\ String.length l <= k.
