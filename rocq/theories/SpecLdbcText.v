(** Vocabulary for LDBC directories of text files. *)
From Coq Require Import Ascii.
From stdpp Require Import strings.
From Verif Require Import SpecCsvText.

(** A file: its name, its lines with their ends, and a last line without end. *)
Notation line_file := (string * (list (list string * string) * list string))%type.
(** No field needs quotes. *)
Definition plain_file (sep : ascii) (f : line_file) : Prop :=
  Forall (λ l, l.1 ≠ [] ∧ Forall (plain sep) l.1 ∧ line_end l.2) f.2.1 ∧ f.2.2 ≠ [] ∧ Forall (plain sep) f.2.2.
Definition file_text (sep : ascii) (f : line_file) : string * string := (f.1, lines sep f.2.1 +:+ joined sep f.2.2).
(** The lines that are not empty. *)
Definition file_rows (f : line_file) : string * list (list string) := (f.1, filter (λ r, r ≠ [""%string]) (f.2.1.*1 ++ [f.2.2])).
