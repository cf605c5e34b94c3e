(** Vocabulary for CSV files as text. *)
From Coq Require Import Ascii.
From stdpp Require Import strings.

Fixpoint has_char (c : ascii) (s : string) : Prop :=
  match s with EmptyString => False | String d s => c = d ∨ has_char c s end.
(** A field that needs no quotes. *)
Definition plain (sep : ascii) (f : string) : Prop := ∀ c, has_char c f → c ≠ sep ∧ c ≠ "034"%char ∧ c ≠ "010"%char ∧ c ≠ "013"%char.
(** The fields of a line, with the separator in between. *)
Fixpoint joined (sep : ascii) (r : list string) : string :=
  match r with
  | [] => EmptyString
  | [f] => f
  | f :: r => f +:+ String sep (joined sep r)
  end.
(** The three line ends. *)
Definition line_end (e : string) : Prop := e = String "010" "" ∨ e = String "013" "" ∨ e = String "013" (String "010" "").
(** Lines with their ends. *)
Fixpoint lines (sep : ascii) (ls : list (list string * string)) : string :=
  match ls with [] => EmptyString | (r, e) :: ls => joined sep r +:+ e +:+ lines sep ls end.
(** Separators that are not a quote and not a line end. *)
Definition usual (sep : ascii) : Prop := sep ≠ "034"%char ∧ sep ≠ "010"%char ∧ sep ≠ "013"%char.
