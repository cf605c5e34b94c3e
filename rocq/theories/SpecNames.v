(** Vocabulary for names. *)
From Coq Require Import Ascii.
From stdpp Require Import strings.

(** The letters, and a name written in any mixture of upper and lower case. *)
Definition letters : list (ascii * ascii) :=
  [("a", "A"); ("c", "C"); ("g", "G"); ("h", "H"); ("i", "I"); ("m", "M"); ("p", "P"); ("r", "R"); ("s", "S"); ("t", "T")]%char.
Fixpoint spelled (name s : string) : Prop :=
  match name, s with
  | EmptyString, EmptyString => True
  | String c name, String d s => (d = c ∨ (c, d) ∈ letters) ∧ spelled name s
  | _, _ => False
  end.
