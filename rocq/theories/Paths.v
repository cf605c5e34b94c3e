(** Path::components().last() and Path::join of the standard library on Unix, stated from their documentation, as examples/vary_density.rs l.82-96 and
    examples/ldbc_to_graphmap.rs l.48-56 use them. *)
From Coq Require Import Ascii.
From stdpp Require Import strings.
From Verif Require Import Base.

(** What is between the slashes. *)
Fixpoint parts (s acc : string) : list string :=
  match s with
  | EmptyString => [acc]
  | String c s => if decide (c = "/"%char) then acc :: parts s "" else parts s (acc +:+ String c "")%string
  end.
(** components().last(): empty parts and dots are dropped, except that the root is a component and a dot at the very beginning is one. If nothing else is left, the
    first character is a slash or such a dot. *)
Definition last_component (s : string) : option string :=
  match last (filter (λ p, p ≠ ""%string ∧ p ≠ "."%string) (parts s "")) with
  | Some p => Some p
  | None => match s with EmptyString => None | String c _ => Some (if decide (c = "/"%char) then "/" else ".")%string end
  end.
Definition starts_slash (s : string) : bool := match s with EmptyString => false | String c _ => bool_decide (c = "/"%char) end.
Fixpoint ends_slash (s : string) : bool :=
  match s with EmptyString => false | String c EmptyString => bool_decide (c = "/"%char) | String _ s => ends_slash s end.
(** join: an absolute name replaces the directory. *)
Definition path_join (dir name : string) : string :=
  if starts_slash name then name
  else if bool_decide (dir = ""%string) || ends_slash dir then (dir +:+ name)%string
  else (dir +:+ "/" +:+ name)%string.
