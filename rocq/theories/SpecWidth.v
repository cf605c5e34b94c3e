(** C119: what fits an id type. *)
From Verif Require Import Base Api Spec Csv.

(** If the field is a decimal number, it is an id of the type. *)
Definition cell_fits (it : idty) (c : string) : Prop := ∀ max x, parse_uint max c = Some x → (x ≤ id_max it)%N.
