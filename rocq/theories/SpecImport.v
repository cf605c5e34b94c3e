(** Vocabulary for files of any content. *)
From stdpp Require Import list.
From Verif Require Import Base Bytes.

Definition bytes (b : list N) : Prop := Forall (λ x, x < 256)%N b.
(** A decoder that yields only values with [P] and takes them from the front. *)
Definition yields {A} (c : codec A) (P : A → Prop) : Prop :=
  ∀ b x r, bytes b → dec c b = Some (x, r) → P x ∧ ∃ a, b = a ++ r.
(** A decoder that accepts nothing but encodings. *)
Definition exact {A} (c : codec A) : Prop := ∀ b x r, bytes b → dec c b = Some (x, r) → b = enc c x ++ r.
