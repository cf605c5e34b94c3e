(** When a slice lies within a file. *)
From stdpp Require Import gmap strings.
From Verif Require Import Base Bytes Mmap MmapSpan.

(** Every byte of a slice of items of [k] bytes is a byte of the file [b]. *)
Definition inside (k : nat) (b : list N) (s : span) : Prop :=
  (sp_start s + sp_count s * N.of_nat k ≤ N.of_nat (length b))%N.
(** The items of type [t] in a file: as many as fit, and fewer bytes than an item left over. *)
Definition items_of (t : idty) (b l : list N) : Prop :=
  ∃ r, b = typed_bytes t l ++ r ∧ length r < id_size t ∧ Forall (λ x, x < id_card t)%N l.
(** Bytes. *)
Definition bytes (b : list N) : Prop := Forall (λ x, x < 256)%N b.
