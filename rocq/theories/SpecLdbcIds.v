(** Specification vocabulary for the ids LDBC import gives out. *)
From stdpp Require Import list.

(** [seen] lists the items of [es] in the order in which [es] first mentions them. *)
Definition by_first_mention {X} (es seen : list X) : Prop :=
  ∀ i j x y, i < j → seen !! i = Some x → seen !! j = Some y →
    ∃ k, es !! k = Some x ∧ ∀ k', es !! k' = Some y → k < k'.
