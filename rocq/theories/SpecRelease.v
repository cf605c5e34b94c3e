(** Vocabulary for imports that run out of ids. *)
From stdpp Require Import gmap strings.
From Verif Require Import Base Api Map GraphMap Csv Ldbc.

(** The entity a row is about, as the import names it: type followed by id. *)
Definition key_of (nd : ldbc_node) (r : row) : option string := (λ f, ln_name nd +:+ f)%string <$> r !! ln_id nd.
(** The row has an id and a label. *)
Definition has_fields (nd : ldbc_node) (r : row) : Prop := is_Some (r !! ln_id nd) ∧ is_Some (r !! ln_label nd).
(** No id is left: the largest id of the type has been given out, 0 is in use, and every entity
    seen so far is a node. *)
Definition all_used (it : idty) (g : graphmap string string) (m : gmap string N) : Prop :=
  gm_max_seen_id g = Some (id_max it) ∧ gm_has_node g 0 = true ∧ ∀ k id, m !! k = Some id → gm_has_node g id = true.
