(** Specification vocabulary for LDBC directories in which entities share a text. *)
From stdpp Require Import strings.
From Verif Require Import Base Api Spec Csv Ldbc SpecLdbc.

(** The text under which an entity is looked up: type and id, nothing between. *)
Definition entity_text (e : entity) : string := (e.1 +:+ e.2)%string.
(** The first entity of a list that has the same text. *)
Definition first_with (es : list entity) (e : entity) : entity :=
  default e (head (filter (λ e', entity_text e' = entity_text e) es)).
Definition rename (r : entity → entity) (f : fact) : fact :=
  match f with FNode e l => FNode (r e) l | FEdge s t l => FEdge (r s) (r t) l end.
(** Every entity replaced by the first one with its text. *)
Definition merged (fs : list fact) : list fact := rename (first_with (entities fs)) <$> fs.
