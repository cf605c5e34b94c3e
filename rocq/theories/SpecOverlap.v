(** The one file in which a dump under one prefix can be seen under another. *)
From stdpp Require Import gmap strings.
From Verif Require Import Base Api Bytes Map GraphMap Static Serde SpecMmap SpecStore.

(** What dumping [g] under [p'] writes to a file that is read when [p ≠ p'] is opened: the node labels
    of [g] where the edge labels of [p] are looked for, or the edge labels of [g] where the node
    labels of [p] are looked for. *)
Definition overlap {NL EL} (g : sgraph NL EL) (p p' : string) : option (string * list N) :=
  if decide (p' = p +:+ "_OUT" ∨ p' = p +:+ "_IN") then (λ ls, (p' +:+ ".labels", ls)) <$> sg_labels g
  else if decide (p = p' +:+ "_OUT") then (λ ls, (p +:+ ".labels", ls)) <$> edge_labels_of g
  else if decide (p = p' +:+ "_IN") then (λ ls, (p +:+ ".labels", ls)) <$> in_labels_of g
  else None.
