(** Specification vocabulary for a directory that holds many dumps. *)
From stdpp Require Import gmap strings.
From Verif Require Import Base Api Bytes Spec SpecStatic Static SpecSerde Serde Mmap SpecMmap SpecLive.

(** What happens to the directory: a graph is dumped under a prefix, or a file is changed. *)
Inductive store_op (NL EL : Type) := SDump (p : string) (g : sgraph NL EL) | SFile (o : fsop).
Arguments SDump {NL EL}. Arguments SFile {NL EL}.
Definition store_step {NL EL} `{EqDecision NL, EqDecision EL} (it lt : idty) (cn : codec NL) (ce : codec EL) (F : fs) (o : store_op NL EL) : fs :=
  match o with SDump p g => sg_dump_mmap it lt cn ce g p F | SFile o => fs_step F o end.
Definition store_run {NL EL} `{EqDecision NL, EqDecision EL} (it lt : idty) (cn : codec NL) (ce : codec EL) (F : fs) (h : list (store_op NL EL)) : fs :=
  foldl (store_step it lt cn ce) F h.

(** The graphs dumped under [p], oldest first. *)
Definition dumps {NL EL} (p : string) (h : list (store_op NL EL)) : list (sgraph NL EL) :=
  omap (λ o, match o with SDump p' g => if decide (p' = p) then Some g else None | SFile _ => None end) h.
(** A history that uses [p] only for graphs that can be mapped, and otherwise keeps away from
    the files of [p]. *)
Definition uses_well {NL EL} (it lt : idty) (PN : NL → Prop) (PE : EL → Prop) (p : string) (h : list (store_op NL EL)) : Prop :=
  ∀ o, o ∈ h → match o with
    | SDump p' g => (p' = p ∧ ∃ dir, mappable it lt PN PE dir g) ∨ apart p p'
    | SFile o => op_target o ∉ prefix_files p
    end.

(** The part that the latest graph having it has. *)
Definition latest {G A} (f : G → option A) (gs : list G) : option A := last (omap f gs).
Definition edge_labels_of {NL EL} (g : sgraph NL EL) : option (list N) := non_empty (ev_labels (sg_evec g)).
Definition in_labels_of {NL EL} (g : sgraph NL EL) : option (list N) := sg_in g ≫= λ e, non_empty (ev_labels e).
(** The last graph, with each part that may be absent from the latest graph having it. *)
Definition pieced {NL EL} (gs : list (sgraph NL EL)) : option (sgraph NL EL) :=
  match last gs with
  | None => None
  | Some g => Some (SGraph (sg_num_nodes g) (sg_num_edges g)
      (EV (ev_offsets (sg_evec g)) (ev_edges (sg_evec g)) (latest edge_labels_of gs))
      ((λ e, EV (ev_offsets e) (ev_edges e) (latest in_labels_of gs)) <$> latest sg_in gs)
      (latest sg_labels gs) (sg_nlm g) (sg_elm g))
  end.
(** Every part of [g] is a part of [g']. *)
Definition no_more_parts {NL EL} (g g' : sgraph NL EL) : Prop := ∀ p f, (f, true) ∈ dump_parts g p → (f, true) ∈ dump_parts g' p.
