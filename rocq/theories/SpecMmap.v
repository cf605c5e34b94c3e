(** Specification vocabulary for dump_mmap and StaticGraphMmap. *)
From stdpp Require Import gmap strings.
From Verif Require Import Base Api Bytes Spec SpecStatic Static SpecSerde.

(** A static graph that can be mapped: well-formed arrays, values of the Rust types, at least
    one edge, in-edges exactly when directed, no array of (). *)
Record mappable {NL EL} (it lt : idty) (PN : NL → Prop) (PE : EL → Prop) (dir : bool) (g : sgraph NL EL) : Prop := {
  mp_typed : typed_sgraph it lt PN PE g;
  mp_csr : csr_wf (ev_offsets (sg_evec g)) (ev_edges (sg_evec g));
  mp_edges : ev_edges (sg_evec g) ≠ [];
  mp_in : match sg_in g with
          | Some e => dir = true ∧ csr_wf (ev_offsets e) (ev_edges e) ∧ ev_edges e ≠ []
          | None => dir = false
          end;
  mp_labels : sg_labels g ≠ Some [];
  mp_id : it ≠ TUnit;
  mp_label_id : lt = TUnit → sg_labels g = None ∧ ev_label_vec (sg_evec g) = None ∧ opt_all (λ e, ev_label_vec e = None) (sg_in g);
}.

(** The files of a dump: name and whether the graph has that part. *)
Definition has_edge_labels (e : evec) : bool := match ev_label_vec e with Some (_ :: _) => true | _ => false end.
Definition dump_parts {NL EL} (g : sgraph NL EL) (p : string) : list (string * bool) :=
  [(p +:+ "_OUT.offsets", true); (p +:+ "_OUT.edges", true); (p +:+ "_OUT.labels", has_edge_labels (sg_evec g));
   (p +:+ "_IN.offsets", bool_decide (is_Some (sg_in g))); (p +:+ "_IN.edges", bool_decide (is_Some (sg_in g)));
   (p +:+ "_IN.labels", match sg_in g with Some e => has_edge_labels e | None => false end);
   (p +:+ ".labels", bool_decide (is_Some (sg_labels g))); (p +:+ "_aux.bin", true)].
(** No file of an earlier dump exists at the prefix. *)
Definition fresh_prefix (F : fs) (p : string) : Prop :=
  Forall (λ x, F !! (p +:+ x) = None)
    ["_OUT.offsets"; "_OUT.edges"; "_OUT.labels"; "_IN.offsets"; "_IN.edges"; "_IN.labels"; ".labels"; "_aux.bin"]%string.
(** Every existing file of the prefix belongs to a part that [g] has. *)
Definition no_stale {NL EL} (F : fs) (p : string) (g : sgraph NL EL) : Prop :=
  ∀ f, (f, false) ∈ dump_parts g p → F !! f = None.
(** Two graphs have the same parts. *)
Definition same_parts {NL EL} (g g' : sgraph NL EL) : Prop :=
  bool_decide (is_Some (sg_in g)) = bool_decide (is_Some (sg_in g')) ∧
  bool_decide (is_Some (sg_labels g)) = bool_decide (is_Some (sg_labels g')) ∧
  has_edge_labels (sg_evec g) = has_edge_labels (sg_evec g') ∧
  match sg_in g, sg_in g' with Some e, Some e' => has_edge_labels e = has_edge_labels e' | _, _ => True end.

(** Neither prefix is the other one, nor the other one's name for its edge files. *)
Definition apart (p p' : string) : Prop :=
  p ≠ p' ∧ p ≠ p' +:+ "_OUT" ∧ p ≠ p' +:+ "_IN" ∧ p' ≠ p +:+ "_OUT" ∧ p' ≠ p +:+ "_IN".

(** [W] answers like [V]; a query about an edge is compared when its start has a neighbour
    list in [V], in-neighbours when [V] is directed. *)
Record same_answers {NL EL} (V W : gview NL EL) : Prop := {
  sa_directed : v_directed W = v_directed V ∧ v_is_di W = v_is_di V;
  sa_counts : v_node_count W = v_node_count V ∧ v_edge_count W = v_edge_count V;
  sa_has_node : ∀ n, v_has_node W n = v_has_node V n;
  sa_get_node : ∀ n, v_get_node W n = v_get_node V n ∧ v_node_label W n = v_node_label V n;
  sa_has_edge : ∀ s t nb, v_neighbors V s = Ok nb → v_has_edge W s t = v_has_edge V s t;
  sa_get_edge : ∀ s t nb, v_neighbors V s = Ok nb → v_get_edge W s t = v_get_edge V s t ∧ v_edge_label W s t = v_edge_label V s t;
  sa_indices : v_node_indices W = v_node_indices V ∧ v_edge_indices W = v_edge_indices V;
  sa_items : v_nodes W = v_nodes V ∧ v_edges W = v_edges V;
  sa_neighbors : ∀ n, v_neighbors W n = v_neighbors V n ∧ v_degree W n = v_degree V n;
  sa_in_neighbors : v_directed V = true → ∀ n, v_in_neighbors W n = v_in_neighbors V n ∧ v_in_degree W n = v_in_degree V n;
  sa_max_seen : v_max_seen_id W = v_max_seen_id V;
  sa_label_maps : v_node_label_map W = v_node_label_map V ∧ v_edge_label_map W = v_edge_label_map V;
}.

(** The file systems a crash can leave: some operations are done, the next one may be a write
    that stopped half-way. *)
Definition crash_state (F : fs) (ops : list fsop) (F' : fs) : Prop :=
  ∃ done rest, ops = done ++ rest ∧
    (F' = fs_run F done ∨
     ∃ f b b' rest', rest = FWrite f b :: rest' ∧ b' `prefix_of` b ∧ F' = fs_run F (done ++ [FWrite f b'])).

(** [W] shows part of [V]: the same nodes, no other edge, in-edge or label; where something is
    cut off it panics or shows no label. No label has a name. *)
Record part_of {NL EL} (V W : gview NL EL) : Prop := {
  po_nodes : ∀ n, v_has_node W n = true ↔ v_neighbors V n ≠ Panic;
  po_neighbors : ∀ n, v_neighbors W n = v_neighbors V n ∨ v_neighbors W n = Panic;
  po_has_edge : ∀ s t nb, v_neighbors V s = Ok nb → v_has_edge W s t = v_has_edge V s t ∨ v_has_edge W s t = Panic;
  po_get_edge : ∀ s t, v_get_edge W s t = v_get_edge V s t ∨ v_get_edge W s t = Panic ∨
    ∃ l, v_get_edge V s t = Ok (Some (s, t, l)) ∧ v_get_edge W s t = Ok (Some (s, t, None));
  po_get_node : ∀ n, v_has_node V n = true → v_has_node W n = true →
    v_get_node W n = v_get_node V n ∨ v_get_node W n = Panic ∨ v_get_node W n = Ok (Some (n, None));
  po_directed : v_directed W = true → v_directed V = true;
  po_in_neighbors : v_directed W = true → ∀ n, v_in_neighbors W n = v_in_neighbors V n ∨ v_in_neighbors W n = Panic;
  po_label_maps : v_node_label_map W = [] ∧ v_edge_label_map W = [];
}.

(** The new graph with every part that it lacks taken from the old one. *)
Definition non_empty (l : list N) : option (list N) := match l with [] => None | _ => Some l end.
Definition or_old {A} (new old : option A) : option A := match new with Some x => Some x | None => old end.
Definition overlay_ev (new : evec) (old : option evec) : evec :=
  EV (ev_offsets new) (ev_edges new) (or_old (non_empty (ev_labels new)) (old ≫= λ e, non_empty (ev_labels e))).
Definition overlay {NL EL} (new old : sgraph NL EL) : sgraph NL EL :=
  SGraph (sg_num_nodes new) (sg_num_edges new) (overlay_ev (sg_evec new) (Some (sg_evec old)))
    (match sg_in new with
     | Some e => Some (overlay_ev e (sg_in old))
     | None => (λ e, overlay_ev e None) <$> sg_in old
     end)
    (or_old (sg_labels new) (sg_labels old)) (sg_nlm new) (sg_elm new).
(** [W] shows the graph of [V], with directedness, in-neighbours and node labels of the older
    graph [O] where [V] has none. *)
Record shows_over {NL EL} (new old : sgraph NL EL) (V O W : gview NL EL) : Prop := {
  ov_counts : v_node_count W = v_node_count V ∧ v_edge_count W = v_edge_count V;
  ov_has_node : ∀ n, v_has_node W n = v_has_node V n;
  ov_neighbors : ∀ n, v_neighbors W n = v_neighbors V n;
  ov_has_edge : ∀ s t nb, v_neighbors V s = Ok nb → v_has_edge W s t = v_has_edge V s t;
  ov_label_maps : v_node_label_map W = v_node_label_map V ∧ v_edge_label_map W = v_edge_label_map V;
  ov_directed : v_directed W = v_directed V || v_directed O;
  ov_in_neighbors : ∀ n, v_in_neighbors W n =
    if v_directed V then v_in_neighbors V n else if v_directed O then v_in_neighbors O n else Ok [];
  ov_get_node : ∀ n, v_has_node V n = true → v_has_node O n = true →
    v_get_node W n = match sg_labels new with Some _ => v_get_node V n | None => v_get_node O n end;
  ov_get_edge : ∀ s t nb, v_neighbors V s = Ok nb → has_edge_labels (sg_evec new) = true ∨ has_edge_labels (sg_evec old) = false →
    v_get_edge W s t = v_get_edge V s t;
}.
