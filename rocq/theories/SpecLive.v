(** Specification vocabulary for a mapped graph whose files change. *)
From stdpp Require Import gmap strings.
From Verif Require Import Base Api Bytes Spec SpecStatic Static SpecSerde SpecMmap.

(** The names of the files of a prefix (SpecMmap.dump_parts). *)
Definition prefix_files (p : string) : list string :=
  [p +:+ "_OUT.offsets"; p +:+ "_OUT.edges"; p +:+ "_OUT.labels"; p +:+ "_IN.offsets"; p +:+ "_IN.edges"; p +:+ "_IN.labels";
   p +:+ ".labels"; p +:+ "_aux.bin"].
(** The file that an operation changes. *)
Definition op_target (o : fsop) : string := match o with FCreate f => f | FWrite f _ => f end.

(** The first [n] entries of [l]; the entry [z] where [l] is too short. *)
Definition refit {X} (z : X) (n : nat) (l : list X) : list X := take n (l ++ replicate n z).
(** The arrays of the new graph in the sizes of the old one. *)
Definition refit_ev (old new : evec) : evec :=
  EV (refit 0 (length (ev_offsets old)) (ev_offsets new)) (refit 0%N (length (ev_edges old)) (ev_edges new))
    (match non_empty (ev_labels old) with Some ls => Some (refit 0%N (length ls) (ev_labels new)) | None => None end).
Definition refit_sg {NL EL} (old new : sgraph NL EL) : sgraph NL EL :=
  SGraph (sg_num_nodes old) (sg_num_edges old) (refit_ev (sg_evec old) (sg_evec new))
    (match sg_in old, sg_in new with Some e, Some e' => Some (refit_ev e e') | _, _ => None end)
    (match sg_labels old, sg_labels new with Some l, Some l' => Some (refit 0%N (length l) l') | _, _ => None end)
    (sg_nlm old) (sg_elm old).
(** [n] bytes lie on the pages that [k] bytes occupy. *)
Definition on_pages (page n k : nat) : Prop := ∃ pages, n ≤ pages * page ∧ pages * page < k + page.
(** Every array of the old graph lies on the pages of the new one. *)
Definition reach_ev (page : nat) (it lt : idty) (old new : evec) : Prop :=
  on_pages page (length (ev_offsets old) * id_size TUsize) (length (ev_offsets new) * id_size TUsize) ∧
  on_pages page (length (ev_edges old) * id_size it) (length (ev_edges new) * id_size it) ∧
  on_pages page (length (ev_labels old) * id_size lt) (length (ev_labels new) * id_size lt).
Definition in_reach {NL EL} (page : nat) (it lt : idty) (old new : sgraph NL EL) : Prop :=
  reach_ev page it lt (sg_evec old) (sg_evec new) ∧
  match sg_in old, sg_in new with Some e, Some e' => reach_ev page it lt e e' | _, _ => True end ∧
  match sg_labels old, sg_labels new with
  | Some l, Some l' => on_pages page (length l * id_size lt) (length l' * id_size lt)
  | _, _ => True
  end.
(** [W] is a mixture: counts, directedness and label maps of the old graph [V], neighbours and
    label numbers of the new one [V'] where nothing panics. A node that the new graph lacks has no
    neighbours or panics. *)
Definition new_or_panic (new now : res (list N)) : Prop :=
  now = Panic ∨ now = new ∨ (new = Panic ∧ now = Ok []).
Record mixture {NL EL} (V V' W : gview NL EL) : Prop := {
  mx_directed : v_directed W = v_directed V;
  mx_counts : v_node_count W = v_node_count V ∧ v_edge_count W = v_edge_count V;
  mx_has_node : ∀ n, v_has_node W n = v_has_node V n;
  mx_indices : v_node_indices W = v_node_indices V;
  mx_label_maps : v_node_label_map W = v_node_label_map V ∧ v_edge_label_map W = v_edge_label_map V;
  mx_neighbors : ∀ n, new_or_panic (v_neighbors V' n) (v_neighbors W n);
  mx_get_node : ∀ n x y, v_get_node V n = Ok (Some x) → v_get_node V' n = Ok (Some y) → v_get_node W n = Ok (Some y);
  mx_in_neighbors : v_directed V = true → ∀ n, new_or_panic (v_in_neighbors V' n) (v_in_neighbors W n);
}.
(** Both graphs have arrays of the same lengths. *)
Definition same_lengths_ev (e e' : evec) : Prop :=
  length (ev_offsets e) = length (ev_offsets e') ∧ length (ev_edges e) = length (ev_edges e') ∧ length (ev_labels e) = length (ev_labels e').
Definition same_lengths {NL EL} (g g' : sgraph NL EL) : Prop :=
  same_lengths_ev (sg_evec g) (sg_evec g') ∧
  match sg_in g, sg_in g' with Some e, Some e' => same_lengths_ev e e' | None, None => True | _, _ => False end ∧
  match sg_labels g, sg_labels g' with Some l, Some l' => length l = length l' | None, None => True | _, _ => False end.
