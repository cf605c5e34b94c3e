(** Model of src/algorithm/conn_subgraphs.rs for calls made one by one: a ConnSubgraph made by
    empty() from one graph and run over any graphs afterwards. Every subgraph carries its own
    directedness, that of the graph it was first made for. *)
From Verif Require Import Base Api Map GraphMap ConnComp GraphOps.

Section run.
  Context {NL EL : Type} `{EqDecision NL, EqDecision EL} (lt : idty).
  Notation graph := (graphmap NL EL).
  Implicit Types (V : gview NL EL) (g : graph).

  (** ConnSubgraph, conn_subgraphs.rs l.54-66; a subgraph is a boxed directed or undirected
      GraphMap. *)
  Record csrun := CSRun { cr_subs : list (bool * graph); cr_roots : list N; cr_cc : ccomp }.
  (** ConnSubgraph::empty, l.83-89. *)
  Definition cr_empty V : res csrun := let* c := cc_new V in Ok (CSRun [] [] c).
  (** root_to_subgraph, l.99-106. *)
  Definition cr_root_to_subgraph (cs : csrun) (root : N) : option nat := root_to_subgraph (cr_roots cs) root.
  (** into_result, l.109-111. *)
  Definition cr_into_result (cs : csrun) : list (bool * graph) := cr_subs cs.
  (** The shared part of process_nodes l.119-137 and process_edges l.149-167: [add] is called on
      the subgraph of [root]; if there is none an empty one is pushed, directed if the graph
      that is processed is ([dir]; new_general_graphmap, graph_map/graph.rs l.62-70). *)
  Definition cr_place (dir : bool) (add : bool → graph → res graph) (root : N) (cs : csrun) : res csrun :=
    match cr_root_to_subgraph cs root with
    | Some i =>
        let* '(d, g) := unwrap (cr_subs cs !! i) in
        let* g := add d g in
        Ok (CSRun (<[i := (d, g)]> (cr_subs cs)) (cr_roots cs) (cr_cc cs))
    | None =>
        let* g := add dir gm_new in
        Ok (CSRun (cr_subs cs ++ [(dir, g)]) (cr_roots cs ++ [root]) (cr_cc cs))
    end.
  (** process_nodes, l.114-139. *)
  Definition cr_process_nodes V (cs : csrun) : res csrun :=
    rfold (λ cs id,
      let* '(o, c) := cc_get_root id (cr_cc cs) in
      let* root := unwrap o in
      let* label := v_node_label V id in
      cr_place (v_directed V) (λ _ g, rmap snd (gm_add_node lt id label g)) root (CSRun (cr_subs cs) (cr_roots cs) c))
      (v_node_indices V) cs.
  (** process_edges, l.142-169. *)
  Definition cr_process_edges V (cs : csrun) : res csrun :=
    let* es := v_edges V in
    rfold (λ cs e,
      let start := e.1.1 in let target := e.1.2 in
      let* '(o, c) := cc_get_root start (cr_cc cs) in
      let* root := unwrap o in
      let* label := v_edge_label V start target in
      cr_place (v_directed V) (λ d g, rmap snd (gm_add_edge d lt start target label g)) root (CSRun (cr_subs cs) (cr_roots cs) c)) es cs.
  (** run_subgraph_enumeration, l.93-96. *)
  Definition cr_run V (cs : csrun) : res csrun :=
    let* cs := cr_process_nodes V cs in cr_process_edges V cs.
  (** empty(), then one run after the other. *)
  Definition cr_runs V0 (Vs : list (gview NL EL)) : res csrun :=
    let* cs := cr_empty V0 in rfold (λ cs V, cr_run V cs) Vs cs.
End run.
Arguments csrun : clear implicits.
