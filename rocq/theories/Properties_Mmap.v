(** C35-C39, C62: typed memory maps, dump_mmap and StaticGraphMmap. [F] is the file system
    before the dump. [mappable], [fresh_prefix], [no_stale], [same_parts], [same_answers],
    [crash_state] and [apart] are in SpecMmap.v. The encoding of the label types is [faithful]
    (SpecSerde.v), as shown for integers and strings under C57. *)
From stdpp Require Import gmap strings.
From Verif Require Import Base Api Bytes Spec SpecStatic Map GraphMap Static SpecSGraph Serde SpecSerde SerdeFacts IntoStaticProps StaticWit
  Mmap SpecMmap MmapFacts MmapProps MmapThms MmapMore SerdeWit MmapWit.

(** ** C35. *)
Theorem C35_dump_then_map (t : idty) (l : list N) (f : string) (F : fs) :
  t ≠ TUnit → l ≠ [] → Forall (in_type t) l →
  ∃ m, tm_new t (fs_run F (dump_ops f (typed_bytes t l))) f = Ok m ∧
    tm_full m = Ok l ∧ (∀ i, i ≤ length l → tm_from m i = Ok (drop i l)) ∧ (∀ i, length l < i → tm_from m i = Panic) ∧
    (∀ j, j ≤ length l → tm_to m j = Ok (take j l)).
Proof.
  intros Ht Hn Hl. eexists. rewrite dump_run. split; [apply (tm_new_ok t _ f l Ht Hn), lookup_insert|].
  by apply (typed_slices t l _ Hl).
Qed.
Print Assumptions C35_dump_then_map.
Example C35_case : Forall (in_type TU16) [65535; 0; 258]%N ∧ typed_bytes TU16 [65535; 0; 258]%N = [255; 255; 0; 0; 2; 1]%N.
Proof. split; [apply (bool_decide_unpack _); by vm_compute|by vm_compute]. Qed.
(** An array with no bytes cannot be mapped. *)
Theorem C35_empty (t : idty) (l : list N) (f : string) (F : fs) : t = TUnit ∨ l = [] →
  tm_new t (fs_run F (dump_ops f (typed_bytes t l))) f = Panic.
Proof.
  intros Ht. rewrite dump_run. unfold tm_new. rewrite lookup_insert. cbn [unwrap rbind].
  rewrite decide_True; [done|]. apply nil_length_inv. rewrite typed_bytes_length. destruct Ht as [->| ->]; simpl; lia.
Qed.
Print Assumptions C35_empty.

(** ** C36. [same_answers] leaves out has_edge and get_edge for a start node without a
    neighbour list. *)
Theorem C36_roundtrip_partial {NL EL} `{EqDecision NL, EqDecision EL} (it lt : idty) (cn : codec NL) (ce : codec EL) PN PE
  (dir : bool) (g : sgraph NL EL) p F :
  faithful cn PN → faithful ce PE → mappable it lt PN PE dir g → fresh_prefix F p →
  ∃ m, mm_open it lt cn ce (sg_dump_mmap it lt cn ce g p F) p = Ok m ∧ same_answers (sg_view it lt dir g) (mm_view it lt m).
Proof. intros Hcn Hce Hg Hf. exact (roundtrip it lt cn ce PN PE Hcn Hce dir g p F Hg (fresh_no_stale F p g Hf)). Qed.
Print Assumptions C36_roundtrip_partial.
Example C36_case : mappable TU8 TU8 is_string is_string true wit_sg ∧
  mappable TU8 TU8 is_string is_string false wit_lab ∧ fresh_prefix ∅ "g" ∧
  faithful c_string is_string.
Proof. exact (conj wit_sg_mappable (conj wit_lab_mappable (conj (empty_fresh "g") wit_fits_string))). Qed.
(** From a GraphMap with an edge, through into_static and the files, to the same graph. *)
Theorem C36_pipeline_partial {NL EL} `{EqDecision NL, EqDecision EL} (it lt : idty) (cn : codec NL) (ce : codec EL) PN PE
  (dir : bool) (g : graphmap NL EL) ord A s t p F :
  faithful cn PN → faithful ce PE → represents (gm_view dir ord g) A → a_has_edge A s t →
  (∀ n, a_has_node A n → (n < id_max it)%N) → (∀ n m, a_has_node A n → (m < n)%N → a_has_node A m) →
  (N.of_nat (length (g_nlm g)) ≤ id_max lt)%N → (N.of_nat (length (g_elm g)) ≤ id_max lt)%N →
  fresh_prefix F p →
  ∃ sg, gm_into_static it lt dir g = Ok sg ∧ (typed_sgraph it lt PN PE sg →
    ∃ m, mm_open it lt cn ce (sg_dump_mmap it lt cn ce sg p F) p = Ok m ∧ represents (mm_view it lt m) A ∧
      v_edge_count (mm_view it lt m) = v_edge_count (gm_view dir ord g)).
Proof.
  intros Hcn Hce HA He Hids Hdense Hnl Hel Hf. exact (pipeline it lt cn ce PN PE Hcn Hce dir g ord A s t p F HA He Hids Hdense Hnl Hel Hf).
Qed.
Print Assumptions C36_pipeline_partial.
Example C36_pipeline_case dir : ∃ (g : graphmap N N) ord A sg, gm_reachable dir TU8 g ∧ represents (gm_view dir ord g) A ∧ a_has_edge A 0 1 ∧
  (∀ n, a_has_node A n → (n < id_max TU8)%N) ∧ (∀ n m, a_has_node A n → (m < n)%N → a_has_node A m) ∧
  (N.of_nat (length (g_nlm g)) ≤ id_max TU8)%N ∧ (N.of_nat (length (g_elm g)) ≤ id_max TU8)%N ∧
  gm_into_static TU8 TU8 dir g = Ok sg ∧ typed_sgraph TU8 TU8 (in_type TU8) (in_type TU8) sg.
Proof. exact (wit_pipeline dir). Qed.
(** For a start node without a neighbour list the static graph answers false and the mapped
    graph panics. *)
Theorem C36_missing_start_refuted {NL EL} `{EqDecision NL, EqDecision EL} (it lt : idty) (cn : codec NL) (ce : codec EL) PN PE
  (dir : bool) (g : sgraph NL EL) p F s t :
  faithful cn PN → faithful ce PE → mappable it lt PN PE dir g → fresh_prefix F p → v_neighbors (sg_view it lt dir g) s = Panic →
  v_has_edge (sg_view it lt dir g) s t = Ok false ∧
  ∃ m, mm_open it lt cn ce (sg_dump_mmap it lt cn ce g p F) p = Ok m ∧ v_has_edge (mm_view it lt m) s t = Panic.
Proof. intros Hcn Hce Hg Hf. exact (open_missing_start it lt cn ce PN PE Hcn Hce dir g p F s t Hg (fresh_no_stale F p g Hf)). Qed.
Print Assumptions C36_missing_start_refuted.
Example C36_missing_start_case : v_neighbors (sg_view TU8 TU8 true wit_sg) 3 = Panic.
Proof. by vm_compute. Qed.
(** A graph without edges is dumped, but opening it panics. *)
Theorem C36_no_edges {NL EL} `{EqDecision NL, EqDecision EL} (it lt : idty) (cn : codec NL) (ce : codec EL) (g : sgraph NL EL) p F :
  ev_edges (sg_evec g) = [] → mm_open it lt cn ce (sg_dump_mmap it lt cn ce g p F) p = Panic.
Proof. exact (open_no_edges it lt cn ce g p F). Qed.
Print Assumptions C36_no_edges.

(** ** C37. Holds when both graphs have the same parts (in-edges, node labels, edge labels);
    more generally when no file of a part that the new graph lacks is left. *)
Theorem C37_overwrite_partial {NL EL} `{EqDecision NL, EqDecision EL} (it lt : idty) (cn : codec NL) (ce : codec EL) PN PE
  (dir : bool) (g g' : sgraph NL EL) p F :
  faithful cn PN → faithful ce PE → mappable it lt PN PE dir g' → fresh_prefix F p → same_parts g g' →
  ∃ m, mm_open it lt cn ce (sg_dump_mmap it lt cn ce g' p (sg_dump_mmap it lt cn ce g p F)) p = Ok m ∧
    same_answers (sg_view it lt dir g') (mm_view it lt m).
Proof. intros Hcn Hce. exact (overwrite it lt cn ce PN PE Hcn Hce dir g g' p F). Qed.
Print Assumptions C37_overwrite_partial.
Theorem C37_no_stale_partial {NL EL} `{EqDecision NL, EqDecision EL} (it lt : idty) (cn : codec NL) (ce : codec EL) PN PE
  (dir : bool) (g : sgraph NL EL) p F :
  faithful cn PN → faithful ce PE → mappable it lt PN PE dir g → no_stale F p g →
  ∃ m, mm_open it lt cn ce (sg_dump_mmap it lt cn ce g p F) p = Ok m ∧ same_answers (sg_view it lt dir g) (mm_view it lt m).
Proof. intros Hcn Hce. exact (roundtrip it lt cn ce PN PE Hcn Hce dir g p F). Qed.
Print Assumptions C37_no_stale_partial.
Example C37_case : same_parts wit_sg wit_sg ∧ no_stale ∅ "g" wit_und.
Proof. split; [done|]. intros f _. apply lookup_empty. Qed.
(** An undirected graph dumped over a directed one is read back as directed. *)
Theorem C37_stale_in_edges_refuted :
  mappable TU8 TU8 is_string is_string false wit_und ∧
  ∃ m, mm_open TU8 TU8 c_string c_string
    (sg_dump_mmap TU8 TU8 c_string c_string wit_und "g" (sg_dump_mmap TU8 TU8 c_string c_string wit_sg "g" ∅)) "g" = Ok m ∧
  v_directed (mm_view TU8 TU8 m) = true ∧ v_directed (sg_view TU8 TU8 false wit_und) = false.
Proof. exact (conj wit_und_mappable wit_stale_in). Qed.
Print Assumptions C37_stale_in_edges_refuted.
(** A graph without labels dumped over a labelled one shows the old labels. *)
Theorem C37_stale_labels_refuted :
  mappable TU8 TU8 is_string is_string false wit_und ∧
  ∃ m, mm_open TU8 TU8 c_string c_string
    (sg_dump_mmap TU8 TU8 c_string c_string wit_und "g" (sg_dump_mmap TU8 TU8 c_string c_string wit_lab "g" ∅)) "g" = Ok m ∧
  v_get_edge (mm_view TU8 TU8 m) 0 1 = Ok (Some (0, 1, Some 0))%N ∧ v_get_edge (sg_view TU8 TU8 false wit_und) 0 1 = Ok (Some (0, 1, None))%N ∧
  v_get_node (mm_view TU8 TU8 m) 0 = Ok (Some (0, Some 0))%N ∧ v_get_node (sg_view TU8 TU8 false wit_und) 0 = Ok (Some (0, None))%N.
Proof. exact (conj wit_und_mappable wit_stale_labels). Qed.
Print Assumptions C37_stale_labels_refuted.

(** ** C38. Holds for every crash point after the auxiliary file was created, and for those
    before the first edge was written. *)
Theorem C38_crash_partial {NL EL} `{EqDecision NL, EqDecision EL} (it lt : idty) (cn : codec NL) (ce : codec EL) PN PE
  (dir : bool) (g : sgraph NL EL) p F F' m :
  faithful cn PN → faithful ce PE → mappable it lt PN PE dir g → fresh_prefix F p →
  crash_state F (sg_dump_ops it lt cn ce g p) F' → is_Some (F' !! (p +:+ "_aux.bin")) →
  mm_open it lt cn ce F' p = Ok m → same_answers (sg_view it lt dir g) (mm_view it lt m).
Proof. intros Hcn Hce. exact (crash_detected it lt cn ce PN PE Hcn Hce dir g p F F' m). Qed.
Print Assumptions C38_crash_partial.
Example C38_case : ∃ F' b, crash_state ∅ (sg_dump_ops TU8 TU8 c_string c_string wit_sg "g") F' ∧ F' !! "g_aux.bin"%string = Some b ∧ length b = 16.
Proof. exact wit_crash_aux. Qed.
Theorem C38_early_crash_partial {NL EL} `{EqDecision NL, EqDecision EL} (it lt : idty) (cn : codec NL) (ce : codec EL) p (F' : fs) :
  F' !! (p +:+ "_OUT.edges") = None ∨ F' !! (p +:+ "_OUT.edges") = Some [] → ∀ m, mm_open it lt cn ce F' p ≠ Ok m.
Proof. exact (crash_early it lt cn ce F' p). Qed.
Print Assumptions C38_early_crash_partial.
(** A crash after the edges, before the in-edges: a directed graph with two edges is read
    back as an undirected graph with one. *)
Theorem C38_crash_refuted : mappable TU8 TU8 is_string is_string true wit_sg ∧
  ∃ F' m, crash_state ∅ (sg_dump_ops TU8 TU8 c_string c_string wit_sg "g") F' ∧ mm_open TU8 TU8 c_string c_string F' "g" = Ok m ∧
  v_directed (mm_view TU8 TU8 m) = false ∧ v_edge_count (mm_view TU8 TU8 m) = 1 ∧
  v_directed (sg_view TU8 TU8 true wit_sg) = true ∧ v_edge_count (sg_view TU8 TU8 true wit_sg) = 2.
Proof. exact (conj wit_sg_mappable wit_crash_in). Qed.
Print Assumptions C38_crash_refuted.

(** ** C39. *)
Theorem C39_graphmap {NL EL} `{EqDecision NL, EqDecision EL} (dir : bool) (lt : idty) (g : graphmap NL EL) ord s t :
  gm_reachable dir lt g → ∃ b, v_has_edge (gm_view dir ord g) s t = Ok b ∧
    (v_has_node (gm_view dir ord g) s = false ∨ v_has_node (gm_view dir ord g) t = false → b = false).
Proof. exact (gm_has_edge_missing dir lt g ord s t). Qed.
Print Assumptions C39_graphmap.
Theorem C39_static {NL EL} (it lt : idty) (dir : bool) (g : sgraph NL EL) s t :
  csr_wf (ev_offsets (sg_evec g)) (ev_edges (sg_evec g)) →
  ∃ b, v_has_edge (sg_view it lt dir g) s t = Ok b ∧
    (v_neighbors (sg_view it lt dir g) s = Panic ∨ v_neighbors (sg_view it lt dir g) t = Panic → b = false).
Proof. exact (sg_has_edge_missing it lt dir g s t). Qed.
Print Assumptions C39_static.
Example C39_case : csr_wf (ev_offsets (sg_evec wit_sg)) (ev_edges (sg_evec wit_sg)) ∧ v_neighbors (sg_view TU8 TU8 true wit_sg) 3 = Panic ∧
  v_has_edge (sg_view TU8 TU8 true wit_sg) 1 2 = Ok true.
Proof. split; [exact (mp_csr _ _ _ _ _ _ wit_sg_mappable)|by vm_compute]. Qed.
(** The mapped graph answers when the start is a node and panics for every start that is not. *)
Theorem C39_mmap_partial {NL EL} (it lt : idty) (m : sgraph NL EL) s t nb :
  csr_wf (ev_offsets (sg_evec m)) (ev_edges (sg_evec m)) → v_neighbors (mm_view it lt m) s = Ok nb →
  ∃ b, v_has_edge (mm_view it lt m) s t = Ok b ∧ (b = true ↔ t ∈ nb).
Proof. exact (mm_has_edge_present it lt m s t nb). Qed.
Print Assumptions C39_mmap_partial.
Theorem C39_mmap_refuted {NL EL} (it lt : idty) (m : sgraph NL EL) s t :
  csr_wf (ev_offsets (sg_evec m)) (ev_edges (sg_evec m)) → v_neighbors (mm_view it lt m) s = Panic →
  v_has_edge (mm_view it lt m) s t = Panic ∧ v_get_edge (mm_view it lt m) s t = Panic.
Proof. exact (mm_has_edge_absent it lt m s t). Qed.
Print Assumptions C39_mmap_refuted.
Example C39_mmap_case : ∃ m, mm_open TU8 TU8 c_string c_string (sg_dump_mmap TU8 TU8 c_string c_string wit_sg "g" ∅) "g" = Ok m ∧
  v_neighbors (mm_view TU8 TU8 m) 3 = Panic ∧ v_neighbors (mm_view TU8 TU8 m) 1 = Ok [2]%N.
Proof. apply (open_ex _ _). by vm_compute. Qed.

(** ** C62. Prefixes that are [apart] do not interfere. *)
Theorem C62_prefixes_partial {NL EL NL' EL'} `{EqDecision NL, EqDecision EL, EqDecision NL', EqDecision EL'} (it lt it' lt' : idty)
  (cn : codec NL) (ce : codec EL) (cn' : codec NL') (ce' : codec EL') (g : sgraph NL' EL') p p' F :
  apart p p' → mm_open it lt cn ce (sg_dump_mmap it' lt' cn' ce' g p' F) p = mm_open it lt cn ce F p.
Proof. exact (apart_open it lt cn ce it' lt' cn' ce' g p p' F). Qed.
Print Assumptions C62_prefixes_partial.
Example C62_case : apart "g" "h" ∧ apart "g" "g_" ∧ apart "g" "g_OUT_OUT".
Proof. done. Qed.
(** A dump to "g_OUT" gives the edges of the graph at "g" labels. *)
Theorem C62_prefixes_refuted : ∃ m m', mm_open TU8 TU8 c_string c_string (sg_dump_mmap TU8 TU8 c_string c_string wit_und "g" ∅) "g" = Ok m ∧
  mm_open TU8 TU8 c_string c_string
    (sg_dump_mmap TU8 TU8 c_string c_string wit_lab "g_OUT" (sg_dump_mmap TU8 TU8 c_string c_string wit_und "g" ∅)) "g" = Ok m' ∧
  v_get_edge (mm_view TU8 TU8 m) 0 1 = Ok (Some (0, 1, None))%N ∧ v_get_edge (mm_view TU8 TU8 m') 0 1 = Ok (Some (0, 1, Some 0))%N.
Proof. exact wit_prefix. Qed.
Print Assumptions C62_prefixes_refuted.
