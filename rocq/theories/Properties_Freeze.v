(** C90: when the frozen and the mapped graph equal the graph they were made from. [no_gaps],
    [last_node_label_used] and [last_edge_label_used] are in SpecFreeze.v, [frozen] is in
    SpecStaticAll.v, [same_answers] in SpecMmap.v. *)
From stdpp Require Import gmap strings.
From Verif Require Import Base Api Bytes Spec Map GraphMap Static IntoStatic ViewOps SpecSGraph SpecStaticAll SpecFreeze FreezeProps
  Serde SpecSerde SerdeFacts Mmap SpecMmap SerdeWit MmapWit FreezeWit StaticAllWit.

(** Both directions of the comparison give the same answer, which is true exactly when the
    ids have no gaps and no node or edge shows the label with the largest label id. Equal
    graphs have equal hashes. *)
Theorem C90_frozen_equal {NL EL} `{EqDecision NL, EqDecision EL} (idt lt : idty) (dir : bool) (g : graphmap NL EL) ord n :
  gm_reachable dir lt g → hash_order g ord →
  let V := gm_view dir ord g in
  v_has_node V n = true → (∀ n, v_has_node V n = true → (n < id_max idt)%N) →
  ∃ sg b, gm_into_static idt lt dir g = Ok sg ∧
    v_equal V (sg_view idt lt dir sg) = Ok b ∧ v_equal (sg_view idt lt dir sg) V = Ok b ∧
    (b = true ↔ no_gaps V ∧ ¬ last_node_label_used lt V ∧ ¬ last_edge_label_used lt V) ∧
    (b = true → ∃ h, box_hash V = Ok h ∧ box_hash (sg_view idt lt dir sg) = Ok h).
Proof. exact (freeze_equal idt lt dir g ord n). Qed.
Print Assumptions C90_frozen_equal.
Example C90_case dir : gm_reachable dir TU8 (fz_g TU8 dir) ∧ hash_order (fz_g TU8 dir) (fz_o TU8 dir) ∧
  let V := gm_view dir (fz_o TU8 dir) (fz_g TU8 dir) in
  v_has_edge V 0%N 2%N = Ok true ∧ v_has_node V 0%N = true ∧ (∀ n, v_has_node V n = true → (n < id_max TU8)%N) ∧ no_gaps V ∧
  (N.of_nat (length (v_node_label_map V)) ≤ id_max TU8)%N ∧ (N.of_nat (length (v_edge_label_map V)) ≤ id_max TU8)%N ∧
  ∃ sg, gm_into_static TU8 TU8 dir (fz_g TU8 dir) = Ok sg ∧ typed_sgraph TU8 TU8 (in_type TU8) (in_type TU8) sg ∧
    v_equal V (sg_view TU8 TU8 dir sg) = Ok true.
Proof. exact (fz_case dir). Qed.
(** A graph without gaps whose frozen form differs because its label has the largest id. *)
Example C90_last_label_case dir : gm_reachable dir TUnit (fz_g TUnit dir) ∧ hash_order (fz_g TUnit dir) (fz_o TUnit dir) ∧
  let V := gm_view dir (fz_o TUnit dir) (fz_g TUnit dir) in last_node_label_used TUnit V ∧
  ∃ sg, gm_into_static TU8 TUnit dir (fz_g TUnit dir) = Ok sg ∧ v_equal V (sg_view TU8 TUnit dir sg) = Ok false.
Proof. exact (fz_unit dir). Qed.

(** As long as the labels do not use up the label ids, only gaps matter. *)
Theorem C90_few_labels {NL EL} `{EqDecision NL, EqDecision EL} (idt lt : idty) (dir : bool) (g : graphmap NL EL) ord n :
  gm_reachable dir lt g → hash_order g ord →
  let V := gm_view dir ord g in
  v_has_node V n = true → (∀ n, v_has_node V n = true → (n < id_max idt)%N) →
  (N.of_nat (length (v_node_label_map V)) ≤ id_max lt)%N → (N.of_nat (length (v_edge_label_map V)) ≤ id_max lt)%N →
  ∃ sg b, gm_into_static idt lt dir g = Ok sg ∧ v_equal V (sg_view idt lt dir sg) = Ok b ∧ (b = true ↔ no_gaps V).
Proof. exact (freeze_equal_few idt lt dir g ord n). Qed.
Print Assumptions C90_few_labels.

(** The same through dump_mmap and StaticGraphMmap, for every graph with an edge. The mapped
    graph answers as the frozen one, except that edge queries from ids above all nodes panic. *)
Theorem C90_mapped_equal {NL EL} `{EqDecision NL, EqDecision EL} (it lt : idty) (dir : bool) (g : graphmap NL EL) ord
  (cn : codec NL) (ce : codec EL) PN PE s t p F :
  gm_reachable dir lt g → hash_order g ord → faithful cn PN → faithful ce PE →
  let V := gm_view dir ord g in
  v_has_edge V s t = Ok true → (∀ n, v_has_node V n = true → (n < id_max it)%N) →
  (lt = TUnit → v_node_label_map V = [] ∧ v_edge_label_map V = []) → fresh_prefix F p →
  ∃ sg, gm_into_static it lt dir g = Ok sg ∧ (typed_sgraph it lt PN PE sg →
    ∃ m b, mm_open it lt cn ce (sg_dump_mmap it lt cn ce sg p F) p = Ok m ∧
      frozen lt V (sg_view it lt dir sg) ∧ same_answers (sg_view it lt dir sg) (mm_view it lt m) ∧
      (∀ x y, (∀ n, v_has_node V n = true → (n < x)%N) →
        v_has_edge (mm_view it lt m) x y = Panic ∧ v_get_edge (mm_view it lt m) x y = Panic) ∧
      v_equal V (mm_view it lt m) = Ok b ∧ v_equal (mm_view it lt m) V = Ok b ∧
      (b = true ↔ no_gaps V ∧ ¬ last_node_label_used lt V ∧ ¬ last_edge_label_used lt V) ∧
      (b = true → ∃ h, box_hash V = Ok h ∧ box_hash (mm_view it lt m) = Ok h)).
Proof.
  intros Hr Ho Hcn Hce V He Hids Hlt Hf. exact (mapped_frozen it lt dir g ord Hr Ho cn ce PN PE Hcn Hce s t p F He Hids Hlt Hf).
Qed.
Print Assumptions C90_mapped_equal.
(** With [C90_case]: a label encoding and a free file prefix. *)
Example C90_mapped_case : fresh_prefix ∅ "g" ∧ faithful (c_id TU8) (in_type TU8).
Proof. split; [exact (empty_fresh "g")|]. exact (f_id TU8). Qed.
