(** C57, C36 and C67 from histories of API calls. *)
From stdpp Require Import gmap strings.
From Verif Require Import Base Api Bytes Spec SpecStatic GraphMap Static Serde SpecSerde SerdeFacts Mmap SpecMmap SpecReorder Reorder ReorderThms ReorderWit
  Pipeline PipelineWit.

(** ** C57. Whatever calls built the graph: if its ids and labels are values of their types and its
    sizes fit usize, exporting and importing it restores it. *)
Theorem C57_history {NL EL} `{EqDecision NL, EqDecision EL} (it lt : idty) (cn : codec NL) (ce : codec EL) PN PE
  (dir : bool) nls els h rs s :
  faithful cn PN → faithful ce PE → NoDup nls → NoDup els → spec_run h (s_init dir nls els) = SOk (rs, s) →
  labels_fit lt (sp_nls s) → labels_fit lt (sp_els s) → Forall (in_type it) (h ≫= inserted) →
  vec_of PN (sp_nls s) → vec_of PE (sp_els s) → in_usize (a_num_nodes (sp_g s)) → in_usize (sp_count s) →
  ∃ g : graphmap NL EL, gm_run dir lt h (gm_with_label_map nls els) = Ok (rs, g) ∧
    ∀ path F ord ord', hash_order g ord →
      import (c_graphmap it lt cn ce ord') path (export path (enc (c_graphmap it lt cn ce ord) g) F) = Some g.
Proof. intros Hcn Hce. exact (history_export dir it lt cn ce PN PE Hcn Hce nls els h rs s). Qed.
Print Assumptions C57_history.
Example C57_history_case dir : ∃ rs s, spec_run ro_history (s_init dir [] []) = SOk (rs, s) ∧
  labels_fit TU8 (sp_nls s) ∧ labels_fit TU8 (sp_els s) ∧ Forall (in_type TU8) (ro_history ≫= inserted) ∧
  vec_of (in_type TU8) (sp_nls s) ∧ vec_of (in_type TU8) (sp_els s) ∧ in_usize (a_num_nodes (sp_g s)) ∧ in_usize (sp_count s) ∧
  faithful (c_id TU8) (in_type TU8) ∧ a_num_nodes (sp_g s) = 5.
Proof.
  destruct (ro_pi dir) as (rs & s & Hs & H & _ & H5). exists rs, s. destruct H. split; [done|].
  split; [unfold labels_fit, id_max in *; lia|]. split; [unfold labels_fit, id_max in *; lia|].
  split; [repeat constructor; by vm_compute|]. split; [done|]. split; [done|].
  split; [rewrite H5; by vm_compute|]. split; [done|]. split; [exact (f_id TU8)|done].
Qed.

(** ** C36. A graph built by API calls, with ids 0, ..., n-1 and at least one edge, is the same
    graph after into_static, dump_mmap and opening the files. *)
Theorem C36_history_partial {NL EL} `{EqDecision NL, EqDecision EL} (it lt : idty) (cn : codec NL) (ce : codec EL) PN PE
  (dir : bool) nls els h rs s a b :
  faithful cn PN → faithful ce PE → NoDup nls → NoDup els → spec_run h (s_init dir nls els) = SOk (rs, s) →
  a_has_edge (sp_g s) a b → (∀ n m, a_has_node (sp_g s) n → (m < n)%N → a_has_node (sp_g s) m) →
  (N.of_nat (a_num_nodes (sp_g s)) ≤ id_max it)%N →
  (N.of_nat (length (sp_nls s)) ≤ id_max lt)%N → (N.of_nat (length (sp_els s)) ≤ id_max lt)%N →
  vec_of PN (sp_nls s) → vec_of PE (sp_els s) → in_usize (sp_count s) → in_usize (S (a_num_nodes (sp_g s)) * a_num_nodes (sp_g s)) →
  ∃ (g : graphmap NL EL) sg, gm_run dir lt h (gm_with_label_map nls els) = Ok (rs, g) ∧ gm_into_static it lt dir g = Ok sg ∧
    ∀ p F, fresh_prefix F p →
      ∃ m, mm_open it lt cn ce (sg_dump_mmap it lt cn ce sg p F) p = Ok m ∧ represents (mm_view it lt m) (sp_g s) ∧
        v_edge_count (mm_view it lt m) = sp_count s ∧ v_node_label_map (mm_view it lt m) = sp_nls s ∧ v_edge_label_map (mm_view it lt m) = sp_els s.
Proof. intros Hcn Hce. exact (history_mmap dir it lt cn ce PN PE Hcn Hce nls els h rs s a b). Qed.
Print Assumptions C36_history_partial.
Example C36_history_case dir : ∃ rs s, spec_run pi_history (s_init dir [] []) = SOk (rs, s) ∧ pi_ok s ∧ a_has_edge (sp_g s) 0 1 ∧
  (∀ n m, a_has_node (sp_g s) n → (m < n)%N → a_has_node (sp_g s) m) ∧ a_num_nodes (sp_g s) = 3.
Proof. exact (pi_dense dir). Qed.

(** ** C67. Any non-empty graph built by API calls, renumbered, frozen, exported and mapped, is the
    same graph with its nodes renamed, and the map that was handed out translates both ways. *)
Theorem C67_renumber {NL EL} `{EqDecision NL, EqDecision EL} (it lt : idty) (cn : codec NL) (ce : codec EL) PN PE
  (dir : bool) nls els h rs s n :
  faithful cn PN → faithful ce PE → NoDup nls → NoDup els → spec_run h (s_init dir nls els) = SOk (rs, s) →
  a_has_node (sp_g s) n → (∀ x, a_has_node (sp_g s) x → in_type it x) → (N.of_nat (a_num_nodes (sp_g s)) ≤ id_max it)%N →
  (N.of_nat (length (sp_nls s)) ≤ id_max lt)%N → (N.of_nat (length (sp_els s)) ≤ id_max lt)%N →
  ∃ g : graphmap NL EL, gm_run dir lt h (gm_with_label_map nls els) = Ok (rs, g) ∧
  ∀ ord no eo fnl fel, hash_order g ord →
    counter_order (node_label_ids g ord) no → counter_order (edge_label_ids dir g ord) eo →
    ∃ R g' R' sg f B, gm_reorder_id dir it lt ord no eo true fnl fel g = Ok R ∧ rr_take_graph R = (Some g', R') ∧
      gm_into_static it lt dir g' = Ok sg ∧
      renames f (sp_g s) B ∧ onto_prefix f (sp_g s) ∧
      (∀ x, a_has_node (sp_g s) x → rr_find_new_node_id it R' x = Ok (f x) ∧ rr_get_original_node_id R' (f x) = Ok x) ∧
      represents (sg_view it lt dir sg) B ∧ answers_missing (sg_view it lt dir sg) B ∧ v_edge_count (sg_view it lt dir sg) = sp_count s ∧
      (vec_of PN (sp_nls s) → vec_of PE (sp_els s) → in_usize (sp_count s) → in_usize (S (a_num_nodes (sp_g s)) * a_num_nodes (sp_g s)) →
       (∀ path F, import (c_sgraph it lt cn ce) path (export path (enc (c_sgraph it lt cn ce) sg) F) = Some sg) ∧
       ∀ a b p F, a_has_edge (sp_g s) a b → fresh_prefix F p →
         ∃ m, mm_open it lt cn ce (sg_dump_mmap it lt cn ce sg p F) p = Ok m ∧ represents (mm_view it lt m) B ∧
           v_edge_count (mm_view it lt m) = sp_count s).
Proof. intros Hcn Hce. exact (renumber dir it lt cn ce PN PE Hcn Hce nls els h rs s n). Qed.
Print Assumptions C67_renumber.
(** Ids 10, 20, 30, 40, 50. *)
Example C67_case dir : ∃ rs s, spec_run ro_history (s_init dir [] []) = SOk (rs, s) ∧ pi_ok s ∧ a_has_edge (sp_g s) 50 10 ∧ a_num_nodes (sp_g s) = 5.
Proof. exact (ro_pi dir). Qed.
