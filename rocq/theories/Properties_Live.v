(** C110: a StaticGraphMmap that stays open while files change. [lg_open] opens the graph,
    [lg_now page F h] is the graph that the opened [h] shows when the file system is [F] (Panic: a
    mapped array reaches behind the last page of its file, and reading that part ends the
    process). [page] is the page size. The vocabulary is in SpecLive.v and SpecMmap.v. *)
From stdpp Require Import gmap strings.
From Verif Require Import Base Api Bytes Spec SpecStatic Map GraphMap Static SpecSGraph Serde SpecSerde SerdeFacts
  Mmap SpecMmap MmapLive SpecLive LiveProps LiveThms SerdeWit MmapWit LiveWit.

(** ** C110. Opening shows what the files contain at that time. *)
Theorem C110_at_open {NL EL} `{EqDecision NL, EqDecision EL} (it lt : idty) (cn : codec NL) (ce : codec EL) page F p : 0 < page →
  (let* h := lg_open it lt cn ce F p in lg_now page F h) = mm_open it lt cn ce F p.
Proof. exact (lg_open_now it lt cn ce page F p). Qed.
Print Assumptions C110_at_open.
Example C110_at_open_case : ∃ h, lg_open TU8 TU8 c_string c_string live_F "g" = Ok h.
Proof. exact live_opens. Qed.
(** Operations on other files change nothing, whenever the graph was opened. *)
Theorem C110_elsewhere {NL EL} `{EqDecision NL, EqDecision EL} (it lt : idty) (cn : codec NL) (ce : codec EL) page F0 p h F ops :
  lg_open it lt cn ce F0 p = Ok h → (∀ o, o ∈ ops → op_target o ∉ prefix_files p) →
  lg_now page (fs_run F ops) h = lg_now page F h.
Proof. exact (live_elsewhere it lt cn ce page F0 p h F ops). Qed.
Print Assumptions C110_elsewhere.
(** So it is with a dump, complete or interrupted, of any graph under a prefix that is apart. *)
Theorem C110_other_prefix {NL EL NL' EL'} `{EqDecision NL, EqDecision EL, EqDecision NL', EqDecision EL'}
  (it lt it' lt' : idty) (cn : codec NL) (ce : codec EL) (cn' : codec NL') (ce' : codec EL') page (g : sgraph NL' EL') F0 p h F p' F' :
  lg_open it lt cn ce F0 p = Ok h → apart p p' → crash_state F (sg_dump_ops it' lt' cn' ce' g p') F' →
  lg_now page F' h = lg_now page F h.
Proof. exact (live_apart it lt cn ce page cn' ce' it' lt' g F0 p h F p' F'). Qed.
Print Assumptions C110_other_prefix.
Example C110_other_prefix_case : (∃ h, lg_open TU8 TU8 c_string c_string live_F "g" = Ok h) ∧ apart "g" "h" ∧
  crash_state live_F (sg_dump_ops TU8 TU8 c_string c_string live_b "h") (sg_dump_mmap TU8 TU8 c_string c_string live_b "h" live_F).
Proof.
  split; [exact live_opens|]. split; [by vm_compute|]. eexists _, []. rewrite app_nil_r. split; [reflexivity|left; reflexivity].
Qed.

(** When a graph with arrays of the same lengths, the same counts and the same label maps has
    been dumped over it, the opened graph shows the new one. *)
Theorem C110_same_shape {NL EL} `{EqDecision NL, EqDecision EL} (it lt : idty) (cn : codec NL) (ce : codec EL) PN PE page
  (dir : bool) (g g' : sgraph NL EL) p F h :
  faithful cn PN → faithful ce PE → 0 < page → mappable it lt PN PE dir g → mappable it lt PN PE dir g' → no_stale F p g →
  same_lengths g g' → sg_num_nodes g = sg_num_nodes g' → sg_num_edges g = sg_num_edges g' → sg_nlm g = sg_nlm g' → sg_elm g = sg_elm g' →
  lg_open it lt cn ce (sg_dump_mmap it lt cn ce g p F) p = Ok h →
  ∃ m, lg_now page (sg_dump_mmap it lt cn ce g' p (sg_dump_mmap it lt cn ce g p F)) h = Ok m ∧
    same_answers (sg_view it lt dir g') (mm_view it lt m).
Proof. intros Hcn Hce Hp. exact (live_same it lt cn ce PN PE Hcn Hce page Hp dir g g' p F h). Qed.
Print Assumptions C110_same_shape.
Example C110_same_shape_case : mappable TU8 TU8 is_string is_string false live_a ∧ mappable TU8 TU8 is_string is_string false live_c ∧
  no_stale ∅ "g" live_a ∧ same_lengths live_a live_c ∧ sg_nlm live_a = sg_nlm live_c ∧ live_a ≠ live_c.
Proof.
  split; [exact live_a_mappable|]. split; [exact live_c_mappable|]. split; [intros f _; apply lookup_empty|]. split; [exact live_lengths|]. done.
Qed.
(** In general it shows the arrays of the new graph in the lengths of the old one, with the old
    counts and label maps, if these lengths lie on the pages of the new files, and faults
    otherwise. [overlay] supplies the parts of which the new graph wrote no file. *)
Theorem C110_rewritten {NL EL} `{EqDecision NL, EqDecision EL} (it lt : idty) (cn : codec NL) (ce : codec EL) PN PE page
  (dir dir' : bool) (g g' : sgraph NL EL) p F h :
  faithful cn PN → faithful ce PE → 0 < page → mappable it lt PN PE dir g → mappable it lt PN PE dir' g' → no_stale F p g →
  lg_open it lt cn ce (sg_dump_mmap it lt cn ce g p F) p = Ok h →
  (in_reach page it lt g (overlay g' g) →
     lg_now page (sg_dump_mmap it lt cn ce g' p (sg_dump_mmap it lt cn ce g p F)) h = Ok (refit_sg g (overlay g' g))) ∧
  (¬ in_reach page it lt g (overlay g' g) →
     lg_now page (sg_dump_mmap it lt cn ce g' p (sg_dump_mmap it lt cn ce g p F)) h = Panic).
Proof. intros Hcn Hce Hp. exact (live_rewritten it lt cn ce PN PE Hcn Hce page Hp dir dir' g g' p F h). Qed.
Print Assumptions C110_rewritten.
Example C110_rewritten_case : mappable TU8 TU8 is_string is_string false live_d ∧
  in_reach 64 TU8 TU8 live_a (overlay live_d live_a) ∧ ¬ in_reach 8 TU8 TU8 live_a (overlay live_d live_a).
Proof. exact (conj live_d_mappable live_reach). Qed.
(** What that means for the answers: neighbours and label numbers are those of the new graph, or a
    panic; counts and label maps are those of the old one. *)
Theorem C110_mixture {NL EL} `{EqDecision NL, EqDecision EL} (it lt : idty) (cn : codec NL) (ce : codec EL) PN PE page
  (dir : bool) (g g' : sgraph NL EL) p F h m :
  faithful cn PN → faithful ce PE → 0 < page → mappable it lt PN PE dir g → mappable it lt PN PE dir g' → no_stale F p g →
  same_parts g g' → lg_open it lt cn ce (sg_dump_mmap it lt cn ce g p F) p = Ok h →
  lg_now page (sg_dump_mmap it lt cn ce g' p (sg_dump_mmap it lt cn ce g p F)) h = Ok m →
  mixture (sg_view it lt dir g) (sg_view it lt dir g') (mm_view it lt m).
Proof. intros Hcn Hce Hp. exact (live_mixture it lt cn ce PN PE Hcn Hce page Hp dir g g' p F h m). Qed.
Print Assumptions C110_mixture.
Example C110_mixture_case : same_parts live_a live_b ∧ same_parts live_a live_d ∧ mappable TU8 TU8 is_string is_string false live_b.
Proof. exact (conj (proj1 live_parts) (conj (proj2 live_parts) live_b_mappable)). Qed.

(** An opened graph does not survive a dump under its own prefix: every such dump, of whatever
    graph and in whatever state, passes a moment at which reading the graph faults. *)
Theorem C110_undisturbed_refuted {NL EL NL' EL'} `{EqDecision NL, EqDecision EL, EqDecision NL', EqDecision EL'}
  (it lt it' lt' : idty) (cn : codec NL) (ce : codec EL) (cn' : codec NL') (ce' : codec EL') page (g : sgraph NL' EL') F0 p h F :
  lg_open it lt cn ce F0 p = Ok h →
  ∃ F', crash_state F (sg_dump_ops it' lt' cn' ce' g p) F' ∧ lg_now page F' h = Panic.
Proof. exact (live_fault it lt cn ce page cn' ce' it' lt' g F0 p h F). Qed.
Print Assumptions C110_undisturbed_refuted.
(** At another moment it may show an edge of neither graph ... *)
Theorem C110_old_or_new_edges_refuted : ∃ F' h m, crash_state live_F (sg_dump_ops TU8 TU8 c_string c_string live_b "g") F' ∧
  lg_open TU8 TU8 c_string c_string live_F "g" = Ok h ∧ lg_now 4096 F' h = Ok m ∧
  v_has_edge (mm_view TU8 TU8 m) 2 0 = Ok true ∧
  v_has_edge (sg_view TU8 TU8 false live_a) 2 0 = Ok false ∧ v_has_edge (sg_view TU8 TU8 false live_b) 2 0 = Ok false.
Proof. exact live_phantom. Qed.
Print Assumptions C110_old_or_new_edges_refuted.
(** ... and after the dump a label that the node has in neither graph. *)
Theorem C110_old_or_new_labels_refuted : ∃ h m, lg_open TU8 TU8 c_string c_string live_F "g" = Ok h ∧
  lg_now 4096 (sg_dump_mmap TU8 TU8 c_string c_string live_b "g" live_F) h = Ok m ∧
  v_node_label (mm_view TU8 TU8 m) 0 = Ok (Some [98]%N) ∧
  v_node_label (sg_view TU8 TU8 false live_a) 0 = Ok (Some [97]%N) ∧ v_node_label (sg_view TU8 TU8 false live_b) 0 = Ok (Some [97]%N).
Proof. exact live_misnamed. Qed.
Print Assumptions C110_old_or_new_labels_refuted.
