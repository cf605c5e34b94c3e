(** C75, C76: what an interrupted dump and a dump over an earlier one show when they are opened.
    [crash_state], [fresh_prefix], [mappable], [same_answers], [part_of], [overlay] and
    [shows_over] are in SpecMmap.v. *)
From stdpp Require Import gmap strings.
From Verif Require Import Base Api Bytes Spec SpecStatic Static Serde SpecSerde Mmap SpecMmap SerdeWit MmapWit MmapCrash.

(** ** C75. *)
Theorem C75_crash_shows_part {NL EL} `{EqDecision NL, EqDecision EL} (it lt : idty) (cn : codec NL) (ce : codec EL) PN PE
  (dir : bool) (g : sgraph NL EL) p F F' m :
  faithful cn PN → faithful ce PE → mappable it lt PN PE dir g → fresh_prefix F p →
  crash_state F (sg_dump_ops it lt cn ce g p) F' → mm_open it lt cn ce F' p = Ok m →
  same_answers (sg_view it lt dir g) (mm_view it lt m) ∨
  (F' !! (p +:+ "_aux.bin") = None ∧ part_of (sg_view it lt dir g) (mm_view it lt m)).
Proof. intros Hcn Hce. exact (crash_shows it lt cn ce PN PE Hcn Hce dir g p F F' m). Qed.
Print Assumptions C75_crash_shows_part.
Example C75_case : mappable TU8 TU8 is_string is_string true wit_sg ∧ fresh_prefix ∅ "g" ∧
  ∃ F' m, crash_state ∅ (sg_dump_ops TU8 TU8 c_string c_string wit_sg "g") F' ∧ mm_open TU8 TU8 c_string c_string F' "g" = Ok m ∧
  v_directed (mm_view TU8 TU8 m) = false ∧ v_edge_count (mm_view TU8 TU8 m) = 1 ∧
  v_directed (sg_view TU8 TU8 true wit_sg) = true ∧ v_edge_count (sg_view TU8 TU8 true wit_sg) = 2.
Proof. exact (conj wit_sg_mappable (conj (empty_fresh _) wit_crash_in)). Qed.

(** ** C76. *)
Theorem C76_dump_over {NL EL} `{EqDecision NL, EqDecision EL} (it lt : idty) (cn : codec NL) (ce : codec EL) PN PE
  (dir dir' : bool) (g g' : sgraph NL EL) p F :
  faithful cn PN → faithful ce PE → mappable it lt PN PE dir g → mappable it lt PN PE dir' g' → fresh_prefix F p →
  ∃ m, mm_open it lt cn ce (sg_dump_mmap it lt cn ce g' p (sg_dump_mmap it lt cn ce g p F)) p = Ok m ∧ m = overlay g' g ∧
    shows_over g' g (sg_view it lt dir' g') (sg_view it lt dir g) (mm_view it lt m).
Proof. intros Hcn Hce. exact (dump_over it lt cn ce PN PE Hcn Hce dir dir' g g' p F). Qed.
Print Assumptions C76_dump_over.
Example C76_case : mappable TU8 TU8 is_string is_string false wit_lab ∧
  mappable TU8 TU8 is_string is_string true wit_sg ∧
  mappable TU8 TU8 is_string is_string false wit_und ∧ fresh_prefix ∅ "g" ∧
  overlay wit_und wit_lab ≠ wit_und ∧ overlay wit_und wit_sg ≠ wit_und ∧ overlay wit_sg wit_und = wit_sg.
Proof. exact (conj wit_lab_mappable (conj wit_sg_mappable (conj wit_und_mappable (conj (empty_fresh _) wit_overlays)))). Qed.
