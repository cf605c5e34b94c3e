(** C57, C61: Serializer::export and Deserializer::import. [F] is the file system before the
    export, [path] any path. The label types come with an encoding that is [faithful]
    (SpecSerde.v), as serde's are for integers and strings. [typed_graph] and [typed_sgraph]
    say that the model value is a value of the Rust type: ids, label ids, counters and lengths
    are in range and label maps hold no item twice. [ord] is the order in which the hash table
    of nodes is iterated during the export. *)
From stdpp Require Import gmap strings.
From Verif Require Import Base Bytes Map GraphMap Static Serde SpecSerde SerdeFacts GraphMapWit SerdeWit.

(** Integers and strings have faithful encodings. *)
Theorem C57_integer_labels t : faithful (c_id t) (in_type t).
Proof. exact (f_id t). Qed.
Print Assumptions C57_integer_labels.
Theorem C57_string_labels : faithful c_string is_string.
Proof. exact f_string. Qed.
Print Assumptions C57_string_labels.

(** ** C57. *)
Theorem C57_setmap {L} `{EqDecision L} (c : codec L) P path F m : faithful c P → setmap_of P m →
  import (c_setmap c) path (export path (enc (c_setmap c) m) F) = Some m.
Proof. intros Hc. exact (import_export _ _ path F m (proj1 (f_setmap c P Hc))). Qed.
Print Assumptions C57_setmap.
Theorem C57_vecmap {L} (c : codec L) P path F m : faithful c P → vec_of P m →
  import (c_vecmap c) path (export path (enc (c_vecmap c) m) F) = Some m.
Proof. intros Hc. exact (import_export _ _ path F m (proj1 (f_list c P Hc))). Qed.
Print Assumptions C57_vecmap.
Example C57_maps_case : faithful c_string is_string ∧ setmap_of is_string [[104; 105]; []; [195; 169]]%N.
Proof.
  split; [exact wit_fits_string|]. split; [split; [by vm_compute|]|].
  - apply (bool_decide_unpack _). by vm_compute.
  - apply (bool_decide_unpack _). by vm_compute.
Qed.
Theorem C57_graphmap {NL EL} `{EqDecision NL, EqDecision EL} (it lt : idty) (cn : codec NL) (ce : codec EL) PN PE
  path F (g : graphmap NL EL) ord ord' :
  faithful cn PN → faithful ce PE → typed_graph it lt PN PE g → hash_order g ord →
  import (c_graphmap it lt cn ce ord') path (export path (enc (c_graphmap it lt cn ce ord) g) F) = Some g.
Proof.
  intros Hcn Hce Hg Ho.
  exact (import_export (c_graphmap it lt cn ce ord) _ path F g (proj1 (f_graphmap it lt cn ce PN PE Hcn Hce ord)) (conj Ho Hg)).
Qed.
Print Assumptions C57_graphmap.
(** A graph reached through the API, with a removed node, a self-loop and labels. *)
Example C57_graphmap_case dir : gm_reachable dir TU8 (wit_g dir) ∧
  typed_graph TU8 TU8 (in_type TU8) (in_type TU8) (wit_g dir) ∧ hash_order (wit_g dir) [2; 1; 4]%N ∧ g_nedges (wit_g dir) = 2.
Proof. split_and!; [apply wit_g_reachable|apply wit_typed|apply wit_order|by destruct dir; vm_compute]. Qed.
Theorem C57_sgraph {NL EL} `{EqDecision NL, EqDecision EL} (it lt : idty) (cn : codec NL) (ce : codec EL) PN PE
  path F (g : sgraph NL EL) :
  faithful cn PN → faithful ce PE → typed_sgraph it lt PN PE g →
  import (c_sgraph it lt cn ce) path (export path (enc (c_sgraph it lt cn ce) g) F) = Some g.
Proof. intros Hcn Hce. exact (import_export _ _ path F g (proj1 (f_sgraph it lt cn ce PN PE Hcn Hce))). Qed.
Print Assumptions C57_sgraph.
Example C57_sgraph_case : typed_sgraph TU8 TU8 is_string is_string wit_sg.
Proof. exact wit_sg_typed. Qed.

(** ** C61. A file that holds only the beginning of an export is reported as an error. *)
Theorem C61_cut_setmap {L} `{EqDecision L} (c : codec L) P path F m b : faithful c P → setmap_of P m →
  F !! path = Some b → b `prefix_of` enc (c_setmap c) m → b ≠ enc (c_setmap c) m → import (c_setmap c) path F = None.
Proof. intros Hc. exact (import_cut _ _ path F m b (proj2 (f_setmap c P Hc))). Qed.
Print Assumptions C61_cut_setmap.
Theorem C61_cut_graphmap {NL EL} `{EqDecision NL, EqDecision EL} (it lt : idty) (cn : codec NL) (ce : codec EL) PN PE
  path F (g : graphmap NL EL) ord b :
  faithful cn PN → faithful ce PE → typed_graph it lt PN PE g → hash_order g ord →
  F !! path = Some b → b `prefix_of` enc (c_graphmap it lt cn ce ord) g → b ≠ enc (c_graphmap it lt cn ce ord) g →
  import (c_graphmap it lt cn ce ord) path F = None.
Proof.
  intros Hcn Hce Hg Ho.
  exact (import_cut (c_graphmap it lt cn ce ord) _ path F g b (proj2 (f_graphmap it lt cn ce PN PE Hcn Hce ord)) (conj Ho Hg)).
Qed.
Print Assumptions C61_cut_graphmap.
Theorem C61_cut_sgraph {NL EL} `{EqDecision NL, EqDecision EL} (it lt : idty) (cn : codec NL) (ce : codec EL) PN PE
  path F (g : sgraph NL EL) b :
  faithful cn PN → faithful ce PE → typed_sgraph it lt PN PE g →
  F !! path = Some b → b `prefix_of` enc (c_sgraph it lt cn ce) g → b ≠ enc (c_sgraph it lt cn ce) g →
  import (c_sgraph it lt cn ce) path F = None.
Proof. intros Hcn Hce. exact (import_cut _ _ path F g b (proj2 (f_sgraph it lt cn ce PN PE Hcn Hce))). Qed.
Print Assumptions C61_cut_sgraph.
(** A missing file is reported as well, and an export touches no other file. *)
Theorem C61_missing {A} (c : codec A) path (F : fs) : F !! path = None → import c path F = None.
Proof. intros H. unfold import. by rewrite H. Qed.
Print Assumptions C61_missing.
Theorem C61_other_files path b (F : fs) q : q ≠ path → export path b F !! q = F !! q.
Proof. exact (export_other path b F q). Qed.
Print Assumptions C61_other_files.
Example C61_case : ∃ b, b `prefix_of` enc (c_sgraph TU8 TU8 c_string c_string) wit_sg ∧ length b = 100 ∧
  b ≠ enc (c_sgraph TU8 TU8 c_string c_string) wit_sg.
Proof.
  exists (take 100 (enc (c_sgraph TU8 TU8 c_string c_string) wit_sg)).
  split; [eexists; symmetry; apply take_drop|]. split; by vm_compute.
Qed.
