(** C106: what import makes of files of any content. [import]: Bytes.v; the codecs: Serde.v. Vocabulary: SpecImport.v (bytes, yields, exact), SpecUtf8.v (utf8_text), SpecSerde.v (typed_graph, typed_sgraph, vec_of, faithful), SpecLabelHist.v (first_uses), Spec.v (represents). *)
From stdpp Require Import gmap strings.
From Verif Require Import Base Api SpecUtf8 Utf8Props Bytes Spec SpecSerde SpecImport SpecLabelHist Map GraphMap Static Serde SerdeFacts ImportAny ImportWit.

(** The labels in use: numbers and strings meet what the theorems below ask of a label type. *)
Theorem C106_labels : (∀ t, t ≠ TUnit → yields (c_id t) (in_type t) ∧ exact (c_id t) ∧ faithful (c_id t) (in_type t)) ∧
  yields c_string is_string ∧ exact c_string ∧ faithful c_string is_string.
Proof. exact label_types. Qed.
Print Assumptions C106_labels.
Example C106_labels_case : bytes [1; 0; 0; 0; 0; 0; 0; 0; 65]%N ∧ dec c_string [1; 0; 0; 0; 0; 0; 0; 0; 65]%N = Some ([65]%N, []) ∧ dec (c_id TU16) [1; 2; 3]%N = Some (513%N, [3]%N).
Proof. split; [unfold bytes; apply (bool_decide_unpack _); by vm_compute|by vm_compute]. Qed.
(** Text is accepted exactly when it is UTF-8. *)
Theorem C106_utf8 path (F : fs) s rest : F !! path = Some (enc c_usize (length s) ++ s ++ rest) → in_usize (length s) → bytes s →
  (utf8_text s → import c_string path F = Some s) ∧ (¬ utf8_text s → import c_string path F = None).
Proof. exact (string_reject path F s rest). Qed.
Print Assumptions C106_utf8.
(** An e with an acute accent in UTF-8 and in Latin-1; a surrogate; an overlong slash. *)
Example C106_utf8_case : utf8_text [99; 195; 169]%N ∧ ¬ utf8_text [99; 233]%N ∧ ¬ utf8_text [237; 160; 128]%N ∧ ¬ utf8_text [192; 175]%N ∧ bytes [99; 233]%N.
Proof. unfold bytes. split_and!; apply (bool_decide_unpack _); by vm_compute. Qed.
(** ** C106. Whatever bytes a file has: what it is accepted as is a value of the type asked for, no label listed twice, and saved again it is read back as the same value. *)
Theorem C106_graphmap {NL EL} `{EqDecision NL, EqDecision EL} (it lt : idty) (cn : codec NL) (ce : codec EL) (PN : NL → Prop) (PE : EL → Prop)
    (o : list N) path (F : fs) b (g : graphmap NL EL) :
  yields cn PN → yields ce PE → faithful cn PN → faithful ce PE → F !! path = Some b → bytes b →
  import (c_graphmap it lt cn ce o) path F = Some g →
  typed_graph it lt PN PE g ∧
  ∀ ord q F', hash_order g ord → import (c_graphmap it lt cn ce ord) q (export q (enc (c_graphmap it lt cn ce ord) g) F') = Some g.
Proof. intros H1 H2 H3 H4. exact (any_graphmap it lt cn ce PN PE H1 H2 H3 H4 o path F b g). Qed.
Print Assumptions C106_graphmap.
Theorem C106_static {NL EL} `{EqDecision NL, EqDecision EL} (it lt : idty) (cn : codec NL) (ce : codec EL) (PN : NL → Prop) (PE : EL → Prop)
    path (F : fs) b (g : sgraph NL EL) :
  yields cn PN → yields ce PE → faithful cn PN → faithful ce PE → F !! path = Some b → bytes b →
  import (c_sgraph it lt cn ce) path F = Some g →
  typed_sgraph it lt PN PE g ∧ ∀ q F', import (c_sgraph it lt cn ce) q (export q (enc (c_sgraph it lt cn ce) g) F') = Some g.
Proof. intros H1 H2 H3 H4. exact (any_sgraph it lt cn ce PN PE H1 H2 H3 H4 path F b g). Qed.
Print Assumptions C106_static.
Example C106_static_case : ∃ (b : list N) (g : sgraph N N), bytes b ∧ import (c_sgraph TU8 TU8 (c_id TU8) (c_id TU8)) "f" ({["f"%string := b]} : fs) = Some g ∧ sg_num_nodes g = 1.
Proof. exact static_file. Qed.
Example C106_graphmap_case : ∃ (b : list N) (g : graphmap N N), bytes b ∧ import (c_graphmap TU8 TU8 (c_id TU8) (c_id TU8) []) "f" ({["f"%string := b]} : fs) = Some g ∧ size (g_nodes g) = 1.
Proof. exact graphmap_file. Qed.
(** A file is accepted as a VecMap exactly when it starts with the encoding of one, whatever follows. *)
Theorem C106_vecmap {L} `{EqDecision L} (c : codec L) (P : L → Prop) path (F : fs) b l :
  yields c P → faithful c P → exact c → F !! path = Some b → bytes b →
  import (c_vecmap c) path F = Some l ↔ vec_of P l ∧ ∃ rest, b = enc (c_vecmap c) l ++ rest.
Proof. intros H1 H2 H3. exact (any_list c P H1 H2 H3 F path b l). Qed.
Print Assumptions C106_vecmap.
(** A file is accepted as a SetMap exactly when it starts with the encoding of a list of items: repeated items are dropped. *)
Theorem C106_setmap {L} `{EqDecision L} (c : codec L) (P : L → Prop) path (F : fs) b m :
  yields c P → faithful c P → exact c → F !! path = Some b → bytes b →
  import (c_setmap c) path F = Some m ↔ ∃ l rest, vec_of P l ∧ b = enc (c_vecmap c) l ++ rest ∧ m = first_uses l.
Proof. intros H1 H2 H3. exact (any_setmap c P H1 H2 H3 F path b m). Qed.
Print Assumptions C106_setmap.
Example C106_maps_case : let b := [2; 0; 0; 0; 0; 0; 0; 0; 7; 9; 44]%N in bytes b ∧ ({["f"%string := b]} : fs) !! "f"%string = Some b ∧
  import (c_vecmap (c_id TU8)) "f" ({["f"%string := b]} : fs) = Some [7; 9]%N ∧ import (c_setmap (c_id TU8)) "f" ({["f"%string := b]} : fs) = Some [7; 9]%N ∧
  import (c_setmap (c_id TU8)) "f" ({["f"%string := [3; 0; 0; 0; 0; 0; 0; 0; 7; 7; 9]%N]} : fs) = Some [7; 9]%N.
Proof. exact import_case. Qed.
(** The file of a graph does not say whether the graph is directed: there is a directed graph whose file is accepted as an undirected graph, and what is read then is no undirected graph at all. *)
Theorem C106_direction_refuted : ∃ g : graphmap N N, gm_reachable true TU8 g ∧ ∀ o path F ord, hash_order g ord →
  import (c_graphmap TU8 TU8 (c_id TU8) (c_id TU8) ord) path (export path (enc (c_graphmap TU8 TU8 (c_id TU8) (c_id TU8) ord) g) F) = Some g ∧
  ∀ A, ¬ represents (gm_view false o g) A.
Proof. exact (ex_intro _ one_way one_way_ok). Qed.
Print Assumptions C106_direction_refuted.
(** Not every accepted file holds a graph: there is one from which a static graph is read that has a node whose degree cannot be asked for without a panic. *)
Theorem C106_no_graph_refuted : ∃ (b : list N) (g : sgraph N N), bytes b ∧ ∀ path F,
  import (c_sgraph TU8 TU8 (c_id TU8) (c_id TU8)) path (export path b F) = Some g ∧
  v_has_node (sg_view TU8 TU8 true g) 0 = true ∧ v_degree (sg_view TU8 TU8 true g) 0 = Panic ∧ ∀ dir A, ¬ represents (sg_view TU8 TU8 dir g) A.
Proof. exact no_graph. Qed.
Print Assumptions C106_no_graph_refuted.
