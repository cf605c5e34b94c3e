(** Writing when the disk is full or fails (C111). A [world] says for every call of the operating
    system whether it succeeds, takes only some of the bytes, or fails. [cap] is the size of the
    writer's buffer. [parts] are the pieces in which a value or a table is handed to the writer. *)
From Coq Require Import Ascii.
From stdpp Require Import gmap strings.
From Verif Require Import Base Api Bytes Spec SpecStatic Map GraphMap Static Serde SpecSerde SerdeFacts Mmap SpecMmap MmapFacts MmapProps SerdeWit MmapWit
  Csv CsvText SpecCsvCut CsvCrash CsvCutWit IoFail SpecIo IoProps IoWit.

(** ** Success means that everything is written *)
(** dump: after success the file holds all the data; after an error it is as before or holds a beginning. *)
Theorem C111_dump (w : world) cap f b F i ok F' i' : dump_io w cap f b F i = (ok, F', i') →
  (ok = true → F' = <[f := b]> F) ∧ (F' = F ∨ ∃ b', F' = <[f := b']> F ∧ b' `prefix_of` b).
Proof.
  intros H. apply dump_spec in H as [H _]. split.
  - intros ->. destruct H as [[? _]|(b' & -> & _ & Hb)]; [done|by rewrite Hb].
  - destruct H as [[_ ->]|(b' & -> & Hp & _)]; [by left|right; by exists b'].
Qed.
Print Assumptions C111_dump.
(** export: after success, a later import gives the value or an error, and at most a buffer of bytes is missing. *)
Theorem C111_export {A} (c : codec A) P (w : world) cap f x parts F i F' i' : faithful c P → P x → concat parts = enc c x →
  export_io w cap f parts F i = (true, F', i') →
  (∀ y, import c f F' = Some y → y = x) ∧ ∃ b, F' = <[f := b]> F ∧ b `prefix_of` enc c x ∧ length (enc c x) ≤ length b + cap.
Proof.
  intros Hc Hx Hp H. split; [intros y; exact (export_import c P w cap f x parts F i F' i' y Hc Hx Hp H)|].
  apply export_spec in H as [[? _]|(b & -> & Hb & Hl & _)]; [done|]. rewrite Hp in *. exists b. split; [done|]. split; [done|]. by apply Hl.
Qed.
Print Assumptions C111_export.
Example C111_export_case : faithful (c_sgraph TU8 TU8 c_string c_string) (typed_sgraph TU8 TU8 is_string is_string) ∧ typed_sgraph TU8 TU8 is_string is_string wit_sg ∧
  let e := enc (c_sgraph TU8 TU8 c_string c_string) wit_sg in
  (export_io (full_after 2) 64 "g" [take 150 e; drop 150 e] ∅ 0).1.1 = true ∧ 64 < length e.
Proof. split; [exact (f_sgraph TU8 TU8 c_string c_string _ _ f_string f_string)|]. split; [exact wit_sg_typed|]. split; vm_compute; [done|lia]. Qed.

(** dump_mmap: whatever happens, the files are as a crash at some point would leave them (C38, C75
    say what that shows). After success, opening them panics or shows the graph. *)
Theorem C111_dump_mmap {NL EL} `{EqDecision NL, EqDecision EL} it lt (cn : codec NL) (ce : codec EL) PN PE dir (w : world) cap g p parts F i ok F' i' :
  faithful cn PN → faithful ce PE → mappable it lt PN PE dir g → fresh_prefix F p →
  concat parts = enc (c_aux cn ce) (sg_num_nodes g, (sg_num_edges g, (sg_nlm g, sg_elm g))) →
  sg_dump_io w cap it lt g p parts F i = (ok, F', i') →
  crash_state F (sg_dump_ops it lt cn ce g p) F' ∧
  (ok = true → ∀ m, mm_open it lt cn ce F' p = Ok m → same_answers (sg_view it lt dir g) (mm_view it lt m)).
Proof.
  intros Hcn Hce Hg Hf Hp H. split; [exact (proj1 (dump_outcome it lt cn ce w cap g p parts Hp F i ok F' i' H))|].
  intros -> m. exact (dump_detected it lt cn ce PN PE dir w cap g p parts F i F' i' m Hcn Hce Hg Hf Hp H).
Qed.
Print Assumptions C111_dump_mmap.
(** After success only the end of the auxiliary file can be missing. *)
Theorem C111_dump_mmap_files {NL EL} `{EqDecision NL, EqDecision EL} it lt (cn : codec NL) (ce : codec EL) (w : world) cap (g : sgraph NL EL) p parts F i F' i' :
  concat parts = enc (c_aux cn ce) (sg_num_nodes g, (sg_num_edges g, (sg_nlm g, sg_elm g))) →
  sg_dump_io w cap it lt g p parts F i = (true, F', i') →
  ∀ f, f ≠ (p +:+ "_aux.bin")%string → F' !! f = sg_dump_mmap it lt cn ce g p F !! f.
Proof. exact (dump_files it lt cn ce w cap g p parts F i F' i'). Qed.
Print Assumptions C111_dump_mmap_files.
Example C111_dump_mmap_case : mappable TU8 TU8 is_string is_string true wit_sg ∧ fresh_prefix ∅ "g" ∧
  concat io_parts = enc (c_aux c_string c_string) (sg_num_nodes wit_sg, (sg_num_edges wit_sg, (sg_nlm wit_sg, sg_elm wit_sg))) ∧
  (io_dump (full_after 7)).1.1 = false ∧ (io_dump slow).1.1 = true.
Proof. split; [exact wit_sg_mappable|]. split; [apply empty_fresh|]. split; [exact io_parts_all|]. split; [apply io_failed|apply io_slow]. Qed.

(** CSVWriter::write: after success the files hold beginnings of the two tables, each lacking at
    most a buffer of characters; that is what a crash could leave (C108 says how it is read). *)
Theorem C111_csv {NL EL} `{EqDecision NL, EqDecision EL} it (tn : text NL) (te : text EL) V pn pe sep F F1 (w : world) cap ns es i F' :
  text_write it tn te V pn pe sep F = Ok F1 → pn ≠ pe → F1 !! pn = Some (text_of (concat ns)) → F1 !! pe = Some (text_of (concat es)) →
  csv_io w cap pn pe ns es F i = (true, F') →
  text_crash it tn te V pn pe sep F F' ∧
  ∃ a b, F' = <[pe := a]> (<[pn := b]> F) ∧
    begins b (text_of (concat ns)) ∧ String.length (text_of (concat ns)) ≤ String.length b + cap ∧
    begins a (text_of (concat es)) ∧ String.length (text_of (concat es)) ≤ String.length a + cap.
Proof. exact (csv_crash it tn te V pn pe sep F F1 w cap ns es i F'). Qed.
Print Assumptions C111_csv.
Example C111_csv_case : ∃ F1, text_write TU8 (t_id TU32) (t_id TU32) cc_view "n" "e" "," ∅ = Ok F1 ∧
  F1 !! "n"%string = Some (text_of (concat io_nodes)) ∧ F1 !! "e"%string = Some (text_of (concat io_edges)) ∧
  (io_csv (full_after 6)).1 = true ∧ (io_csv (full_after 6)).2 !! "n"%string ≠ F1 !! "n"%string ∧ (io_csv (full_after 5)).1 = false.
Proof. eexists. split; [reflexivity|]. split_and!; by vm_compute. Qed.

(** ** Without a failing call success is reported and everything is written, however few bytes each call takes *)
Theorem C111_no_error_export {A} (c : codec A) (w : world) cap f x parts F i : calm w → concat parts = enc c x →
  ∃ i', export_io w cap f parts F i = (true, export f (enc c x) F, i').
Proof. intros Hw Hp. destruct (export_calm w cap f parts F i Hw) as [i' E]. exists i'. rewrite E, Hp. unfold export. by rewrite export_run. Qed.
Print Assumptions C111_no_error_export.
Theorem C111_no_error_dump_mmap {NL EL} `{EqDecision NL, EqDecision EL} it lt (cn : codec NL) (ce : codec EL) (w : world) cap (g : sgraph NL EL) p parts F i :
  calm w → concat parts = enc (c_aux cn ce) (sg_num_nodes g, (sg_num_edges g, (sg_nlm g, sg_elm g))) →
  ∃ i', sg_dump_io w cap it lt g p parts F i = (true, sg_dump_mmap it lt cn ce g p F, i').
Proof.
  intros Hw Hp. destruct (sg_dump_io w cap it lt g p parts F i) as [[ok F'] i'] eqn:E.
  destruct (dump_outcome it lt cn ce w cap g p parts Hp F i ok F' i' E) as (_ & _ & H). destruct (H Hw) as [-> ->]. by exists i'.
Qed.
Print Assumptions C111_no_error_dump_mmap.
Theorem C111_no_error_csv {NL EL} `{EqDecision NL, EqDecision EL} it (tn : text NL) (te : text EL) V pn pe sep F F1 (w : world) cap ns es i :
  text_write it tn te V pn pe sep F = Ok F1 → pn ≠ pe → F1 !! pn = Some (text_of (concat ns)) → F1 !! pe = Some (text_of (concat es)) →
  calm w → csv_io w cap pn pe ns es F i = (true, F1).
Proof. exact (csv_whole it tn te V pn pe sep F F1 w cap ns es i). Qed.
Print Assumptions C111_no_error_csv.
Example C111_no_error_case : calm slow ∧ (io_dump slow).2 ≠ (io_dump (full_after 100)).2.
Proof. split; [exact slow_calm|apply io_slow]. Qed.

(** ** But success does not mean that everything is written *)
(** On a full disk, export reports success for every value shorter than the buffer, and leaves an empty file that cannot be imported. *)
Theorem C111_export_refuted {A} (c : codec A) P cap f x parts F : faithful c P → P x → concat parts = enc c x → enc c x ≠ [] → length (enc c x) < cap →
  ∃ F' i', export_io (full_disk [0]) cap f parts F 0 = (true, F', i') ∧ F' !! f = Some [] ∧ import c f F' = None.
Proof. exact (export_lost c P cap f x parts F). Qed.
Print Assumptions C111_export_refuted.
(** dump_mmap reports success, and opening panics. *)
Theorem C111_dump_mmap_refuted : ∃ (w : world) (g : sgraph (list N) (list N)) parts F' i',
  mappable TU8 TU8 is_string is_string true g ∧ concat parts = enc (c_aux c_string c_string) (sg_num_nodes g, (sg_num_edges g, (sg_nlm g, sg_elm g))) ∧
  sg_dump_io w (8 * 1024) TU8 TU8 g "g" parts ∅ 0 = (true, F', i') ∧ mm_open TU8 TU8 c_string c_string F' "g" = Panic.
Proof.
  exists (full_after 13), wit_sg, io_parts, (io_dump (full_after 13)).1.2, (io_dump (full_after 13)).2.
  split; [exact wit_sg_mappable|]. split; [exact io_parts_all|]. destruct io_lost as [H1 H2]. split; [|exact H2].
  rewrite <-H1. change (io_dump (full_after 13) = ((io_dump (full_after 13)).1.1, (io_dump (full_after 13)).1.2, (io_dump (full_after 13)).2)). by rewrite <-!surjective_pairing.
Qed.
Print Assumptions C111_dump_mmap_refuted.
(** On a full disk, writing a graph whose tables are shorter than the buffer reports success and
    leaves two empty files; reading them reports success too and adds nothing. *)
Theorem C111_csv_refuted {NL EL} `{EqDecision NL, EqDecision EL} dir it lt (tn : text NL) (te : text EL) cap pn pe sep ns es F h fl (g : graphmap NL EL) :
  pn ≠ pe → length (concat ns) < cap → length (concat es) < cap →
  ∃ F', csv_io (full_disk [0; 1]) cap pn pe ns es F 0 = (true, F') ∧ F' !! pn = Some "" ∧ F' !! pe = Some "" ∧
    text_read dir it lt tn te (Reader (Some pn) pe h fl) sep F' g = Ok (g, true).
Proof. exact (csv_lost dir it lt tn te cap pn pe sep ns es F h fl g). Qed.
Print Assumptions C111_csv_refuted.
