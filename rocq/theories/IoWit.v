(** Witnesses for writing with input/output errors. *)
From Coq Require Import Ascii.
From stdpp Require Import gmap strings.
From Verif Require Import Base BaseFacts Api Bytes Spec SpecStatic Map GraphMap Static Serde SpecSerde SerdeFacts Mmap SpecMmap MmapFacts MmapProps MmapThms SerdeWit MmapWit Csv CsvText CsvCutWit
  IoFail SpecIo.

(** A disk that is full after [k] calls. *)
Definition full_after (k : nat) : world := λ i, if decide (i < k) then IoAll else IoErr.
(** Every second call takes a single byte. *)
Definition slow : world := λ i, if Nat.even i then IoAll else IoPart 1.
Lemma slow_calm : calm slow.
Proof. intros i. unfold slow. by destruct (Nat.even i). Qed.
(** The encoding of the counters and labels of [wit_sg], in two pieces. *)
Definition io_parts : list (list N) := [take 16 (aux_bytes c_string c_string wit_sg); drop 16 (aux_bytes c_string c_string wit_sg)].
Lemma io_parts_all : concat io_parts = aux_bytes c_string c_string wit_sg.
Proof. by vm_compute. Qed.
Definition io_dump (w : world) : io_result := sg_dump_io w (8 * 1024) TU8 TU8 wit_sg "g" io_parts ∅ 0.
Lemma io_lost : (io_dump (full_after 13)).1.1 = true ∧ mm_open TU8 TU8 c_string c_string (io_dump (full_after 13)).1.2 "g" = Panic.
Proof. split; by vm_compute. Qed.
Lemma io_slow : (io_dump slow).1.1 = true ∧ (io_dump slow).2 ≠ (io_dump (full_after 100)).2.
Proof. split; by vm_compute. Qed.
Lemma io_failed : (io_dump (full_after 7)).1.1 = false ∧ size (io_dump (full_after 7)).1.2 = 4.
Proof. split; by vm_compute. Qed.
(** The tables of the graph of CsvCutWit.v, record by record, through a buffer of 8 characters. *)
Definition io_nodes : list (list ascii) := list_ascii_of_string <$> ["nodeId:ID,:LABEL" +:+ String c_lf ""; "12,78" +:+ String c_lf ""; "34," +:+ String c_lf ""]%string.
Definition io_edges : list (list ascii) := list_ascii_of_string <$> [":START_ID,:END_ID,:TYPE" +:+ String c_lf ""; "12,34,56" +:+ String c_lf ""]%string.
Definition io_csv (w : world) : bool * textfs := csv_io w 8 "n" "e" io_nodes io_edges ∅ 0.
