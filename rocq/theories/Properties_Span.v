(** C95: what a TypedMemoryMap of any file shows, and which slices stay inside the file.
    [inside], [items_of] and [bytes] are in SpecSpan.v. *)
From stdpp Require Import gmap strings.
From Verif Require Import Base Bytes Mmap MmapSpan SpecSpan MmapSpanProps.

(** ** C95. Any file that is not empty can be mapped at any type with a size; new and with_mmap
    give the same map, and [..] shows the items that fit in the file and nothing else. *)
Theorem C95_any_file (t : idty) (F : fs) (f : string) (b : list N) :
  t ≠ TUnit → F !! f = Some b → b ≠ [] → bytes b →
  ∃ m l, tm_new t F f = Ok m ∧ tm_with_mmap t b = Ok m ∧ items_of t b l ∧ (∀ l', items_of t b l' → l' = l) ∧
    inside (id_size t) b (span_full m) ∧ span_items m (span_full m) = l ∧ tm_full m = Ok l ∧ tm_len m = length l.
Proof.
  intros Ht Hf Hn Hb. destruct (any_file t F f b Ht Hf Hn Hb) as (l & Hl & E1 & E2). eexists _, l.
  destruct (full_thm t b l Ht Hl) as (H1 & H2 & H3).
  split_and!; [exact E1|exact E2|done| |done|done|done|done]. intros l' Hl'. exact (items_unique t b l' l Ht Hl' Hl).
Qed.
Print Assumptions C95_any_file.
Example C95_case : bytes [1; 2; 3; 4; 5]%N ∧ items_of TU16 [1; 2; 3; 4; 5]%N [513; 1027]%N.
Proof.
  split; [apply (bool_decide_unpack _); by vm_compute|]. exists [5%N]. split_and!; [done|by vm_compute; lia|].
  apply (bool_decide_unpack _); by vm_compute.
Qed.
(** Mapping panics exactly for a missing file, an empty file and the type (). *)
Theorem C95_no_map (t : idty) (F : fs) (f : string) :
  (F !! f = None ∨ F !! f = Some [] ∨ t = TUnit) ↔ tm_new t F f = Panic.
Proof. exact (no_map t F f). Qed.
Print Assumptions C95_no_map.
Example C95_no_map_case : tm_new TU8 {["a" := [7%N]]} "b" = Panic ∧ tm_new TUnit {["a" := [7%N]]} "a" = Panic.
Proof. by vm_compute. Qed.
(** [..j] stays inside the file exactly when there are j items: past them it reads memory that
    is not the file's, and no check stops it. *)
Theorem C95_to (t : idty) (b l : list N) (m : tmap) (j : N) :
  t ≠ TUnit → items_of t b l → tm_with_mmap t b = Ok m →
  (inside (id_size t) b (span_to m j) ↔ (j ≤ N.of_nat (length l))%N) ∧
  ((j ≤ N.of_nat (length l))%N → span_items m (span_to m j) = take (N.to_nat j) l).
Proof. intros Ht Hl Hm. rewrite (with_mmap_eq t b l m Ht Hl Hm). exact (to_thm t b l Ht Hl j). Qed.
Print Assumptions C95_to.
Example C95_to_case : ∃ m, tm_with_mmap TU16 [1; 2; 3; 4; 5]%N = Ok m ∧
  inside 2 [1; 2; 3; 4; 5]%N (span_to m 2) ∧ ¬ inside 2 [1; 2; 3; 4; 5]%N (span_to m 3).
Proof. eexists. split; [by vm_compute|]. split; by vm_compute. Qed.
(** [i..] shows the items from the i-th on. Past the end it panics in a build with overflow
    checks and reads outside of the file in a build without. *)
Theorem C95_from (checks : bool) (t : idty) (b l : list N) (m : tmap) (i : N) :
  t ≠ TUnit → items_of t b l → tm_with_mmap t b = Ok m →
  (i < id_card TUsize)%N → (N.of_nat (length b) < id_card TUsize)%N →
  ((i ≤ N.of_nat (length l))%N →
     ∃ s, span_from checks m i = Ok s ∧ inside (id_size t) b s ∧ span_items m s = drop (N.to_nat i) l) ∧
  ((N.of_nat (length l) < i)%N →
     match span_from checks m i with
     | Ok s => checks = false ∧ ¬ inside (id_size t) b s
     | r => checks = true ∧ r = Panic
     end).
Proof. intros Ht Hl Hm. rewrite (with_mmap_eq t b l m Ht Hl Hm). exact (from_thm t b l Ht Hl checks i). Qed.
Print Assumptions C95_from.
Example C95_from_case : ∃ m, tm_with_mmap TU16 [1; 2; 3; 4; 5]%N = Ok m ∧
  span_from true m 1 = Ok (Span 2 1) ∧ span_from true m 3 = Panic ∧ span_from false m 3 = Ok (Span 6 18446744073709551615).
Proof. eexists. split; [by vm_compute|]. by vm_compute. Qed.
(** Whatever the files hold, a mapped graph reads its arrays through [..]: it sees the items of
    the file. *)
Theorem C95_typed_map (t : idty) (F : fs) (f : string) (l : list N) :
  (∀ b, F !! f = Some b → bytes b) →
  typed_map t F f = Ok l ↔ t ≠ TUnit ∧ ∃ b, F !! f = Some b ∧ b ≠ [] ∧ items_of t b l.
Proof. exact (typed_map_iff t F f l). Qed.
Print Assumptions C95_typed_map.
Example C95_typed_map_case : typed_map TU16 {["a" := [1; 2; 3; 4; 5]%N]} "a" = Ok [513; 1027]%N.
Proof. by vm_compute. Qed.
