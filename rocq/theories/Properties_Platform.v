(** Dumps on other machines (C112). [F] is any file system, [p] any prefix without left-over
    optional files, the graph any that can be mapped. *)
From stdpp Require Import gmap strings.
From Verif Require Import Base Api Bytes Spec SpecStatic Map GraphMap Static Serde SpecSerde SerdeFacts Mmap SpecMmap SerdeWit MmapWit Platform SpecPlatform PlatformProps PlatformThms PlatformWit.

(** On x86-64 the model is the one used for the other properties. *)
Theorem C112_x86_64 {NL EL} `{EqDecision NL, EqDecision EL} it lt (cn : codec NL) (ce : codec EL) g p F :
  sg_dump_on x86_64 it lt cn ce g p F = sg_dump_mmap it lt cn ce g p F ∧
  ((∀ f b x, F !! f = Some b → x ∈ b → (x < 256)%N) → mm_open_on x86_64 it lt cn ce F p = mm_open it lt cn ce F p).
Proof. split; [apply x86_dump|]. intros HF. apply x86_open. intros f b Hb. apply Forall_forall. intros x. exact (HF f b x Hb). Qed.
Print Assumptions C112_x86_64.
(** On every machine, whatever its byte order and the size of its usize, a dump opens as the dumped graph. *)
Theorem C112_native {NL EL} `{EqDecision NL, EqDecision EL} M it lt (cn : codec NL) (ce : codec EL) PN PE dir g p F :
  faithful cn PN → faithful ce PE → m_usize M ≠ 0 → usual_width M it → usual_width M lt →
  mappable it lt PN PE dir g → no_stale F p g → fits_on M it lt g →
  ∃ m, mm_open_on M it lt cn ce (sg_dump_on M it lt cn ce g p F) p = Ok m ∧ same_answers (sg_view it lt dir g) (mm_view it lt m).
Proof. intros Hcn Hce HM _ _. exact (native_answers it lt cn ce PN PE Hcn Hce M dir g p F HM). Qed.
Print Assumptions C112_native.
(** The files differ between machines, so the theorem is not about one layout. *)
Example C112_native_case : mappable TU8 TU8 is_string is_string true wit_sg ∧ no_stale ∅ "g" wit_sg ∧
  Forall (λ M, m_usize M ≠ 0 ∧ usual_width M TU8 ∧ fits_on M TU8 TU8 wit_sg) [Machine false 8; Machine true 8; Machine false 4; Machine true 4] ∧
  NoDup ((λ M, sg_dump_on M TU8 TU8 c_string c_string wit_sg "g" ∅ !! "g_OUT.offsets"%string) <$> [Machine false 8; Machine true 8; Machine false 4; Machine true 4]).
Proof. split; [exact wit_sg_mappable|]. split; [exact wit_no_stale|]. split; [exact wit_fits_all|exact wit_layouts]. Qed.

(** ** But a dump cannot be moved to a machine with another layout *)
(** With the other byte order the dump opens, and asking for the neighbours of any node that has some panics. *)
Theorem C112_byte_order_refuted {NL EL} `{EqDecision NL, EqDecision EL} b it lt (cn : codec NL) (ce : codec EL) PN PE dir g p F :
  faithful cn PN → faithful ce PE → mappable it lt PN PE dir g → no_stale F p g → (N.of_nat (length (ev_edges (sg_evec g))) < 2 ^ 32)%N →
  ∃ m, mm_open_on (Machine (negb b) 8) it lt cn ce (sg_dump_on (Machine b 8) it lt cn ce g p F) p = Ok m ∧
    v_node_count (mm_view it lt m) = v_node_count (sg_view it lt dir g) ∧
    ∀ n nb, v_neighbors (sg_view it lt dir g) n = Ok nb → nb ≠ [] → v_neighbors (mm_view it lt m) n = Panic.
Proof.
  intros Hcn Hce Hg Hs Hl. eexists. split; [exact (open_swapped it lt cn ce PN PE Hcn Hce b dir g p F Hg Hs)|]. split; [done|].
  intros n nb. exact (swapped_panics it lt (sg_evec g) n nb Hl).
Qed.
Print Assumptions C112_byte_order_refuted.
(** A dump of a 64-bit machine opens on a 32-bit machine of the same byte order; node 0 then shows
    no neighbours and node 1 those of node 0. *)
Theorem C112_word_size_refuted {NL EL} `{EqDecision NL, EqDecision EL} it lt (cn : codec NL) (ce : codec EL) PN PE dir g p F :
  faithful cn PN → faithful ce PE → mappable it lt PN PE dir g → no_stale F p g → it ≠ TUsize → lt ≠ TUsize →
  fits_on (Machine false 4) it lt g → csr_tight (ev_offsets (sg_evec g)) (ev_edges (sg_evec g)) → 2 ≤ length (ev_offsets (sg_evec g)) →
  ∃ m, mm_open_on (Machine false 4) it lt cn ce (sg_dump_on (Machine false 8) it lt cn ce g p F) p = Ok m ∧
    v_node_count (mm_view it lt m) = v_node_count (sg_view it lt dir g) ∧
    v_neighbors (mm_view it lt m) 0 = Ok [] ∧ v_neighbors (mm_view it lt m) 1 = v_neighbors (sg_view it lt dir g) 0.
Proof.
  intros Hcn Hce Hg Hs Hi Hl (Hf & Hn & He) [H0 _] H2. eexists.
  split; [exact (open_halved it lt cn ce PN PE Hcn Hce dir g p F Hi Hl Hg Hs Hn He)|]. split; [done|].
  apply (halved_shows it lt (sg_evec g) Hi); [|exact H0|exact H2]. apply Forall_forall. intros o Ho.
  apply (Hf TUsize (N.of_nat <$> ev_offsets (sg_evec g)) (N.of_nat o)); [|by apply elem_of_list_fmap_1]. unfold arrays, ev_arrays. set_solver.
Qed.
Print Assumptions C112_word_size_refuted.
Example C112_refuted_case : mappable TU8 TU8 is_string is_string true wit_sg ∧ csr_tight (ev_offsets (sg_evec wit_sg)) (ev_edges (sg_evec wit_sg)) ∧
  2 ≤ length (ev_offsets (sg_evec wit_sg)) ∧ v_neighbors (sg_view TU8 TU8 true wit_sg) 0 = Ok [1]%N ∧ v_neighbors (sg_view TU8 TU8 true wit_sg) 1 = Ok [2]%N.
Proof. split; [exact wit_sg_mappable|]. split; [exact wit_tight|]. split; [vm_compute; lia|]. split; by vm_compute. Qed.
