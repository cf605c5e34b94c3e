(** Witnesses for dumps on other machines. *)
From stdpp Require Import gmap strings.
From Verif Require Import Base BaseFacts Api Bytes Spec SpecStatic Map GraphMap Static Serde SpecSerde SerdeFacts Mmap SpecMmap MmapFacts MmapProps MmapThms SerdeWit MmapWit
  Platform SpecPlatform.

Lemma wit_no_stale : no_stale ∅ "g" wit_sg.
Proof. intros f _. apply lookup_empty. Qed.
Lemma wit_tight : csr_tight (ev_offsets (sg_evec wit_sg)) (ev_edges (sg_evec wit_sg)).
Proof. split; by vm_compute. Qed.
Lemma fits_small M : size_on M TUsize = 4 ∨ size_on M TUsize = 8 → fits_on M TU8 TU8 wit_sg.
Proof.
  intros HM. assert (∀ x, (x < 256)%N → ∀ t, t = TUsize ∨ t = TU8 → (x < 256 ^ N.of_nat (size_on M t))%N) as Hx.
  { intros x Hx t [-> | ->]; [|exact Hx]. destruct HM as [-> | ->]; [change (256 ^ N.of_nat 4)%N with 4294967296%N|change (256 ^ N.of_nat 8)%N with 18446744073709551616%N]; lia. }
  assert (Forall (λ a, (a.1 = TUsize ∨ a.1 = TU8) ∧ Forall (λ x, x < 256)%N a.2) (arrays TU8 TU8 wit_sg)) as Ha.
  { apply (bool_decide_unpack _). by vm_compute. }
  split; [|split; (change (m_usize M) with (size_on M TUsize); apply Hx; [by vm_compute|by left])].
  intros t l x Hin Hxl. rewrite Forall_forall in Ha. destruct (Ha _ Hin) as [Ht Hl]. cbn [fst snd] in *. apply Hx; [|done]. exact (proj1 (Forall_forall _ _) Hl x Hxl).
Qed.
Lemma wit_fits_all : Forall (λ M, m_usize M ≠ 0 ∧ usual_width M TU8 ∧ fits_on M TU8 TU8 wit_sg) [Machine false 8; Machine true 8; Machine false 4; Machine true 4].
Proof. repeat (apply Forall_cons; split; [split; [done|split; [done|]]; apply fits_small; (by left) || by right|]). apply Forall_nil_2. Qed.
Lemma wit_layouts : NoDup ((λ M, sg_dump_on M TU8 TU8 c_string c_string wit_sg "g" ∅ !! "g_OUT.offsets"%string) <$> [Machine false 8; Machine true 8; Machine false 4; Machine true 4]).
Proof. apply (bool_decide_unpack _). by vm_compute. Qed.
