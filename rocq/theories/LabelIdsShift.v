(** What the counter of edge label ids says for any static graph. *)
From Verif Require Import Base BaseFacts Api Spec SpecFacts SpecStatic ViewOps LabelIds Static Map GraphMap IntoStatic StaticShift.

Lemma zip_counter {X} (es : list X) (all : list (X * option N)) i : length es ≤ length all →
  counter_get i (omap snd (zip es all.*2)) = length (filter (λ e, e.2 = Some i) (take (length es) all)).
Proof.
  unfold counter_get. revert all. induction es as [|e es IH]; intros [|[x l] all] Hle; [done|done|cbn in Hle; lia|].
  cbn [length] in Hle. specialize (IH all ltac:(lia)). cbn [length fmap list_fmap zip_with take snd]. rewrite (filter_cons _ (x, l)). cbn [snd].
  destruct l as [j|]; csimpl.
  - rewrite filter_cons. destruct (decide (j = i)) as [->|Hj].
    + rewrite decide_True by done. cbn. by f_equal.
    + rewrite decide_False by congruence. exact IH.
  - exact IH.
Qed.
Lemma id_counter_any {NL EL} it lt dir (g : sgraph NL EL) :
  csr_wf (ev_offsets (sg_evec g)) (ev_edges (sg_evec g)) → (csr_nodes (ev_offsets (sg_evec g)) < id_card it)%N →
  csr_tight (ev_offsets (sg_evec g)) (ev_edges (sg_evec g)) → length (ev_labels (sg_evec g)) = length (ev_edges (sg_evec g)) →
  let V := sg_view it lt dir g in
  ∃ es c all, v_edge_indices V = Ok es ∧ v_edge_label_id_counter V = Ok c ∧
    StronglySorted lex_lt all.*1 ∧ (∀ s t, (s, t) ∈ all.*1 ↔ v_has_edge V s t = Ok true) ∧
    (∀ s t lid, (s, t, lid) ∈ all → v_get_edge V s t = Ok (Some (s, t, lid))) ∧ length es ≤ length all ∧
    ∀ i, counter_get i c = length (filter (λ e, e.2 = Some i) (take (length es) all)).
Proof.
  intros Hc Hfit Ht Hlen V. destruct (edges_any it lt dir g Hc Hfit Ht Hlen) as (es & l & all & H1 & H2 & H3 & H4 & H5 & H6 & H7 & H8).
  exists es, (omap snd l), all. split; [exact H1|]. split; [unfold v_edge_label_id_counter; fold V in H2; by rewrite H2|]. do 4 (split; [done|]).
  intros i. rewrite H6. by apply zip_counter.
Qed.
Lemma id_counter_shift_case : ∃ (g : graphmap N N) sg, gm_reachable false TU8 g ∧ gm_into_static TU8 TU8 false g = Ok sg ∧
  csr_wf (ev_offsets (sg_evec sg)) (ev_edges (sg_evec sg)) ∧ (csr_nodes (ev_offsets (sg_evec sg)) < id_card TU8)%N ∧
  csr_tight (ev_offsets (sg_evec sg)) (ev_edges (sg_evec sg)) ∧ length (ev_labels (sg_evec sg)) = length (ev_edges (sg_evec sg)) ∧
  v_edge_label_id_counter (sg_view TU8 TU8 false sg) = Ok [0; 0]%N ∧ v_edge_label_id_counter (sg_view TU8 TU8 true sg) = Ok [0; 0; 1; 1]%N.
Proof.
  destruct shift_case as (g & sg & H1 & H2 & H3 & H4 & H5 & H6 & _ & H7 & H8). exists g, sg. do 6 (split; [done|]).
  unfold v_edge_label_id_counter. by rewrite H7, H8.
Qed.
