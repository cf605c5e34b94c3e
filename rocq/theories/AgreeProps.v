(** Bfs, Dfs and ConnComp on the same graph. *)
From Verif Require Import Base BaseFacts Api Spec SpecFacts SpecTraverse Traverse TraverseProps SpecConn ConnComp ConnCompFacts ConnCompProps
  Map GraphMap GraphMapSim GraphMapThms GraphMapMore GraphMapProps ViewFacts.

Section agree.
  Context {NL EL : Type} (idt : idty) (V : gview NL EL) (A : agraph NL EL) (Hrep : represents V A) (Hiter : iterates V).
  Context (Hids : ∀ m, v_max_seen_id V = Ok (Some m) → (m < id_card idt)%N).

  Lemma reaches_sym : ag_dir A = false → ∀ x y, rtsc (a_has_edge A) x y ↔ reaches A x y.
  Proof.
    intros Hd x y. unfold reaches. split; intros H.
    - unfold rtsc in H. eapply rtc_subrel; [|exact H]. intros a b [Hab|Hab]; [done|]. by apply has_edge_sym.
    - unfold rtsc. eapply rtc_subrel; [|exact H]. intros a b Hab. by left.
  Qed.
  Lemma reaches_any s x : has_any_edge A s → rtsc (a_has_edge A) s x → has_any_edge A x.
  Proof.
    intros Hs Hx. unfold rtsc in Hx. induction Hx as [|a b c Hab Hbc IH]; [done|]. apply IH.
    destruct Hab as [Hab|Hab]; exists a; [by right|by left].
  Qed.
  (** The first part of a list with the right members. *)
  Lemma first_part (l l1 l2 l3 : list N) : NoDup l → l = l1 ++ l2 → NoDup l3 → (∀ x, x ∈ l1 ↔ x ∈ l3) → take (length l3) l ≡ₚ l3.
  Proof.
    intros Hn -> H3 Hx. apply NoDup_app in Hn as (H1 & _ & _). pose proof (NoDup_Permutation _ _ H1 H3 Hx) as Hp.
    rewrite <- (Permutation_length Hp), take_app. exact Hp.
  Qed.
  Lemma agree s n : ag_dir A = false → a_has_edge A s n →
    ∃ c lb ld, cc_new V = Ok c ∧ (∀ fuel, v_node_count V < fuel → bfs_run idt V fuel (Some s) = Ok lb ∧ dfs_run idt V fuel (Some s) = Ok ld) ∧
      ∀ keys, lists_exactly keys (λ k, is_Some (cc_get_parent k c)) →
        ∃ l c', cc_get_connected_nodes keys s c = Ok (Some l, c') ∧
          take (length l) lb ≡ₚ l ∧ take (length l) ld ≡ₚ l ∧
          (∀ x, (∃ c'', cc_is_connected s x c = Ok (true, c'')) ↔ x ∈ l).
  Proof using Hrep Hiter Hids.
    intros Hd He. assert (has_any_edge A s) as Hs by (exists n; by left).
    assert (a_has_node A s) as Hns by (by apply (wf_edge_nodes A s n (rp_wf _ _ Hrep))).
    destruct (new_spec V A Hrep Hiter) as (es & c & Hc & Hinv & Hseen & Hj).
    destruct (bfs_thm idt V A Hrep Hids (Some s) s (conj eq_refl Hns)) as (lb & Hlb & [Nb _] & _ & Tb & _).
    destruct (traversal_first A s lb Tb) as (b1 & b2 & Eb & Mb & _).
    destruct (dfs_once idt V A (Some s) s Hrep Hids (conj eq_refl Hns)) as (ld & Hld & Nd & _ & _ & d1 & d2 & Ed & Md).
    exists c, lb, ld. split; [done|]. split; [intros fuel Hf; split; auto|]. intros keys [Hkn Hk].
    assert (∀ k, k ∈ keys ↔ seen es k) as Hks. { intros k. rewrite Hk. apply Hinv. }
    destruct (connected_nodes_spec es c keys s Hinv) as [[Hns' _]|(_ & l & c' & Hl & _ & Hsub & Hlin)].
    { intros k. by apply Hks. }
    { exfalso. by apply Hns', Hseen. }
    assert (∀ x, x ∈ l ↔ joined es s x) as Hlj.
    { intros x. rewrite Hlin, Hks. split; [by intros [_ ?]|]. intros Hjx. split; [|done]. apply Hjx. }
    assert (∀ x, x ∈ l ↔ reaches A s x) as Hlr.
    { intros x. rewrite Hlj, Hj, (reaches_sym Hd). split; [by intros (_ & _ & ?)|]. intros Hx. split; [done|]. split; [|done].
      apply (reaches_any s x Hs). by apply reaches_sym. }
    assert (NoDup l) as Nl by (by eapply sublist_NoDup).
    exists l, c'. split; [done|]. split; [|split].
    - eapply first_part; [exact Nb|exact Eb|exact Nl|]. intros x. by rewrite Mb, Hlr.
    - eapply first_part; [exact Nd|exact Ed|exact Nl|]. intros x. by rewrite Md, Hlr.
    - intros x. rewrite Hlj. destruct (is_connected_spec es c s x Hinv) as (v & c2 & Hv & _ & Hvj). rewrite <- Hvj. split.
      + intros [c3 Hc3]. rewrite Hv in Hc3. by injection Hc3.
      + intros ->. by exists c2.
  Qed.
  (** In directed graphs ConnComp joins at least what the traversals reach first. *)
  Lemma reach_joined s x : reaches A s x → s ≠ x →
    ∃ c c', cc_new V = Ok c ∧ cc_is_connected s x c = Ok (true, c').
  Proof using Hrep Hiter.
    intros Hr Hne. destruct (thm_graph V A Hrep Hiter) as (c & Hc & Hcon & _). destruct (Hcon s x) as (v & c' & Hv & Hiff).
    assert (v = true) as ->; [|by exists c, c']. apply Hiff.
    assert (rtsc (a_has_edge A) s x) as Hrt. { unfold rtsc. eapply rtc_subrel; [|exact Hr]. intros a b Hab. by left. }
    assert (has_any_edge A s) as Hs. { inversion Hr as [|? b ? Hab]; subst; [done|]. exists b. by left. }
    split; [done|]. split; [|done]. by apply (reaches_any s x).
  Qed.
End agree.

Lemma agree_graphmap {NL EL} `{EqDecision NL, EqDecision EL} (idt lt : idty) (g : graphmap NL EL) ord s n :
  gm_reachable false lt g → hash_order g ord →
  let V := gm_view false ord g in
  (∀ m, v_max_seen_id V = Ok (Some m) → (m < id_card idt)%N) → v_has_edge V s n = Ok true →
  ∃ c lb ld, cc_new V = Ok c ∧ (∀ fuel, v_node_count V < fuel → bfs_run idt V fuel (Some s) = Ok lb ∧ dfs_run idt V fuel (Some s) = Ok ld) ∧
    ∀ keys, lists_exactly keys (λ k, is_Some (cc_get_parent k c)) →
      ∃ l c', cc_get_connected_nodes keys s c = Ok (Some l, c') ∧
        take (length l) lb ≡ₚ l ∧ take (length l) ld ≡ₚ l ∧
        (∀ x, (∃ c'', cc_is_connected s x c = Ok (true, c'')) ↔ x ∈ l).
Proof.
  intros [st Hst]%reach_skrel Ho V Hids He. destruct (skrel_view false g st ord Hst Ho) as (HA & _ & Hit & _).
  apply (agree idt (v_unlabelled V) _ HA) with (n := n).
  - destruct Hit as [I1 I2]. split; [exact I1|exact I2].
  - exact Hids.
  - rewrite <- (rp_directed _ _ HA). done.
  - assert (a_has_node (a_unlabelled (sp_g st)) s) as Hns.
    { apply (rp_has_node _ _ HA). cbn [v_has_edge v_has_node gm_view V v_unlabelled] in He |- *. unfold V in He. simpl in He.
      unfold gm_has_edge in He. simpl. unfold gm_has_node. destruct (g_nodes g !! s); [by apply bool_decide_eq_true|done]. }
    destruct (rp_has_edge _ _ HA s n Hns) as (b & Hb & Hiff). apply Hiff. change (v_has_edge V s n = Ok b) in Hb. congruence.
Qed.
