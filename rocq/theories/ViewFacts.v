(** Consequences of [represents] for any implementation. *)
From Verif Require Import Base Api Spec BaseFacts SpecFacts.

Section view.
  Context {NL EL : Type}.
  Implicit Types (V : gview NL EL) (A : agraph NL EL).

  Lemma rep_node_label V A n : represents V A → a_has_node A n →
    v_node_label V n = Ok (label_of (ag_nodes A !! n)).
  Proof.
    intros H Hn. unfold v_node_label. destruct (rp_get_node _ _ H n Hn) as (lid & -> & Hl).
    cbn [rbind]. rewrite <-Hl. by destruct lid.
  Qed.
  Lemma rep_edge_label V A s t : represents V A → a_has_edge A s t →
    v_edge_label V s t = Ok (label_of (a_edge_at A s t)).
  Proof.
    intros H He. unfold v_edge_label. destruct (rp_get_edge _ _ H s t He) as (lid & -> & Hl).
    cbn [rbind]. rewrite <-Hl. by destruct lid.
  Qed.
  Lemma rep_missing_node_label V A n : answers_missing V A → ¬ a_has_node A n → v_node_label V n = Ok None.
  Proof. intros H Hn. unfold v_node_label. by rewrite (am_get_node _ _ H). Qed.
  Lemma rep_missing_edge_label V A s t : answers_missing V A → ¬ a_has_edge A s t → v_edge_label V s t = Ok None.
  Proof. intros H Hn. unfold v_edge_label. by rewrite (am_get_edge _ _ H). Qed.
  Lemma rep_has_edge_true V A s t : represents V A → a_has_node A s →
    v_has_edge V s t = Ok true ↔ a_has_edge A s t.
  Proof.
    intros H Hs. destruct (rp_has_edge _ _ H s t Hs) as (b & -> & Hb). rewrite <-Hb.
    split; [by intros [= ->]|by intros ->].
  Qed.

  (** The out-edges of all nodes. *)
  Lemma degree_sum V A : represents V A → ag_dir A = true →
    ∃ ds, rmapl (v_degree V) (v_node_indices V) = Ok ds ∧ sum_list ds = a_num_edges A.
  Proof.
    intros H Hd. set (f := λ n, match v_neighbors V n with Ok l => l | _ => [] end).
    exists ((length ∘ f) <$> v_node_indices V).
    assert (∀ n, n ∈ v_node_indices V → a_has_node A n) as Hidx by (intros n; apply (rp_node_indices _ _ H)).
    split.
    - rewrite <-rmapl_ok_fmap. apply rmapl_ext. intros n Hn%Hidx. rewrite (rp_degree _ _ H n Hn).
      unfold f. simpl. destruct (rp_neighbors _ _ H n Hn) as (l & -> & _). done.
    - assert (lists_exactly (v_node_indices V ≫= λ n, (λ t, (n, t)) <$> f n) (λ e, is_Some (ag_edges A !! e))) as Hl.
      { split.
        - apply NoDup_bind'.
          + intros x1 x2 y _ _ (t1 & -> & _)%elem_of_list_fmap (t2 & ? & _)%elem_of_list_fmap. congruence.
          + intros n Hn%Hidx. apply NoDup_fmap_2; [by intros ?? [= ->]|]. unfold f.
            destruct (rp_neighbors _ _ H n Hn) as (l & -> & Hinc & _). by apply increasing_NoDup.
          + apply (rp_node_indices _ _ H).
        - intros [s t]. rewrite wf_stored by apply H. simpl. rewrite elem_of_list_bind. split.
          + intros (n & (t' & ? & Ht)%elem_of_list_fmap & Hn%Hidx). simplify_eq. split; [|by left].
            unfold f in Ht. destruct (rp_neighbors _ _ H n Hn) as (l & Hl & _ & Hm). rewrite Hl in Ht. by apply Hm.
          + intros [He _]. pose proof (wf_edge_nodes A s t (rp_wf _ _ H) He) as [Hs _].
            exists s. split; [|by apply (rp_node_indices _ _ H)]. apply elem_of_list_fmap. exists t. split; [done|].
            unfold f. destruct (rp_neighbors _ _ H s Hs) as (l & -> & _ & Hm). by apply Hm. }
      apply lists_exactly_length in Hl. unfold a_num_edges. rewrite <-Hl. clear.
      induction (v_node_indices V) as [|n l IH]; csimpl; [done|]. rewrite app_length, fmap_length. lia.
  Qed.
  Lemma in_degree_sum V A : represents V A → ag_dir A = true →
    ∃ ds, rmapl (v_in_degree V) (v_node_indices V) = Ok ds ∧ sum_list ds = a_num_edges A.
  Proof.
    intros H Hd. set (f := λ n, match v_in_neighbors V n with Ok l => l | _ => [] end).
    exists ((length ∘ f) <$> v_node_indices V).
    assert (∀ n, n ∈ v_node_indices V → a_has_node A n) as Hidx by (intros n; apply (rp_node_indices _ _ H)).
    split.
    - rewrite <-rmapl_ok_fmap. apply rmapl_ext. intros n Hn%Hidx. rewrite (rp_in_degree _ _ H Hd n Hn).
      unfold f. simpl. destruct (rp_in_neighbors _ _ H Hd n Hn) as (l & -> & _). done.
    - assert (lists_exactly (v_node_indices V ≫= λ n, (λ t, (t, n)) <$> f n) (λ e, is_Some (ag_edges A !! e))) as Hl.
      { split.
        - apply NoDup_bind'.
          + intros x1 x2 y _ _ (t1 & -> & _)%elem_of_list_fmap (t2 & ? & _)%elem_of_list_fmap. congruence.
          + intros n Hn%Hidx. apply NoDup_fmap_2; [by intros ?? [= ->]|]. unfold f.
            destruct (rp_in_neighbors _ _ H Hd n Hn) as (l & -> & Hinc & _). by apply increasing_NoDup.
          + apply (rp_node_indices _ _ H).
        - intros [s t]. rewrite wf_stored by apply H. simpl. rewrite elem_of_list_bind. split.
          + intros (n & (t' & ? & Ht)%elem_of_list_fmap & Hn%Hidx). simplify_eq. split; [|by left].
            unfold f in Ht. destruct (rp_in_neighbors _ _ H Hd n Hn) as (l & Hl & _ & Hm). rewrite Hl in Ht. by apply Hm.
          + intros [He _]. pose proof (wf_edge_nodes A s t (rp_wf _ _ H) He) as [_ Ht].
            exists t. split; [|by apply (rp_node_indices _ _ H)]. apply elem_of_list_fmap. exists s. split; [done|].
            unfold f. destruct (rp_in_neighbors _ _ H Hd t Ht) as (l & -> & _ & Hm). by apply Hm. }
      apply lists_exactly_length in Hl. unfold a_num_edges. rewrite <-Hl. clear.
      induction (v_node_indices V) as [|n l IH]; csimpl; [done|]. rewrite app_length, fmap_length. lia.
  Qed.
End view.
