(** What is fed to a Hasher determines the graph. *)
From Verif Require Import Base BaseFacts Api Spec SpecFacts ViewFacts ViewOps ViewOpsProps.

Section code.
  Context {T X : Type} (h : X → list T).
  Context (Hh : ∀ x y r r', h x ++ r = h y ++ r' → x = y ∧ r = r').
  Lemma code_vec : ∀ l l' r r', length l = length l' → (l ≫= h) ++ r = (l' ≫= h) ++ r' → l = l' ∧ r = r'.
  Proof using Hh.
    induction l as [|x l IH]; intros [|y l'] r r' Hlen; try done. rewrite !bind_cons, <- !(assoc_L (++)). intros Heq.
    apply Hh in Heq as [-> Heq]. apply IH in Heq as [-> ->]; [done|]. by injection Hlen.
  Qed.
End code.

Section inj.
  Context {NL EL : Type}.
  Implicit Types (V : gview NL EL) (A : agraph NL EL).
  Local Notation tok := (@htok NL EL).
  Lemma h_vec_inj {X} (h : X → list tok) : (∀ x y r r', h x ++ r = h y ++ r' → x = y ∧ r = r') →
    ∀ l l' r r', h_vec h l ++ r = h_vec h l' ++ r' → l = l' ∧ r = r'.
  Proof. intros Hh l l' r r'. unfold h_vec. rewrite <- !app_comm_cons. intros Heq. injection Heq as Hl Heq. by apply (code_vec h Hh). Qed.
  Lemma h_opt_inj {X} (h : X → tok) : (∀ x y, h x = h y → x = y) →
    ∀ x y r r', h_opt h x ++ r = h_opt h y ++ r' → x = y ∧ r = r'.
  Proof. intros Hh [x|] [y|] r r' Heq; try done; simpl in Heq; injection Heq; [intros -> ->%Hh|intros ->]; done. Qed.

  Lemma stream_inj ns es A ns' es' A' : h_stream ns es A = h_stream ns' es' A' →
    ns = ns' ∧ es = es' ∧
    ((λ n, label_of (ag_nodes A !! n)) <$> ns) = ((λ n, label_of (ag_nodes A' !! n)) <$> ns') ∧
    ((λ e, label_of (a_edge_at A e.1 e.2)) <$> es) = ((λ e, label_of (a_edge_at A' e.1 e.2)) <$> es').
  Proof.
    unfold h_stream. rewrite <- (app_nil_r (h_vec (h_opt HEdgeLabel) _)), <- (app_nil_r (h_vec (h_opt HEdgeLabel) ((λ e, label_of (a_edge_at A' e.1 e.2)) <$> es'))).
    intros Heq. apply h_vec_inj in Heq as [H1 Heq]; [|intros x y r r' E; simpl in E; by injection E as -> ->].
    apply h_vec_inj in Heq as [H2 Heq]; [|apply h_opt_inj; by intros x y [= ->]].
    apply h_vec_inj in Heq as [H3 Heq]; [|intros [? ?] [? ?] r r' E; simpl in E; by injection E as -> -> ->].
    apply h_vec_inj in Heq as [H4 _]; [done|apply h_opt_inj; by intros x y [= ->]].
  Qed.
  Lemma fmap_eq_in {X Y} (f g : X → Y) (l : list X) : f <$> l = g <$> l → ∀ x, x ∈ l → f x = g x.
  Proof. induction l as [|y l IH]; intros Heq x; [by intros ?%elem_of_nil|]. injection Heq as H1 H2. intros [->|Hx]%elem_of_cons; [done|]. by apply IH. Qed.

  Lemma graph_hash_inj V V' A A' : represents V A → represents V' A' → ag_dir A = ag_dir A' →
    graph_hash V = graph_hash V' ↔ A = A'.
  Proof.
    intros H H' Hd. split.
    - intros Heq. destruct (rp_edge_indices _ _ H) as (es & Hes & _ & Hl). destruct (rp_edge_indices _ _ H') as (es' & Hes' & _ & Hl').
      rewrite (hash_run V A es H Hes), (hash_run V' A' es' H' Hes') in Heq. assert (∀ X (a b : X), Ok a = Ok b → a = b) as Hok by (by intros ??? [= ->]). apply Hok in Heq. clear Hok.
      apply stream_inj in Heq as (H1 & H2 & H3 & H4). rewrite <- H1 in H3. rewrite <- H2 in H4.
      pose proof (fmap_eq_in _ _ _ H3) as Hn. pose proof (fmap_eq_in _ _ _ H4) as He. clear H3 H4.
      assert (∀ n, n ∈ sorted_ids (v_node_indices V) ↔ a_has_node A n) as Mn.
      { intros n. unfold sorted_ids. rewrite merge_sort_Permutation. apply (rp_node_indices _ _ H). }
      assert (∀ n, n ∈ sorted_ids (v_node_indices V) ↔ a_has_node A' n) as Mn'.
      { intros n. rewrite H1. unfold sorted_ids. rewrite merge_sort_Permutation. apply (rp_node_indices _ _ H'). }
      assert (∀ e, e ∈ sorted_pairs es ↔ is_Some (ag_edges A !! e)) as Me.
      { intros e. unfold sorted_pairs. rewrite merge_sort_Permutation. apply Hl. }
      assert (∀ e, e ∈ sorted_pairs es ↔ is_Some (ag_edges A' !! e)) as Me'.
      { intros e. rewrite H2. unfold sorted_pairs. rewrite merge_sort_Permutation. apply Hl'. }
      assert (ag_nodes A = ag_nodes A') as En.
      { apply map_eq. intros n. destruct (decide (n ∈ sorted_ids (v_node_indices V))) as [Hin|Hin].
        - pose proof (Hn n Hin) as Hlab. pose proof (proj1 (Mn n) Hin) as [x Hx]. pose proof (proj1 (Mn' n) Hin) as [y Hy].
          simpl in Hlab. rewrite Hx, Hy in Hlab |- *. simpl in Hlab. by rewrite Hlab.
        - transitivity (@None (option NL)); [|symmetry]; apply eq_None_not_Some; intros Hs; apply Hin; [by apply Mn|by apply Mn']. }
      assert (ag_edges A = ag_edges A') as Ee.
      { apply map_eq. intros e. destruct (decide (e ∈ sorted_pairs es)) as [Hin|Hin].
        - pose proof (He e Hin) as Hlab. pose proof (proj1 (Me e) Hin) as [x Hx]. pose proof (proj1 (Me' e) Hin) as [y Hy].
          destruct e as [s t]. simpl in Hlab. unfold a_edge_at in Hlab.
          destruct (rp_wf _ _ H s t (proj1 (Me (s, t)) Hin)) as (Hk & _). destruct (rp_wf _ _ H' s t (proj1 (Me' (s, t)) Hin)) as (Hk' & _).
          rewrite Hk, Hk', Hx, Hy in Hlab. rewrite Hx, Hy. simpl in Hlab. by rewrite Hlab.
        - transitivity (@None (option EL)); [|symmetry]; apply eq_None_not_Some; intros Hs; apply Hin; [by apply Me|by apply Me']. }
      destruct A, A'; simpl in *. by subst.
    - intros <-. destruct (graph_hash_thm V V' A H H') as (h & -> & ->). done.
  Qed.
  Lemma box_hash_inj V V' A A' : represents V A → represents V' A' → box_hash V = box_hash V' ↔ A = A'.
  Proof.
    intros H H'. split.
    - unfold box_hash. destruct (graph_hash_thm V V A H H) as (h & Hh & _). destruct (graph_hash_thm V' V' A' H' H') as (h' & Hh' & _).
      rewrite Hh, Hh'. cbn [rbind]. rewrite (rp_is_di _ _ H), (rp_is_di _ _ H'). intros Heq. injection Heq as Hd ->.
      apply (graph_hash_inj V V' A A' H H' Hd). by rewrite Hh, Hh'.
    - intros <-. destruct (box_hash_thm V V' A H H') as (h & -> & ->). done.
  Qed.
End inj.
