(** Counts, label removal, the edge iterator at the limit, and into_static with gaps. *)
From Verif Require Import Base BaseFacts Api Spec SpecFacts ViewFacts SpecStatic Static StaticFacts SpecSGraph StaticProps
  GraphMap IntoStatic.

(** ** Removing labels *)
Section remove.
  Context {NL EL : Type} (it lt : idty) (dir : bool) (g : sgraph NL EL).
  Local Notation V := (sg_view it lt dir).
  Lemma remove_node_thm : same_structure (V g) (V (sg_remove_node_labels g)) ∧ same_edge_labels (V g) (V (sg_remove_node_labels g)) ∧
    no_node_labels (V (sg_remove_node_labels g)).
  Proof.
    split; [by constructor|]. split; [done|]. split_and!; [|intros n|done..].
    - intros n. simpl. unfold sg_get_node. simpl. by destruct (sg_has_node (sg_remove_node_labels g) n).
    - unfold v_node_label. simpl. unfold sg_get_node. simpl. by destruct (sg_has_node (sg_remove_node_labels g) n).
  Qed.
  Lemma find_label_none e s t : ev_label_vec e = None → ev_find_edge_label_id e s t = Ok None.
  Proof. intros H. unfold ev_find_edge_label_id, ev_labels. by rewrite H. Qed.
  Lemma remove_edge_thm : same_structure (V g) (V (sg_remove_edge_labels g)) ∧ same_node_labels (V g) (V (sg_remove_edge_labels g)) ∧
    no_edge_labels (V (sg_remove_edge_labels g)).
  Proof.
    split.
    { constructor; try done.
      - intros n. simpl. unfold sg_in_degree, sg_in_neighbors. simpl. by destruct (sg_in g).
      - intros n. simpl. unfold sg_in_neighbors. simpl. by destruct (sg_in g). }
    split; [done|]. split_and!; [|intros es|done].
    - intros s t b. simpl. unfold v_edge_label. simpl. unfold sg_get_edge. simpl. intros ->. cbn [rbind].
      by destruct b.
    - simpl. unfold sg_edges. intros ->. done.
  Qed.
  Lemma remove_labels_thm : same_structure (V g) (V (sg_remove_labels g)) ∧
    no_node_labels (V (sg_remove_labels g)) ∧ no_edge_labels (V (sg_remove_labels g)).
  Proof.
    split_and!.
    - constructor; try done.
      + intros n. simpl. unfold sg_in_degree, sg_in_neighbors. simpl. by destruct (sg_in g).
      + intros n. simpl. unfold sg_in_neighbors. simpl. by destruct (sg_in g).
    - split_and!; [|intros n|done..].
      + intros n. simpl. unfold sg_get_node. simpl. by destruct (sg_has_node (sg_remove_labels g) n).
      + unfold v_node_label. simpl. unfold sg_get_node. simpl. by destruct (sg_has_node (sg_remove_labels g) n).
    - split_and!; [|intros es|done].
      + intros s t b. simpl. unfold v_edge_label. simpl. unfold sg_get_edge. simpl. intros ->. cbn [rbind].
        by destruct b.
      + simpl. unfold sg_edges. intros ->. done.
  Qed.
End remove.
Lemma remove_labels_arrays {NL EL} lt (g : sgraph NL EL) A : arrays_of lt g A → arrays_of lt (sg_remove_labels g) (a_unlabelled A).
Proof.
  intros H. assert (∀ s t, a_has_edge (a_unlabelled A) s t ↔ a_has_edge A s t) as He.
  { intros s t. unfold a_has_edge, a_edge_at. simpl. rewrite lookup_fmap. by rewrite fmap_is_Some. }
  assert (∀ n, a_has_node (a_unlabelled A) n ↔ a_has_node A n) as Hn.
  { intros n. unfold a_has_node. simpl. rewrite lookup_fmap. by rewrite fmap_is_Some. }
  constructor; try apply H.
  - intros s t Hs. simpl in Hs. rewrite lookup_fmap, fmap_is_Some in Hs. apply (so_wf _ _ _ H) in Hs as (H1 & H2 & H3).
    split; [done|]. by rewrite !Hn.
  - intros n. rewrite Hn. apply (so_nodes _ _ _ H).
  - intros s t. rewrite He. apply (so_edges _ _ _ H).
  - intros n _. simpl. rewrite lookup_fmap. by destruct (ag_nodes A !! n).
  - intros s t k _. simpl. unfold a_edge_at. simpl. rewrite lookup_fmap. by destruct (ag_edges A !! _).
  - intros Hd. destruct (so_in _ _ _ H Hd) as (e & He1 & H1 & H2 & H3). simpl. rewrite He1. simpl. eexists. split; [done|]. simpl.
    split; [done|]. split; [done|]. intros s t. by rewrite He.
Qed.

(** ** Counts *)
Section counts.
  Context {NL EL : Type} (lt : idty) (g : sgraph NL EL) (A : agraph NL EL).
  Context (H : arrays_of lt g A) (Ht : csr_tight (ev_offsets (sg_evec g)) (ev_edges (sg_evec g))).
  Local Notation e := (sg_evec g).
  Local Notation offs := (ev_offsets (sg_evec g)).
  (** All ordered pairs. *)
  Definition all_pairs : list (N * N) :=
    seq 0 (length offs - 1) ≫= λ n, (λ t, (N.of_nat n, t)) <$> row offs (ev_edges e) (N.of_nat n).
  Lemma all_pairs_length : length all_pairs = length (ev_edges e).
  Proof.
    rewrite <- (concat_rows_all e (so_csr _ _ _ H) Ht (ev_edges e) eq_refl) at 1. unfold all_pairs.
    induction (seq 0 (length offs - 1)) as [|n l IH]; [done|]. rewrite !bind_cons, !app_length, fmap_length. by rewrite IH.
  Qed.
  Lemma row_NoDup n : NoDup (row offs (ev_edges e) n).
  Proof. pose proof (csr_sorted _ _ (so_csr _ _ _ H) n) as Hs. by apply increasing_NoDup. Qed.
  Lemma all_pairs_spec : lists_exactly all_pairs (λ p, a_has_edge A p.1 p.2).
  Proof.
    split.
    - unfold all_pairs. generalize (NoDup_seq 0 (length offs - 1)). generalize (seq 0 (length offs - 1)) as l.
      induction l as [|n l IH]; intros Hl; [constructor|]. apply NoDup_cons in Hl as [Hn Hl]. rewrite bind_cons. apply NoDup_app. split_and!.
      + apply NoDup_fmap; [by intros ?? [= ->]|]. apply row_NoDup.
      + intros [s t] (t' & [= -> ->] & _)%elem_of_list_fmap Hin. apply elem_of_list_bind in Hin as (m & Hin & Hm).
        apply elem_of_list_fmap in Hin as (t'' & [= Hnm _] & _). apply Nat2N.inj in Hnm as ->. done.
      + by apply IH.
    - intros [s t]. simpl. rewrite (so_edges _ _ _ H). unfold all_pairs. rewrite elem_of_list_bind. split.
      + intros (n & Hin & _). apply elem_of_list_fmap in Hin as (t' & [= -> ->] & Hin). done.
      + intros Hin. exists (N.to_nat s). rewrite N2Nat.id. split; [apply elem_of_list_fmap; by exists t|].
        apply elem_of_seq. destruct (decide (s < csr_nodes offs)%N) as [Hs|Hs]; [unfold csr_nodes in Hs; lia|].
        rewrite (row_out e) in Hin by done. by apply elem_of_nil in Hin.
  Qed.
  Local Notation P := (list_to_set all_pairs : gset (N * N)).
  Lemma P_spec s t : (s, t) ∈ P ↔ a_has_edge A s t.
  Proof. rewrite elem_of_list_to_set. destruct all_pairs_spec as [_ Hp]. apply (Hp (s, t)). Qed.
  Lemma P_size : size P = length (ev_edges e).
  Proof. rewrite <- all_pairs_length. apply size_list_to_set, all_pairs_spec. Qed.
  Lemma keys_size (Q : gset (N * N)) : (∀ p, p ∈ Q ↔ is_Some (ag_edges A !! p)) → size Q = a_num_edges A.
  Proof.
    intros HQ. unfold a_num_edges. rewrite <- size_dom. f_equal. apply set_eq. intros p. rewrite HQ. symmetry. apply elem_of_dom.
  Qed.
  Lemma count_directed : ag_dir A = true → length (ev_edges e) = a_num_edges A.
  Proof.
    intros Hd. rewrite <- P_size. apply keys_size. intros [s t]. rewrite P_spec. unfold a_has_edge, a_edge_at. by rewrite Hd.
  Qed.
  Lemma count_undirected ls : ag_dir A = false → lists_exactly ls (λ n, a_has_edge A n n) →
    length (ev_edges e) + length ls = 2 * a_num_edges A.
  Proof.
    intros Hd [Hnd Hls]. rewrite <- P_size.
    set (U := filter (λ p, p.1 ≤ p.2)%N P). set (D := filter (λ p, p.2 < p.1)%N P).
    set (L := list_to_set ((λ n, (n, n)) <$> ls) : gset (N * N)).
    assert (size U = a_num_edges A) as HU.
    { apply keys_size. intros [s t]. unfold U. rewrite elem_of_filter, P_spec. simpl. split.
      - intros [Hle He]. unfold a_has_edge, a_edge_at in He. rewrite Hd in He. simpl in He. by rewrite N.min_l, N.max_r in He.
      - intros Hs. pose proof (so_wf _ _ _ H s t Hs) as (Hk & _). rewrite Hd in Hk. simpl in Hk. injection Hk as Hmin Hmax.
        split; [lia|]. unfold a_has_edge, a_edge_at. rewrite Hd. simpl. by rewrite Hmin, Hmax. }
    assert (size L = length ls) as HL.
    { unfold L. rewrite size_list_to_set; [by rewrite fmap_length|]. apply NoDup_fmap; [by intros ?? [= ->]|done]. }
    assert (∀ n, (n, n) ∈ L ↔ a_has_edge A n n) as HLin.
    { intros n. unfold L. rewrite elem_of_list_to_set, elem_of_list_fmap, <- Hls. split; [by intros (? & [= ->] & ?)|]. intros Hin. by exists n. }
    assert (P = U ∪ D) as HP.
    { apply set_eq. intros [s t]. unfold U, D. rewrite elem_of_union, !elem_of_filter. simpl. split; [|tauto].
      intros Hp. destruct (decide (s ≤ t)%N); [by left|right]. split; [lia|done]. }
    assert (size D + size L = size U) as HD.
    { set (f := λ p : N * N, (p.2, p.1)). assert (size D = size (set_map f D : gset (N * N))) as ->.
      { transitivity (size (list_to_set (f <$> elements D) : gset (N * N))); [|done]. rewrite size_list_to_set; [by rewrite fmap_length|].
        apply NoDup_fmap; [by intros [??] [??] [= -> ->]|]. apply NoDup_elements. }
      rewrite <- size_union.
      - f_equal. apply set_eq. intros [s t]. rewrite elem_of_union, elem_of_map. unfold U, D. rewrite elem_of_filter. simpl. rewrite P_spec. split.
        + intros [([a b] & [= -> ->] & Hin)|Hin].
          * apply elem_of_filter in Hin as [Hlt Hin]. simpl in Hlt. apply P_spec in Hin. split; [lia|]. by apply has_edge_sym.
          * assert (s = t) as ->. { unfold L in Hin. rewrite elem_of_list_to_set, elem_of_list_fmap in Hin. by destruct Hin as (? & [= -> ->] & _). }
            split; [lia|]. by apply HLin.
        + intros [Hle He]. destruct (decide (s = t)) as [-> |Hne]; [right; by apply HLin|left]. exists (t, s). split; [done|].
          apply elem_of_filter. simpl. split; [lia|]. apply P_spec. by apply has_edge_sym.
      - intros [s t] Hin1 Hin2. apply elem_of_map in Hin1 as ([a b] & [= -> ->] & Hin). apply elem_of_filter in Hin as [Hlt _]. simpl in Hlt.
        unfold L in Hin2. rewrite elem_of_list_to_set, elem_of_list_fmap in Hin2. destruct Hin2 as (? & [= -> ->] & _). lia. }
    rewrite HP, size_union; [lia|]. intros [s t] H1 H2. apply elem_of_filter in H1 as [H1 _]. apply elem_of_filter in H2 as [H2 _]. simpl in *. lia.
  Qed.
End counts.

Section new_counts.
  Context {NL EL : Type} (lt : idty) (A : agraph NL EL) (g : sgraph NL EL) (e : evec) (in_e : option evec).
  Context (H : arrays_of lt g A) (Ht : csr_tight (ev_offsets (sg_evec g)) (ev_edges (sg_evec g))).
  (** new and with_labels leave the counts to the arrays. *)
  Lemma counts_thm : sg_counts (ag_dir A) (sg_evec g) None None = Ok (sg_num_nodes g, sg_num_edges g) →
    sg_num_nodes g = a_num_nodes A ∧
    (ag_dir A = true → sg_num_edges g = a_num_edges A) ∧
    (ag_dir A = false → ∀ ls, lists_exactly ls (λ n, a_has_edge A n n) → sg_num_edges g + (length ls + 1) / 2 = a_num_edges A).
  Proof.
    intros Hc. unfold sg_counts in Hc. apply rbind_Ok in Hc as (k & Hk & Hc). injection Hc as Hn He.
    split_and!.
    - unfold a_num_nodes. symmetry. apply size_below. intros n. rewrite (so_count _ _ _ H). apply (so_nodes _ _ _ H).
    - intros Hd. rewrite <- He, Hd. by apply (count_directed lt g A H Ht).
    - intros Hd ls Hls. pose proof (count_undirected lt g A H Ht ls Hd Hls) as Hcu. rewrite <- He, Hd. unfold ev_num_edges. cbv iota.
      pose proof (Nat.div_mod_eq (length (ev_edges (sg_evec g))) 2). pose proof (Nat.mod_upper_bound (length (ev_edges (sg_evec g))) 2).
      pose proof (Nat.div_mod_eq (length ls + 1) 2). pose proof (Nat.mod_upper_bound (length ls + 1) 2). change ((Nat.divmod (length (ev_edges (sg_evec g))) 1 0 1).1) with (length (ev_edges (sg_evec g)) `div` 2). lia.
  Qed.
End new_counts.
Lemma new_counts_of {NL EL} dir e in_e (g : sgraph NL EL) : sg_new dir e in_e None None = Ok g →
  sg_evec g = e ∧ sg_counts dir (sg_evec g) None None = Ok (sg_num_nodes g, sg_num_edges g).
Proof.
  unfold sg_new. intros H. apply rbind_Ok in H as (_ & _ & H). apply rbind_Ok in H as ([a b] & Hc & [= <-]). done.
Qed.
Lemma with_labels_counts_of {NL EL} dir e in_e ls nlm elm (g : sgraph NL EL) : sg_with_labels dir e in_e ls nlm elm None None = Ok g →
  sg_evec g = e ∧ sg_counts dir (sg_evec g) None None = Ok (sg_num_nodes g, sg_num_edges g).
Proof.
  unfold sg_with_labels. intros H. apply rbind_Ok in H as (_ & _ & H). apply rbind_Ok in H as ([a b] & Hc & [= <-]). done.
Qed.

(** ** The iterator when the node count is the number of ids *)
Lemma ei_next_wrap it dir e fuel curr idx : (1 ≤ id_card it)%N → csr_nodes (ev_offsets e) = id_card it → ei_next it dir e fuel curr idx ≠ Ok None.
Proof.
  intros Hone Hw. revert curr idx. induction fuel as [|fuel IH]; intros curr idx; [done|]. cbn [ei_next].
  assert (ev_has_node e (id_new it curr) = Ok true) as ->.
  { unfold ev_has_node, ev_num_nodes, usub. unfold csr_nodes in Hw. rewrite decide_True by lia. cbn [rbind]. f_equal. apply bool_decide_eq_true.
    unfold id_new, id_id. pose proof (N.mod_upper_bound (N.of_nat curr) (id_card it)). lia. }
  cbn [rbind negb]. destruct (ev_degree e (id_new it curr)) as [d| |]; cbn [rbind]; [|done..].
  destruct (bool_decide (d ≤ idx)); [apply IH|]. destruct (ev_neighbors e (id_new it curr)) as [nb| |]; cbn [rbind]; [|done..].
  destruct dir.
  { by destruct (nb !! idx). }
  destruct (nb !! idx) as [x|]; cbn [unwrap rbind]; [|done]. destruct (decide (x < id_new it curr)%N); [|done].
  destruct (bsearch nb (id_new it curr)) as [[i|i]| |]; cbn [rbind]; [|..|done|done].
  - by destruct (nb !! i).
  - destruct (decide (i < length nb)); [by destruct (nb !! i)|apply IH].
Qed.
Lemma ei_collect_wrap it dir e fuel inner curr idx l : (1 ≤ id_card it)%N → csr_nodes (ev_offsets e) = id_card it → ei_collect it dir e fuel inner curr idx ≠ Ok l.
Proof.
  intros Hone Hw. revert curr idx l. induction fuel as [|fuel IH]; intros curr idx l; [done|]. cbn [ei_collect].
  pose proof (ei_next_wrap it dir e inner curr idx Hone Hw) as Hn. destruct (ei_next it dir e inner curr idx) as [[[x [c i]]|]| |]; cbn [rbind]; [|done..].
  destruct (ei_collect it dir e fuel inner c i) eqn:He; cbn [rbind]; [|done..]. by apply IH in He.
Qed.
Lemma ei_full it dir e fuel inner curr idx : csr_nodes (ev_offsets e) = id_card it →
  ei_next it dir e inner curr idx ≠ Ok None ∧ ∀ l, ei_collect it dir e fuel inner curr idx ≠ Ok l.
Proof.
  intros Hw. assert (1 ≤ id_card it)%N by (by destruct it). split; [by apply ei_next_wrap|]. intros l. by apply ei_collect_wrap.
Qed.

Lemma neighbors_all e n : csr_wf (ev_offsets e) (ev_edges e) →
  if decide (n < csr_nodes (ev_offsets e))%N
  then ev_neighbors e n = Ok (row (ev_offsets e) (ev_edges e) n) ∧ ev_degree e n = Ok (length (row (ev_offsets e) (ev_edges e) n))
  else ev_neighbors e n = Panic ∧ ev_degree e n = Panic ∧ ∀ t, ev_has_edge e n t = Ok false ∧ ev_has_edge e t n = Ok false.
Proof.
  intros H. destruct (decide _) as [Hn|Hn].
  - split; [by apply neighbors_ok|by apply degree_ok].
  - split; [by apply neighbors_panic|]. split; [by apply degree_panic|]. intros t. rewrite !(has_edge_ok e H). split; f_equal; apply bool_decide_eq_false.
    + rewrite (row_out e) by done. apply not_elem_of_nil.
    + intros Hin. by apply (csr_targets _ _ H) in Hin.
Qed.

Lemma edges_thm {NL EL} it lt dir (g : sgraph NL EL) :
  csr_wf (ev_offsets (sg_evec g)) (ev_edges (sg_evec g)) → (csr_nodes (ev_offsets (sg_evec g)) < id_card it)%N →
  (dir = true ∧ csr_tight (ev_offsets (sg_evec g)) (ev_edges (sg_evec g)) ∧
     length (ev_labels (sg_evec g)) = length (ev_edges (sg_evec g))) ∨ ev_labels (sg_evec g) = [] →
  ∃ es l, v_edge_indices (sg_view it lt dir g) = Ok es ∧ v_edges (sg_view it lt dir g) = Ok l ∧
    l.*1 = es ∧ ∀ s t lid, (s, t, lid) ∈ l → v_get_edge (sg_view it lt dir g) s t = Ok (Some (s, t, lid)).
Proof.
  intros Hc Hfit Hor.
  assert (v_edges (sg_view it lt dir g) = let* es := v_edge_indices (sg_view it lt dir g) in
    rmapl (λ x, let* o := v_get_edge (sg_view it lt dir g) x.1 x.2 in unwrap o) es) as Hed.
  { destruct Hor as [(H1 & H2 & H3)|H1]; [by apply edges_directed|by apply edges_unlabelled]. }
  rewrite Hed. destruct (ei_all_spec it dir _ Hc Hfit) as (es & Hes & _ & Hin). exists es.
  change (v_edge_indices (sg_view it lt dir g)) with (ei_all it dir (sg_evec g)). rewrite Hes. cbn [rbind].
  clear Hed Hor Hes. assert (∀ s t, (s, t) ∈ es → ∃ lid, sg_get_edge lt g s t = Ok (Some (s, t, lid))) as Hget.
  { intros s t Hst. apply Hin in Hst as [Hst _]. apply elem_of_list_lookup in Hst as [k Hk]. rewrite (get_edge_row lt g Hc s t k Hk). by eexists. }
  clear Hin. cbn [v_get_edge sg_view]. induction es as [|[s t] es IH].
  - exists []. split_and!; [done..|]. by intros ??? ?%elem_of_nil.
  - destruct IH as (l & _ & Hl & Hfst & Hall); [intros s' t' Hx; apply Hget; set_solver|].
    destruct (Hget s t) as [lid Hlid]; [set_solver|]. exists ((s, t, lid) :: l). split; [done|]. split.
    + cbn [rmapl fst snd]. rewrite Hlid. cbn [rbind unwrap]. rewrite Hl. done.
    + split; [by rewrite fmap_cons, Hfst|]. intros s' t' lid' [[= -> -> ->]|Hx]%elem_of_cons; [done|by apply Hall].
Qed.

Lemma counts_of_either {NL EL} dir e in_e (g : sgraph NL EL) ls nlm elm :
  sg_new dir e in_e None None = Ok g ∨ sg_with_labels dir e in_e ls nlm elm None None = Ok g →
  sg_evec g = e ∧ sg_counts dir (sg_evec g) None None = Ok (sg_num_nodes g, sg_num_edges g).
Proof. intros [H|H]; [by apply new_counts_of in H|by apply with_labels_counts_of in H]. Qed.
Lemma counts_loops {NL EL} lt (A : agraph NL EL) e in_e (g : sgraph NL EL) ls nlm elm ns :
  sg_new (ag_dir A) e in_e None None = Ok g ∨ sg_with_labels (ag_dir A) e in_e ls nlm elm None None = Ok g →
  arrays_of lt g A → csr_tight (ev_offsets e) (ev_edges e) → ag_dir A = false → lists_exactly ns (λ n, a_has_edge A n n) →
  sg_num_edges g + (length ns + 1) / 2 = a_num_edges A.
Proof.
  intros Hn H Ht Hd Hls. apply counts_of_either in Hn as [<- Hc].
  by destruct (counts_thm lt A g H Ht Hc) as (_ & _ & Hx); apply Hx.
Qed.
Lemma counts_no_loops {NL EL} lt (A : agraph NL EL) e in_e (g : sgraph NL EL) ls nlm elm :
  sg_new (ag_dir A) e in_e None None = Ok g ∨ sg_with_labels (ag_dir A) e in_e ls nlm elm None None = Ok g →
  arrays_of lt g A → csr_tight (ev_offsets e) (ev_edges e) → (ag_dir A = false → ∀ n, ¬ a_has_edge A n n) →
  sg_num_nodes g = a_num_nodes A ∧ sg_num_edges g = a_num_edges A.
Proof.
  intros Hn H Ht Hd. apply counts_of_either in Hn as [<- Hc].
  destruct (counts_thm lt A g H Ht Hc) as (H1 & H2 & H3). split; [done|]. destruct (ag_dir A) eqn:Hdir; [by apply H2|].
  specialize (H3 eq_refl []). simpl in H3. rewrite Nat.add_0_r in H3. apply H3. split; [constructor|]. intros n. split; [by intros ?%elem_of_nil|].
  intros He. by apply Hd in He.
Qed.
