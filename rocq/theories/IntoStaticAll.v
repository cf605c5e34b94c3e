(** into_static on every reachable graph. *)
From Verif Require Import Base BaseFacts Api Spec SpecFacts ViewFacts SpecStatic Static StaticFacts SpecSGraph StaticProps
  Map GraphMap GraphMapFacts GraphMapRefine GraphMapQueries GraphMapSim GraphMapThms GraphMapMore
  IntoStatic StaticMore IntoStaticProps SpecStaticAll.

Section all.
  Context {NL EL : Type} `{EqDecision NL, EqDecision EL} (idt lt : idty) (dir : bool) (g : graphmap NL EL) (ord : list N).
  Context (Hreach : gm_reachable dir lt g) (Hord : hash_order g ord).
  Local Notation V := (gm_view dir ord g).
  (** The same graph without label lists. *)
  Local Notation g0 := (GraphMap (g_nodes g) (g_nedges g) (@nil NL) (@nil EL) (g_max g)).

  Lemma bare_represents : ∃ A, represents (gm_view dir ord g0) A.
  Proof.
    destruct (reach_skrel dir lt g Hreach) as [s Hs]. destruct (skrel_view dir g s ord Hs Hord) as [Hv _].
    exists (a_unlabelled (sp_g s)). destruct Hv. by split.
  Qed.

  Lemma static_raw lid : static_label lt (raw_label lt lid) = if decide (lid = Some (id_max lt)) then None else lid.
  Proof.
    unfold static_label, raw_label. destruct lid as [i|].
    - destruct (decide (i = id_max lt)) as [-> |Hne]; [by rewrite decide_True|]. rewrite decide_False; [done|]. by intros [= ->].
    - rewrite decide_True by done. by destruct (decide _).
  Qed.

  Context (A : agraph NL EL) (HA : represents (gm_view dir ord g0) A).
  Context (max : N) (Hmax : max_key (g_nodes g) = Some max) (Hc : (max + 1 < id_card idt)%N).
  Local Notation M := (S (N.to_nat max)).
  Local Notation sg := (static_arrays lt dir g M).
  Local Notation W := (sg_view idt lt dir sg).

  Lemma V_has_node n : v_has_node V n = true ↔ a_has_node A n.
  Proof. exact (rp_has_node _ _ HA n). Qed.
  Lemma V_max n : a_has_node A n → (n ≤ max)%N.
  Proof. intros Hn. pose proof (below dir g0 ord A HA max Hmax n Hn). lia. Qed.
  Lemma max_node : a_has_node A max.
  Proof.
    pose proof (max_key_spec (g_nodes g)) as Hm. rewrite Hmax in Hm. destruct Hm as [Hm _].
    apply V_has_node. simpl. unfold gm_has_node. by apply bool_decide_eq_true.
  Qed.
  Lemma count_le : v_node_count V ≤ M.
  Proof.
    assert (v_node_count V = size (ag_nodes A)) as -> by exact (rp_node_count _ _ HA).
    rewrite <- (size_dom (D := gset N)).
    transitivity (size (list_to_set (N.of_nat <$> seq 0 M) : gset N)).
    - apply subseteq_size. intros x Hx. apply elem_of_list_to_set, elem_of_list_fmap. exists (N.to_nat x). rewrite N2Nat.id. split; [done|].
      apply elem_of_seq. apply elem_of_dom, V_max in Hx. lia.
    - rewrite size_list_to_set; [by rewrite fmap_length, seq_length|]. apply NoDup_fmap; [apply _|apply NoDup_seq].
  Qed.
  Lemma count_pos : 0 < v_node_count V.
  Proof.
    assert (v_node_count V = size (ag_nodes A)) as -> by exact (rp_node_count _ _ HA).
    pose proof max_node as [l Hl]. destruct (decide (size (ag_nodes A) = 0)) as [Hz|]; [|lia].
    apply map_size_empty_inv in Hz. rewrite Hz, lookup_empty in Hl. done.
  Qed.

  Lemma W_get_node n : v_get_node W n =
    Ok (if decide (n < N.of_nat (v_node_count V))%N then Some (n, kept_lid lt (g_nlm g) (node_lid V n)) else None).
  Proof.
    cbn [v_get_node sg_view]. unfold sg_get_node, sg_has_node, id_id. cbn [sg_num_nodes sg_labels static_arrays].
    change (gm_node_count g) with (v_node_count V). pose proof count_le as Hle.
    destruct (decide (n < N.of_nat (v_node_count V))%N) as [Hn|Hn].
    - rewrite bool_decide_true by lia. cbn [negb]. unfold has_nl, kept_lid.
      destruct (g_nlm g) as [|l0 ls0]; cbn [if_some]; [done|].
      rewrite list_lookup_fmap, lookup_seq_lt by lia. simpl. do 3 f_equal.
      unfold nlab, node_lid. cbn [v_get_node gm_view]. unfold gm_get_node. rewrite N2Nat.id.
      destruct (g_nodes g !! n) as [nd|]; simpl; [apply static_raw|]. exact (static_raw None).
    - rewrite bool_decide_false by lia. done.
  Qed.

  Lemma W_nodes : v_nodes W = rmapl (λ n, let* o := v_get_node W n in unwrap o) (v_node_indices W).
  Proof.
    assert (v_node_indices W = N.of_nat <$> seq 0 (v_node_count V)) as Hix.
    { cbn [v_node_indices sg_view]. unfold sg_node_indices. cbn [sg_num_nodes static_arrays]. apply list_fmap_ext.
      intros i x Hx. apply lookup_seq in Hx as [-> Hx]. pose proof count_le. unfold id_new. rewrite N.mod_small; [done|].
      change (gm_node_count g) with (v_node_count V) in Hx. lia. }
    rewrite Hix. rewrite (rmapl_ext _ (λ n, Ok (n, kept_lid lt (g_nlm g) (node_lid V n)))), rmapl_ok_fmap.
    2:{ intros n Hn. rewrite W_get_node. apply elem_of_list_fmap in Hn as (i & -> & Hi). apply elem_of_seq in Hi.
        rewrite decide_True by lia. done. }
    cbn [v_nodes sg_view]. f_equal. unfold sg_nodes. change (sg_node_indices idt sg) with (v_node_indices W). rewrite Hix.
    cbn [sg_labels static_arrays]. unfold has_nl. destruct (g_nlm g) as [|l0 ls0] eqn:Hl; cbn [if_some].
    - apply list_fmap_ext. done.
    - apply list_eq. intros k. rewrite !list_lookup_fmap. rewrite lookup_zip_with, !list_lookup_fmap.
      pose proof count_le. destruct (decide (k < v_node_count V)) as [Hk|Hk].
      + rewrite !lookup_seq_lt by lia. simpl. do 2 f_equal. unfold kept_lid, nlab, node_lid. cbn [v_get_node gm_view]. unfold gm_get_node.
        destruct (g_nodes g !! N.of_nat k) as [nd|]; simpl; [apply static_raw|]. exact (static_raw None).
      + rewrite (lookup_seq_ge 0 (v_node_count V)) by lia. done.
  Qed.

  Lemma Hcsr : csr_wf (ev_offsets (sg_evec sg)) (ev_edges (sg_evec sg)) ∧
    csr_tight (ev_offsets (sg_evec sg)) (ev_edges (sg_evec sg)) ∧ csr_nodes (ev_offsets (sg_evec sg)) = N.of_nat M.
  Proof. exact (rows_csr dir g0 ord A HA max Hmax). Qed.
  Lemma W_has_edge s t : v_has_edge W s t = Ok (bool_decide (t ∈ (orow g (N.to_nat s)).*1)).
  Proof.
    cbn [v_has_edge sg_view]. rewrite (has_edge_ok (sg_evec sg)) by apply Hcsr. f_equal. apply bool_decide_ext.
    pose proof (out_row_eq dir g0 ord A HA max Hmax s) as Hr. cbn [sg_evec ev_offsets ev_edges static_arrays].
    change (out_rows g0 M) with (out_rows g M) in Hr. change (orow g0) with (orow g) in Hr. by rewrite Hr.
  Qed.
  Lemma V_has_edge s t : v_has_edge V s t = Ok (bool_decide (t ∈ (orow g (N.to_nat s)).*1)).
  Proof.
    cbn [v_has_edge gm_view]. f_equal. unfold gm_has_edge, orow. rewrite N2Nat.id. destruct (g_nodes g !! s) as [nd|].
    - unfold nm_has_neighbor. apply bool_decide_ext. by rewrite <- (bt_keys_elem (nm_nbrs nd) t).
    - symmetry. apply bool_decide_eq_false. apply not_elem_of_nil.
  Qed.
  Lemma W_get_edge s t : v_get_edge W s t = rmap (fmap (λ e, (e.1, kept_lid lt (g_elm g) e.2))) (v_get_edge V s t).
  Proof.
    cbn [v_get_edge gm_view]. unfold gm_get_edge. pose proof (V_has_edge s t) as HV. cbn [v_has_edge gm_view] in HV. injection HV as ->.
    case_bool_decide as Hin.
    - assert (∃ nd l, g_nodes g !! s = Some nd ∧ nm_nbrs nd !! t = Some l) as (nd & l & Hnd & Hl).
      { unfold orow in Hin. rewrite N2Nat.id in Hin. destruct (g_nodes g !! s) as [nd|]; [|by apply elem_of_nil in Hin].
        change ((bt_iter (nm_nbrs nd)).*1) with (bt_keys (nm_nbrs nd)) in Hin. apply bt_keys_elem in Hin as [l Hl]. by exists nd, l. }
      rewrite Hnd. cbn [unwrap rbind]. unfold nm_get_neighbor. rewrite Hl. cbn [unwrap rbind rmap fmap option_fmap option_map fst snd].
      assert ((t, l) ∈ orow g (N.to_nat s)) as Hrow.
      { unfold orow. rewrite N2Nat.id, Hnd. by apply bt_iter_elem. }
      apply elem_of_list_lookup in Hrow as [k Hk].
      pose proof (out_row_eq dir g0 ord A HA max Hmax s) as Hr. change (out_rows g0 M) with (out_rows g M) in Hr. change (orow g0) with (orow g) in Hr.
      pose proof (lab_row_eq lt dir g0 ord A HA max Hmax s) as Hlr. change (out_rows g0 M) with (out_rows g M) in Hlr.
      change (orow g0) with (orow g) in Hlr. change (lab_rows lt g0 M) with (lab_rows lt g M) in Hlr.
      cbn [v_get_edge sg_view]. rewrite (get_edge_row lt sg (proj1 Hcsr) s t k).
      2:{ cbn [sg_evec ev_offsets ev_edges static_arrays]. by rewrite Hr, list_lookup_fmap, Hk. }
      do 3 f_equal. cbn [sg_evec ev_offsets static_arrays]. unfold ev_labels. cbn [ev_label_vec]. unfold kept_lid, has_el.
      destruct (g_elm g) as [|l0 ls0]; cbn [if_some default from_option]; cbv [id].
      + assert (∀ o : list nat, row o (@nil N) s !! k = None) as ->; [|done].
        intros o. unfold row. by destruct (o !! N.to_nat s), (o !! S (N.to_nat s)); rewrite ?drop_nil, ?take_nil.
      + rewrite Hlr, !list_lookup_fmap, Hk. simpl. apply static_raw.
    - cbn [v_get_edge sg_view rmap fmap option_fmap option_map]. unfold sg_get_edge.
      pose proof (W_has_edge s t) as HW. cbn [v_has_edge sg_view] in HW. rewrite HW, bool_decide_false by done. done.
  Qed.
  Lemma W_neighbors n : v_neighbors W n = (if decide (n ≤ max)%N then Ok (orow g (N.to_nat n)).*1 else Panic) ∧
    v_degree W n = (if decide (n ≤ max)%N then Ok (length (orow g (N.to_nat n))) else Panic).
  Proof.
    cbn [v_neighbors v_degree sg_view]. destruct Hcsr as (H1 & _ & H3).
    pose proof (out_row_eq dir g0 ord A HA max Hmax n) as Hr. change (out_rows g0 M) with (out_rows g M) in Hr. change (orow g0) with (orow g) in Hr.
    destruct (decide (n ≤ max)%N) as [Hn|Hn].
    - assert (n < csr_nodes (ev_offsets (sg_evec sg)))%N as Hlt by (rewrite H3; lia).
      rewrite (neighbors_ok (sg_evec sg) H1 n Hlt), (degree_ok (sg_evec sg) H1 n Hlt).
      cbn [sg_evec ev_offsets ev_edges static_arrays]. rewrite Hr. by rewrite fmap_length.
    - assert (¬ (n < csr_nodes (ev_offsets (sg_evec sg)))%N) as Hlt by (rewrite H3; lia).
      rewrite (neighbors_panic (sg_evec sg)), (degree_panic (sg_evec sg)) by done. done.
  Qed.
  Lemma V_neighbors n : v_has_node V n = true → v_neighbors V n = Ok (orow g (N.to_nat n)).*1 ∧ v_degree V n = Ok (length (orow g (N.to_nat n))).
  Proof.
    intros Hn. cbn [v_has_node gm_view] in Hn. unfold gm_has_node in Hn. apply bool_decide_eq_true in Hn as [nd Hnd].
    cbn [v_neighbors v_degree gm_view]. unfold gm_neighbors, gm_degree, orow. rewrite N2Nat.id, Hnd. split; [done|].
    unfold nm_degree, bt_iter. rewrite merge_sort_Permutation. done.
  Qed.
  Lemma W_in_neighbors n : dir = true → v_in_neighbors W n = (if decide (n ≤ max)%N then Ok (irow g (N.to_nat n)) else Panic).
  Proof.
    intros Hd. cbn [v_in_neighbors sg_view]. unfold sg_in_neighbors. cbn [sg_in static_arrays]. rewrite Hd. cbn [if_some unwrap rbind].
    assert (ag_dir A = true) as HdA by (rewrite <- (rp_directed _ _ HA); done).
    destruct (rows_in_csr dir g0 ord A HA max Hmax HdA) as (Hic & Hicn). change (in_rows g0 M) with (in_rows g M) in Hic, Hicn.
    pose proof (in_row_eq dir g0 ord A HA max Hmax n) as Hr. change (in_rows g0 M) with (in_rows g M) in Hr. change (irow g0) with (irow g) in Hr.
    destruct (decide (n ≤ max)%N) as [Hn|Hn].
    - rewrite (neighbors_ok (ev_new _ _) Hic) by (cbn [ev_offsets ev_new]; rewrite Hicn; lia). cbn [ev_offsets ev_edges ev_new]. by rewrite Hr.
    - rewrite (neighbors_panic (ev_new _ _)); [done|done|]. cbn [ev_offsets ev_new]. rewrite Hicn. lia.
  Qed.
  Lemma V_in_neighbors n : v_has_node V n = true → v_in_neighbors V n = Ok (irow g (N.to_nat n)) ∧ v_in_degree V n = Ok (length (irow g (N.to_nat n))).
  Proof.
    intros Hn. cbn [v_has_node gm_view] in Hn. unfold gm_has_node in Hn. apply bool_decide_eq_true in Hn as [nd Hnd].
    cbn [v_in_neighbors v_in_degree gm_view]. unfold gm_in_neighbors, gm_in_degree, irow. rewrite N2Nat.id, Hnd. split; [done|].
    unfold nm_in_degree, bs_iter. rewrite merge_sort_Permutation. done.
  Qed.
  Lemma gap_rows n : v_has_node V n = false → orow g (N.to_nat n) = [] ∧ irow g (N.to_nat n) = [].
  Proof.
    intros Hn. cbn [v_has_node gm_view] in Hn. unfold gm_has_node in Hn. apply bool_decide_eq_false in Hn. unfold orow, irow.
    rewrite N2Nat.id. destruct (g_nodes g !! n); [|done]. by destruct Hn.
  Qed.

  Lemma used_ids ids : StronglySorted N.lt ids → (∀ n, n ∈ ids ↔ v_has_node V n = true) →
    ids = filter (λ n, v_has_node V n = true) (N.of_nat <$> seq 0 M).
  Proof.
    intros Hs Hin.
    assert (∀ a k, StronglySorted N.lt (filter (λ n, v_has_node V n = true) (N.of_nat <$> seq a k))) as Hf.
    { intros a k. revert a. induction k as [|k IH]; intros a; [constructor|]. cbn [seq fmap list_fmap]. rewrite filter_cons.
      case_decide; [|apply IH]. constructor; [apply IH|]. apply Forall_forall. intros x Hx. apply elem_of_list_filter in Hx as [_ Hx].
      apply elem_of_list_fmap in Hx as (i & -> & Hi). apply elem_of_seq in Hi. lia. }
    assert (AntiSymm eq N.lt) as Hanti by (intros x y ??; lia).
    apply (StronglySorted_unique N.lt); [done|apply Hf|]. apply NoDup_Permutation.
    - clear -Hs. induction Hs as [|x l Hs IH Hx]; constructor; [|done]. intros Hin. rewrite Forall_forall in Hx. specialize (Hx _ Hin). lia.
    - apply NoDup_filter, NoDup_fmap; [apply _|apply NoDup_seq].
    - intros x. rewrite Hin, elem_of_list_filter. split; [|by intros [? _]]. intros Hx. split; [done|].
      apply elem_of_list_fmap. exists (N.to_nat x). rewrite N2Nat.id. split; [done|]. apply elem_of_seq. apply V_has_node, V_max in Hx. lia.
  Qed.
  Lemma row_labels n : v_has_node V n = true →
    match v_neighbors V n with
    | Ok l => (λ m, match v_get_edge V n m with Ok (Some (_, lid)) => lid | _ => None end) <$> l
    | _ => []
    end = (orow g (N.to_nat n)).*2.
  Proof.
    intros Hn. rewrite (proj1 (V_neighbors n Hn)). rewrite <- list_fmap_compose. apply list_fmap_ext. intros k [m l] Hk. simpl.
    cbn [v_get_edge gm_view]. unfold gm_get_edge. pose proof (V_has_edge n m) as HV. cbn [v_has_edge gm_view] in HV. injection HV as ->.
    apply elem_of_list_lookup_2 in Hk. rewrite bool_decide_true by (apply elem_of_list_fmap; by exists (m, l)).
    unfold orow in Hk. rewrite N2Nat.id in Hk. destruct (g_nodes g !! n) as [nd|]; [|by apply elem_of_nil in Hk].
    apply bt_iter_elem in Hk. cbn [unwrap rbind]. unfold nm_get_neighbor. by rewrite Hk.
  Qed.
  Lemma column_rows ids : StronglySorted N.lt ids → (∀ n, n ∈ ids ↔ v_has_node V n = true) →
    label_column V ids = mjoin ((λ i, (orow g i).*2) <$> seq 0 M).
  Proof.
    intros Hs Hin. rewrite (used_ids ids Hs Hin). clear. generalize 0 M. intros a k. revert a.
    induction k as [|k IH]; intros a; [done|]. cbn [seq fmap list_fmap mjoin list_join]. rewrite filter_cons.
    specialize (IH (S a)). unfold label_column in IH |- *. case_decide as Hn.
    - cbn [mbind list_bind]. rewrite (row_labels _ Hn), Nat2N.id. f_equal. exact IH.
    - apply not_true_is_false in Hn. apply gap_rows in Hn as [Ho _]. rewrite Nat2N.id in Ho. rewrite Ho. exact IH.
  Qed.

  Lemma frozen_arrays : frozen lt V W.
  Proof.
    destruct Hcsr as (H1 & H2 & H3).
    assert (csr_nodes (ev_offsets (sg_evec sg)) < id_card idt)%N as Hfit by (rewrite H3; lia).
    constructor.
    - done.
    - done.
    - intros n. cbn [v_has_node sg_view]. unfold sg_has_node, id_id. rewrite bool_decide_eq_true. cbn [sg_num_nodes static_arrays v_node_count gm_view]. lia.
    - cbn [v_node_indices sg_view]. unfold sg_node_indices. cbn [sg_num_nodes static_arrays]. apply list_fmap_ext.
      intros i x Hx. apply lookup_seq in Hx as [-> Hx]. pose proof count_le. unfold id_new. rewrite N.mod_small; [done|].
      change (gm_node_count g) with (v_node_count V) in Hx. lia.
    - apply W_get_node.
    - apply W_nodes.
    - cbn [v_max_seen_id sg_view]. unfold sg_max_seen_id. cbn [sg_num_nodes static_arrays]. change (gm_node_count g) with (v_node_count V).
      pose proof count_pos. pose proof count_le. unfold usub. rewrite decide_True by lia. cbn [rbind]. do 2 f_equal. unfold id_new.
      rewrite N.mod_small by lia. lia.
    - intros s t. by rewrite W_has_edge, V_has_edge.
    - apply W_get_edge.
    - intros n Hn. pose proof (V_neighbors n Hn) as [-> ->]. pose proof (W_neighbors n) as [-> ->].
      apply V_has_node, V_max in Hn. by rewrite !decide_True by done.
    - intros Hd n Hn. pose proof (V_in_neighbors n Hn) as [-> ->].
      assert (v_in_neighbors W n = Ok (irow g (N.to_nat n))) as Hi.
      { rewrite (W_in_neighbors n Hd). apply V_has_node, V_max in Hn. by rewrite decide_True. }
      split; [done|]. cbn [v_in_degree sg_view]. unfold sg_in_degree. cbn [v_in_neighbors sg_view] in Hi. by rewrite Hi.
    - intros n m Hn Hm Hlt. apply V_has_node, V_max in Hm. pose proof (gap_rows n Hn) as [Ho Hi].
      pose proof (W_neighbors n) as [-> ->]. rewrite !decide_True by lia. rewrite Ho. split; [done|]. split; [done|].
      intros Hd. assert (v_in_neighbors W n = Ok []) as Hin.
      { rewrite (W_in_neighbors n Hd). rewrite decide_True by lia. by rewrite Hi. }
      split; [done|]. cbn [v_in_degree sg_view]. unfold sg_in_degree. cbn [v_in_neighbors sg_view] in Hin. by rewrite Hin.
    - intros n Hn. pose proof (Hn max (proj2 (V_has_node max) max_node)) as Hlt.
      pose proof (W_neighbors n) as [-> ->]. rewrite !decide_False by lia. split; [done|]. split; [done|].
      intros Hd. assert (v_in_neighbors W n = Panic) as Hin.
      { rewrite (W_in_neighbors n Hd). by rewrite decide_False by lia. }
      split; [done|]. cbn [v_in_degree sg_view]. unfold sg_in_degree. cbn [v_in_neighbors sg_view] in Hin. by rewrite Hin.
    - destruct (rp_edge_indices _ _ HA) as (l & Hl & Hnd & Hin). destruct (ei_all_spec idt dir (sg_evec sg) H1 Hfit) as (l' & Hl' & Hs & Hin').
      exists l, l'. split; [done|]. split; [exact Hl'|]. apply NoDup_Permutation; [by apply lex_lt_NoDup|done|]. intros [s t].
      rewrite Hin, Hin'. pose proof (static_edges dir g0 ord A HA max Hmax s t) as Hse. change (out_rows g0 M) with (out_rows g M) in Hse.
      cbn [sg_evec ev_offsets ev_edges static_arrays]. rewrite <- Hse.
      assert (dir = ag_dir A) as Hd by (rewrite <- (rp_directed _ _ HA); done). rewrite Hd. unfold a_has_edge, a_edge_at. split.
      + intros [He Hor']. destruct (ag_dir A); simpl in He; [done|]. destruct Hor' as [|Hst]; [done|]. by rewrite N.min_l, N.max_r in He.
      + intros He. pose proof (rp_wf _ _ HA s t He) as (Hk & _). split; [by rewrite Hk|].
        destruct (ag_dir A); [by left|right]. simpl in Hk. injection Hk as Hmin Hmax'. lia.
    - intros Hor. cbn [v_directed v_edge_label_map gm_view] in Hor. destruct (decide (g_elm g = [])) as [He|He].
      + apply edges_unlabelled; [exact H1|exact Hfit|]. unfold ev_labels. cbn [sg_evec ev_label_vec static_arrays]. unfold has_el. by rewrite He.
      + destruct Hor as [Hd|]; [|done]. apply edges_directed; [exact H1|exact Hfit|exact Hd|exact H2|].
        unfold ev_labels. cbn [sg_evec ev_label_vec ev_edges static_arrays]. unfold has_el. destruct (g_elm g) eqn:Hg; [done|]. cbn [if_some].
        etransitivity; [symmetry; apply sum_list_len|]. rewrite lab_rows_lens. apply sum_list_len.
    - intros Hel ids Hs Hin. cbn [v_edge_label_map gm_view] in Hel. rewrite (column_rows ids Hs Hin).
      assert (kept_lid lt (g_elm g) <$> mjoin ((λ i, (orow g i).*2) <$> seq 0 M) = static_label lt <$> mjoin (lab_rows lt g M)) as Hcol.
      { unfold lab_rows. generalize (seq 0 M). intros l. induction l as [|i l IH]; [done|]. cbn [fmap list_fmap mjoin list_join].
        rewrite !fmap_app. f_equal; [|exact IH]. generalize ((orow g i).*2). intros ls. rewrite <- list_fmap_compose. apply list_fmap_ext. intros k x _. simpl.
        rewrite static_raw. unfold kept_lid. by destruct (g_elm g). }
      cbn [v_edge_label_map gm_view]. rewrite Hcol. cbn [v_edges v_edge_indices sg_view]. unfold sg_edges.
      destruct (sg_edge_indices idt dir sg) as [es| |] eqn:Hes; [|done..]. cbn [rbind]. f_equal.
      unfold ev_labels. cbn [sg_evec ev_label_vec static_arrays]. unfold has_el. destruct (g_elm g); [done|]. cbn [if_some default from_option]. cbv [id].
      destruct (mjoin (lab_rows lt g M)) as [|x xs] eqn:Hx.
      + assert (es = []) as ->; [|done]. destruct es as [|[s t] es]; [done|]. exfalso.
        destruct (ei_all_spec idt dir (sg_evec sg) H1 Hfit) as (l' & Hl' & _ & Hin').
        assert (l' = (s, t) :: es) as -> by (unfold sg_edge_indices in Hes; congruence).
        assert ((s, t) ∈ (s, t) :: es) as Hst by left. apply Hin' in Hst as [Hst _].
        cbn [sg_evec ev_offsets ev_edges static_arrays] in Hst. unfold row in Hst.
        assert (mjoin (out_rows g M) = []) as Hz.
        { apply length_zero_iff_nil. rewrite <- sum_list_len, <- (lab_rows_lens lt g M), sum_list_len, Hx. done. }
        rewrite Hz in Hst. repeat case_match; rewrite ?drop_nil, ?take_nil in Hst; by apply elem_of_nil in Hst.
      + generalize (x :: xs). clear. induction es as [|e es IH]; intros [|y ys]; [done..|]. cbn [zip zip_with fmap list_fmap]. f_equal. apply IH.
    - done.
  Qed.
End all.

Lemma into_static_frozen {NL EL} `{EqDecision NL, EqDecision EL} (idt lt : idty) (dir : bool) (g : graphmap NL EL) ord n :
  gm_reachable dir lt g → hash_order g ord →
  v_has_node (gm_view dir ord g) n = true → (∀ n, v_has_node (gm_view dir ord g) n = true → (n < id_max idt)%N) →
  ∃ sg, gm_into_static idt lt dir g = Ok sg ∧ frozen lt (gm_view dir ord g) (sg_view idt lt dir sg).
Proof.
  intros Hr Ho Hn Hids. destruct (bare_represents lt dir g ord Hr Ho) as [A HA].
  pose proof (max_key_spec (g_nodes g)) as Hm. destruct (max_key (g_nodes g)) as [max|] eqn:Hmax.
  - destruct Hm as [H1 H2]. assert (max + 1 < id_card idt)%N as Hc.
    { specialize (Hids max). simpl in Hids. unfold gm_has_node in Hids. rewrite bool_decide_true in Hids by done.
      specialize (Hids eq_refl). unfold id_max in Hids. lia. }
    eexists. split; [by apply into_static_run|]. by eapply frozen_arrays.
  - exfalso. simpl in Hn. unfold gm_has_node in Hn. rewrite Hm, lookup_empty in Hn. apply bool_decide_eq_true in Hn. by destruct Hn.
Qed.

(** When the conversion panics. *)
Lemma into_static_panics {NL EL} `{EqDecision NL, EqDecision EL} (idt lt : idty) (dir : bool) (g : graphmap NL EL) ord :
  gm_reachable dir lt g → hash_order g ord → idt ≠ TUnit → (∀ n, v_has_node (gm_view dir ord g) n = true → (n ≤ id_max idt)%N) →
  gm_into_static idt lt dir g = Panic ↔
  v_node_count (gm_view dir ord g) = 0 ∨ v_has_node (gm_view dir ord g) (id_max idt) = true.
Proof.
  intros Hr Ho Hu Hids. pose proof (max_key_spec (g_nodes g)) as Hm. destruct (max_key (g_nodes g)) as [max|] eqn:Hmax.
  - destruct Hm as [H1 H2]. assert (v_has_node (gm_view dir ord g) max = true) as Hn.
    { simpl. unfold gm_has_node. by apply bool_decide_eq_true. }
    pose proof (Hids max Hn) as Hle. split.
    + intros Hp. right. destruct (decide (max = id_max idt)) as [<- |Hne]; [done|]. exfalso.
      destruct (into_static_frozen idt lt dir g ord max Hr Ho Hn) as (sg & Hok & _); [|congruence].
      intros n Hn'. simpl in Hn'. unfold gm_has_node in Hn'. apply bool_decide_eq_true in Hn'. pose proof (H2 n Hn'). lia.
    + intros [Hz|Hx].
      * exfalso. simpl in Hz. unfold gm_node_count in Hz. apply map_size_empty_inv in Hz. rewrite Hz, lookup_empty in H1. by destruct H1.
      * apply into_static_panic with max; [done..|]. simpl in Hx. unfold gm_has_node in Hx. apply bool_decide_eq_true in Hx.
        pose proof (H2 _ Hx). lia.
  - split; [|intros _; by apply into_static_empty]. intros _. left. simpl. unfold gm_node_count. by rewrite Hm.
Qed.
