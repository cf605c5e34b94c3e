(** into_static: the theorems. *)
From Verif Require Import Base BaseFacts Api Spec SpecFacts ViewFacts SpecStatic Static StaticFacts SpecSGraph StaticProps
  Map GraphMap GraphMapFacts GraphMapRefine IntoStatic StaticMore.

Section thms.
  Context {NL EL : Type} (idt lt : idty) (dir : bool) (g : graphmap NL EL) (ord : list N) (A : agraph NL EL).
  Context (HA : represents (gm_view dir ord g) A).
  Local Notation V := (gm_view dir ord g).

  Lemma max_exists n : a_has_node A n → ∃ max, max_key (g_nodes g) = Some max ∧ a_has_node A max ∧ ∀ n, a_has_node A n → (n ≤ max)%N.
  Proof.
    intros Hn. pose proof (max_key_spec (g_nodes g)) as Hm. destruct (max_key (g_nodes g)) as [max|].
    - exists max. split; [done|]. destruct Hm as [H1 H2]. split; [by apply (g_node dir g ord A HA)|]. intros m Hm. apply H2. by apply (g_node dir g ord A HA).
    - exfalso. apply (g_node dir g ord A HA) in Hn. rewrite Hm, lookup_empty in Hn. by destruct Hn.
  Qed.
  Lemma ids_below max : a_has_node A max → (∀ n, a_has_node A n → (n < id_max idt)%N) → (max + 1 < id_card idt)%N.
  Proof. intros Hm Hids. apply Hids in Hm. unfold id_max in Hm. lia. Qed.

  Lemma into_static_edges n : a_has_node A n → (∀ n, a_has_node A n → (n < id_max idt)%N) →
    (N.of_nat (length (g_elm g)) ≤ id_max lt)%N →
    ∃ sg, gm_into_static idt lt dir g = Ok sg ∧ same_edges V (sg_view idt lt dir sg).
  Proof.
    intros Hn Hids Hel. destruct (max_exists n Hn) as (max & Hmax & Hmn & Hle). pose proof (ids_below max Hmn Hids) as Hc.
    exists (static_arrays lt dir g (S (N.to_nat max))). split; [by apply into_static_run|].
    destruct (rows_csr dir g ord A HA max Hmax) as (Hcsr & Htight & Hcn).
    assert (csr_nodes (ev_offsets (sg_evec (static_arrays lt dir g (S (N.to_nat max))))) < id_card idt)%N as Hfit.
    { cbn [sg_evec ev_offsets static_arrays]. rewrite Hcn. lia. }
    assert (∀ s t, v_has_edge (sg_view idt lt dir (static_arrays lt dir g (S (N.to_nat max)))) s t = Ok (bool_decide (t ∈ (orow g (N.to_nat s)).*1))) as Hhe.
    { intros s t. cbn [v_has_edge sg_view]. rewrite (has_edge_ok (sg_evec (static_arrays lt dir g (S (N.to_nat max)))) Hcsr).
      cbn [sg_evec ev_offsets ev_edges static_arrays]. by rewrite (out_row_eq dir g ord A HA max Hmax). }
    assert (∀ s t, gm_has_edge g s t = true ↔ a_has_edge A s t) as Hge.
    { intros s t. unfold gm_has_edge. destruct (g_nodes g !! s) as [nd|] eqn:Hs.
      - assert (a_has_node A s) as Hin by (apply (g_node dir g ord A HA); eauto). destruct (rp_has_edge _ _ HA s t Hin) as (b & Hb & Hiff).
        simpl in Hb. unfold gm_has_edge in Hb. rewrite Hs in Hb. by injection Hb as <-.
      - split; [done|]. intros He. apply (wf_edge_nodes A _ _ (rp_wf _ _ HA)) in He as [He _]. apply (g_node dir g ord A HA) in He. rewrite Hs in He. by destruct He. }
    assert (∀ s t, t ∈ (orow g (N.to_nat s)).*1 ↔ a_has_edge A s t) as Hor.
    { intros s t. destruct (orow_keys dir g ord A HA (N.to_nat s)) as [_ ->]. by rewrite N2Nat.id. }
    constructor.
    - done.
    - done.
    - intros s t. rewrite Hhe. cbn [v_has_edge gm_view]. f_equal. apply eq_bool_prop_intro. rewrite bool_decide_spec, Hor. rewrite <- Hge. by rewrite Is_true_true.
    - intros s t. destruct (decide (t ∈ (orow g (N.to_nat s)).*1)) as [Hin|Hin].
      + assert (a_has_edge A s t) as He by (by apply Hor). rewrite (rep_edge_label _ _ s t HA He).
        apply elem_of_list_lookup in Hin as [k Hk]. rewrite <- (out_row_eq dir g ord A HA max Hmax) in Hk.
        pose proof (static_edge_label lt dir g ord A HA max Hmax s t k Hel Hk) as Hl.
        unfold v_edge_label. cbn [v_get_edge v_edge_label_map sg_view].
        rewrite (get_edge_row lt (static_arrays lt dir g (S (N.to_nat max))) Hcsr s t k Hk).
        cbn [rbind]. f_equal. cbn [sg_evec ev_offsets static_arrays sg_elm]. unfold ev_labels.
        destruct (ev_label_vec (sg_evec (static_arrays lt dir g (S (N.to_nat max))))) as [ls|] eqn:Hls;
          cbn [sg_evec ev_label_vec static_arrays] in Hls; cbn [ev_label_vec]; rewrite Hls; cbn [default from_option]; cbv [id].
        * destruct Hl as (i & Hi & ->). rewrite Hi. simpl. by destruct (static_label lt i).
        * rewrite Hl. assert (∀ o : list nat, row o (@nil N) s !! k = None) as Hnil.
          { intros o. unfold row. by destruct (o !! N.to_nat s), (o !! S (N.to_nat s)); rewrite ?drop_nil, ?take_nil. }
          by rewrite Hnil.
      + unfold v_edge_label. cbn [v_get_edge sg_view gm_view]. unfold sg_get_edge, gm_get_edge.
        specialize (Hhe s t). cbn [v_has_edge sg_view] in Hhe. rewrite Hhe, bool_decide_false by done. cbn [rbind negb].
        destruct (gm_has_edge g s t) eqn:Hg; [|done]. apply Hge in Hg. by apply Hor in Hg.
    - intros m Hm. apply (rp_has_node _ _ HA) in Hm. pose proof (Hle m Hm) as Hlem.
      assert (m < csr_nodes (ev_offsets (sg_evec (static_arrays lt dir g (S (N.to_nat max))))))%N as Hlt.
      { cbn [sg_evec ev_offsets static_arrays]. rewrite Hcn. lia. }
      assert (v_neighbors (sg_view idt lt dir (static_arrays lt dir g (S (N.to_nat max)))) m = v_neighbors V m) as Hnb.
      { destruct (rp_neighbors _ _ HA m Hm) as (l & -> & Hinc & Hin). cbn [v_neighbors sg_view]. rewrite (neighbors_ok (sg_evec (static_arrays lt dir g (S (N.to_nat max)))) Hcsr m Hlt). f_equal.
        cbn [sg_evec ev_offsets ev_edges static_arrays]. rewrite (out_row_eq dir g ord A HA max Hmax). apply increasing_unique; [|done|].
        - apply (orow_keys dir g ord A HA).
        - intros t. by rewrite Hor, Hin. }
      split; [done|]. rewrite (rp_degree _ _ HA m Hm), <- Hnb. cbn [v_degree v_neighbors sg_view].
      rewrite (degree_ok (sg_evec (static_arrays lt dir g (S (N.to_nat max)))) Hcsr m Hlt), (neighbors_ok (sg_evec (static_arrays lt dir g (S (N.to_nat max)))) Hcsr m Hlt). done.
    - intros Hdir m Hm. apply (rp_has_node _ _ HA) in Hm. pose proof (Hle m Hm) as Hlem.
      rewrite (rp_directed _ _ HA) in Hdir. destruct (rows_in_csr dir g ord A HA max Hmax Hdir) as (Hic & Hicn).
      assert (dir = true) as Hdt by (rewrite <- Hdir; by rewrite <- (rp_directed _ _ HA)).
      assert (v_in_neighbors (sg_view idt lt dir (static_arrays lt dir g (S (N.to_nat max)))) m = v_in_neighbors V m) as Hnb.
      { destruct (rp_in_neighbors _ _ HA Hdir m Hm) as (l & -> & Hinc & Hin). cbn [v_in_neighbors sg_view]. unfold sg_in_neighbors.
        cbn [sg_in static_arrays]. rewrite Hdt. cbn [if_some unwrap rbind].
        rewrite (neighbors_ok (ev_new _ _) Hic) by (cbn [ev_offsets ev_new]; rewrite Hicn; lia). f_equal.
        cbn [ev_offsets ev_edges ev_new]. rewrite (in_row_eq dir g ord A HA max Hmax). destruct (irow_keys dir g ord A HA (N.to_nat m) Hdir) as [Hi1 Hi2].
        apply increasing_unique; [done..|]. intros s. by rewrite Hi2, Hin, N2Nat.id. }
      split; [done|]. rewrite (rp_in_degree _ _ HA Hdir m Hm), <- Hnb. done.
    - destruct (rp_edge_indices _ _ HA) as (l & Hl & Hnd & Hin). destruct (ei_all_spec idt dir (sg_evec (static_arrays lt dir g (S (N.to_nat max)))) Hcsr Hfit) as (l' & Hl' & Hs & Hin').
      exists l, l'. split; [done|]. split; [exact Hl'|]. apply NoDup_Permutation; [by apply lex_lt_NoDup|done|]. intros [s t].
      rewrite Hin, Hin'. cbn [sg_evec ev_offsets ev_edges static_arrays]. rewrite <- (static_edges dir g ord A HA max Hmax s t).
      assert (dir = ag_dir A) as -> by (by rewrite <- (rp_directed _ _ HA)). unfold a_has_edge, a_edge_at. split.
      + intros [He Hor']. destruct (ag_dir A); simpl in He; [done|]. destruct Hor' as [|Hst]; [done|]. by rewrite N.min_l, N.max_r in He.
      + intros He. pose proof (rp_wf _ _ HA s t He) as (Hk & _). split; [by rewrite Hk|].
        destruct (ag_dir A); [by left|right]. simpl in Hk. injection Hk as Hmin Hmax'. lia.
    - done.
  Qed.

  (** Node ids without gaps. *)
  Lemma into_static_dense n : a_has_node A n → (∀ n, a_has_node A n → (n < id_max idt)%N) →
    (∀ n m, a_has_node A n → (m < n)%N → a_has_node A m) →
    (N.of_nat (length (g_nlm g)) ≤ id_max lt)%N → (N.of_nat (length (g_elm g)) ≤ id_max lt)%N →
    ∃ sg, gm_into_static idt lt dir g = Ok sg ∧ arrays_of lt sg A ∧
      let W := sg_view idt lt dir sg in
      represents W A ∧ answers_missing W A ∧ v_edge_count W = v_edge_count V ∧
      v_nodes W = rmapl (λ n, let* o := v_get_node W n in unwrap o) (v_node_indices W) ∧
      (dir = true ∨ g_elm g = [] → iterates W).
  Proof.
    intros Hn Hids Hdense Hnl Hel. destruct (max_exists n Hn) as (max & Hmax & Hmn & Hle). pose proof (ids_below max Hmn Hids) as Hc.
    exists (static_arrays lt dir g (S (N.to_nat max))). split; [by apply into_static_run|].
    assert (arrays_of lt (static_arrays lt dir g (S (N.to_nat max))) A) as Ha.
    { apply (into_static_arrays lt dir g ord A HA max Hmax); [|done..]. intros m. split; [apply Hle|]. intros Hm.
      destruct (decide (m = max)) as [-> |]; [done|]. apply (Hdense max); [done|lia]. }
    split; [done|]. destruct (rows_csr dir g ord A HA max Hmax) as (Hcsr & Htight & Hcn).
    assert (csr_nodes (ev_offsets (sg_evec (static_arrays lt dir g (S (N.to_nat max))))) < id_card idt)%N as Hfit.
    { cbn [sg_evec ev_offsets static_arrays]. rewrite Hcn. lia. }
    assert (dir = ag_dir A) as Hdir by (by rewrite <- (rp_directed _ _ HA)).
    cbv zeta.
    assert (iter1 : v_nodes (sg_view idt lt dir (static_arrays lt dir g (S (N.to_nat max)))) = rmapl (λ n, let* o := v_get_node (sg_view idt lt dir (static_arrays lt dir g (S (N.to_nat max)))) n in unwrap o)
      (v_node_indices (sg_view idt lt dir (static_arrays lt dir g (S (N.to_nat max)))))).
    { exact (static_nodes idt lt _ A Ha Hfit). }
    split_and!.
    - pose proof (static_represents idt lt _ A Ha Hfit) as Hr. by rewrite <- Hdir in Hr.
    - pose proof (static_missing idt lt _ A Ha Hfit) as Hr. by rewrite <- Hdir in Hr.
    - done.
    - exact iter1.
    - intros Hor. constructor; [exact iter1|]. destruct (decide (g_elm g = [])) as [He|He].
      + apply edges_unlabelled; [exact Hcsr|exact Hfit|]. unfold ev_labels. cbn [sg_evec ev_label_vec static_arrays]. unfold has_el. by rewrite He.
      + destruct Hor as [Hd|]; [|done]. apply edges_directed; [exact Hcsr|exact Hfit|exact Hd|exact Htight|].
        unfold ev_labels. cbn [sg_evec ev_label_vec ev_edges static_arrays]. unfold has_el. destruct (g_elm g) eqn:Hg; [done|]. cbn [if_some].
        etransitivity; [symmetry; apply sum_list_len|]. rewrite lab_rows_lens. apply sum_list_len.
  Qed.
End thms.

Section bad.
  Context {NL EL : Type} (idt lt : idty) (dir : bool) (g : graphmap NL EL) (ord : list N) (A : agraph NL EL).
  Context (HA : represents (gm_view dir ord g) A).
  Local Notation V := (gm_view dir ord g).
  Lemma into_static_no_nodes : (∀ n, ¬ a_has_node A n) → gm_into_static idt lt dir g = Panic.
  Proof.
    intros Hn. apply into_static_empty. apply map_eq. intros n. rewrite lookup_empty. destruct (g_nodes g !! n) eqn:Hg; [|done].
    exfalso. apply (Hn n), (g_node dir g ord A HA). eauto.
  Qed.
  Lemma into_static_max_id : idt ≠ TUnit → (∀ n, a_has_node A n → (n ≤ id_max idt)%N) → a_has_node A (id_max idt) →
    gm_into_static idt lt dir g = Panic.
  Proof.
    intros Hu Hle Hn. destruct (max_exists dir g ord A HA _ Hn) as (max & Hmax & Hm & Hall). eapply into_static_panic; [done|exact Hmax|].
    apply Hall in Hn. apply Hle in Hm. lia.
  Qed.
  Lemma into_static_gap n m : a_has_node A n → ¬ a_has_node A m → (m < n)%N → (∀ n, a_has_node A n → (n < id_max idt)%N) →
    ∃ sg k, gm_into_static idt lt dir g = Ok sg ∧ a_has_node A k ∧ v_has_node (sg_view idt lt dir sg) k = false ∧
      v_get_node (sg_view idt lt dir sg) k = Ok None.
  Proof.
    intros Hn Hm Hlt Hids. destruct (max_exists dir g ord A HA n Hn) as (max & Hmax & Hmn & Hle). pose proof (ids_below idt A max Hmn Hids) as Hc.
    exists (static_arrays lt dir g (S (N.to_nat max))), max. split; [by apply into_static_run|]. split; [done|].
    assert (sg_has_node (static_arrays lt dir g (S (N.to_nat max))) max = false) as Hf.
    { unfold sg_has_node. apply bool_decide_eq_false. cbn [sg_num_nodes static_arrays]. unfold id_id.
      pose proof (rp_node_count _ _ HA) as Hcnt. simpl in Hcnt. rewrite Hcnt. unfold a_num_nodes.
      assert (size (ag_nodes A) + 1 ≤ S (N.to_nat max)); [|lia].
      pose proof (Hle n Hn) as Hnm.
      rewrite <- (size_dom (D := gset N)). rewrite <- (size_singleton (C := gset N) m), <- size_union.
      2:{ intros x H1 H2. apply elem_of_singleton in H2 as ->. apply elem_of_dom in H1. by apply Hm. }
      transitivity (size (list_to_set (N.of_nat <$> seq 0 (S (N.to_nat max))) : gset N)).
      - apply subseteq_size. intros x Hx. apply elem_of_list_to_set, elem_of_list_fmap. exists (N.to_nat x). rewrite N2Nat.id. split; [done|].
        apply elem_of_seq. apply elem_of_union in Hx as [Hx|Hx].
        + apply elem_of_dom, Hle in Hx. lia.
        + apply elem_of_singleton in Hx as ->. lia.
      - rewrite size_list_to_set; [by rewrite fmap_length, seq_length|]. apply NoDup_fmap; [apply _|apply NoDup_seq]. }
    split; [done|]. cbn [v_get_node sg_view]. unfold sg_get_node. by rewrite Hf.
  Qed.
End bad.
