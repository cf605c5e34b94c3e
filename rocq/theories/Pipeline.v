(** From API calls to serialised, static and mapped graphs: the hypotheses of the later stages
    follow from the history. *)
From stdpp Require Import gmap strings.
From Verif Require Import Base BaseFacts Api Bytes Spec SpecFacts SpecStatic SpecSGraph Map MapFacts GraphMap GraphMapFacts
  GraphMapRefine GraphMapQueries GraphMapSim GraphMapThms GraphMapMore ViewFacts Static StaticFacts StaticProps IntoStatic StaticMore IntoStaticProps
  SpecReorder Reorder ReorderFacts ReorderProps ReorderThms ReorderMain Serde SpecSerde SerdeFacts Mmap SpecMmap MmapFacts MmapProps MmapThms MmapMore.

Lemma in_usize_le a b : a ≤ b → in_usize b → in_usize a.
Proof. unfold in_usize. lia. Qed.
Lemma id_card_pos t : (0 < id_card t)%N.
Proof. by destruct t. Qed.
Lemma bounded_length (l : list N) n : NoDup l → (∀ x, x ∈ l → (x < N.of_nat n)%N) → length l ≤ n.
Proof.
  intros Hn Hl. rewrite <-(seq_length n 0), <-(fmap_length N.of_nat (seq 0 n)). apply submseteq_length, NoDup_submseteq; [done|].
  intros x Hx. apply elem_of_list_fmap. exists (N.to_nat x). split; [lia|]. apply elem_of_seq. specialize (Hl x Hx). lia.
Qed.
Lemma subset_length {X} `{EqDecision X} (l k : list X) : NoDup l → (∀ x, x ∈ l → x ∈ k) → length l ≤ length k.
Proof. intros Hn Hl. by apply submseteq_length, NoDup_submseteq. Qed.
Lemma mjoin_length_le {X} (R : list (list X)) n : (∀ r, r ∈ R → length r ≤ n) → length (mjoin R) ≤ length R * n.
Proof.
  induction R as [|r R IH]; intros HR; [done|]. csimpl. rewrite app_length. pose proof (HR r ltac:(left)).
  specialize (IH (λ r' H, HR r' ltac:(by right))). lia.
Qed.

Section typed.
  Context {NL EL : Type} `{EqDecision NL, EqDecision EL} (dir : bool) (it lt : idty).
  Notation lrel := (rel dir (@lab_rel NL) (@lab_rel EL)).
  Implicit Types (g : graphmap NL EL) (s : sstate NL EL).

  Lemma lab_in_type {X} (ls : list X) lid l : labels_fit lt ls → lab_rel ls lid l → opt_all (in_type lt) lid.
  Proof.
    intros Hf. destruct lid as [i|], l as [x|]; cbn; try done. intros Hi%lookup_lt_Some. unfold labels_fit in Hf. unfold in_type. lia.
  Qed.
  Lemma nodes_typed g s : lrel g s → (∀ n, a_has_node (sp_g s) n → in_type it n) → labels_fit lt (sp_nls s) → labels_fit lt (sp_els s) →
    in_usize (a_num_nodes (sp_g s)) →
    in_usize (size (g_nodes g)) ∧ ∀ x n, g_nodes g !! x = Some n → in_type it x ∧ typed_node it lt n.
  Proof.
    intros H Hid HN HE Hus. pose proof (r_abs _ _ _ _ _ H) as Ha.
    assert (∀ n, is_Some (g_nodes g !! n) ↔ a_has_node (sp_g s) n) as Hnode by (intros n; by eapply abs_has_node).
    assert (dom (g_nodes g) = dom (ag_nodes (sp_g s))) as Hdom.
    { apply set_eq. intros n. rewrite !elem_of_dom. apply Hnode. }
    assert (size (g_nodes g) = a_num_nodes (sp_g s)) as Hsz by (unfold a_num_nodes; by rewrite <-!size_dom, Hdom).
    split; [by rewrite Hsz|]. intros x n Hx.
    assert (a_has_node (sp_g s) x) as HxA by (apply Hnode; eauto). split; [by apply Hid|].
    pose proof (ar_node _ _ _ _ _ Ha x) as Hn. rewrite Hx in Hn. inversion Hn as [? l [Hnid Hlab] Heq1 Heq2|]; clear Hn.
    rewrite (r_nls _ _ _ _ _ H) in Hlab. split.
    - rewrite Hnid. by apply Hid.
    - exact (lab_in_type _ _ _ HN Hlab).
    - split.
      + eapply in_usize_le; [|exact Hus]. unfold a_num_nodes. rewrite <-!size_dom. apply subseteq_size. intros y Hy%elem_of_dom.
        apply elem_of_dom. assert (is_Some (adj (g_nodes g) x y)) as Hadj by (unfold adj; by rewrite Hx).
        apply (abs_adj _ _ _ _ _ _ _ Ha) in Hadj. by apply (wf_edge_nodes _ _ _ (ar_wf _ _ _ _ _ Ha)) in Hadj as [_ ?].
      + intros y l' Hy. assert (adj (g_nodes g) x y = Some l') as Hadj by (unfold adj; by rewrite Hx). split.
        * apply Hid. assert (is_Some (adj (g_nodes g) x y)) as Hs by eauto. apply (abs_adj _ _ _ _ _ _ _ Ha) in Hs.
          by apply (wf_edge_nodes _ _ _ (ar_wf _ _ _ _ _ Ha)) in Hs as [_ ?].
        * pose proof (ar_edge _ _ _ _ _ Ha x y) as He. rewrite Hadj in He. inversion He as [? l'' Hl''|]; subst.
          rewrite (r_els _ _ _ _ _ H) in Hl''. by eapply lab_in_type.
    - assert (∀ y, y ∈ nm_in n → a_has_node (sp_g s) y) as Hin.
      { intros y Hy. pose proof (ar_in _ _ _ _ _ Ha x n Hx) as Hi. destruct dir; [|by rewrite Hi in Hy]. apply Hi in Hy.
        by apply (wf_edge_nodes _ _ _ (ar_wf _ _ _ _ _ Ha)) in Hy as [? _]. }
      split; [|intros y Hy; by apply Hid, Hin]. eapply in_usize_le; [|exact Hus]. unfold a_num_nodes. rewrite <-size_dom. apply subseteq_size.
      intros y Hy. by apply elem_of_dom, Hin.
  Qed.
  Lemma graph_typed PN PE g s : lrel g s → (∀ n, a_has_node (sp_g s) n → in_type it n) → opt_all (in_type it) (sp_max s) →
    labels_fit lt (sp_nls s) → labels_fit lt (sp_els s) → vec_of PN (sp_nls s) → vec_of PE (sp_els s) →
    in_usize (a_num_nodes (sp_g s)) → in_usize (sp_count s) → typed_graph it lt PN PE g.
  Proof.
    intros H Hid Hm HN HE HPN HPE Hus Hc. split.
    - by eapply nodes_typed.
    - by rewrite (r_count _ _ _ _ _ H).
    - rewrite (r_nls _ _ _ _ _ H). split; [done|apply H].
    - rewrite (r_els _ _ _ _ _ H). split; [done|apply H].
    - by rewrite (r_max _ _ _ _ _ H).
  Qed.

  (** ** The arrays of into_static *)
  Lemma raw_label_typed l : opt_all (in_type lt) l → in_type lt (raw_label lt l).
  Proof. destruct l as [i|]; [done|]. intros _. cbn. unfold in_type, id_max. pose proof (id_card_pos lt). lia. Qed.
  Lemma psums_bound a ls x : x ∈ psums a ls → x ≤ a + sum_list ls.
  Proof.
    revert a. induction ls as [|l ls IH]; intros a; cbn.
    - intros ->%elem_of_list_singleton. lia.
    - intros [->|Hx]%elem_of_cons; [lia|]. apply IH in Hx. lia.
  Qed.
  Lemma arrays_typed PN PE g s ord max : lrel g s → hash_order g ord → max_key (g_nodes g) = Some max →
    (∀ n, a_has_node (sp_g s) n → in_type it n) → labels_fit lt (sp_nls s) → labels_fit lt (sp_els s) → vec_of PN (sp_nls s) → vec_of PE (sp_els s) →
    in_usize (sp_count s) → in_usize (S (S (N.to_nat max)) * S (N.to_nat max)) →
    typed_sgraph it lt PN PE (static_arrays lt dir g (S (N.to_nat max))).
  Proof.
    intros H Hit Hmax Hid HN HE HPN HPE Hc Hus. set (M := S (N.to_nat max)) in *.
    destruct (lrel_view dir g s ord H Hit) as (HA & _).
    assert (in_usize M) as HM by (eapply in_usize_le; [|exact Hus]; nia).
    assert (a_num_nodes (sp_g s) ≤ M) as Hnn.
    { unfold a_num_nodes, size, map_size. rewrite <-(fmap_length fst (map_to_list (ag_nodes (sp_g s)))). apply bounded_length; [apply NoDup_fst_map_to_list|].
      intros x ([? l] & -> & Hl%elem_of_map_to_list)%elem_of_list_fmap. assert (a_has_node (sp_g s) n) as Hn by (by exists l).
      pose proof (below dir g ord (sp_g s) HA max Hmax _ Hn). cbn. lia. }
    destruct (nodes_typed g s H Hid HN HE) as [Hsz Hnodes]; [by eapply in_usize_le|].
    assert (∀ i, length (orow g i) ≤ M) as Hol.
    { intros i. rewrite <-(fmap_length fst). destruct (orow_keys dir g ord _ HA i) as [Hs Hin]. apply bounded_length; [by apply increasing_NoDup|].
      intros x Hx%Hin. apply (wf_edge_nodes _ _ _ (rp_wf _ _ HA)) in Hx as [_ Hx]. apply (below dir g ord _ HA max Hmax) in Hx. lia. }
    assert (length (mjoin (out_rows g M)) ≤ M * M) as Hout.
    { etransitivity; [apply (mjoin_length_le _ M)|by rewrite out_rows_length]. intros r (i & -> & _)%elem_of_list_fmap. rewrite fmap_length. apply Hol. }
    assert (in_usize (M * M)) as HMM by (eapply in_usize_le; [|exact Hus]; nia).
    assert (∀ i t l, (t, l) ∈ orow g i → in_type it t ∧ opt_all (in_type lt) l) as Hty.
    { intros i t l Hin. unfold orow in Hin. destruct (g_nodes g !! N.of_nat i) as [nd|] eqn:Hnd; [|by apply elem_of_nil in Hin].
      apply bt_iter_elem in Hin. destruct (Hnodes _ _ Hnd) as [_ Htn]. by apply (proj2 (tn_nbrs _ _ _ Htn)). }
    unfold static_arrays. split; cbn [sg_num_nodes sg_num_edges sg_evec sg_in sg_labels sg_nlm sg_elm].
    - split; [done|]. unfold gm_edge_count. by rewrite (r_count _ _ _ _ _ H).
    - split; cbn [ev_offsets ev_edges ev_label_vec].
      + split.
        * rewrite psums_length, fmap_length, out_rows_length. eapply in_usize_le; [|exact Hus]. nia.
        * apply Forall_forall. intros x Hx%psums_bound. rewrite sum_list_len in Hx. eapply in_usize_le; [|exact HMM]. lia.
      + split; [by eapply in_usize_le|]. apply Forall_forall. intros x (r & Hx & Hr)%elem_of_list_join.
        apply elem_of_list_fmap in Hr as (i & -> & _). apply elem_of_list_fmap in Hx as ([t l] & -> & Hin). by apply (Hty i t l).
      + destruct (has_el g); cbn [if_some opt_all]; [|done]. split.
        * rewrite <-sum_list_len, lab_rows_lens, sum_list_len. by eapply in_usize_le.
        * apply Forall_forall. intros x (r & Hx & Hr)%elem_of_list_join. apply elem_of_list_fmap in Hr as (i & -> & _).
          apply elem_of_list_fmap in Hx as (l & -> & Hl). apply elem_of_list_fmap in Hl as ([t l'] & -> & Hin). apply raw_label_typed. by apply (Hty i t l').
    - destruct dir eqn:Hd; cbn [if_some opt_all]; [|done]. rewrite <-Hd in *. assert (ag_dir (sp_g s) = true) as HdA.
      { rewrite <-(rp_directed _ _ HA). by rewrite Hd. }
      assert (length (mjoin (in_rows g M)) ≤ M * M) as Hin.
      { etransitivity; [apply (mjoin_length_le _ M)|by rewrite in_rows_length]. intros r (i & -> & _)%elem_of_list_fmap.
        destruct (irow_keys _ g ord _ HA i HdA) as [Hs Hin]. apply bounded_length; [by apply increasing_NoDup|].
        intros x Hx%Hin. apply (wf_edge_nodes _ _ _ (rp_wf _ _ HA)) in Hx as [Hx _]. apply (below _ g ord _ HA max Hmax) in Hx. lia. }
      split; cbn [ev_new ev_offsets ev_edges ev_label_vec].
      + split.
        * rewrite psums_length, fmap_length, in_rows_length. eapply in_usize_le; [|exact Hus]. nia.
        * apply Forall_forall. intros x Hx%psums_bound. rewrite sum_list_len in Hx. eapply in_usize_le; [|exact HMM]. lia.
      + split; [by eapply in_usize_le|]. apply Forall_forall. intros x (r & Hx & Hr)%elem_of_list_join.
        apply elem_of_list_fmap in Hr as (i & -> & _). destruct (irow_keys _ g ord _ HA i HdA) as [_ Hk]. apply Hk in Hx.
        apply Hid. by apply (wf_edge_nodes _ _ _ (rp_wf _ _ HA)) in Hx as [? _].
      + done.
    - destruct (has_nl g); cbn [if_some opt_all]; [|done]. split; [by rewrite fmap_length, seq_length|]. apply Forall_forall. intros x (i & -> & _)%elem_of_list_fmap.
      unfold nlab. destruct (g_nodes g !! N.of_nat i) as [nd|] eqn:Hnd; [apply raw_label_typed; by apply (Hnodes _ _ Hnd)|].
      by apply (raw_label_typed None).
    - rewrite (r_nls _ _ _ _ _ H). split; [done|apply H].
    - rewrite (r_els _ _ _ _ _ H). split; [done|apply H].
  Qed.
End typed.

(** ** The stages *)
Section stages.
  Context {NL EL : Type} `{EqDecision NL, EqDecision EL} (dir : bool) (it lt : idty).
  Context (cn : codec NL) (ce : codec EL) (PN : NL → Prop) (PE : EL → Prop).
  Context (Hcn : faithful cn PN) (Hce : faithful ce PE).
  Notation lrel := (rel dir (@lab_rel NL) (@lab_rel EL)).

  Lemma dense_below (A : agraph NL EL) n : (∀ n m, a_has_node A n → (m < n)%N → a_has_node A m) → a_has_node A n →
    (n < N.of_nat (a_num_nodes A))%N.
  Proof.
    intros Hd Hn. assert (length (N.of_nat <$> seq 0 (S (N.to_nat n))) ≤ length (map_to_list (ag_nodes A)).*1) as Hl.
    { apply subset_length; [apply NoDup_fmap_2; [intros ???; lia|apply NoDup_seq]|].
      intros x (k & -> & Hk%elem_of_seq)%elem_of_list_fmap.
      assert (a_has_node A (N.of_nat k)) as [l Hx].
      { destruct (decide (N.of_nat k = n)) as [->|]; [done|]. apply (Hd n); [done|lia]. }
      apply elem_of_list_fmap. exists (N.of_nat k, l). split; [done|]. by apply elem_of_map_to_list. }
    rewrite !fmap_length, seq_length in Hl. unfold a_num_nodes, size, map_size. lia.
  Qed.

  Lemma static_stage (g : graphmap NL EL) s n : lrel g s → a_has_node (sp_g s) n →
    (∀ n m, a_has_node (sp_g s) n → (m < n)%N → a_has_node (sp_g s) m) → (N.of_nat (a_num_nodes (sp_g s)) ≤ id_max it)%N →
    (N.of_nat (length (sp_nls s)) ≤ id_max lt)%N → (N.of_nat (length (sp_els s)) ≤ id_max lt)%N →
    ∃ sg, gm_into_static it lt dir g = Ok sg ∧
      represents (sg_view it lt dir sg) (sp_g s) ∧ answers_missing (sg_view it lt dir sg) (sp_g s) ∧ v_edge_count (sg_view it lt dir sg) = sp_count s ∧
      v_node_label_map (sg_view it lt dir sg) = sp_nls s ∧ v_edge_label_map (sg_view it lt dir sg) = sp_els s ∧
      (vec_of PN (sp_nls s) → vec_of PE (sp_els s) → in_usize (sp_count s) → in_usize (S (a_num_nodes (sp_g s)) * a_num_nodes (sp_g s)) →
       (∀ path F, import (c_sgraph it lt cn ce) path (export path (enc (c_sgraph it lt cn ce) sg) F) = Some sg) ∧
       ∀ a b p F, a_has_edge (sp_g s) a b → fresh_prefix F p →
         ∃ m, mm_open it lt cn ce (sg_dump_mmap it lt cn ce sg p F) p = Ok m ∧ represents (mm_view it lt m) (sp_g s) ∧
           v_edge_count (mm_view it lt m) = sp_count s ∧ v_node_label_map (mm_view it lt m) = sp_nls s ∧ v_edge_label_map (mm_view it lt m) = sp_els s).
  Proof using Hcn Hce.
    intros H Hn Hdense Hids Hnl Hel. set (ord := (map_to_list (g_nodes g)).*1).
    assert (hash_order g ord) as Hit by (by unfold hash_order).
    destruct (lrel_view dir g s ord H Hit) as (HA & _ & _ & Hcnt & _ & _ & _).
    assert (∀ x, a_has_node (sp_g s) x → (x < id_max it)%N) as Hlt by (intros x Hx; apply (dense_below _ _ Hdense) in Hx; lia).
    rewrite <-(r_nls _ _ _ _ _ H) in Hnl. rewrite <-(r_els _ _ _ _ _ H) in Hel.
    destruct (into_static_dense it lt dir g ord _ HA n Hn Hlt Hdense Hnl Hel) as (sg & Hsg & _ & HW & Hmiss & Hc & _).
    exists sg. split; [done|]. split; [done|]. split; [done|]. split; [by rewrite Hc, Hcnt|].
    destruct (max_exists dir g ord _ HA n Hn) as (max & Hmax & Hm & Hle).
    pose proof Hsg as Hsg'. rewrite (into_static_run it lt dir g max Hmax) in Hsg' by (by apply (ids_below it (sp_g s) max)). injection Hsg' as Hsg'.
    assert (sg_nlm sg = sp_nls s ∧ sg_elm sg = sp_els s) as [Hl1 Hl2].
    { rewrite <-Hsg'. cbn [sg_nlm sg_elm static_arrays]. by rewrite (r_nls _ _ _ _ _ H), (r_els _ _ _ _ _ H). }
    split; [exact Hl1|]. split; [exact Hl2|]. intros HPN HPE Hec Hus.
    assert (typed_sgraph it lt PN PE sg) as Ht.
    { rewrite <-Hsg'. apply (dense_below _ _ Hdense) in Hm.
      eapply (arrays_typed dir it lt PN PE g s ord max H Hit Hmax); try done.
      - intros x Hx. apply Hlt in Hx. unfold in_type. unfold id_max in Hx. lia.
      - unfold labels_fit. rewrite <-(r_nls _ _ _ _ _ H). unfold id_max in Hnl. lia.
      - unfold labels_fit. rewrite <-(r_els _ _ _ _ _ H). unfold id_max in Hel. lia.
      - eapply in_usize_le; [|exact Hus]. apply Nat.mul_le_mono; lia. }
    split. { intros path F. by apply (import_export _ _ path F sg (proj1 (f_sgraph it lt cn ce PN PE Hcn Hce))). }
    intros a b p F Hab Hf.
    assert (mappable it lt PN PE dir sg) as Hmp.
    { apply (into_static_mappable it lt dir g ord (sp_g s) HA PN PE a b sg); try done.
      intros ->. change (id_max TUnit) with 0%N in *. split; apply nil_length_inv; lia. }
    destruct (roundtrip it lt cn ce PN PE Hcn Hce dir sg p F Hmp (fresh_no_stale F p sg Hf)) as (m & Hm' & Hsa).
    exists m. split; [done|]. split; [by eapply same_answers_represents|]. rewrite (proj2 (sa_counts _ _ Hsa)), Hc, Hcnt.
    split; [done|]. destruct (sa_label_maps _ _ Hsa) as [-> ->]. done.
  Qed.

  (** From a history. *)
  Lemma history_export nls els h rs s : NoDup nls → NoDup els → spec_run h (s_init dir nls els) = SOk (rs, s) →
    labels_fit lt (sp_nls s) → labels_fit lt (sp_els s) → Forall (in_type it) (h ≫= inserted) →
    vec_of PN (sp_nls s) → vec_of PE (sp_els s) → in_usize (a_num_nodes (sp_g s)) → in_usize (sp_count s) →
    ∃ g : graphmap NL EL, gm_run dir lt h (gm_with_label_map nls els) = Ok (rs, g) ∧
      ∀ path F ord ord', hash_order g ord →
        import (c_graphmap it lt cn ce ord') path (export path (enc (c_graphmap it lt cn ce ord) g) F) = Some g.
  Proof using Hcn Hce.
    intros Hn He Hs HN HE Hid HPN HPE Hus Hc.
    destruct (label_sim dir lt h (gm_with_label_map nls els) (s_init dir nls els) rs s) as (g & Hg & H); [by apply rel_init|done..|].
    exists g. split; [done|]. intros path F ord ord' Ho.
    assert (typed_graph it lt PN PE g) as Ht.
    { destruct (max_seen_lemma dir lt nls els h rs g ord Hn He Hg Ho) as (o & Ho' & _ & Hmax & Hbelow).
      destruct (lrel_view dir g s ord H Ho) as (HA & _ & _ & _ & Hms & _). rewrite Hms in Ho'. injection Ho' as <-.
      assert (opt_all (in_type it) (sp_max s)) as Hm.
      { destruct (sp_max s) as [m|]; [|done]. destruct (proj1 (Hmax m) eq_refl) as [Hin _]. by apply (proj1 (Forall_forall _ _) Hid). }
      apply (graph_typed dir it lt PN PE g s); try done. intros n Hn'%(rp_has_node _ _ HA).
      destruct (Hbelow n Hn') as (m & Hm' & Hle). rewrite Hm' in Hm. cbn in Hm. unfold in_type in *. lia. }
    exact (import_export (c_graphmap it lt cn ce ord) _ path F g (proj1 (f_graphmap it lt cn ce PN PE Hcn Hce ord)) (conj Ho Ht)).
  Qed.
  Lemma history_mmap nls els h rs s a b : NoDup nls → NoDup els → spec_run h (s_init dir nls els) = SOk (rs, s) →
    a_has_edge (sp_g s) a b → (∀ n m, a_has_node (sp_g s) n → (m < n)%N → a_has_node (sp_g s) m) →
    (N.of_nat (a_num_nodes (sp_g s)) ≤ id_max it)%N →
    (N.of_nat (length (sp_nls s)) ≤ id_max lt)%N → (N.of_nat (length (sp_els s)) ≤ id_max lt)%N →
    vec_of PN (sp_nls s) → vec_of PE (sp_els s) → in_usize (sp_count s) → in_usize (S (a_num_nodes (sp_g s)) * a_num_nodes (sp_g s)) →
    ∃ (g : graphmap NL EL) sg, gm_run dir lt h (gm_with_label_map nls els) = Ok (rs, g) ∧ gm_into_static it lt dir g = Ok sg ∧
      ∀ p F, fresh_prefix F p →
        ∃ m, mm_open it lt cn ce (sg_dump_mmap it lt cn ce sg p F) p = Ok m ∧ represents (mm_view it lt m) (sp_g s) ∧
          v_edge_count (mm_view it lt m) = sp_count s ∧ v_node_label_map (mm_view it lt m) = sp_nls s ∧ v_edge_label_map (mm_view it lt m) = sp_els s.
  Proof using Hcn Hce.
    intros Hn He Hs Hab Hd Hids HN HE HPN HPE Hc Hus.
    destruct (label_sim dir lt h (gm_with_label_map nls els) (s_init dir nls els) rs s) as (g & Hg & H);
      [by apply rel_init|done|unfold labels_fit, id_max in *; lia..|].
    exists g. assert (a_has_node (sp_g s) a) as Ha.
    { by apply (wf_edge_nodes _ a b (ar_wf _ _ _ _ _ (r_abs _ _ _ _ _ H))). }
    destruct (static_stage g s a H Ha Hd Hids HN HE) as (sg & Hsg & _ & _ & _ & _ & _ & Hrest). exists sg. split; [done|]. split; [done|].
    destruct (Hrest HPN HPE Hc Hus) as [_ Hm]. intros p F Hf. by apply (Hm a b).
  Qed.

  (** Renumber, freeze, map. *)
  Lemma new_labels_sub {X} (o : option (list N)) (ls : list X) x : x ∈ new_labels o ls → x ∈ ls.
  Proof. destruct o as [mp|]; [|done]. cbn [new_labels]. intros (i & _ & Hi)%elem_of_list_omap. by eapply elem_of_list_lookup_2. Qed.
  Lemma new_labels_length {X} (o : option (list N)) (ls : list X) `{EqDecision X} : NoDup (new_labels o ls) → length (new_labels o ls) ≤ length ls.
  Proof. intros H. apply subset_length; [done|]. intros x. apply new_labels_sub. Qed.
  Lemma new_labels_vec {X} (o : option (list N)) (ls : list X) `{EqDecision X} P : NoDup (new_labels o ls) → vec_of P ls → vec_of P (new_labels o ls).
  Proof.
    intros Hn [Hu HP]. split; [by eapply in_usize_le; [apply new_labels_length|]|]. apply Forall_forall. intros x Hx%new_labels_sub.
    by apply (proj1 (Forall_forall _ _) HP).
  Qed.
  Lemma renumber nls els h rs s n : NoDup nls → NoDup els → spec_run h (s_init dir nls els) = SOk (rs, s) →
    a_has_node (sp_g s) n → (∀ x, a_has_node (sp_g s) x → in_type it x) → (N.of_nat (a_num_nodes (sp_g s)) ≤ id_max it)%N →
    (N.of_nat (length (sp_nls s)) ≤ id_max lt)%N → (N.of_nat (length (sp_els s)) ≤ id_max lt)%N →
    ∃ g : graphmap NL EL, gm_run dir lt h (gm_with_label_map nls els) = Ok (rs, g) ∧
    ∀ ord no eo fnl fel, hash_order g ord →
      counter_order (node_label_ids g ord) no → counter_order (edge_label_ids dir g ord) eo →
      ∃ R g' R' sg f B, gm_reorder_id dir it lt ord no eo true fnl fel g = Ok R ∧ rr_take_graph R = (Some g', R') ∧
        gm_into_static it lt dir g' = Ok sg ∧
        renames f (sp_g s) B ∧ onto_prefix f (sp_g s) ∧
        (∀ x, a_has_node (sp_g s) x → rr_find_new_node_id it R' x = Ok (f x) ∧ rr_get_original_node_id R' (f x) = Ok x) ∧
        represents (sg_view it lt dir sg) B ∧ answers_missing (sg_view it lt dir sg) B ∧ v_edge_count (sg_view it lt dir sg) = sp_count s ∧
        (vec_of PN (sp_nls s) → vec_of PE (sp_els s) → in_usize (sp_count s) → in_usize (S (a_num_nodes (sp_g s)) * a_num_nodes (sp_g s)) →
         (∀ path F, import (c_sgraph it lt cn ce) path (export path (enc (c_sgraph it lt cn ce) sg) F) = Some sg) ∧
         ∀ a b p F, a_has_edge (sp_g s) a b → fresh_prefix F p →
           ∃ m, mm_open it lt cn ce (sg_dump_mmap it lt cn ce sg p F) p = Ok m ∧ represents (mm_view it lt m) B ∧
             v_edge_count (mm_view it lt m) = sp_count s).
  Proof using Hcn Hce.
    intros Hn He Hs HnA Hid Hids HN HE.
    destruct (label_sim dir lt h (gm_with_label_map nls els) (s_init dir nls els) rs s) as (g & Hg & H);
      [by apply rel_init|done|unfold labels_fit, id_max in *; lia..|].
    exists g. split; [done|]. intros ord no eo fnl fel Hit Hno Heo.
    pose proof (reorder_ok dir it lt g s H ord Hit no eo true fnl fel Hid) as Hr.
    rewrite (r_nls _ _ _ _ _ H), (r_els _ _ _ _ _ H) in Hr.
    specialize (Hr ltac:(unfold labels_fit, id_max in *; lia) ltac:(unfold labels_fit, id_max in *; lia) Hno Heo).
    cbv zeta in Hr. destruct Hr as (Hc & g' & mx & Hg' & HR & Hrel').
    destruct (node_order_onto dir it _ _ g s H ord Hit Hc) as [Honto _].
    set (f := vf it (Some (node_order g ord))) in *. set (B := a_rename f (sp_g s)) in *.
    set (s' := SState B (sp_count s) mx _ _) in Hrel'.
    assert (a_num_nodes B = a_num_nodes (sp_g s)) as Hsz.
    { unfold B, a_num_nodes. apply rename_num_nodes. apply (rn_inj _ _ _ HR). }
    assert (∀ y, a_has_node B y ↔ (y < N.of_nat (a_num_nodes B))%N) as HB.
    { intros y. rewrite Hsz. split.
      - intros [l Hl]. apply (rn_nodes _ _ _ HR) in Hl as (x & Hx & <-). apply Honto. by exists l.
      - intros Hy. apply Honto in Hy as (x & Hx & <-). by apply (renames_has_node f (sp_g s)). }
    assert (lrel g' s') as Hrel'' by exact Hrel'.
    destruct (static_stage g' s' (f n)) as (sg & Hsg & H1 & H2 & H3 & _ & _ & Hrest); cbn [sp_g sp_count sp_nls sp_els] in *.
    - done.
    - by apply (renames_has_node f (sp_g s)).
    - intros x y Hx Hy. apply HB. apply HB in Hx. lia.
    - change (sp_g s') with B. by rewrite Hsz.
    - etransitivity; [|exact HN]. apply N2Z.inj_le. rewrite !nat_N_Z. apply inj_le. exact (new_labels_length _ _ (r_nd_nls _ _ _ _ _ Hrel'')).
    - etransitivity; [|exact HE]. apply N2Z.inj_le. rewrite !nat_N_Z. apply inj_le. exact (new_labels_length _ _ (r_nd_els _ _ _ _ _ Hrel'')).
    - eexists _, g', _, sg, f, B. split; [exact Hg'|]. split; [reflexivity|]. split; [done|]. split; [done|]. split; [done|]. split.
      { intros x Hx. unfold rr_find_new_node_id, rr_get_original_node_id. cbn [rr_map snd fst]. split; [by apply (via_ok it _ (a_has_node (sp_g s)))|].
        destruct (vf_index it _ _ x Hc Hx) as (i & _ & Hi & Hv & _). unfold f. rewrite Hv. unfold sm_get_item, id_id. by rewrite Nat2N.id, Hi. }
      split; [done|]. split; [done|]. split; [done|]. intros HPN HPE Hcnt Hus. destruct Hrest as [Hi Hm].
      + exact (new_labels_vec _ _ PN (r_nd_nls _ _ _ _ _ Hrel'') HPN).
      + exact (new_labels_vec _ _ PE (r_nd_els _ _ _ _ _ Hrel'') HPE).
      + done.
      + change (sp_g s') with B. by rewrite Hsz.
      + split; [done|]. intros a b p F Hab Hf.
        destruct (wf_edge_nodes _ a b (ar_wf _ _ _ _ _ (r_abs _ _ _ _ _ H)) Hab) as [Ha Hb].
        destruct (Hm (f a) (f b) p F) as (m & Hm1 & Hm2 & Hm3 & _); [|done|by exists m].
        unfold a_has_edge. by rewrite (rn_edges _ _ _ HR).
  Qed.
End stages.
