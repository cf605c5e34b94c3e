(** Comparing a graph with its frozen and its mapped form. *)
From stdpp Require Import gmap strings.
From Verif Require Import Base BaseFacts Api Bytes Spec SpecFacts ViewFacts SpecStatic Static StaticFacts SpecSGraph StaticProps
  Map GraphMap GraphMapFacts GraphMapRefine GraphMapQueries GraphMapSim GraphMapThms GraphMapMore
  IntoStatic StaticMore IntoStaticProps SpecStaticAll IntoStaticAll ViewOps ViewOpsProps SpecFreeze
  Serde SpecSerde SerdeFacts Mmap SpecMmap MmapFacts MmapProps MmapThms MmapMore.

Lemma bool_same (a b : bool) (P : Prop) : (a = true ↔ P) → (b = true ↔ P) → a = b.
Proof. destruct a, b; intros Ha Hb; [done| | |done]; exfalso; [by assert (false = true) by (by apply Hb, Ha)|by assert (false = true) by (by apply Ha, Hb)]. Qed.
Lemma rmapl_total {X Y} (f : X → res Y) l : (∀ x, x ∈ l → ∃ y, f x = Ok y) → ∃ l', rmapl f l = Ok l'.
Proof.
  intros Hf. assert (∃ l', Forall2 (λ x y, f x = Ok y) l l') as [l' Hl]; [|exists l'; by apply rmapl_Ok].
  induction l as [|x l IH]; [by exists []|]. destruct (Hf x) as [y Hy]; [left|]. destruct IH as [l' Hl]; [intros z Hz; apply Hf; by right|].
  exists (y :: l'). by constructor.
Qed.

Section cmp.
  Context {NL EL : Type} `{EqDecision NL, EqDecision EL} (lt : idty) (V W : gview NL EL).
  (** The original. *)
  Context (Vix : NoDup (v_node_indices V)) (Vin : ∀ n, n ∈ v_node_indices V ↔ v_has_node V n = true).
  Context (Vcnt : v_node_count V = length (v_node_indices V)).
  Context (Vget : ∀ n, v_has_node V n = true → ∃ lid, v_get_node V n = Ok (Some (n, lid))).
  Context (Vnone : ∀ n, v_has_node V n = false → v_get_node V n = Ok None).
  Context (es es' : list (N * N)) (Ves : v_edge_indices V = Ok es).
  Context (Vedge : ∀ s t, (s, t) ∈ es → v_has_edge V s t = Ok true ∧ ∃ lid, v_get_edge V s t = Ok (Some (s, t, lid))).
  (** The copy. *)
  Context (Wdir : v_directed W = v_directed V) (Wdi : v_is_di W = v_is_di V).
  Context (Wcnt : v_node_count W = v_node_count V) (Wecnt : v_edge_count W = v_edge_count V).
  Context (Whas : ∀ n, v_has_node W n = true ↔ (n < N.of_nat (v_node_count V))%N).
  Context (Wix : v_node_indices W = N.of_nat <$> seq 0 (v_node_count V)).
  Context (Wget : ∀ n, v_get_node W n =
    Ok (if decide (n < N.of_nat (v_node_count V))%N then Some (n, kept_lid lt (v_node_label_map V) (node_lid V n)) else None)).
  Context (Wes : v_edge_indices W = Ok es') (Hp : es' ≡ₚ es).
  Context (Whe : ∀ s t, (s, t) ∈ es → v_has_edge W s t = v_has_edge V s t).
  Context (Wge : ∀ s t, (s, t) ∈ es → v_get_edge W s t =
    rmap (fmap (λ e, (e.1, kept_lid lt (v_edge_label_map V) e.2))) (v_get_edge V s t)).
  Context (Wnl : v_node_label_map W = v_node_label_map V) (Wel : v_edge_label_map W = v_edge_label_map V).

  Definition good_node (n : N) : Prop :=
    ∀ x, v_get_node V n = Ok (Some (n, Some (id_max lt))) → v_node_label V n = Ok (Some x) → False.
  Definition good_edge (e : N * N) : Prop :=
    ∀ x, v_get_edge V e.1 e.2 = Ok (Some (e.1, e.2, Some (id_max lt))) → v_edge_label V e.1 e.2 = Ok (Some x) → False.

  (** The label that remains. *)
  Lemma kept_same {X} (lm : list X) lid :
    (kept_lid lt lm lid ≫= λ i, lm !! id_id i) = (lid ≫= λ i, lm !! id_id i) ↔
    ¬ ∃ x, lid = Some (id_max lt) ∧ lm !! id_id (id_max lt) = Some x.
  Proof.
    unfold kept_lid. destruct lm as [|x0 lm].
    - split; [|intros _; by destruct lid]. intros _ (x & _ & Hx). done.
    - destruct (decide (lid = Some (id_max lt))) as [->|Hne].
      + cbn [mbind option_bind]. split.
        * intros Hn (x & _ & Hx). by rewrite Hx in Hn.
        * intros Hn. destruct ((x0 :: lm) !! id_id (id_max lt)) as [x|] eqn:Hx; [|done]. destruct Hn. by exists x.
      + split; [|done]. intros _ (x & -> & _). done.
  Qed.

  Lemma node_label_V n lid : v_get_node V n = Ok (Some (n, lid)) → v_node_label V n = Ok (lid ≫= λ i, v_node_label_map V !! id_id i).
  Proof. intros Hg. unfold v_node_label. rewrite Hg. by destruct lid. Qed.
  Lemma node_label_W n lid : v_get_node V n = Ok (Some (n, lid)) → (n < N.of_nat (v_node_count V))%N →
    v_node_label W n = Ok (kept_lid lt (v_node_label_map V) lid ≫= λ i, v_node_label_map V !! id_id i).
  Proof.
    intros Hg Hn. unfold v_node_label. rewrite Wget, decide_True by done. unfold node_lid. rewrite Hg, Wnl. cbn [rbind].
    by destruct (kept_lid _ _ _).
  Qed.
  Lemma edge_label_V s t lid : v_get_edge V s t = Ok (Some (s, t, lid)) → v_edge_label V s t = Ok (lid ≫= λ i, v_edge_label_map V !! id_id i).
  Proof. intros Hg. unfold v_edge_label. rewrite Hg. by destruct lid. Qed.
  Lemma edge_label_W s t lid : (s, t) ∈ es → v_get_edge V s t = Ok (Some (s, t, lid)) →
    v_edge_label W s t = Ok (kept_lid lt (v_edge_label_map V) lid ≫= λ i, v_edge_label_map V !! id_id i).
  Proof.
    intros Hin Hg. unfold v_edge_label. rewrite (Wge s t Hin), Hg, Wel. cbn [rmap rbind fmap option_fmap option_map fst snd].
    by destruct (kept_lid _ _ _).
  Qed.
  Lemma node_labels_same n : v_has_node V n = true → (n < N.of_nat (v_node_count V))%N →
    ∃ l l', v_node_label V n = Ok l ∧ v_node_label W n = Ok l' ∧ (l' = l ↔ good_node n).
  Proof.
    intros Hn Hlt. destruct (Vget n Hn) as [lid Hg]. rewrite (node_label_V n lid Hg), (node_label_W n lid Hg Hlt). do 2 eexists.
    split; [done|]. split; [done|]. rewrite kept_same. unfold good_node. rewrite (node_label_V n lid Hg), Hg. split.
    - intros Hn' x [= ->] [= Hx]. apply Hn'. by exists x.
    - intros Hx (x & -> & Hl). apply (Hx x); [done|]. cbn [mbind option_bind]. by rewrite Hl.
  Qed.
  Lemma edge_labels_same s t : (s, t) ∈ es →
    ∃ l l', v_edge_label V s t = Ok l ∧ v_edge_label W s t = Ok l' ∧ (l' = l ↔ good_edge (s, t)).
  Proof.
    intros Hin. destruct (Vedge s t Hin) as (_ & lid & Hg). rewrite (edge_label_V s t lid Hg), (edge_label_W s t lid Hin Hg). do 2 eexists.
    split; [done|]. split; [done|]. rewrite kept_same. unfold good_edge. cbn [fst snd]. rewrite (edge_label_V s t lid Hg), Hg. split.
    - intros Hn' x [= ->] [= Hx]. apply Hn'. by exists x.
    - intros Hx (x & -> & Hl). apply (Hx x); [done|]. cbn [mbind option_bind]. by rewrite Hl.
  Qed.

  Lemma gaps_indices : no_gaps V ↔ ∀ n, n ∈ v_node_indices V → (n < N.of_nat (v_node_count V))%N.
  Proof.
    split; [intros Hg n Hn; by apply Hg, Vin|]. intros Hlt n. split; [intros Hn; by apply Hlt, Vin|].
    intros Hn. apply Vin.
    assert (v_node_indices V ≡ₚ N.of_nat <$> seq 0 (v_node_count V)) as ->.
    { apply submseteq_Permutation_length_eq; [by rewrite fmap_length, seq_length, Vcnt|].
      apply NoDup_submseteq; [done|]. intros x Hx. apply Hlt in Hx. apply elem_of_list_fmap. exists (N.to_nat x). rewrite N2Nat.id. split; [done|].
      apply elem_of_seq. lia. }
    apply elem_of_list_fmap. exists (N.to_nat n). rewrite N2Nat.id. split; [done|]. apply elem_of_seq. lia.
  Qed.

  Lemma good_nodes : (∀ n, v_has_node V n = true → good_node n) ↔ ¬ last_node_label_used lt V.
  Proof.
    split.
    - intros Hg (n & x & H1 & H2). destruct (v_has_node V n) eqn:Hn; [by eapply (Hg n Hn)|]. by rewrite (Vnone n Hn) in H1.
    - intros Hg n _ x H1 H2. apply Hg. by exists n, x.
  Qed.
  Lemma good_edges : (∀ e, e ∈ es → good_edge e) ↔ ¬ last_edge_label_used lt V.
  Proof.
    split.
    - intros Hg (es0 & s & t & x & He & Hin & H1 & H2). rewrite Ves in He. injection He as <-. by eapply (Hg (s, t) Hin).
    - intros Hg [s t] Hin x H1 H2. apply Hg. by exists es, s, t, x.
  Qed.

  Lemma nodes_VW : ∃ b, rall (same_node V W) (v_node_indices V) = Ok b ∧ (b = true ↔ no_gaps V ∧ ¬ last_node_label_used lt V).
  Proof.
    destruct (rall_spec (same_node V W) (λ n, (n < N.of_nat (v_node_count V))%N ∧ good_node n) (v_node_indices V)) as (b & Hb & Hiff).
    - intros n Hn. apply Vin in Hn. unfold same_node. destruct (v_has_node W n) eqn:Hw; cbn [negb].
      + apply Whas in Hw. destruct (node_labels_same n Hn Hw) as (l & l' & -> & -> & Hl). cbn [rbind]. eexists. split; [done|].
        rewrite bool_decide_eq_true, <- Hl. naive_solver.
      + exists false. split; [done|]. split; [done|]. intros [Hlt _]. apply Whas in Hlt. congruence.
    - exists b. split; [done|]. rewrite Hiff, gaps_indices, <- good_nodes. split.
      + intros Hall. split; [intros n Hn; by apply Hall|]. intros n Hn. by apply Hall, Vin.
      + intros [H1 H2] n Hn. split; [by apply H1|]. by apply H2, Vin.
  Qed.
  Lemma nodes_WV : ∃ b, rall (same_node W V) (v_node_indices W) = Ok b ∧ (b = true ↔ no_gaps V ∧ ¬ last_node_label_used lt V).
  Proof.
    assert (∀ n, n ∈ v_node_indices W ↔ (n < N.of_nat (v_node_count V))%N) as Win.
    { intros n. rewrite Wix. rewrite elem_of_list_fmap. setoid_rewrite elem_of_seq. split; [intros (i & -> & Hi); lia|].
      intros Hn. exists (N.to_nat n). rewrite N2Nat.id. split; [done|lia]. }
    destruct (rall_spec (same_node W V) (λ n, v_has_node V n = true ∧ good_node n) (v_node_indices W)) as (b & Hb & Hiff).
    - intros n Hn. apply Win in Hn. unfold same_node. destruct (v_has_node V n) eqn:Hv; cbn [negb].
      + destruct (node_labels_same n Hv Hn) as (l & l' & -> & -> & Hl). cbn [rbind]. eexists. split; [done|].
        rewrite bool_decide_eq_true, <- Hl. naive_solver.
      + exists false. split; [done|]. split; [done|]. by intros [? _].
    - exists b. split; [done|]. rewrite Hiff, <- good_nodes. split.
      + intros Hall. assert (no_gaps V) as Hg.
        { apply gaps_indices. intros n Hn. apply Win.
          assert (v_node_indices V ≡ₚ v_node_indices W) as <-; [|done]. symmetry.
          apply submseteq_Permutation_length_eq; [by rewrite Wix, fmap_length, seq_length, Vcnt|].
          apply NoDup_submseteq; [rewrite Wix; apply NoDup_fmap; [apply _|apply NoDup_seq]|]. intros x Hx. by apply Vin, Hall. }
        split; [done|]. intros n Hn. by apply Hall, Win, Hg.
      + intros [H1 H2] n Hn. apply Win, H1 in Hn. split; [done|]. by apply H2.
  Qed.
  Lemma edges_VW l : l ≡ₚ es → ∃ b, rall (same_edge V W) l = Ok b ∧ rall (same_edge W V) l = Ok b ∧ (b = true ↔ ¬ last_edge_label_used lt V).
  Proof.
    intros Hl. assert (∀ s t, (s, t) ∈ l → ∃ b, same_edge V W (s, t) = Ok b ∧ same_edge W V (s, t) = Ok b ∧ (b = true ↔ good_edge (s, t))) as Hone.
    { intros s t Hin. rewrite Hl in Hin. destruct (Vedge s t Hin) as [Hh _]. unfold same_edge. cbn [fst snd]. rewrite (Whe s t Hin), Hh. cbn [rbind negb].
      destruct (edge_labels_same s t Hin) as (x & x' & -> & -> & Hx). cbn [rbind]. eexists. split; [done|]. split.
      - f_equal. apply bool_decide_ext. naive_solver.
      - rewrite bool_decide_eq_true, <- Hx. naive_solver. }
    destruct (rall_spec (same_edge V W) good_edge l) as (b & Hb & Hiff).
    { intros [s t] Hin. destruct (Hone s t Hin) as (b & ? & _ & ?). by exists b. }
    destruct (rall_spec (same_edge W V) good_edge l) as (b' & Hb' & Hiff').
    { intros [s t] Hin. destruct (Hone s t Hin) as (b' & _ & ? & ?). by exists b'. }
    exists b. split; [done|]. assert (b' = b) as -> by (eapply bool_same; [exact Hiff'|exact Hiff]).
    split; [done|]. rewrite Hiff, <- good_edges. by setoid_rewrite Hl.
  Qed.

  Lemma equal_iff : ∃ b, v_equal V W = Ok b ∧ v_equal W V = Ok b ∧
    (b = true ↔ no_gaps V ∧ ¬ last_node_label_used lt V ∧ ¬ last_edge_label_used lt V).
  Proof.
    destruct nodes_VW as (b1 & H1 & Hb1). destruct nodes_WV as (b1' & H1' & Hb1').
    assert (b1' = b1) as -> by (eapply bool_same; [exact Hb1'|exact Hb1]).
    destruct (edges_VW es) as (b2 & H2 & _ & Hb2); [done|]. destruct (edges_VW es') as (b2' & _ & H2' & Hb2'); [done|].
    assert (b2' = b2) as -> by (eapply bool_same; [exact Hb2'|exact Hb2]).
    exists (b1 && b2). unfold v_equal, included. rewrite Wdir, Wcnt, Wecnt. rewrite !decide_False by (by intros [?|[?|?]]).
    rewrite H1, H1'. cbn [rbind]. destruct b1; cbn [negb andb].
    - rewrite Ves, Wes. cbn [rbind]. rewrite H2, H2'. split; [done|]. split; [done|]. rewrite Hb2. split; [|by intros (_ & _ & ?)].
      intros ?. destruct Hb1 as [Hb1 _]. destruct (Hb1 eq_refl) as [? ?]. done.
    - split; [done|]. split; [done|]. split; [done|]. intros (? & ? & _). by apply Hb1.
  Qed.

  Lemma hash_same : no_gaps V → ¬ last_node_label_used lt V → ¬ last_edge_label_used lt V → ∃ h, box_hash V = Ok h ∧ box_hash W = Ok h.
  Proof.
    intros Hg Hn He.
    assert (v_node_indices W ≡ₚ v_node_indices V) as HpN.
    { symmetry. apply submseteq_Permutation_length_eq; [by rewrite Wix, fmap_length, seq_length, Vcnt|].
      apply NoDup_submseteq; [done|]. intros x Hx. rewrite Wix. apply elem_of_list_fmap. exists (N.to_nat x). rewrite N2Nat.id. split; [done|].
      apply elem_of_seq. apply Vin, Hg in Hx. lia. }
    unfold box_hash, graph_hash. rewrite Wdi, Ves, Wes, (sorted_ids_perm _ _ HpN).
    destruct (rmapl_total (v_node_label V) (sorted_ids (v_node_indices V))) as [ls Hls].
    { intros n Hx. unfold sorted_ids in Hx. rewrite merge_sort_Permutation in Hx. apply Vin in Hx.
      destruct (node_labels_same n Hx (proj1 (Hg n) Hx)) as (l & _ & -> & _). by exists l. }
    destruct (rmapl_total (λ e, v_edge_label V e.1 e.2) (sorted_pairs es)) as [les Hles].
    { intros [s t] Hx. unfold sorted_pairs in Hx. rewrite merge_sort_Permutation in Hx.
      destruct (edge_labels_same s t Hx) as (l & _ & Hl & _). by exists l. }
    rewrite (rmapl_ext (v_node_label W) (v_node_label V)).
    2:{ intros n Hx. unfold sorted_ids in Hx. rewrite merge_sort_Permutation in Hx. apply Vin in Hx.
        destruct (node_labels_same n Hx (proj1 (Hg n) Hx)) as (l & l' & -> & -> & Hl). f_equal. apply Hl. by apply good_nodes. }
    rewrite Hls. cbn [rbind]. rewrite (sorted_pairs_perm _ _ Hp).
    rewrite (rmapl_ext (λ e, v_edge_label W e.1 e.2) (λ e, v_edge_label V e.1 e.2)).
    2:{ intros [s t] Hx. unfold sorted_pairs in Hx. rewrite merge_sort_Permutation in Hx.
        destruct (edge_labels_same s t Hx) as (l & l' & Hl1 & Hl2 & Hl). cbn [fst snd]. rewrite Hl1, Hl2. f_equal. apply Hl. by apply good_edges. }
    rewrite Hles. cbn [rbind]. by eexists.
  Qed.
End cmp.

Section views.
  Context {NL EL : Type} `{EqDecision NL, EqDecision EL} (idt lt : idty) (dir : bool) (g : graphmap NL EL) (ord : list N).
  Context (Hreach : gm_reachable dir lt g) (Hord : hash_order g ord).
  Local Notation V := (gm_view dir ord g).
  Local Notation g0 := (GraphMap (g_nodes g) (g_nedges g) (@nil NL) (@nil EL) (g_max g)).

  Lemma same_answers_refl (W : gview NL EL) : same_answers W W.
  Proof. by split. Qed.

  (** Comparison with the frozen graph or with one that gives the same answers. *)
  Lemma copy_equal (W M : gview NL EL) : frozen lt V W → same_answers W M →
    ∃ b, v_equal V M = Ok b ∧ v_equal M V = Ok b ∧
      (b = true ↔ no_gaps V ∧ ¬ last_node_label_used lt V ∧ ¬ last_edge_label_used lt V) ∧
      (b = true → ∃ h, box_hash V = Ok h ∧ box_hash M = Ok h).
  Proof using Hreach Hord.
    intros Fz Sa. destruct (bare_represents lt dir g ord Hreach Hord) as [A HA].
    destruct (rp_node_indices _ _ HA) as [Hnd Hin].
    destruct (fz_edge_indices _ _ _ Fz) as (es & es' & Hes & Hes' & Hp).
    assert (∀ n, n ∈ v_node_indices V ↔ v_has_node V n = true) as Vin.
    { intros n. pose proof (rp_has_node _ _ HA n) as Hh. cbn [v_has_node gm_view] in Hh |- *. rewrite Hh. apply Hin. }
    assert (v_node_count V = length (v_node_indices V)) as Vcnt.
    { cbn [v_node_count v_node_indices gm_view]. unfold gm_node_indices. unfold hash_order in Hord. rewrite Hord, fmap_length. done. }
    assert (∀ n, v_has_node V n = true → ∃ lid, v_get_node V n = Ok (Some (n, lid))) as Vget.
    { intros n Hn. apply (rp_has_node _ _ HA) in Hn. destruct (rp_get_node _ _ HA n Hn) as (lid & Hl & _). by exists lid. }
    assert (∀ n, v_has_node V n = false → v_get_node V n = Ok None) as Vnone.
    { intros n. cbn [v_has_node v_get_node gm_view]. unfold gm_has_node, gm_get_node. rewrite bool_decide_eq_false, <- eq_None_not_Some. by intros ->. }
    assert (∀ s t, (s, t) ∈ es → a_has_edge A s t) as Hedge.
    { intros s t Hst. destruct (rp_edge_indices _ _ HA) as (l & Hl & _ & Hlin). assert (l = es) as ->.
      { cbn [v_edge_indices gm_view] in Hl, Hes. injection Hl as <-. by injection Hes as <-. }
      apply Hlin in Hst. unfold a_has_edge, a_edge_at. destruct (rp_wf _ _ HA s t Hst) as (Hk & _). by rewrite Hk. }
    assert (∀ s t, (s, t) ∈ es → v_has_edge V s t = Ok true ∧ ∃ lid, v_get_edge V s t = Ok (Some (s, t, lid))) as Vedge.
    { intros s t Hst. apply Hedge in Hst. split.
      - destruct (rp_has_edge _ _ HA s t) as (b & Hb & Hiff); [by apply (wf_edge_nodes A s t (rp_wf _ _ HA))|].
        transitivity (Ok b : res bool); [exact Hb|]. f_equal. by apply Hiff.
      - destruct (rp_get_edge _ _ HA s t Hst) as (lid & Hl & _). by exists lid. }
    assert (∀ s t, (s, t) ∈ es → ∃ nb, v_neighbors W s = Ok nb) as Wnb.
    { intros s t Hst. apply Hedge, (wf_edge_nodes A s t (rp_wf _ _ HA)) in Hst as [Hs _].
      destruct (rp_neighbors _ _ HA s Hs) as (nb & Hnb & _). exists nb.
      rewrite (proj1 (fz_neighbors _ _ _ Fz s (proj2 (rp_has_node _ _ HA s) Hs))). exact Hnb. }
    pose proof (fz_directed _ _ _ Fz) as [F1 F2]. pose proof (fz_counts _ _ _ Fz) as [F3 F4]. pose proof (fz_labels _ _ _ Fz) as [F5 F6].
    pose proof (sa_directed _ _ Sa) as [S1 S2]. pose proof (sa_counts _ _ Sa) as [S3 S4]. pose proof (sa_label_maps _ _ Sa) as [S5 S6].
    pose proof (sa_indices _ _ Sa) as [S7 S8].
    assert (∀ n, v_has_node M n = true ↔ (n < N.of_nat (v_node_count V))%N) as Mhas.
    { intros n. rewrite (sa_has_node _ _ Sa). apply Fz. }
    assert (∀ n, v_get_node M n = Ok (if decide (n < N.of_nat (v_node_count V))%N
      then Some (n, kept_lid lt (v_node_label_map V) (node_lid V n)) else None)) as Mget.
    { intros n. rewrite (proj1 (sa_get_node _ _ Sa n)). apply Fz. }
    assert (∀ s t, (s, t) ∈ es → v_has_edge M s t = v_has_edge V s t) as Mhe.
    { intros s t Hst. destruct (Wnb s t Hst) as [nb Hnb]. rewrite (sa_has_edge _ _ Sa s t nb Hnb). apply Fz. }
    assert (∀ s t, (s, t) ∈ es → v_get_edge M s t = rmap (fmap (λ e, (e.1, kept_lid lt (v_edge_label_map V) e.2))) (v_get_edge V s t)) as Mge.
    { intros s t Hst. destruct (Wnb s t Hst) as [nb Hnb]. rewrite (proj1 (sa_get_edge _ _ Sa s t nb Hnb)). apply Fz. }
    assert (v_node_indices M = N.of_nat <$> seq 0 (v_node_count V)) as Mix by (rewrite S7; apply Fz).
    assert (v_node_label_map M = v_node_label_map V) as Mnl by (by rewrite S5). assert (v_edge_label_map M = v_edge_label_map V) as Mel by (by rewrite S6).
    assert (v_edge_indices M = Ok es') as Mes by (by rewrite S8).
    destruct (equal_iff lt V M Hnd Vin Vcnt Vget Vnone es es' Hes Vedge) as (b & E1 & E2 & E3); try done.
    { by rewrite S1. } { by rewrite S3. } { by rewrite S4. }
    exists b. split; [done|]. split; [done|]. split; [done|]. intros Hb. apply E3 in Hb as (Hg & Hn & He).
    eapply (hash_same lt V M Hnd Vin Vcnt Vget Vnone es es' Hes Vedge); try done. by rewrite S2. all: congruence.
  Qed.
End views.

(** ** Freezing *)
Lemma freeze_equal {NL EL} `{EqDecision NL, EqDecision EL} (idt lt : idty) (dir : bool) (g : graphmap NL EL) ord n :
  gm_reachable dir lt g → hash_order g ord →
  let V := gm_view dir ord g in
  v_has_node V n = true → (∀ n, v_has_node V n = true → (n < id_max idt)%N) →
  ∃ sg b, gm_into_static idt lt dir g = Ok sg ∧
    v_equal V (sg_view idt lt dir sg) = Ok b ∧ v_equal (sg_view idt lt dir sg) V = Ok b ∧
    (b = true ↔ no_gaps V ∧ ¬ last_node_label_used lt V ∧ ¬ last_edge_label_used lt V) ∧
    (b = true → ∃ h, box_hash V = Ok h ∧ box_hash (sg_view idt lt dir sg) = Ok h).
Proof.
  intros Hr Ho V Hn Hids. destruct (into_static_frozen idt lt dir g ord n Hr Ho Hn Hids) as (sg & Hsg & Hfz).
  destruct (copy_equal lt dir g ord Hr Ho _ _ Hfz (same_answers_refl _)) as (b & ?). by exists sg, b.
Qed.

(** Labels few enough: the largest label id is not in use. *)
Lemma few_node_labels {NL EL} (lt : idty) (V : gview NL EL) : (N.of_nat (length (v_node_label_map V)) ≤ id_max lt)%N → ¬ last_node_label_used lt V.
Proof.
  intros Hl (n & x & H1 & H2). unfold v_node_label in H2. rewrite H1 in H2. cbn [rbind] in H2. injection H2 as H2.
  apply lookup_lt_Some in H2. unfold id_id in H2. lia.
Qed.
Lemma few_edge_labels {NL EL} (lt : idty) (V : gview NL EL) : (N.of_nat (length (v_edge_label_map V)) ≤ id_max lt)%N → ¬ last_edge_label_used lt V.
Proof.
  intros Hl (es & s & t & x & _ & _ & H1 & H2). unfold v_edge_label in H2. rewrite H1 in H2. cbn [rbind] in H2. injection H2 as H2.
  apply lookup_lt_Some in H2. unfold id_id in H2. lia.
Qed.
Lemma freeze_equal_few {NL EL} `{EqDecision NL, EqDecision EL} (idt lt : idty) (dir : bool) (g : graphmap NL EL) ord n :
  gm_reachable dir lt g → hash_order g ord →
  let V := gm_view dir ord g in
  v_has_node V n = true → (∀ n, v_has_node V n = true → (n < id_max idt)%N) →
  (N.of_nat (length (v_node_label_map V)) ≤ id_max lt)%N → (N.of_nat (length (v_edge_label_map V)) ≤ id_max lt)%N →
  ∃ sg b, gm_into_static idt lt dir g = Ok sg ∧ v_equal V (sg_view idt lt dir sg) = Ok b ∧ (b = true ↔ no_gaps V).
Proof.
  intros Hr Ho V Hn Hids Hnl Hel. destruct (freeze_equal idt lt dir g ord n Hr Ho Hn Hids) as (sg & b & Hsg & Hb & _ & Hiff & _).
  exists sg, b. split; [done|]. split; [done|]. rewrite Hiff. split; [by intros [? _]|]. intros Hg. split; [done|].
  split; [by apply few_node_labels|by apply few_edge_labels].
Qed.

(** ** Saving and mapping *)
Section mapped.
  Context {NL EL : Type} `{EqDecision NL, EqDecision EL} (it lt : idty) (dir : bool) (g : graphmap NL EL) (ord : list N).
  Context (Hreach : gm_reachable dir lt g) (Hord : hash_order g ord).
  Local Notation V := (gm_view dir ord g).
  Local Notation g0 := (GraphMap (g_nodes g) (g_nedges g) (@nil NL) (@nil EL) (g_max g)).
  Lemma arrays_mappable PN PE s t sg : v_has_edge V s t = Ok true → (∀ n, v_has_node V n = true → (n < id_max it)%N) →
    (lt = TUnit → g_nlm g = [] ∧ g_elm g = []) → gm_into_static it lt dir g = Ok sg → typed_sgraph it lt PN PE sg →
    mappable it lt PN PE dir sg.
  Proof using Hreach Hord.
    intros He Hids Hlt Hsg Ht. destruct (bare_represents lt dir g ord Hreach Hord) as [A HA].
    assert (v_has_node V s = true) as Hvs.
    { cbn [v_has_edge v_has_node gm_view] in He |- *. unfold gm_has_edge in He. unfold gm_has_node. destruct (g_nodes g !! s) eqn:Hs; [|done].
      by apply bool_decide_eq_true. }
    assert (a_has_node A s) as Hs by (by apply (rp_has_node _ _ HA)).
    assert (a_has_edge A s t) as HeA.
    { destruct (rp_has_edge _ _ HA s t Hs) as (b & Hb & Hiff). apply Hiff. cbn [v_has_edge gm_view] in Hb, He. change (gm_has_edge g0 s t) with (gm_has_edge g s t) in Hb. congruence. }
    destruct (max_exists dir g0 ord A HA s Hs) as (max & Hmax & Hm & Hle).
    assert (∀ n, a_has_node A n → (n < id_max it)%N) as HidsA by (intros n Hn; apply Hids; by apply (rp_has_node _ _ HA)).
    rewrite (into_static_run it lt dir g max Hmax) in Hsg by (by apply (ids_below it A max)). injection Hsg as <-.
    destruct (rows_csr dir g0 ord A HA max Hmax) as (Hcsr & _ & _).
    pose proof (proj1 (static_edges dir g0 ord A HA max Hmax s t) HeA) as Hrow.
    assert (∀ offs (l : list N) n x, x ∈ row offs l n → l ≠ []) as Hne.
    { intros offs l n x Hx ->. unfold row in Hx. destruct (offs !! _); [|by apply elem_of_nil in Hx].
      destruct (offs !! _); [|by apply elem_of_nil in Hx]. rewrite drop_nil, take_nil in Hx. by apply elem_of_nil in Hx. }
    split; [exact Ht|exact Hcsr| | | | |].
    - cbn [sg_evec ev_edges static_arrays]. by eapply Hne.
    - cbn [sg_in static_arrays]. destruct dir eqn:Hd; cbn [if_some]; [|done]. split; [done|].
      assert (ag_dir A = true) as HdA by (by rewrite <-(rp_directed _ _ HA)).
      destruct (rows_in_csr true g0 ord A HA max Hmax HdA) as [Hic _]. split; [exact Hic|]. cbn [ev_new ev_edges].
      apply (Hne (psums 0 (length <$> in_rows g (S (N.to_nat max)))) _ t s). rewrite (in_row_eq true g0 ord A HA max Hmax).
      destruct (irow_keys true g0 ord A HA (N.to_nat t) HdA) as [_ ->]. by rewrite N2Nat.id.
    - cbn [sg_labels static_arrays]. destruct (has_nl g); cbn [if_some seq]; [|done]. rewrite fmap_cons. done.
    - intros ->. specialize (Hids s Hvs). change (id_max TUnit) with 0%N in Hids. lia.
    - intros E. destruct (Hlt E) as [E1 E2]. cbn [sg_labels sg_evec ev_label_vec sg_in static_arrays]. unfold has_nl, has_el. rewrite E1, E2. cbn [if_some].
      split_and!; [done|done|]. destruct dir; done.
  Qed.

  Context (cn : codec NL) (ce : codec EL) (PN : NL → Prop) (PE : EL → Prop) (Hcn : faithful cn PN) (Hce : faithful ce PE).
  Lemma mapped_frozen s t p F : v_has_edge V s t = Ok true → (∀ n, v_has_node V n = true → (n < id_max it)%N) →
    (lt = TUnit → v_node_label_map V = [] ∧ v_edge_label_map V = []) → fresh_prefix F p →
    ∃ sg, gm_into_static it lt dir g = Ok sg ∧ (typed_sgraph it lt PN PE sg →
      ∃ m b, mm_open it lt cn ce (sg_dump_mmap it lt cn ce sg p F) p = Ok m ∧
        frozen lt V (sg_view it lt dir sg) ∧ same_answers (sg_view it lt dir sg) (mm_view it lt m) ∧
        (∀ x y, (∀ n, v_has_node V n = true → (n < x)%N) →
          v_has_edge (mm_view it lt m) x y = Panic ∧ v_get_edge (mm_view it lt m) x y = Panic) ∧
        v_equal V (mm_view it lt m) = Ok b ∧ v_equal (mm_view it lt m) V = Ok b ∧
        (b = true ↔ no_gaps V ∧ ¬ last_node_label_used lt V ∧ ¬ last_edge_label_used lt V) ∧
        (b = true → ∃ h, box_hash V = Ok h ∧ box_hash (mm_view it lt m) = Ok h)).
  Proof using Hreach Hord Hcn Hce.
    intros He Hids Hlt Hf.
    assert (v_has_node V s = true) as Hvs.
    { cbn [v_has_edge v_has_node gm_view] in He |- *. unfold gm_has_edge in He. unfold gm_has_node. destruct (g_nodes g !! s) eqn:Hs; [|done].
      by apply bool_decide_eq_true. }
    destruct (into_static_frozen it lt dir g ord s Hreach Hord Hvs Hids) as (sg & Hsg & Hfz). exists sg. split; [done|]. intros Ht.
    pose proof (arrays_mappable PN PE s t sg He Hids Hlt Hsg Ht) as Hm.
    destruct (roundtrip it lt cn ce PN PE Hcn Hce dir sg p F Hm (fresh_no_stale F p sg Hf)) as (m & Hm' & Hsa).
    destruct (copy_equal lt dir g ord Hreach Hord _ _ Hfz Hsa) as (b & E1 & E2 & E3 & E4).
    exists m, b. split; [done|]. split; [done|]. split; [done|]. split; [|done].
    intros x y Hx. destruct (fz_above _ _ _ Hfz x Hx) as (Hnb & _). rewrite <- (proj1 (sa_neighbors _ _ Hsa x)) in Hnb.
    cbn [v_neighbors v_has_edge v_get_edge mm_view] in Hnb |- *. unfold mm_get_edge, mm_has_edge. by rewrite Hnb.
  Qed.
End mapped.
