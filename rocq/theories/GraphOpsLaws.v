(** Laws of union and difference, and the union of an undirected with a directed graph. *)
From Verif Require Import Base BaseFacts Api Spec SpecFacts SpecOps SpecOpsLaws Map GraphMap GraphMapProps GraphMapThms ViewFacts GraphOps GraphOpsFacts GraphOpsProps
  ViewOps ViewOpsProps TraverseProps.

Section alg.
  Context {NL EL : Type}.
  Implicit Types A : agraph NL EL.
  Lemma union_same A : a_union A A = A.
  Proof. destruct A. unfold a_union. simpl. by rewrite !(idemp_L (∪)). Qed.
  Lemma union_empty_r A dir : a_union A (a_empty dir) = A.
  Proof. destruct A. unfold a_union. simpl. by rewrite !(left_id_L ∅ (∪)). Qed.
  Lemma union_empty_l A : a_union (a_empty (ag_dir A)) A = A.
  Proof. destruct A. unfold a_union. simpl. by rewrite !(right_id_L ∅ (∪)). Qed.
  Lemma union_assoc A0 A1 A2 : a_union (a_union A0 A1) A2 = a_union A0 (a_union A1 A2).
  Proof. unfold a_union. simpl. by rewrite !(assoc_L (∪)). Qed.
  Lemma agree_union_comm `{Countable K} {X} (m0 m1 : gmap K X) :
    (∀ k x y, m0 !! k = Some x → m1 !! k = Some y → x = y) → m0 ∪ m1 = m1 ∪ m0.
  Proof.
    intros Ha. apply map_eq. intros k. rewrite !lookup_union. destruct (m0 !! k) eqn:H0, (m1 !! k) eqn:H1; try done.
    simpl. f_equal. by eapply Ha.
  Qed.
  Lemma union_comm A0 A1 : ag_wf A0 → ag_wf A1 → ag_dir A0 = ag_dir A1 → same_labels A0 A1 → a_union A0 A1 = a_union A1 A0.
  Proof.
    intros W0 W1 Hd [Hn He]. unfold a_union. f_equal; [done|..].
    - apply agree_union_comm. intros k x y Hx Hy. symmetry. by eapply Hn.
    - apply agree_union_comm. intros [s t] x y Hx Hy. destruct (W0 s t) as (Hk & _); [by exists y|]. symmetry. apply (He s t).
      + unfold a_edge_at. by rewrite Hk.
      + unfold a_edge_at. by rewrite <- Hd, Hk.
  Qed.
  Lemma union_uses A0 A1 nls els : uses_labels A0 nls els → uses_labels A1 nls els → uses_labels (a_union A0 A1) nls els.
  Proof.
    intros [H1 H2] [H3 H4]. split.
    - intros n l. unfold a_union. simpl. rewrite lookup_union_Some_raw. intros [?|[_ ?]]; eauto.
    - intros e l. unfold a_union. simpl. rewrite lookup_union_Some_raw. intros [?|[_ ?]]; eauto.
  Qed.
  Lemma induced_unique P Q A A1 A2 : (∀ n, a_has_node A n → P n ↔ Q n) → ag_wf A → is_induced P A A1 → is_induced Q A A2 → A1 = A2.
  Proof.
    intros HPQ W H1 H2. apply ag_eq.
    - by rewrite (ind_dir _ _ _ H1), (ind_dir _ _ _ H2).
    - intros k. apply option_eq. intros l. rewrite (ind_nodes _ _ _ H1), (ind_nodes _ _ _ H2).
      split; intros [Hl Hp]; (split; [done|]); (apply HPQ; [by exists l|done]).
    - intros [s t]. apply option_eq. intros l.
      assert (∀ B, is_induced P A B ∨ is_induced Q A B → ag_edges B !! (s, t) = Some l → a_edge_at B s t = Some l) as Hat.
      { intros B HB Hl. unfold a_edge_at. assert (ag_wf B) as WB by (destruct HB as [HB|HB]; apply HB).
        destruct (WB s t) as (-> & _); [by exists l|done]. }
      assert (∀ B, is_induced P A B ∨ is_induced Q A B → ekey (ag_dir A) s t = (s, t) → a_edge_at B s t = Some l → ag_edges B !! (s, t) = Some l) as Hto.
      { intros B HB Hk. unfold a_edge_at. assert (ag_dir B = ag_dir A) as -> by (destruct HB as [HB|HB]; apply HB). by rewrite Hk. }
      assert (∀ B, is_induced P A B ∨ is_induced Q A B → ag_edges B !! (s, t) = Some l → ekey (ag_dir A) s t = (s, t)) as Hkey.
      { intros B HB Hl. assert (ag_wf B) as WB by (destruct HB as [HB|HB]; apply HB). assert (ag_dir B = ag_dir A) as <- by (destruct HB as [HB|HB]; apply HB).
        apply (WB s t). by exists l. }
      split; intros Hl.
      + pose proof (Hkey _ (or_introl H1) Hl) as Hk. apply Hto; [by right|done|]. apply (ind_edges _ _ _ H2).
        apply Hat in Hl; [|by left]. apply (ind_edges _ _ _ H1) in Hl as (Hl & Hs & Ht).
        destruct (wf_edge_nodes A s t W) as [Hns Hnt]; [by exists l|]. split; [done|]. split; by apply HPQ.
      + pose proof (Hkey _ (or_intror H2) Hl) as Hk. apply Hto; [by left|done|]. apply (ind_edges _ _ _ H1).
        apply Hat in Hl; [|by right]. apply (ind_edges _ _ _ H2) in Hl as (Hl & Hs & Ht).
        destruct (wf_edge_nodes A s t W) as [Hns Hnt]; [by exists l|]. split; [done|]. split; by apply HPQ.
  Qed.
  Lemma induced_all (P : N → Prop) A : ag_wf A → (∀ n, a_has_node A n → P n) → is_induced P A A.
  Proof.
    intros W H. split; [done|..|done].
    - intros n l. split; [|tauto]. intros Hl. split; [done|]. apply H. by exists l.
    - intros s t l. split; [|tauto]. intros Hl. destruct (wf_edge_nodes A s t W) as [Hs Ht]; [by exists l|]. split_and!; auto.
  Qed.
  Lemma induced_none (P : N → Prop) A : ag_wf A → (∀ n, a_has_node A n → ¬ P n) → is_induced P A (a_empty (ag_dir A)).
  Proof.
    intros W H. split; [done|..].
    - intros n l. simpl. rewrite lookup_empty. split; [done|]. intros [Hl Hp]. exfalso. apply (H n); [by exists l|done].
    - intros s t l. unfold a_edge_at at 1. simpl. rewrite lookup_empty. split; [done|]. intros (Hl & Hp & _).
      destruct (wf_edge_nodes A s t W) as [Hs _]; [by exists l|]. exfalso. by apply (H s).
    - intros s t [? Hx]. simpl in Hx. by rewrite lookup_empty in Hx.
  Qed.
  Lemma induced_induced P Q A A1 A2 : is_induced P A A1 → is_induced Q A1 A2 → is_induced (λ n, P n ∧ Q n) A A2.
  Proof.
    intros H1 H2. split.
    - by rewrite (ind_dir _ _ _ H2), (ind_dir _ _ _ H1).
    - intros n l. rewrite (ind_nodes _ _ _ H2), (ind_nodes _ _ _ H1). tauto.
    - intros s t l. rewrite (ind_edges _ _ _ H2), (ind_edges _ _ _ H1). tauto.
    - apply H2.
  Qed.
  Lemma induced_uses (P : N → Prop) A A1 nls els : is_induced P A A1 → uses_labels A nls els → uses_labels A1 nls els.
  Proof.
    intros H [U1 U2]. split.
    - intros n l Hl. apply (U1 n). by apply (ind_nodes _ _ _ H) in Hl as [? _].
    - intros [s t] l Hl. destruct (ind_wf _ _ _ H s t) as (Hk & _); [by exists (Some l)|].
      assert (a_edge_at A1 s t = Some (Some l)) as Hat by (unfold a_edge_at; by rewrite Hk).
      apply (ind_edges _ _ _ H) in Hat as (Hat & _). by apply (U2 _ _ Hat).
  Qed.
  (** Nodes of the union that are not in the second graph: those of the first. *)
  Lemma induced_union A0 A1 A' : ag_wf A0 → ag_wf A1 → (ag_dir A0 = true ∨ ag_dir A1 = false) →
    is_induced (λ n, ¬ a_has_node A1 n) (a_union A0 A1) A' → is_induced (λ n, ¬ a_has_node A1 n) A0 A'.
  Proof.
    intros W0 W1 Hd H. split; [by apply H|..|by apply H].
    - intros n l. rewrite (ind_nodes _ _ _ H). unfold a_union. simpl. rewrite lookup_union_Some_raw. split.
      + intros [[Hl|[_ Hl]] Hn]; [|done]. exfalso. apply Hn. by exists l.
      + intros [Hl Hn]. split; [|done]. right. split; [|done]. apply eq_None_not_Some. intros ?. by apply Hn.
    - intros s t l. rewrite (ind_edges _ _ _ H). unfold a_edge_at at 1 2. unfold a_union. simpl. rewrite lookup_union_Some_raw. split.
      + intros [[Hl|[_ Hl]] [Hs Ht]]; [|done]. exfalso.
        assert (∃ x y, ekey (ag_dir A0) s t = (x, y) ∧ (x = s ∨ x = t)) as (x & y & Hxy & Hx).
        { destruct (ag_dir A0); simpl; eexists _, _; split; try done; [by left|]. lia. }
        rewrite Hxy in Hl. destruct (W1 x y) as (_ & Hnx & _); [by exists l|]. destruct Hx as [->| ->]; done.
      + intros (Hl & Hs & Ht). split_and!; [|done..]. right. split; [|done]. apply eq_None_not_Some. intros Hx.
        assert (∃ x y, ekey (ag_dir A0) s t = (x, y) ∧ (x = s ∨ x = t)) as (x & y & Hxy & Hx').
        { destruct (ag_dir A0); simpl; eexists _, _; split; try done; [by left|]. lia. }
        rewrite Hxy in Hx. destruct (W1 x y Hx) as (_ & Hnx & _). destruct Hx' as [->| ->]; done.
  Qed.
End alg.

Section laws.
  Context {NL EL : Type} `{EqDecision NL, EqDecision EL} (lt : idty).
  Implicit Types (V : gview NL EL) (A : agraph NL EL).
  Lemma union_is_intro V0 A0 V1 A1 nls els :
    represents V0 A0 → represents V1 A1 → (ag_dir A0 = true ∨ ag_dir A1 = false) →
    uses_labels A0 nls els → uses_labels A1 nls els → labels_fit lt nls → labels_fit lt els → union_is lt V0 V1 (a_union A0 A1).
  Proof.
    intros H1 H2 H3 H4 H5 H6 H7. destruct (union_thm lt V0 A0 V1 A1 nls els H1 H2 H3 H4 H5 H6 H7) as (g & Hg & Hv).
    exists g. split; [done|]. intros it Hit. by destruct (Hv it Hit).
  Qed.
  Lemma minus_is_intro V0 A0 V1 A1 nls els A :
    represents V0 A0 → represents V1 A1 → (∀ n, a_has_node A1 n → ¬ a_has_edge A0 n n) → uses_labels A0 nls els → labels_fit lt nls → labels_fit lt els →
    is_induced (λ n, ¬ a_has_node A1 n) A0 A → minus_is lt V0 V1 A.
  Proof.
    intros H1 H2 H3 H4 H5 H6 HA. destruct (minus_thm lt V0 A0 V1 A1 nls els H1 H2 H3 H4 H5 H6) as (g & A' & Hg & Hi & Hv).
    assert (A' = A) as -> by (eapply (induced_unique _ _ A0 A' A); [|apply H1|exact Hi|exact HA]; done).
    exists g. split; [done|]. intros it Hit. rewrite (ind_dir _ _ _ HA). by apply Hv.
  Qed.
  Lemma induced_exists V0 A0 V1 A1 : represents V0 A0 → represents V1 A1 → (∀ n, a_has_node A1 n → ¬ a_has_edge A0 n n) →
    ∃ A, is_induced (λ n, ¬ a_has_node A1 n) A0 A.
  Proof.
    intros H1 H2 _. exists (AG (ag_dir A0) (filter (λ kv, ag_nodes A1 !! kv.1 = None) (ag_nodes A0))
      (filter (λ kv, ag_nodes A1 !! kv.1.1 = None ∧ ag_nodes A1 !! kv.1.2 = None) (ag_edges A0))). split.
    - done.
    - intros n l. simpl. rewrite map_filter_lookup_Some. simpl. unfold a_has_node. by rewrite eq_None_not_Some.
    - intros s t l. unfold a_edge_at. simpl. rewrite map_filter_lookup_Some. unfold a_has_node. rewrite <- !eq_None_not_Some.
      destruct (ag_dir A0); simpl; [done|]. destruct (N.le_ge_cases s t).
      + by rewrite N.min_l, N.max_r.
      + rewrite N.min_r, N.max_l by done. tauto.
    - intros s t [l Hl]. simpl in *. apply map_filter_lookup_Some in Hl as [Hl [Hs Ht]].
      destruct (rp_wf _ _ H1 s t) as (Hk & [ls Hns] & [lt' Hnt]); [by exists l|]. split; [done|].
      split; [exists ls|exists lt']; by apply map_filter_lookup_Some.
  Qed.

  Lemma union_self V A nls els : represents V A → uses_labels A nls els → labels_fit lt nls → labels_fit lt els → union_is lt V V A.
  Proof.
    intros H1 H2 H3 H4. rewrite <- (union_same A). eapply union_is_intro; try done. destruct (ag_dir A); tauto.
  Qed.
  Lemma union_unit V A Ve dir nls els : represents V A → represents Ve (a_empty dir) → (dir = ag_dir A) →
    uses_labels A nls els → labels_fit lt nls → labels_fit lt els → union_is lt V Ve A ∧ union_is lt Ve V A.
  Proof.
    intros H1 H2 -> H3 H4 H5. assert (uses_labels (a_empty (NL:=NL) (EL:=EL) (ag_dir A)) nls els) as Hu.
    { split; intros ? ? Hl; simpl in Hl; by rewrite lookup_empty in Hl. }
    split.
    - rewrite <- (union_empty_r A (ag_dir A)). eapply union_is_intro; try done. simpl. destruct (ag_dir A); tauto.
    - rewrite <- (union_empty_l A). eapply union_is_intro; try done. simpl. destruct (ag_dir A); tauto.
  Qed.
  Lemma union_commute V0 A0 V1 A1 nls els : represents V0 A0 → represents V1 A1 → ag_dir A0 = ag_dir A1 → same_labels A0 A1 →
    uses_labels A0 nls els → uses_labels A1 nls els → labels_fit lt nls → labels_fit lt els →
    ∃ A, union_is lt V0 V1 A ∧ union_is lt V1 V0 A.
  Proof.
    intros H0 H1 Hd Hs U0 U1 HN HE. exists (a_union A0 A1). split.
    - eapply union_is_intro; try done. rewrite <- Hd. destruct (ag_dir A0); tauto.
    - rewrite (union_comm A0 A1) by (done || apply H0 || apply H1). eapply union_is_intro; try done. rewrite Hd. destruct (ag_dir A1); tauto.
  Qed.
  Lemma union_associate V0 A0 V1 A1 V2 A2 nls els : represents V0 A0 → represents V1 A1 → represents V2 A2 →
    (ag_dir A0 = ag_dir A1 ∧ ag_dir A1 = ag_dir A2) → uses_labels A0 nls els → uses_labels A1 nls els → uses_labels A2 nls els →
    labels_fit lt nls → labels_fit lt els →
    ∃ g01 g12 A, graph_union lt V0 V1 = Ok g01 ∧ graph_union lt V1 V2 = Ok g12 ∧ ∀ it it', hash_order g01 it → hash_order g12 it' →
      union_is lt (gm_view (ag_dir A0) it g01) V2 A ∧ union_is lt V0 (gm_view (ag_dir A0) it' g12) A.
  Proof.
    intros H0 H1 H2 [D1 D2] U0 U1 U2 HN HE.
    destruct (union_is_intro V0 A0 V1 A1 nls els) as (g01 & Hg01 & Hv01); try done. { rewrite <- D1. destruct (ag_dir A0); tauto. }
    destruct (union_is_intro V1 A1 V2 A2 nls els) as (g12 & Hg12 & Hv12); try done. { rewrite <- D2. destruct (ag_dir A1); tauto. }
    exists g01, g12, (a_union (a_union A0 A1) A2). split; [done|]. split; [done|]. intros it it' Hit Hit'. split.
    - apply (union_is_intro _ (a_union A0 A1) V2 A2 nls els); try done; [by apply Hv01| |by apply union_uses].
      simpl. rewrite <- D2, <- D1. destruct (ag_dir A0); tauto.
    - rewrite union_assoc. apply (union_is_intro V0 A0 _ (a_union A1 A2) nls els); try done; [| |by apply union_uses].
      + rewrite D1. by apply Hv12.
      + simpl. rewrite <- D1. destruct (ag_dir A0); tauto.
  Qed.
  (** The result reports every shared edge twice. *)
  Lemma union_self_equal V A nls els : represents V A → exact_count V A → uses_labels A nls els → labels_fit lt nls → labels_fit lt els →
    ∃ g, graph_union lt V V = Ok g ∧ ∀ it, hash_order g it →
      ∃ b, v_equal (gm_view (ag_dir A) it g) V = Ok b ∧ (b = true ↔ a_num_edges A = 0).
  Proof.
    intros H1 Hc H2 H3 H4. destruct (union_thm lt V A V A nls els) as (g & Hg & Hv); try done. { destruct (ag_dir A); tauto. }
    exists g. split; [done|]. intros it Hit. destruct (Hv it Hit) as (R & _ & _ & Hcnt). rewrite union_same in R.
    destruct (decide (a_num_edges A = 0)) as [H0'|H0'].
    - destruct (equal_thm (gm_view (ag_dir A) it g) V A A R H1) as (b & Hb & Hiff).
      { unfold exact_count. lia. } { done. }
      exists b. split; [done|]. rewrite Hiff. tauto.
    - exists false. split; [|split; [done|lia]]. unfold v_equal. rewrite decide_True; [done|]. right. right. unfold exact_count in Hc. lia.
  Qed.

  Lemma minus_self V A nls els : represents V A → (∀ n, ¬ a_has_edge A n n) → uses_labels A nls els → labels_fit lt nls → labels_fit lt els →
    minus_is lt V V (a_empty (ag_dir A)).
  Proof.
    intros R Hl U HN HE. apply (minus_is_intro V A V A nls els _ R R); [by intros n _|done..|].
    apply induced_none; [apply R|]. intros n Hn. tauto.
  Qed.
  Lemma minus_empty V A Ve dir nls els : represents V A → represents Ve (a_empty dir) → uses_labels A nls els → labels_fit lt nls → labels_fit lt els →
    minus_is lt V Ve A.
  Proof.
    intros R Re U HN HE. assert (∀ n, ¬ a_has_node (a_empty (NL:=NL) (EL:=EL) dir) n) as Hn. { intros n [? Hx]. simpl in Hx. by rewrite lookup_empty in Hx. }
    apply (minus_is_intro V A Ve (a_empty dir) nls els A R Re); [|done..|].
    - intros n Hx. by apply Hn in Hx.
    - apply induced_all; [apply R|]. intros n _. apply Hn.
  Qed.
  Lemma minus_minus V0 A0 V1 A1 V2 A2 nls els : represents V0 A0 → represents V1 A1 → represents V2 A2 →
    (ag_dir A1 = true ∨ ag_dir A2 = false) → (∀ n, a_has_node A1 n ∨ a_has_node A2 n → ¬ a_has_edge A0 n n) →
    uses_labels A0 nls els → uses_labels A1 nls els → uses_labels A2 nls els → labels_fit lt nls → labels_fit lt els →
    ∃ g01 g12 A, graph_minus lt V0 V1 = Ok g01 ∧ graph_union lt V1 V2 = Ok g12 ∧ ∀ it it', hash_order g01 it → hash_order g12 it' →
      minus_is lt (gm_view (ag_dir A0) it g01) V2 A ∧ minus_is lt V0 (gm_view (ag_dir A1) it' g12) A.
  Proof.
    intros R0 R1 R2 Hd Hl U0 U1 U2 HN HE.
    assert (∀ n, a_has_node A1 n → ¬ a_has_edge A0 n n) as Hl1 by (intros n Hn; apply Hl; by left).
    destruct (induced_exists V0 A0 V1 A1 R0 R1 Hl1) as (B & HB).
    destruct (minus_is_intro V0 A0 V1 A1 nls els B) as (g01 & Hg01 & Hv01); try done.
    destruct (union_is_intro V1 A1 V2 A2 nls els) as (g12 & Hg12 & Hv12); try done.
    destruct (induced_exists _ B V2 A2 (proj1 (Hv01 _ (GraphMapQueries.hash_order_exists g01))) R2) as (C & HC).
    { intros n Hn He. apply (Hl n); [by right|]. destruct He as [l He]. apply (ind_edges _ _ _ HB) in He as (He & _). by exists l. }
    exists g01, g12, C. split; [done|]. split; [done|]. rewrite (ind_dir _ _ _ HB) in Hv01. intros it it' Hit Hit'. split.
    - apply (minus_is_intro _ B V2 A2 nls els); [by apply Hv01|done| |by eapply induced_uses|done..].
      intros n Hn [l He]. apply (ind_edges _ _ _ HB) in He as (He & _). apply (Hl n); [by right|by exists l].
    - assert (∀ n, a_has_node (a_union A1 A2) n ↔ a_has_node A1 n ∨ a_has_node A2 n) as Hun.
      { intros n. unfold a_has_node, a_union. simpl. rewrite lookup_union_is_Some. tauto. }
      apply (minus_is_intro V0 A0 _ (a_union A1 A2) nls els); [done|by apply Hv12|intros n Hn; by apply Hl, Hun|done..|].
      pose proof (induced_induced _ _ _ _ _ HB HC) as HI. split; [apply HI|..|apply HI].
      + intros n l. rewrite (ind_nodes _ _ _ HI), Hun. tauto.
      + intros s t l. rewrite (ind_edges _ _ _ HI), !Hun. tauto.
  Qed.
  Lemma union_minus V0 A0 V1 A1 nls els : represents V0 A0 → represents V1 A1 →
    (ag_dir A0 = true ∨ ag_dir A1 = false) → (∀ n, a_has_node A1 n → ¬ a_has_edge A0 n n ∧ ¬ a_has_edge A1 n n) →
    uses_labels A0 nls els → uses_labels A1 nls els → labels_fit lt nls → labels_fit lt els →
    ∃ g A, graph_union lt V0 V1 = Ok g ∧ minus_is lt V0 V1 A ∧ ∀ it, hash_order g it → minus_is lt (gm_view (ag_dir A0) it g) V1 A.
  Proof.
    intros R0 R1 Hd Hl U0 U1 HN HE. destruct (union_is_intro V0 A0 V1 A1 nls els) as (g & Hg & Hv); try done.
    assert (∀ n, a_has_node A1 n → ¬ a_has_edge (a_union A0 A1) n n) as Hl'.
    { intros n Hn. destruct (Hl n Hn) as [L0 L1]. unfold a_has_edge, a_edge_at, a_union. simpl. rewrite lookup_union_is_Some. intros [Hx|Hx]; [|by apply L0].
      apply L1. unfold a_has_edge, a_edge_at. destruct (ag_dir A0), (ag_dir A1); simpl in *; rewrite ?N.min_id, ?N.max_id in *; done. }
    assert (∀ n, a_has_node A1 n → ¬ a_has_edge A0 n n) as Hl0 by (intros n Hn; by apply Hl).
    destruct (induced_exists _ _ V1 A1 (Hv _ (GraphMapQueries.hash_order_exists g)) R1 Hl') as (C & HC).
    exists g, C. split; [done|]. split.
    - apply (minus_is_intro V0 A0 V1 A1 nls els); try done. apply induced_union; [apply R0|apply R1|done|done].
    - intros it Hit. apply (minus_is_intro _ (a_union A0 A1) V1 A1 nls els); try done; [by apply Hv|by apply union_uses].
  Qed.
End laws.

(** Any graph added to an undirected one: every edge also counts in the other direction. *)
Section mixed.
  Context {NL EL : Type} `{EqDecision NL, EqDecision EL} (lt : idty).
  Implicit Types (V : gview NL EL) (A : agraph NL EL).
  Lemma union_mixed_thm V0 A0 V1 A1 nls els :
    represents V0 A0 → represents V1 A1 → ag_dir A0 = false →
    uses_labels A0 nls els → uses_labels A1 nls els → labels_fit lt nls → labels_fit lt els →
    ∃ g A, graph_union lt V0 V1 = Ok g ∧ ag_dir A = false ∧ ag_nodes A = ag_nodes A1 ∪ ag_nodes A0 ∧
      (∀ s t, a_has_edge A s t ↔ a_has_edge A0 s t ∨ a_has_edge A1 s t ∨ a_has_edge A1 t s) ∧
      (∀ s t l, a_edge_at A s t = Some l → a_edge_at A1 s t = Some l ∨ a_edge_at A1 t s = Some l ∨
         (¬ a_has_edge A1 s t ∧ ¬ a_has_edge A1 t s ∧ a_edge_at A0 s t = Some l)) ∧
      ∀ it, hash_order g it → let V := gm_view false it g in
        represents V A ∧ answers_missing V A ∧ iterates V ∧ v_edge_count V = a_num_edges A0 + a_num_edges A1.
  Proof.
    intros H0 H1 Hdir Hu0 Hu1 HN HE.
    destruct (rp_edge_indices _ _ H0) as (es0 & Hes0 & Hl0). destruct (rp_edge_indices _ _ H1) as (es1 & Hes1 & Hl1).
    assert (graph_union lt V0 V1 = rmap snd (gm_run false lt
      (((node_ops (nlab A0) (v_node_indices V0) ++ node_ops (nlab A1) (v_node_indices V1)) ++ edge_ops (elab A0) es0) ++ edge_ops (elab A1) es1) gm_new)) as ->.
    { rewrite !gm_run_app. unfold graph_union. rewrite (rp_directed _ _ H0), Hdir.
      rewrite (add_nodes_of_run lt V0 A0 H0 false).
      destruct (rmap snd (gm_run false lt (node_ops (nlab A0) (v_node_indices V0)) gm_new)) as [g1| |]; [|done..]. cbn [rbind].
      rewrite (add_nodes_of_run lt V1 A1 H1 false).
      destruct (rmap snd (gm_run false lt (node_ops (nlab A1) (v_node_indices V1)) g1)) as [g2| |]; [|done..]. cbn [rbind].
      rewrite (add_edges_of_run lt V0 A0 H0 false es0) by done.
      destruct (rmap snd (gm_run false lt (edge_ops (elab A0) es0) g2)) as [g3| |]; [|done..]. cbn [rbind].
      by rewrite (add_edges_of_run lt V1 A1 H1 false es1). }
    destruct (build_nodes (nlab A0) nls els (v_node_indices V0) (s_init false [] [])) as (rs1 & s1 & Hr1 & Hw1 & Hd1 & He1 & Hc1 & Hn1).
    { unfold within. simpl. split_and!; [constructor|constructor|set_solver|set_solver]. }
    { intros n l. apply (nlab_uses V0 A0 H0 nls els n l Hu0). }
    destruct (build_nodes (nlab A1) nls els (v_node_indices V1) s1 Hw1) as (rs2 & s2 & Hr2 & Hw2 & Hd2 & He2 & Hc2 & Hn2).
    { intros n l. apply (nlab_uses V1 A1 H1 nls els n l Hu1). }
    assert (∀ k, ag_nodes (sp_g s2) !! k = (ag_nodes A1 ∪ ag_nodes A0) !! k) as Hnodes.
    { intros k. rewrite Hn2, Hn1. destruct (decide (k ∈ v_node_indices V1)) as [Hk|Hk].
      - apply (rp_node_indices _ _ H1) in Hk. symmetry. apply lookup_union_Some_l. by apply nlab_some.
      - assert (ag_nodes A1 !! k = None) as Hk1.
        { apply eq_None_not_Some. intros Hk'. apply Hk. by apply (rp_node_indices _ _ H1). }
        rewrite lookup_union_r by done. destruct (decide (k ∈ v_node_indices V0)) as [Hk0|Hk0].
        + apply (rp_node_indices _ _ H0) in Hk0. by rewrite (nlab_some A0).
        + simpl. rewrite lookup_empty. symmetry. apply eq_None_not_Some. intros Hk'. apply Hk0. by apply (rp_node_indices _ _ H0). }
    destruct (build_edges_distinct (elab A0) nls els es0 s2 false) as (rs3 & s3 & Hr3 & Hw3 & Hd3 & Hn3 & Hc3 & He3).
    { by rewrite Hd2, Hd1. } { done. } { intros e l. apply (elab_uses V0 A0 H0 nls els es0 e l Hes0 Hu0). }
    { intros [x y] He. apply Hl0 in He. apply (rp_wf _ _ H0) in He as (Hk & Hx & Hy). rewrite Hdir in Hk. simpl. split; [exact Hk|].
      unfold a_has_node. rewrite !Hnodes. by split; apply lookup_union_is_Some; right. }
    destruct (build_edges (elab A1) nls els es1 s3) as (rs4 & s4 & Hr4 & Hw4 & Hd4 & Hn4 & Hc4 & Ho4 & Hi4).
    { done. } { intros e l. apply (elab_uses V1 A1 H1 nls els es1 e l Hes1 Hu1). }
    { intros [x y] He. apply Hl1 in He. apply (rp_wf _ _ H1) in He as (_ & Hx & Hy). simpl.
      unfold a_has_node. rewrite Hn3, !Hnodes. by split; apply lookup_union_is_Some; left. }
    pose proof (run_app2 (run_app2 (run_app2 Hr1 Hr2) Hr3) Hr4) as Hr.
    destruct (built lt false _ _ s4 nls els Hr Hw4 HN HE) as (g & Hg & Hv). clear Hr.
    rewrite Hd3 in Hd4, Ho4, Hi4.
    assert (∀ k, ag_edges (sp_g s3) !! k = ag_edges A0 !! k) as Hs3.
    { intros k. rewrite He3, He2, He1. simpl. destruct (decide (k ∈ es0)) as [Hk0|Hk0].
      - by rewrite (elab_some V0 A0 H0) by (by apply Hl0).
      - rewrite lookup_empty. symmetry. apply eq_None_not_Some. intros Hk'. apply Hk0. by apply Hl0. }
    assert (∀ s t, ekey false s t ∈ ((λ e : N * N, ekey false e.1 e.2) <$> es1) ↔ a_has_edge A1 s t ∨ a_has_edge A1 t s) as Hkeys.
    { intros s t. rewrite elem_of_list_fmap. split.
      - intros ([x y] & Hxy & Hin). apply Hl1 in Hin. pose proof (rp_wf _ _ H1 x y Hin) as (Hk & _). simpl in Hxy. injection Hxy as Hm1 Hm2.
        assert (a_has_edge A1 x y) as Hxy' by (unfold a_has_edge, a_edge_at; by rewrite Hk).
        assert ((s = x ∧ t = y) ∨ (s = y ∧ t = x)) as [[-> ->]|[-> ->]] by lia; tauto.
      - assert (∀ s t, a_has_edge A1 s t → ∃ y : N * N, ekey false s t = ekey false y.1 y.2 ∧ y ∈ es1) as Hone.
        { intros s' t' He. exists (ekey (ag_dir A1) s' t'). split; [|by apply Hl1]. destruct (ag_dir A1); simpl; [done|]. f_equal; lia. }
        intros [He|He]; [by apply Hone|]. destruct (Hone t s He) as (y & Hy & Hin). exists y. split; [|done]. rewrite <- Hy. simpl. f_equal; lia. }
    assert (∀ s t, a_edge_at (sp_g s4) s t = ag_edges (sp_g s4) !! ekey false s t) as Hat4 by (intros; unfold a_edge_at; by rewrite Hd4).
    assert (∀ s t, a_edge_at A0 s t = ag_edges A0 !! ekey false s t) as Hat0 by (intros; unfold a_edge_at; by rewrite Hdir).
    exists g, (sp_g s4). split; [exact Hg|]. split; [done|]. split; [apply map_eq; intros k; by rewrite Hn4, Hn3|]. split; [|split].
    - intros s t. unfold a_has_edge at 1 2. rewrite Hat4, Hat0. rewrite <- Hkeys.
      destruct (decide (ekey false s t ∈ ((λ e : N * N, ekey false e.1 e.2) <$> es1))) as [Hin|Hin].
      + destruct (Hi4 _ Hin) as (e & _ & _ & He). split; [by right|]. intros _. rewrite He. by eexists.
      + rewrite (Ho4 _ Hin), Hs3. tauto.
    - intros s t l. rewrite Hat4, Hat0. intros Hl.
      destruct (decide (ekey false s t ∈ ((λ e : N * N, ekey false e.1 e.2) <$> es1))) as [Hin|Hin].
      + destruct (Hi4 _ Hin) as ([x y] & He & Hxy & Hl'). rewrite Hl in Hl'. injection Hl' as ->. simpl in Hxy. injection Hxy as Hm1 Hm2.
        apply Hl1 in He. pose proof (rp_wf _ _ H1 x y He) as (Hk & _). pose proof (elab_some V1 A1 H1 (x, y) He) as Hs.
        assert (a_edge_at A1 x y = Some (elab A1 (x, y))) as Hat by (unfold a_edge_at; by rewrite Hk).
        assert ((s = x ∧ t = y) ∨ (s = y ∧ t = x)) as [[-> ->]|[-> ->]] by lia; [by left|by right; left].
      + right. right. rewrite Hkeys in Hin. split; [tauto|]. split; [tauto|]. rewrite <- Hs3, <- Ho4; [done|]. by rewrite Hkeys.
    - intros it Hit V. destruct (Hv it Hit) as (Hr & Ha & Hi & Hc). split; [done|]. split; [done|]. split; [done|].
      unfold V. rewrite Hc, Hc4, Hc3, Hc2, Hc1. simpl. by rewrite (lists_exactly_length _ _ Hl0), (lists_exactly_length _ _ Hl1).
  Qed.
End mixed.

(** Concrete graphs. *)
From Verif Require Import GraphOpsWit.
Definition op_wit3 : list (gop N N) := [OAddEdge 2 3 (Some 6); OAddNode 9 (Some 7)]%N.
Definition op_wit4 : list (gop N N) := [OAddEdge 2 1 (Some 6); OAddEdge 1 2 None; OAddEdge 3 2 None]%N.
Lemma op_wit1_all dir : let V := run_view dir op_wit1 in let A := sp_g (run_spec dir op_wit1) in
  represents V A ∧ exact_count V A ∧ ag_dir A = dir.
Proof. destruct (run_view_all dir op_wit1) as (?&_&_&Hc&_); [destruct dir; vm_compute; lia|]. split; [done|]. split; [unfold exact_count; rewrite Hc; destruct dir; by vm_compute|by destruct dir]. Qed.
Lemma op_wit3_rep dir : represents (run_view dir op_wit3) (sp_g (run_spec dir op_wit3)).
Proof. destruct (run_view_all dir op_wit3) as (?&_); [|done]. destruct dir; vm_compute; lia. Qed.
Lemma op_wit4_rep dir : represents (run_view dir op_wit4) (sp_g (run_spec dir op_wit4)).
Proof. destruct (run_view_all dir op_wit4) as (?&_); [|done]. destruct dir; vm_compute; lia. Qed.
Lemma op_wit3_uses dir : uses_labels (sp_g (run_spec dir op_wit3)) [7; 8]%N [5; 6]%N.
Proof. eapply uses_mono; [apply uses_of; destruct dir; by vm_compute|..]; destruct dir; vm_compute; set_solver. Qed.
Lemma op_wit4_uses dir : uses_labels (sp_g (run_spec dir op_wit4)) [7; 8]%N [5; 6]%N.
Proof. eapply uses_mono; [apply uses_of; destruct dir; by vm_compute|..]; destruct dir; vm_compute; set_solver. Qed.
Lemma no_loops (A : agraph N N) : ag_wf A → Forall (λ n, ¬ a_has_edge A n n) (map_to_list (ag_nodes A)).*1 → ∀ n, ¬ a_has_edge A n n.
Proof.
  intros W Hf n Hn. rewrite Forall_forall in Hf. apply (Hf n); [|done]. destruct (wf_edge_nodes A n n W Hn) as [[l Hl] _].
  apply elem_of_list_fmap. exists (n, l). split; [done|]. by apply elem_of_map_to_list.
Qed.
Lemma agree_of {K X} `{Countable K, EqDecision X} (m m' : gmap K X) :
  Forall (λ p, match m' !! p.1 with Some y => p.2 = y | None => True end) (map_to_list m) →
  ∀ k x y, m !! k = Some x → m' !! k = Some y → x = y.
Proof.
  intros Hf k x y Hx Hy. rewrite Forall_forall in Hf. apply elem_of_map_to_list in Hx. specialize (Hf _ Hx). simpl in Hf. by rewrite Hy in Hf.
Qed.
Lemma forall_match_dec {K X} `{Countable K, EqDecision X} (m' : gmap K X) (l : list (K * X)) :
  forallb (λ p, match m' !! p.1 with Some y => bool_decide (p.2 = y) | None => true end) l = true →
  Forall (λ p, match m' !! p.1 with Some y => p.2 = y | None => True end) l.
Proof.
  rewrite forallb_forall. intros Hf. apply Forall_forall. intros p Hp%elem_of_list_In. specialize (Hf p Hp).
  destruct (m' !! p.1); [|done]. by apply bool_decide_eq_true in Hf.
Qed.
Lemma laws_case dir : ∃ (V0 V1 V2 Ve : gview N N) A0 A1 A2, represents V0 A0 ∧ represents V1 A1 ∧ represents V2 A2 ∧ represents Ve (a_empty dir) ∧
  (ag_dir A0 = dir ∧ ag_dir A1 = dir ∧ ag_dir A2 = dir) ∧
  (uses_labels A0 [7; 8]%N [5; 6]%N ∧ uses_labels A1 [7; 8]%N [5; 6]%N ∧ uses_labels A2 [7; 8]%N [5; 6]%N) ∧ exact_count V0 A0 ∧ a_num_edges A0 = 2 ∧
  same_labels A0 A1 ∧ A0 ≠ A1 ∧ a_edge_at A0 2 3 = Some (Some 6%N) ∧ a_has_edge A1 2 3 ∧ ¬ same_labels A0 A2 ∧
  (∀ n, ¬ a_has_edge A0 n n) ∧ (∀ n, ¬ a_has_edge A1 n n).
Proof.
  exists (run_view dir op_wit1), (run_view dir op_wit3), (run_view dir op_wit0), (gm_view dir [] gm_new),
    (sp_g (run_spec dir op_wit1)), (sp_g (run_spec dir op_wit3)), (sp_g (run_spec dir op_wit0)).
  destruct (op_wit1_all dir) as (R0 & Hc & Hd). pose proof (op_wit3_rep dir) as R1.
  split; [done|]. split; [done|]. split; [apply op_wit0_rep|]. split; [apply empty_represents|]. split; [by destruct dir|].
  split; [split; [apply op_wit1_uses|split; [apply op_wit3_uses|apply op_wit0_uses]]|]. split; [done|]. split; [destruct dir; by vm_compute|].
  split.
  { split.
    - apply agree_of, forall_match_dec. destruct dir; by vm_compute.
    - intros s t. unfold a_edge_at. rewrite Hd. replace (ag_dir (sp_g (run_spec dir op_wit3))) with dir by (by destruct dir). apply agree_of, forall_match_dec. destruct dir; by vm_compute. }
  split. { intros Heq. apply (f_equal (λ A, ag_nodes A !! 9%N)) in Heq. destruct dir; by vm_compute in Heq. }
  split; [destruct dir; by vm_compute|]. split; [apply (bool_decide_unpack _); destruct dir; by vm_compute|].
  split. { intros [Hn _]. specialize (Hn 2%N None (Some 8%N)). discriminate Hn; destruct dir; by vm_compute. }
  split; [apply (no_loops _ (rp_wf _ _ R0))|apply (no_loops _ (rp_wf _ _ R1))]; apply (bool_decide_unpack _); destruct dir; by vm_compute.
Qed.
Lemma mixed_case : ∃ (V0 V1 : gview N N) A0 A1, represents V0 A0 ∧ represents V1 A1 ∧ ag_dir A0 = false ∧ ag_dir A1 = true ∧
  uses_labels A0 [7; 8]%N [5; 6]%N ∧ uses_labels A1 [7; 8]%N [5; 6]%N ∧ a_edge_at A1 1 2 = Some None ∧ a_edge_at A1 2 1 = Some (Some 6%N) ∧
  a_edge_at A0 1 2 = Some (Some 5%N) ∧ a_has_edge A1 3 2 ∧ ¬ a_has_edge A1 2 3.
Proof.
  exists (run_view false op_wit0), (run_view true op_wit4), (sp_g (run_spec false op_wit0)), (sp_g (run_spec true op_wit4)).
  split; [apply op_wit0_rep|]. split; [apply op_wit4_rep|]. split; [done|]. split; [done|].
  split; [apply op_wit0_uses|]. split; [apply op_wit4_uses|]. split; [by vm_compute|]. split; [by vm_compute|]. split; [by vm_compute|].
  split; apply (bool_decide_unpack _); by vm_compute.
Qed.
