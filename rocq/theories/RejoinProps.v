(** Proofs for C117: a graph is the union of its connected subgraphs. *)
From Verif Require Import Base BaseFacts Api Spec SpecFacts ViewFacts Map GraphMap SpecConn ConnComp ConnCompFacts ConnCompProps SpecOps SpecOpsLaws GraphOps GraphOpsProps GraphOpsLaws ConnSubProps ViewOps ViewOpsProps GraphMapProps SpecRejoin.

Lemma empty_shows {NL EL} `{EqDecision NL, EqDecision EL} dir it : hash_order (gm_new : graphmap NL EL) it → shows (gm_view dir it (gm_new : graphmap NL EL)) (a_empty dir).
Proof.
  intros Hit. destruct (refinement (NL:=NL) (EL:=EL) dir TUsize [] [] [] [] (s_init dir [] [])) as (g & Hg & Hv); [constructor|constructor|done| | |].
  1,2: unfold labels_fit; simpl; lia.
  injection Hg as <-. destruct (Hv it Hit) as (H1 & H2 & H3 & H4). split_and!; [exact H1|exact H2|exact H3|]. unfold exact_count. by vm_compute.
Qed.

Section rejoin.
  Context {NL EL : Type} `{EqDecision NL, EqDecision EL} (lt : idty).
  Implicit Types (A B : agraph NL EL) (P Q : N → Prop) (g p : graphmap NL EL).

  Lemma induced_ext A B P Q : (∀ n, P n ↔ Q n) → is_induced P A B → is_induced Q A B.
  Proof.
    intros H [H1 H2 H3 H4]. split; [done| | |done].
    - intros n l. rewrite H2. by rewrite H.
    - intros s t l. rewrite H3. by rewrite !H.
  Qed.
  (** Closed under edges. *)
  Definition closed A P : Prop := ∀ x y, a_has_edge A x y → P x ↔ P y.
  Lemma union_induced A B B' P Q : ag_wf A → is_induced P A B → is_induced Q A B' → closed A P → closed A Q → (∀ n, a_has_node A n → P n → Q n → False) →
    is_induced (λ n, P n ∨ Q n) A (a_union B B') ∧ a_num_edges (a_union B B') = a_num_edges B + a_num_edges B'.
  Proof.
    intros W HP HQ CP CQ Hd.
    assert (∀ e l, ag_edges B !! e = Some l → P e.1 ∧ a_has_node A e.1) as HB.
    { intros [s t] l Hl. pose proof (proj1 (ind_wf _ _ _ HP s t (mk_is_Some _ _ Hl))) as Hk. assert (a_edge_at B s t = Some l) as Hat by (unfold a_edge_at; by rewrite Hk).
      apply (ind_edges _ _ _ HP) in Hat as (Hat & Hs & _). split; [done|]. destruct (wf_edge_nodes A s t W (mk_is_Some _ _ Hat)). done. }
    assert (∀ e l, ag_edges B' !! e = Some l → Q e.1) as HB'.
    { intros [s t] l Hl. pose proof (proj1 (ind_wf _ _ _ HQ s t (mk_is_Some _ _ Hl))) as Hk. assert (a_edge_at B' s t = Some l) as Hat by (unfold a_edge_at; by rewrite Hk).
      apply (ind_edges _ _ _ HQ) in Hat as (_ & Hs & _). done. }
    split.
    - assert (∀ n l, ag_nodes B' !! n = Some l → Q n ∧ ag_nodes A !! n = Some l) as NB'. { intros n l Hl. apply (ind_nodes _ _ _ HQ) in Hl. tauto. }
      split.
      + cbn. apply HP.
      + intros n l. unfold a_union. cbn [ag_nodes]. rewrite lookup_union_Some_raw, (ind_nodes _ _ _ HQ), (ind_nodes _ _ _ HP). split; [tauto|].
        intros [Hl [Hp|Hq]]; [|tauto]. right. split; [|done]. destruct (ag_nodes B' !! n) as [l'|] eqn:E; [|done]. apply NB' in E as [Hq _]. exfalso. apply (Hd n); [by eexists|done..].
      + intros s t l. unfold a_edge_at at 1, a_union. cbn [ag_edges ag_dir]. rewrite lookup_union_Some_raw.
        assert (ag_edges B' !! ekey (ag_dir B) s t = a_edge_at B' s t) as ->. { unfold a_edge_at. by rewrite (ind_dir _ _ _ HP), (ind_dir _ _ _ HQ). }
        change (ag_edges B !! ekey (ag_dir B) s t) with (a_edge_at B s t). rewrite (ind_edges _ _ _ HQ), (ind_edges _ _ _ HP). split; [tauto|].
        intros (Hl & Hs & _). pose proof (CP s t (mk_is_Some _ _ Hl)) as C1. pose proof (CQ s t (mk_is_Some _ _ Hl)) as C2.
        destruct Hs as [Hp|Hq]; [|left; tauto]. right. split; [|tauto]. destruct (a_edge_at B' s t) as [l'|] eqn:E; [|done].
        apply (ind_edges _ _ _ HQ) in E as (_ & Hq & _). exfalso. destruct (wf_edge_nodes A s t W (mk_is_Some _ _ Hl)) as [Hn _]. by apply (Hd s).
      + intros s t [l Hl]. unfold a_union in *. cbn [ag_edges ag_dir ag_nodes] in *. unfold a_has_node. cbn [ag_nodes].
        rewrite !lookup_union_is_Some. apply lookup_union_Some_raw in Hl as [Hl|[_ Hl]].
        * destruct (ind_wf _ _ _ HQ s t (mk_is_Some _ _ Hl)) as (Hk & ? & ?). rewrite (ind_dir _ _ _ HP), <-(ind_dir _ _ _ HQ). split; [done|]. split; by left.
        * destruct (ind_wf _ _ _ HP s t (mk_is_Some _ _ Hl)) as (Hk & ? & ?). split; [done|]. split; by right.
    - unfold a_num_edges, a_union. cbn [ag_edges]. rewrite map_size_disj_union; [lia|]. apply map_disjoint_spec. intros e l l' H1 H2.
      destruct (HB _ _ H2). apply HB' in H1. by apply (Hd e.1).
  Qed.

  Context (A : agraph NL EL) (nls : list NL) (els : list EL) (W : ag_wf A) (Hu : uses_labels A nls els) (HN : labels_fit lt nls) (HE : labels_fit lt els).
  (** A part: induced by a set of nodes that no edge leaves. *)
  Definition piece p : Prop := ∃ B, is_induced (λ n, gm_has_node p n = true) A B ∧ ∀ it, hash_order p it → shows (gm_view (ag_dir A) it p) B.
  Definition within (ps : list (graphmap NL EL)) (n : N) : Prop := ∃ p, p ∈ ps ∧ gm_has_node p n = true.
  Context (ord : graphmap NL EL → list N) (Hord : ∀ g, hash_order g (ord g)).
  Lemma join_from ps : ∀ g B P, is_induced P A B → closed A P → (∀ it, hash_order g it → shows (gm_view (ag_dir A) it g) B) →
    (∀ p, p ∈ ps → piece p ∧ closed A (λ n, gm_has_node p n = true) ∧ ∀ n, P n → gm_has_node p n = true → False) →
    NoDup ps → (∀ p q n, p ∈ ps → q ∈ ps → gm_has_node p n = true → gm_has_node q n = true → p = q) →
    ∃ g' B', rfold (λ g p, graph_union lt (gm_view (ag_dir A) (ord g) g) (gm_view (ag_dir A) (ord p) p)) ps g = Ok g' ∧
      is_induced (λ n, P n ∨ within ps n) A B' ∧ ∀ it, hash_order g' it → shows (gm_view (ag_dir A) it g') B'.
  Proof using W Hu HN HE Hord.
    induction ps as [|p ps IH]; intros g B P HP CP HV Hps Hnd Hdis.
    - exists g, B. split; [done|]. split; [|done]. eapply induced_ext; [|exact HP].
      intros n. unfold within. split; [by left|]. intros [?|(q & Hq%elem_of_nil & _)]; done.
    - apply NoDup_cons in Hnd as [Hp Hnd]. destruct (Hps p) as ((Bp & Hip & HVp) & Cp & Dp); [left|].
      destruct (union_induced A B Bp P (λ n, gm_has_node p n = true) W HP Hip CP Cp) as [HU Hcnt]; [intros n _; apply Dp|].
      destruct (HV (ord g) (Hord g)) as (R0 & _). destruct (HVp (ord p) (Hord p)) as (R1 & _).
      assert (ag_dir B = ag_dir A) as DB by apply HP. assert (ag_dir Bp = ag_dir A) as DBp by apply Hip.
      destruct (union_thm lt _ B _ Bp nls els R0 R1) as (g1 & Hg1 & HV1).
      { rewrite DB, DBp. destruct (ag_dir A); [by left|by right]. } { by eapply induced_uses. } { by eapply induced_uses. } { done. } { done. }
      cbn [rfold]. rewrite Hg1. cbn [rbind].
      destruct (IH g1 (a_union B Bp) (λ n, P n ∨ gm_has_node p n = true) HU) as (g' & B' & Hg' & HI & HV').
      + intros x y Hxy. pose proof (CP x y Hxy). pose proof (Cp x y Hxy). tauto.
      + intros it Hit. destruct (HV1 it Hit) as (Q1 & Q2 & Q3 & Q4). rewrite DB in *. split; [done|]. split; [done|]. split; [done|]. unfold exact_count. by rewrite Q4, Hcnt.
      + intros q Hq. destruct (Hps q) as (Hq1 & Cq & Dq); [by right|]. split; [done|]. split; [done|]. intros n [Hn|Hn] Hqn; [by apply (Dq n)|].
        assert (p = q) as <-; [|done]. apply (Hdis p q n); [left|by right|done..].
      + done.
      + intros q r n Hq Hr. apply Hdis; by right.
      + exists g', B'. split; [done|]. split; [|done].
        eapply induced_ext; [|exact HI]. intros n. unfold within. split.
        * intros [[?|Hn]|(q & Hq & Hn)]; [by left|right; exists p; split; [left|done]|right; exists q; split; [by right|done]].
        * intros [?|(q & [-> |Hq]%elem_of_cons & Hn)]; [by left; left|by left; right|right; by exists q].
  Qed.
  Lemma join_pieces ps : (∀ p, p ∈ ps → piece p ∧ closed A (λ n, gm_has_node p n = true)) →
    NoDup ps → (∀ p q n, p ∈ ps → q ∈ ps → gm_has_node p n = true → gm_has_node q n = true → p = q) →
    ∃ g B, join_all lt (ag_dir A) ord ps = Ok g ∧ is_induced (within ps) A B ∧ ∀ it, hash_order g it → shows (gm_view (ag_dir A) it g) B.
  Proof using W Hu HN HE Hord.
    intros Hps Hnd Hdis. destruct (join_from ps gm_new (a_empty (ag_dir A)) (λ _, False)) as (g & B & Hg & HI & HV).
    - apply induced_none; [done|tauto].
    - done.
    - intros it Hit. by apply empty_shows.
    - intros p Hp. destruct (Hps p Hp). split_and!; [done..|tauto].
    - done.
    - done.
    - exists g, B. split; [exact Hg|]. split; [|done]. eapply induced_ext; [|exact HI]. intros n. cbv beta. tauto.
  Qed.
End rejoin.

Section thms.
  Context {NL EL : Type} `{EqDecision NL, EqDecision EL} (lt : idty) (V : gview NL EL) (A : agraph NL EL) (Hrep : represents V A) (Hiter : iterates V)
    (nls : list NL) (els : list EL) (Hiso : ∀ n, ¬ isolated A n) (Hu : uses_labels A nls els) (HN : labels_fit lt nls) (HE : labels_fit lt els)
    (ord : graphmap NL EL → list N) (Hord : ∀ g, hash_order g (ord g)).
  Lemma pieces : ∃ gs, conn_subgraphs lt V = Ok gs ∧ (∀ p, p ∈ gs → piece A p ∧ closed A (λ n, gm_has_node p n = true)) ∧
    NoDup gs ∧ (∀ p q n, p ∈ gs → q ∈ gs → gm_has_node p n = true → gm_has_node q n = true → p = q) ∧ ∀ n, a_has_node A n → within gs n.
  Proof using Hrep Hiter Hiso Hu HN HE Hord.
    destruct (conn_sub_thm lt V A Hrep Hiter nls els Hiso Hu HN HE) as (gs & Hgs & Hp & Hn). exists gs. split; [done|].
    assert (∀ p, p ∈ gs → ∃ n, a_has_node A n ∧ gm_has_node p n = true ∧ (∀ x, gm_has_node p x = true ↔ a_has_node A x ∧ weakly_connected A n x) ∧
      ∃ B, is_induced (weakly_connected A n) A B ∧ ∀ it, hash_order p it → shows (gm_view (ag_dir A) it p) B) as HP.
    { intros p [i Hi]%elem_of_list_lookup. destruct (Hp i p Hi) as (n & B & Hn1 & HI & _ & HV). exists n.
      assert (∀ x, gm_has_node p x = true ↔ a_has_node A x ∧ weakly_connected A n x) as Hx.
      { intros x. destruct (HV (ord p) (Hord p)) as (R & _). pose proof (rp_has_node _ _ R x) as Hx. cbn [v_has_node gm_view] in Hx. rewrite Hx. unfold a_has_node. split.
        - intros [l Hl]. apply (ind_nodes _ _ _ HI) in Hl as [Hl Hc]. split; [by exists l|done].
        - intros [[l Hl] Hc]. exists l. apply (ind_nodes _ _ _ HI). done. }
      split; [done|]. split; [apply Hx; split; [done|apply rtc_refl]|]. split; [done|]. by exists B. }
    assert (∀ i j p q n, gs !! i = Some p → gs !! j = Some q → gm_has_node p n = true → gm_has_node q n = true → i = j) as Hij.
    { intros i j p q n Hi Hj H1 H2. assert (a_has_node A n) as Ha. { destruct (HP p (elem_of_list_lookup_2 _ _ _ Hi)) as (m & _ & _ & Hx & _). by apply Hx in H1 as [? _]. }
      destruct (Hn n Ha) as (k & r & _ & _ & Hk). rewrite (Hk i p Hi H1), (Hk j q Hj H2). done. }
    split_and!.
    - intros p Hpin. destruct (HP p Hpin) as (n & Ha & Hpn & Hx & B & HI & HV). split.
      + exists B. split; [|done]. assert (is_induced (λ x, gm_has_node p x = true) A B); [|done].
        destruct HI as [H1 H2 H3 H4]. split; [done| | |done].
        * intros x l. rewrite H2, Hx. split; [|tauto]. intros [Hl Hc]. split_and!; [done|by exists l|done].
        * intros s t l. rewrite H3, !Hx. split; [|tauto]. intros (Hl & Hs & Ht). destruct (wf_edge_nodes A s t (rp_wf _ _ Hrep) (mk_is_Some _ _ Hl)). tauto.
      + intros x y Hxy. rewrite !Hx. destruct (wf_edge_nodes A x y (rp_wf _ _ Hrep) Hxy) as [Hax Hay].
        assert (weakly_connected A n x ↔ weakly_connected A n y); [|tauto]. split; intros Hc; (eapply rtc_r; [exact Hc|]); [by left|by right].
    - apply NoDup_alt. intros i j p Hi Hj. destruct (HP p (elem_of_list_lookup_2 _ _ _ Hi)) as (n & _ & Hpn & _). by apply (Hij i j p p n).
    - intros p q n [i Hi]%elem_of_list_lookup [j Hj]%elem_of_list_lookup H1 H2. assert (i = j) as <- by (by apply (Hij i j p q n)). congruence.
    - intros n Ha. destruct (Hn n Ha) as (i & g & Hi & Hg & _). exists g. split; [by eapply elem_of_list_lookup_2|done].
  Qed.
  Lemma rejoin : ∃ gs, conn_subgraphs lt V = Ok gs ∧ ∀ gs', gs' ≡ₚ gs → ∃ g, join_all lt (ag_dir A) ord gs' = Ok g ∧
    ∀ it, hash_order g it → shows (gm_view (ag_dir A) it g) A.
  Proof using Hrep Hiter Hiso Hu HN HE Hord.
    destruct pieces as (gs & Hgs & H1 & H2 & H3 & H4). exists gs. split; [done|]. intros gs' HP.
    destruct (join_pieces lt A nls els (rp_wf _ _ Hrep) Hu HN HE ord Hord gs') as (g & B & Hg & HI & HV).
    - intros p. rewrite HP. apply H1.
    - by rewrite HP.
    - intros p q n. rewrite HP. apply H3.
    - exists g. split; [done|]. assert (B = A) as <-; [|done].
      eapply (induced_unique (within gs') (λ _, True) A B A); [|apply Hrep|exact HI|apply induced_all; [apply Hrep|done]].
      intros n Hn. split; [done|]. intros _. destruct (H4 n Hn) as (p & Hp & Hpn). exists p. split; [by rewrite HP|done].
  Qed.
  Lemma rejoin_minus : (∀ n, ¬ a_has_edge A n n) → ∃ gs, conn_subgraphs lt V = Ok gs ∧ ∀ gs1 p gs2, gs = gs1 ++ p :: gs2 → ∃ g g' B,
    join_all lt (ag_dir A) ord (gs1 ++ gs2) = Ok g ∧ graph_minus lt V (gm_view (ag_dir A) (ord p) p) = Ok g' ∧
    (∀ it, hash_order g it → shows (gm_view (ag_dir A) it g) B) ∧ (∀ it, hash_order g' it → shows (gm_view (ag_dir A) it g') B).
  Proof using Hrep Hiter Hiso Hu HN HE Hord.
    intros Hloop. destruct pieces as (gs & Hgs & H1 & H2 & H3 & H4). exists gs. split; [done|]. intros gs1 p gs2 ->.
    assert (∀ q, q ∈ gs1 ++ gs2 → q ∈ gs1 ++ p :: gs2) as Hin. { intros q. rewrite !elem_of_app, elem_of_cons. tauto. }
    assert (p ∈ gs1 ++ p :: gs2) as Hpin. { rewrite elem_of_app, elem_of_cons. tauto. }
    assert (NoDup (p :: gs1 ++ gs2)) as [Hpn Hnd]%NoDup_cons. { by rewrite Permutation_middle. }
    destruct (join_pieces lt A nls els (rp_wf _ _ Hrep) Hu HN HE ord Hord (gs1 ++ gs2)) as (g & B & Hg & HI & HV).
    { intros q Hq. apply H1. by apply Hin. } { done. } { intros q r n Hq Hr. apply H3; by apply Hin. }
    destruct (H1 p Hpin) as ((Bp & HIp & HVp) & _). destruct (HVp (ord p) (Hord p)) as (Rp & _).
    destruct (minus_thm lt V A (gm_view (ag_dir A) (ord p) p) Bp nls els Hrep Rp) as (g' & B' & Hg' & HI' & HV'); [intros n _; apply Hloop|done..|].
    exists g, g', B. split; [done|]. split; [done|]. split; [done|]. assert (B = B') as ->; [|done].
    eapply (induced_unique _ _ A); [|apply Hrep|exact HI|exact HI']. intros n Hn. cbv beta.
    assert (a_has_node Bp n ↔ gm_has_node p n = true) as ->. { symmetry. exact (rp_has_node _ _ Rp n). }
    split.
    - intros (q & Hq & Hqn) Hpn'. assert (p = q) as <-; [|done]. apply (H3 p q n); [done|by apply Hin|done..].
    - intros Hno. destruct (H4 n Hn) as (q & Hq & Hqn). exists q. split; [|done]. apply elem_of_app in Hq as [Hq|[-> |Hq]%elem_of_cons]; [apply elem_of_app; by left|done|apply elem_of_app; by right].
  Qed.
End thms.
Lemma rejoin_equal {NL EL} `{EqDecision NL, EqDecision EL} (lt : idty) (V : gview NL EL) A nls els (ord : graphmap NL EL → list N) :
  represents V A → iterates V → exact_count V A → (∀ n, ¬ isolated A n) → uses_labels A nls els → labels_fit lt nls → labels_fit lt els →
  (∀ g, hash_order g (ord g)) →
  ∃ gs, conn_subgraphs lt V = Ok gs ∧ ∀ gs', gs' ≡ₚ gs → ∃ g, join_all lt (ag_dir A) ord gs' = Ok g ∧
    ∀ it, hash_order g it → shows (gm_view (ag_dir A) it g) A ∧ v_equal (gm_view (ag_dir A) it g) V = Ok true.
Proof.
  intros H1 H2 Hc H3 H4 H5 H6 H7. destruct (rejoin lt V A H1 H2 nls els H3 H4 H5 H6 ord H7) as (gs & Hgs & HJ). exists gs. split; [done|]. intros gs' HP.
  destruct (HJ gs' HP) as (g & Hg & HV). exists g. split; [done|]. intros it Hit. pose proof (HV it Hit) as HS. split; [done|].
  destruct HS as (R & _ & _ & C). destruct (equal_thm _ _ _ _ R H1 C Hc) as (b & Hb & Hiff). rewrite Hb. f_equal. by apply Hiff.
Qed.
