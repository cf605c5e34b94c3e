(** Every API call on the GraphMap model simulates the specification. *)
From Verif Require Import Base Api Spec BaseFacts SpecFacts Map MapFacts GraphMap GraphMapFacts.

(** A stored label id stands for a label. *)
Definition lab_rel {X} (ls : list X) (lid : option N) (l : option X) : Prop :=
  match lid, l with
  | None, None => True
  | Some i, Some x => ls !! N.to_nat i = Some x
  | _, _ => False
  end.

Section refine.
  Context {NL EL : Type} `{EqDecision NL, EqDecision EL} (dir : bool) (lt : idty).
  Context (PN : list NL → option N → option NL → Prop) (PE : list EL → option N → option EL → Prop).
  Context (gN : list NL → Prop) (gE : list EL → Prop).
  Context (PN_None : ∀ ls, PN ls None None) (PE_None : ∀ ls, PE ls None None).
  Context (PN_new : ∀ ls i x, gN ls → ls !! i = Some x → PN ls (Some (id_new lt i)) (Some x)).
  Context (PE_new : ∀ ls i x, gE ls → ls !! i = Some x → PE ls (Some (id_new lt i)) (Some x)).
  Context (PN_mono : ∀ ls ls' i x, ls `prefix_of` ls' → PN ls i x → PN ls' i x).
  Context (PE_mono : ∀ ls ls' i x, ls `prefix_of` ls' → PE ls i x → PE ls' i x).

  Implicit Types (g : graphmap NL EL) (s : sstate NL EL).

  Record rel g s : Prop := {
    r_abs : abs_rel dir (PN (g_nlm g)) (PE (g_elm g)) (g_nodes g) (sp_g s);
    r_count : g_nedges g = sp_count s;
    r_max : g_max g = sp_max s;
    r_nls : g_nlm g = sp_nls s;
    r_els : g_elm g = sp_els s;
    r_nd_nls : NoDup (sp_nls s);
    r_nd_els : NoDup (sp_els s);
    r_ge : a_num_edges (sp_g s) ≤ sp_count s;
    r_bound : ∀ n, a_has_node (sp_g s) n → ∃ k, sp_max s = Some k ∧ (n ≤ k)%N;
  }.

  Lemma rel_init nls els : NoDup nls → NoDup els → rel (gm_with_label_map nls els) (s_init dir nls els).
  Proof.
    intros Hn He. split; try done; simpl.
    - apply abs_empty.
    - intros n [l Hl]. simpl in Hl. by rewrite lookup_empty in Hl.
  Qed.

  Lemma rel_has_node g s n : rel g s → gm_has_node g n = bool_decide (is_Some (ag_nodes (sp_g s) !! n)).
  Proof.
    intros H. unfold gm_has_node. apply bool_decide_ext.
    apply (abs_has_node dir (PN (g_nlm g)) (PE (g_elm g))). apply H.
  Qed.
  Lemma rel_has_edge g s x y : rel g s → gm_has_edge g x y = bool_decide (is_Some (a_edge_at (sp_g s) x y)).
  Proof.
    intros H. unfold gm_has_edge. pose proof (abs_adj dir _ _ _ _ x y (r_abs _ _ H)) as Ha.
    unfold adj in Ha. unfold a_has_edge in Ha. destruct (g_nodes g !! x) as [n|] eqn:Hx.
    - unfold nm_has_neighbor. by apply bool_decide_ext.
    - symmetry. apply bool_decide_eq_false. rewrite <-Ha. by intros [? ?].
  Qed.

  (** Registering a label. *)
  Lemma rel_add_node_label g s l :
    rel g s → gN (register l (sp_nls s)) →
    ∃ lid g', gm_add_node_label lt l g = Ok (lid, g') ∧
      PN (register l (sp_nls s)) lid l ∧
      lid = (l ≫= λ x, id_new lt <$> index_of x (register l (sp_nls s))) ∧
      g_nodes g' = g_nodes g ∧ g_max g' = g_max g ∧
      rel g' (SState (sp_g s) (sp_count s) (sp_max s) (register l (sp_nls s)) (sp_els s)).
  Proof.
    intros H Hg. pose proof (r_nls _ _ H) as Hnls. destruct l as [x|].
    - unfold gm_add_node_label. rewrite Hnls.
      destruct (register_snd (sp_nls s) x) as (i & -> & Hidx & Hlk). cbn [rbind].
      do 2 eexists. split; [done|]. split; [by apply PN_new|]. split; [cbn [mbind option_bind]; by rewrite Hidx|].
      split; [done|]. split; [done|].
      destruct H as [Ha Hc Hm Hn He Hdn Hde Hge Hb]. split; simpl; try done.
      + eapply abs_mono; [|done|exact Ha]. intros i' l' Hl'. simpl.
        rewrite Hn in Hl'. by eapply PN_mono; [apply (register_prefix (Some x))|].
      + by apply (register_NoDup (Some x)).
    - exists None, g. split; [done|]. split; [apply PN_None|]. split; [done|]. split; [done|]. split; [done|].
      destruct H as [Ha Hc Hm Hn He Hdn Hde Hge Hb]. by split.
  Qed.
  Lemma rel_add_edge_label g s l :
    rel g s → gE (register l (sp_els s)) →
    ∃ lid g', gm_add_edge_label lt l g = Ok (lid, g') ∧
      PE (register l (sp_els s)) lid l ∧
      lid = (l ≫= λ x, id_new lt <$> index_of x (register l (sp_els s))) ∧
      g_nodes g' = g_nodes g ∧ g_max g' = g_max g ∧
      rel g' (SState (sp_g s) (sp_count s) (sp_max s) (sp_nls s) (register l (sp_els s))).
  Proof.
    intros H Hg. pose proof (r_els _ _ H) as Hels. destruct l as [x|].
    - unfold gm_add_edge_label. rewrite Hels.
      destruct (register_snd (sp_els s) x) as (i & -> & Hidx & Hlk). cbn [rbind].
      do 2 eexists. split; [done|]. split; [by apply PE_new|]. split; [cbn [mbind option_bind]; by rewrite Hidx|].
      split; [done|]. split; [done|].
      destruct H as [Ha Hc Hm Hn He Hdn Hde Hge Hb]. split; simpl; try done.
      + eapply abs_mono; [done| |exact Ha]. intros i' l' Hl'. simpl.
        rewrite He in Hl'. by eapply PE_mono; [apply (register_prefix (Some x))|].
      + by apply (register_NoDup (Some x)).
    - exists None, g. split; [done|]. split; [apply PE_None|]. split; [done|]. split; [done|]. split; [done|].
      destruct H as [Ha Hc Hm Hn He Hdn Hde Hge Hb]. by split.
  Qed.

  Lemma max_new_present (A : agraph NL EL) n o : a_has_node A n → max_new A n o = o.
  Proof. intros [l Hl]. unfold max_new. by rewrite Hl. Qed.
  Lemma max_new_bound (A : agraph NL EL) n o :
    (∀ k, a_has_node A k → ∃ m, o = Some m ∧ (k ≤ m)%N) →
    ∀ k, k = n ∨ a_has_node A k → ∃ m, max_new A n o = Some m ∧ (k ≤ m)%N.
  Proof.
    intros Hb k Hk. unfold max_new. destruct (ag_nodes A !! n) as [l|] eqn:Hn.
    - apply Hb. destruct Hk as [->|?]; [by exists l|done].
    - unfold omax. eexists. split; [done|]. destruct Hk as [->|Hk].
      + destruct o; lia.
      + destruct (Hb k Hk) as (m & -> & ?). lia.
  Qed.

  Lemma rel_add_node g s n l :
    rel g s → gN (register l (sp_nls s)) →
    ∃ g', gm_add_node lt n l g = Ok (bool_decide (ag_nodes (sp_g s) !! n = None), g') ∧
      rel g' (s_add_node n l s).
  Proof.
    intros H Hg. destruct (rel_add_node_label g s l H Hg) as (lid & g1 & Heq & HP & _ & Hgn & Hgm & H1).
    unfold gm_add_node. rewrite Heq. cbn [rbind].
    rewrite (rel_has_node g1 _ n H1). simpl.
    pose proof (r_abs _ _ H1) as Ha. simpl in Ha.
    pose proof (r_bound _ _ H) as Hb.
    assert (∀ k, a_has_node (a_add_node n l (sp_g s)) k →
      ∃ m, max_new (sp_g s) n (sp_max s) = Some m ∧ (k ≤ m)%N) as Hb'.
    { intros k Hk%add_node_has_node. by apply max_new_bound. }
    destruct (ag_nodes (sp_g s) !! n) as [l0|] eqn:Hn.
    - rewrite bool_decide_true by (by eexists).
      destruct (abs_node_Some_r _ _ _ _ _ _ _ Ha Hn) as (nm & Hnm & Hid & HPl).
      unfold upd_node. rewrite Hnm. cbn [unwrap rbind]. eexists. split; [done|].
      destruct H1 as [_ Hc Hm Hnl Hel Hdn Hde Hge _]. split; try done; simpl in *.
      + apply abs_set_label; try done. by rewrite Hnl.
      + unfold max_new. by rewrite Hn.
    - rewrite bool_decide_false by (by intros [? ?]).
      eexists. split; [by rewrite bool_decide_true|].
      assert (g_nodes g1 !! n = None) as Hn1 by (by apply (abs_node_None _ _ _ _ _ n Ha)).
      assert (∀ o, rel (GraphMap (<[n:=nm_new n lid]> (g_nodes g1)) (g_nedges g1) (g_nlm g1) (g_elm g1) o)
        (SState (a_add_node n l (sp_g s)) (sp_count s) (max_new (sp_g s) n (sp_max s))
           (register l (sp_nls s)) (sp_els s)) ↔ o = max_new (sp_g s) n (sp_max s)) as Hrel.
      { intros o. split; [intros Hr; apply Hr|]. intros ->.
        destruct H1 as [_ Hc Hm Hnl Hel Hdn Hde Hge _]. split; try done; simpl in *.
        apply abs_new_node; try done. by rewrite Hnl. }
      unfold set_nodes, set_max. simpl. unfold s_add_node.
      pose proof (r_max _ _ H1) as Hm. simpl in Hm.
      destruct (g_max g1) as [i|] eqn:Hi.
      + case_decide as Hlt; apply Hrel; unfold max_new, omax; rewrite Hn, <-Hm; f_equal; lia.
      + apply Hrel. unfold max_new, omax. by rewrite Hn, <-Hm.
  Qed.

  Lemma rel_touch g s n : rel g s → gN (sp_nls s) →
    ∃ g', (if gm_has_node g n then Ok g else rmap snd (gm_add_node lt n None g)) = Ok g' ∧
      rel g' (SState (a_touch n (sp_g s)) (sp_count s) (max_new (sp_g s) n (sp_max s)) (sp_nls s) (sp_els s)).
  Proof.
    intros H Hg. rewrite (rel_has_node g s n H). case_bool_decide as Hn.
    - exists g. split; [done|]. rewrite touch_present by done. rewrite max_new_present by done.
      destruct H. by split.
    - destruct (rel_add_node g s n None H Hg) as (g' & -> & H'). exists g'. split; [done|].
      unfold a_touch. rewrite <-not_eq_None_Some in Hn.
      destruct (ag_nodes (sp_g s) !! n); [by destruct Hn|]. exact H'.
  Qed.

  Lemma rel_add_edge g s x y l :
    rel g s → gN (sp_nls s) → gE (register l (sp_els s)) →
    ∃ g', gm_add_edge dir lt x y l g = Ok (bool_decide (a_edge_at (sp_g s) x y = None), g') ∧
      rel g' (s_add_edge x y l s).
  Proof.
    intros H HgN HgE. unfold gm_add_edge.
    destruct (rel_touch g s x H HgN) as (g1 & -> & H1). cbn [rbind].
    destruct (rel_touch g1 _ y H1 HgN) as (g2 & -> & H2). cbn [rbind]. simpl in H2.
    destruct (rel_add_edge_label g2 _ l H2 HgE) as (lid & g3 & -> & HP & _ & _ & _ & H3). cbn [rbind].
    simpl in H3, HP.
    set (A2 := a_touch y (a_touch x (sp_g s))) in *.
    pose proof (r_abs _ _ H3) as Ha. simpl in Ha. pose proof (r_els _ _ H3) as Hels. simpl in Hels.
    rewrite <-Hels in HP.
    assert (a_has_node A2 x ∧ a_has_node A2 y) as [Hx Hy].
    { unfold A2. rewrite !touch_has_node. naive_solver. }
    destruct (proj2 (abs_has_node _ _ _ _ _ x Ha) Hx) as [ns Hns].
    destruct (abs_add_edge dir _ _ _ _ x y lid l ns Ha Hns) as (m' & Hm' & Ha');
      [by apply (abs_has_node _ _ _ _ _ y Ha)|done|].
    rewrite Hns. cbn [unwrap rbind].
    assert (a_add_edge x y l A2 = a_add_edge x y l (sp_g s)) as HA2.
    { unfold a_add_edge. rewrite (touch_present x A2) by done. rewrite (touch_present y A2) by done.
      unfold A2. by rewrite !touch_dir, !touch_edges. }
    assert (bool_decide (nm_nbrs ns !! y = None) = bool_decide (a_edge_at (sp_g s) x y = None)) as Hb.
    { apply bool_decide_ext. rewrite (abs_nbr_None _ _ _ _ _ x ns y Ha Hns).
      unfold A2, a_edge_at. by rewrite !touch_dir, !touch_edges. }
    unfold nm_add_edge at 1. rewrite Hb.
    assert (∃ g4, (if dir then upd_node y (nm_add_in_edge x) (set_nodes (<[x:=(nm_add_edge y lid ns).2]> (g_nodes g3)) g3)
      else if decide (x = y) then Ok (set_nodes (<[x:=(nm_add_edge y lid ns).2]> (g_nodes g3)) g3)
      else upd_node y (λ n, (nm_add_edge x lid n).2) (set_nodes (<[x:=(nm_add_edge y lid ns).2]> (g_nodes g3)) g3))
       = Ok g4 ∧ g4 = set_nodes m' g3) as (g4 & Hg4 & ->).
    { unfold add_edge_nodes_map in Hm'. unfold upd_node. destruct dir.
      - simpl in *. destruct (_ !! y); [|done]. cbn [unwrap rbind]. eexists. split; [done|].
        simpl in Hm'. simplify_eq. done.
      - destruct (decide (x = y)); [simplify_eq; by eexists|]. simpl in *.
        destruct (_ !! y); [|done]. cbn [unwrap rbind]. eexists. split; [done|].
        simpl in Hm'. simplify_eq. done. }
    unfold nm_add_edge in Hg4 |- *. cbn [snd] in Hg4 |- *. rewrite Hg4. cbn [rbind]. eexists. split; [done|].
    destruct H3 as [_ Hc Hm Hnl Hel Hdn Hde Hge Hbd]. simpl in *.
    split; try done; simpl.
    - by rewrite <-HA2.
    - by rewrite Hc.
    - transitivity (S (a_num_edges (sp_g s))).
      + unfold a_num_edges. rewrite add_edge_edges. rewrite map_size_insert. destruct (ag_edges (sp_g s) !! _); simpl; unfold Datatypes.id; lia.
      + unfold a_num_edges, A2 in *. rewrite !touch_edges in Hge. lia.
  Qed.

  Lemma rel_remove_node_none g s n :
    rel g s → ag_nodes (sp_g s) !! n = None → gm_remove_node dir n g = Ok (None, g).
  Proof.
    intros H Hn. unfold gm_remove_node.
    apply (abs_node_None _ _ _ _ _ n (r_abs _ _ H)) in Hn. by rewrite Hn.
  Qed.
  Lemma rel_remove_node_panic g s n :
    rel g s → a_has_edge (sp_g s) n n → gm_remove_node dir n g = Panic.
  Proof.
    intros H He. unfold gm_remove_node. pose proof (r_abs _ _ H) as Ha.
    pose proof (proj2 (abs_adj _ _ _ _ _ n n Ha) He) as Hadj.
    unfold adj in Hadj. destruct (g_nodes g !! n) as [node|] eqn:Hn; [|by destruct Hadj].
    assert (n ∈ nm_neighbors node) as Hin by (unfold nm_neighbors; by apply elem_of_bt_keys).
    destruct dir.
    - rewrite (rfold_upd_panic _ (nm_neighbors node) _ n); [done|done|]. simpl. apply lookup_delete.
    - rewrite (rfold_upd_panic _ (nm_neighbors node) _ n); [done|done|]. simpl. apply lookup_delete.
  Qed.
  Lemma rel_remove_node_ok g s n l :
    rel g s → ag_nodes (sp_g s) !! n = Some l → ¬ a_has_edge (sp_g s) n n →
    ∃ node g', gm_remove_node dir n g = Ok (Some node, g') ∧
      g_nodes g !! n = Some node ∧
      nm_id node = n ∧ PN (g_nlm g) (nm_label node) l ∧ g_nlm g' = g_nlm g ∧
      g_elm g' = g_elm g ∧ g_nodes g' = remove_node_map dir n node (g_nodes g) ∧
      rel g' (SState (a_remove_node n (sp_g s)) (sp_count s - size (a_incident n (sp_g s)))
                (sp_max s) (sp_nls s) (sp_els s)).
  Proof.
    intros H Hl Hloop. unfold gm_remove_node. pose proof (r_abs _ _ H) as Ha.
    destruct (abs_node_Some_r _ _ _ _ _ n l Ha Hl) as (node & Hnode & Hid & HP).
    rewrite Hnode.
    assert (n ∉ nm_neighbors node) as Hnn.
    { unfold nm_neighbors. rewrite elem_of_bt_keys. by rewrite (abs_nbr _ _ _ _ _ n node n Ha). }
    assert (∀ k, k ∈ nm_neighbors node → is_Some (delete n (g_nodes g) !! k)) as Hnb.
    { intros k Hk. assert (k ≠ n) by (by intros ->). rewrite lookup_delete_ne by done.
      unfold nm_neighbors in Hk. rewrite elem_of_bt_keys in Hk.
      apply (abs_nbr _ _ _ _ _ n node k Ha Hnode) in Hk.
      apply wf_edge_nodes in Hk as [_ Hk]; [|apply Ha]. by apply (abs_has_node _ _ _ _ _ k Ha). }
    set (g0 := set_nodes (delete n (g_nodes g)) g).
    assert ((if dir then
            let* g := rfold (λ g nb, upd_node nb (nm_remove_in_edge n) g) (nm_neighbors node) g0 in
            rfold (λ g nb, upd_node nb (λ x, (nm_remove_edge n x).2) g) (nm_in_neighbors node) g
          else
            rfold (λ g nb, upd_node nb (λ x, (nm_remove_edge n x).2) g) (nm_neighbors node) g0)
      = Ok (set_nodes (remove_node_map dir n node (g_nodes g)) g)) as ->.
    { unfold remove_node_map. destruct dir eqn:Hd.
      - rewrite rfold_upd_ok; [|apply bt_keys_NoDup|done]. cbn [rbind].
        rewrite rfold_upd_ok; [done|apply bs_iter_NoDup|].
        intros k Hk. simpl. rewrite lookup_upd_all.
        unfold nm_in_neighbors in Hk. rewrite elem_of_bs_iter in Hk.
        pose proof (ar_in _ _ _ _ _ Ha n node Hnode) as Hin. apply Hin in Hk.
        assert (k ≠ n) by (by intros ->). rewrite lookup_delete_ne by done.
        apply wf_edge_nodes in Hk as [Hk _]; [|apply Ha].
        apply (abs_has_node _ _ _ _ _ k Ha) in Hk. destruct Hk as [? ->]. by eexists.
      - rewrite rfold_upd_ok; [done|apply bt_keys_NoDup|done]. }
    cbn [rbind]. pose proof (abs_incident _ _ _ _ _ n node Ha Hnode Hloop) as Hinc.
    pose proof (remove_node_num_edges n (sp_g s)) as Hnum.
    pose proof (abs_remove_node _ _ _ _ _ n node Ha Hnode) as Ha'.
    destruct H as [_ Hc Hm Hnl Hel Hdn Hde Hge Hbd].
    simpl. rewrite usub_ok by lia. cbn [rbind]. do 2 eexists. split; [done|].
    do 6 (split; [done|]). split; try done; simpl.
    - by rewrite Hc, Hinc.
    - lia.
    - intros k Hk. apply remove_node_has_node in Hk as [_ Hk]. by apply Hbd.
  Qed.

  Lemma rel_remove_edge_none g s x y :
    rel g s → a_edge_at (sp_g s) x y = None → gm_remove_edge dir x y g = Ok (None, g).
  Proof.
    intros H Hn. unfold gm_remove_edge. rewrite (rel_has_edge g s x y H), Hn.
    rewrite bool_decide_false; [done|by intros [? ?]].
  Qed.
  Lemma rel_remove_edge_ok g s x y l :
    rel g s → a_edge_at (sp_g s) x y = Some l →
    ∃ lid g', gm_remove_edge dir x y g = Ok (Some (x, y, lid), g') ∧
      PE (g_elm g) lid l ∧ g_elm g' = g_elm g ∧
      rel g' (SState (a_remove_edge x y (sp_g s)) (sp_count s - 1) (sp_max s) (sp_nls s) (sp_els s)).
  Proof.
    intros H Hl. unfold gm_remove_edge. rewrite (rel_has_edge g s x y H), Hl.
    rewrite bool_decide_true by (by eexists). pose proof (r_abs _ _ H) as Ha.
    pose proof (ar_edge _ _ _ _ _ Ha x y) as Hf. unfold adj in Hf. rewrite Hl in Hf.
    destruct (g_nodes g !! x) as [ns|] eqn:Hx; [|inversion Hf].
    inversion Hf as [lid l' HP Hnb|]; subst. symmetry in Hnb.
    destruct (abs_node_Some _ _ _ _ _ x ns Ha Hx) as (l0 & _ & Hid & _).
    cbn [unwrap rbind]. unfold nm_remove_edge at 1. rewrite Hnb.
    assert (NodeMap (nm_id ns) (nm_label ns) (delete y (nm_nbrs ns)) (nm_in ns) = (nm_remove_edge y ns).2) as ->.
    { unfold nm_remove_edge. by rewrite Hnb. }
    assert (a_has_edge (sp_g s) x y) as He by (by eexists).
    assert (∃ nt1, <[x:=(nm_remove_edge y ns).2]> (g_nodes g) !! y = Some nt1) as [nt1 Hnt1].
    { destruct (decide (y = x)) as [->|Hne]; [rewrite lookup_insert; by eexists|].
      rewrite lookup_insert_ne by done.
      apply wf_edge_nodes in He as [_ He]; [|apply Ha].
      by apply (abs_has_node _ _ _ _ _ y Ha) in He. }
    pose proof (abs_remove_edge _ _ _ _ _ x y ns nt1 Ha Hx (ex_intro _ _ Hnb) Hnt1) as Ha'.
    assert ((if dir then upd_node y (nm_remove_in_edge x) (set_nodes (<[x:=(nm_remove_edge y ns).2]> (g_nodes g)) g)
       else upd_node y (λ n, (nm_remove_edge x n).2) (set_nodes (<[x:=(nm_remove_edge y ns).2]> (g_nodes g)) g)) =
      Ok (set_nodes (<[y:=if dir then nm_remove_in_edge x nt1 else (nm_remove_edge x nt1).2]>
          (<[x:=(nm_remove_edge y ns).2]> (g_nodes g))) g)) as ->.
    { unfold upd_node. simpl. rewrite Hnt1. by destruct dir. }
    assert (a_num_edges (a_remove_edge x y (sp_g s)) = a_num_edges (sp_g s) - 1 ∧ 1 ≤ a_num_edges (sp_g s)) as [Hsz Hsz1].
    { unfold a_num_edges, a_remove_edge. simpl. unfold a_edge_at in Hl. rewrite map_size_delete, Hl. simpl.
      split; [lia|]. destruct (size (ag_edges (sp_g s))) eqn:Hz; [|lia].
      apply map_size_empty_inv in Hz. rewrite Hz in Hl. by rewrite lookup_empty in Hl. }
    cbn [rbind]. destruct H as [_ Hc Hm Hnl Hel Hdn Hde Hge Hbd]. simpl. rewrite usub_ok by lia. cbn [rbind].
    do 2 eexists. split; [by rewrite Hid|]. do 2 (split; [done|]). split; try done; simpl; lia.
  Qed.
End refine.
