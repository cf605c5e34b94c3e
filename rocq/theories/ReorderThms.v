(** reorder_id: the maps it computes and its result. *)
From Verif Require Import Base Api Spec BaseFacts SpecFacts Map MapFacts GraphMap GraphMapFacts
  GraphMapRefine GraphMapQueries GraphMapSim GraphMapThms GraphMapProps ViewOps ViewOpsProps SpecReorder Reorder ReorderFacts ReorderProps.

(** ** Label orders *)
Section order.
  Implicit Types (items o : list N).
  Lemma count_pos items x : 0 < count_of items x ↔ x ∈ items.
  Proof.
    unfold count_of. rewrite <-(Nat.neq_0_lt_0). split.
    - intros Hl. destruct (filter (λ y, y = x) items) as [|y l] eqn:Hf; [done|].
      assert (y ∈ filter (λ y, y = x) items) as Hy by (rewrite Hf; left).
      apply elem_of_list_filter in Hy as [-> ?]. done.
    - intros Hx Hl. apply nil_length_inv in Hl. assert (x ∈ filter (λ y, y = x) items) as Hy by (by apply elem_of_list_filter).
      rewrite Hl in Hy. by apply elem_of_nil in Hy.
  Qed.
  Lemma label_order_eq items o : counter_order items o → label_order items o = (reverse (most_common items o)).*1.
  Proof.
    intros [_ Ho]. unfold label_order.
    assert (∀ p, p ∈ reverse (most_common items o) → p.2 ≠ 0) as Hp.
    { intros p Hp. rewrite elem_of_reverse in Hp. unfold most_common in Hp. rewrite sort_by_perm in Hp.
      apply elem_of_list_fmap in Hp as (x & -> & Hx%Ho%count_pos). cbn. lia. }
    destruct (reverse (most_common items o)) as [|p l]; [done|]. cbn [skip_while].
    destruct (Nat.eqb_spec p.2 0); [|done]. exfalso. eapply Hp; [left|done].
  Qed.
  Lemma label_order_perm items o : counter_order items o → label_order items o ≡ₚ o.
  Proof.
    intros Ho. rewrite label_order_eq by done. rewrite fmap_reverse, reverse_Permutation. unfold most_common. rewrite sort_by_perm.
    rewrite <-list_fmap_compose. cbn. by rewrite list_fmap_id.
  Qed.
  Lemma label_order_sorted items o i j x y : counter_order items o →
    label_order items o !! i = Some x → label_order items o !! j = Some y → i < j →
    count_of items x ≤ count_of items y.
  Proof.
    intros Ho. rewrite label_order_eq by done. rewrite fmap_reverse. intros Hi Hj Hij.
    assert (StronglySorted (λ a b : N * nat, (b.2 <=? a.2) = true) (most_common items o)) as Hs.
    { apply sort_by_sorted.
      - intros a b Hab%Nat.leb_gt. apply Nat.leb_le. lia.
      - intros a b c Hab%Nat.leb_le Hbc%Nat.leb_le. apply Nat.leb_le. lia. }
    assert (∀ p, p ∈ most_common items o → p.2 = count_of items p.1) as Hc.
    { intros p Hp. unfold most_common in Hp. rewrite sort_by_perm in Hp. by apply elem_of_list_fmap in Hp as (z & -> & _). }
    revert Hi Hj. generalize dependent (most_common items o). clear Ho. intros l Hs Hc Hi Hj.
    pose proof (lookup_lt_Some _ _ _ Hj) as Hlen. rewrite reverse_length in Hlen.
    rewrite reverse_lookup in Hi, Hj by lia. rewrite fmap_length in *.
    apply list_lookup_fmap_inv in Hi as ([x' cx] & -> & Hi), Hj as ([y' cy] & -> & Hj). cbn [fst].
    assert (∀ (l : list (N * nat)) a b p q, StronglySorted (λ a b : N * nat, (b.2 <=? a.2) = true) l → l !! a = Some p → l !! b = Some q → a < b → q.2 ≤ p.2) as Hss.
    { clear. intros l a b p q Hs. revert a b. induction Hs as [|z l Hs IH Hz]; intros a b Ha Hb Hab; [done|].
      destruct b as [|b]; [lia|]. cbn in Hb. destruct a as [|a]; cbn in Ha; [|apply (IH a b); try done; lia].
      injection Ha as <-. rewrite Forall_forall in Hz. apply Nat.leb_le. apply Hz. by eapply elem_of_list_lookup_2. }
    change (count_of items (x', cx).1 ≤ count_of items (y', cy).1).
    rewrite <-(Hc _ (elem_of_list_lookup_2 _ _ _ Hi)), <-(Hc _ (elem_of_list_lookup_2 _ _ _ Hj)).
    eapply Hss; [exact Hs|exact Hj|exact Hi|lia].
  Qed.
End order.

(** ** Counting labels through their ids *)
Section counts.
  Context {X : Type} `{EqDecision X}.
  Lemma count_through (ls : list X) l1 l2 i x : NoDup ls → ls !! N.to_nat i = Some x →
    Forall2 (lab_rel ls) l1 l2 → count_of (omap id l1) i = counter_get x (omap id l2).
  Proof.
    intros Hnd Hi. unfold count_of, counter_get. induction 1 as [|[j|] [y|] l1 l2 Hl _ IH]; try done.
    csimpl. rewrite !filter_cons. cbn in Hl.
    destruct (decide (j = i)) as [->|Hne], (decide (y = x)) as [->|Hne']; cbn [length].
    - by rewrite IH.
    - congruence.
    - pose proof (NoDup_lookup _ _ _ _ Hnd Hi Hl). lia.
    - done.
  Qed.
  Lemma ids_bounded (ls : list X) l1 l2 : Forall2 (lab_rel ls) l1 l2 →
    ∀ i, i ∈ omap id l1 → ∃ x, ls !! N.to_nat i = Some x.
  Proof.
    intros H i (o & Ho & Hi)%elem_of_list_omap. cbn in Hi. subst o.
    apply elem_of_list_lookup in Ho as [k Hk]. apply (Forall2_lookup_l _ _ _ _ _ H) in Hk as (l & _ & Hl).
    destruct l as [x|]; [|done]. by exists x.
  Qed.
End counts.

Section node_order.
  Context {NL EL : Type} (dir : bool) (idt : idty).
  Context (PN : list NL → option N → option NL → Prop) (PE : list EL → option N → option EL → Prop).
  Context (g : graphmap NL EL) (s : sstate NL EL) (Hrel : rel dir PN PE g s) (it : list N) (Hit : hash_order g it).
  Notation A := (sp_g s).

  (** *** The node order *)
  Lemma node_order_perm : node_order g it ≡ₚ it.
  Proof.
    unfold node_order. rewrite sort_by_perm. rewrite <-list_fmap_compose. cbn.
    assert (∀ k, k ∈ it → is_Some (g_nodes g !! k)) as Hk by (intros k; by apply hash_order_elem).
    unfold gm_values. clear Hit. induction it as [|k it' IH]; [done|]. destruct (Hk k ltac:(left)) as [n Hn].
    csimpl. rewrite Hn. csimpl. destruct (with_node dir _ _ g s Hrel k n Hn) as [-> _]. f_equiv. apply IH.
    intros; apply Hk; by right.
  Qed.
  Lemma has_node_it x : x ∈ it ↔ a_has_node A x.
  Proof.
    rewrite (hash_order_elem g it x Hit). eapply abs_has_node. apply (r_abs _ _ _ _ _ Hrel).
  Qed.
  Lemma node_order_elem x : x ∈ node_order g it ↔ a_has_node A x.
  Proof. rewrite node_order_perm. apply has_node_it. Qed.
  Lemma node_order_length : length (node_order g it) = size (ag_nodes A).
  Proof.
    rewrite node_order_perm. apply lists_exactly_length. split; [by eapply hash_order_NoDup|]. apply has_node_it.
  Qed.
  Lemma node_order_NoDup : NoDup (node_order g it).
  Proof. rewrite node_order_perm. by eapply hash_order_NoDup. Qed.
  Lemma node_order_covers : (∀ x, a_has_node A x → (x < id_card idt)%N) →
    covers idt (Some (node_order g it)) (a_has_node A).
  Proof.
    intros Hid. split; [intros x; apply node_order_elem|].
    destruct (decide (N.of_nat (length (node_order g it)) ≤ id_card idt)%N) as [|Hgt]; [done|exfalso].
    assert (N.to_nat (id_card idt) < length (node_order g it)) as Hlt by lia.
    assert (length (N.to_nat <$> node_order g it) ≤ N.to_nat (id_card idt)) as Hle.
    { rewrite <-(seq_length (N.to_nat (id_card idt)) 0). apply submseteq_length, NoDup_submseteq.
      - apply NoDup_fmap_2; [intros a b; lia|apply node_order_NoDup].
      - intros k (i & -> & Hi%node_order_elem%Hid)%elem_of_list_fmap. apply elem_of_seq. lia. }
    rewrite fmap_length in Hle. lia.
  Qed.

  Lemma degree_spec k n : g_nodes g !! k = Some n → nm_degree n + nm_in_degree n = a_total_degree A k.
  Proof.
    intros Hn. pose proof (r_abs _ _ _ _ _ Hrel) as Ha. unfold a_total_degree. f_equal.
    - unfold nm_degree, a_out_degree. rewrite <-(bt_keys_length (nm_nbrs n)). apply Permutation_length.
      apply NoDup_Permutation; [apply bt_keys_NoDup|apply NoDup_filter, NoDup_fst_map_to_list|].
      intros t. rewrite elem_of_bt_keys, elem_of_list_filter. rewrite (abs_nbr _ _ _ _ _ _ _ t Ha Hn).
      split; [|by intros [? _]]. intros He. split; [done|].
      destruct (wf_edge_nodes _ _ _ (ar_wf _ _ _ _ _ Ha) He) as [_ [l Hl]].
      apply elem_of_list_fmap. exists (t, l). by rewrite elem_of_map_to_list.
    - unfold nm_in_degree, a_in_degree. rewrite (ar_dir _ _ _ _ _ Ha).
      pose proof (ar_in _ _ _ _ _ Ha k n Hn) as Hin. destruct dir.
      + rewrite <-(bs_iter_length (nm_in n)). apply Permutation_length.
        apply NoDup_Permutation; [apply bs_iter_NoDup|apply NoDup_filter, NoDup_fst_map_to_list|].
        intros t. rewrite elem_of_bs_iter, elem_of_list_filter, Hin. split; [|by intros [? _]].
        intros He. split; [done|].
        destruct (wf_edge_nodes _ _ _ (ar_wf _ _ _ _ _ Ha) He) as [[l Hl] _].
        apply elem_of_list_fmap. exists (t, l). by rewrite elem_of_map_to_list.
      + rewrite Hin. apply size_empty.
  Qed.
  Lemma node_order_sorted i j x y :
    node_order g it !! i = Some x → node_order g it !! j = Some y → i < j → a_total_degree A x ≤ a_total_degree A y.
  Proof.
    unfold node_order.
    assert (StronglySorted (λ a b : N * nat, (a.2 <=? b.2) = true) (sort_by (λ a b : N * nat, a.2 <=? b.2)
      ((λ n, (nm_id n, nm_degree n + nm_in_degree n)) <$> gm_values g it))) as Hs.
    { apply sort_by_sorted.
      - intros a b Hab%Nat.leb_gt. apply Nat.leb_le. lia.
      - intros a b c Hab%Nat.leb_le Hbc%Nat.leb_le. apply Nat.leb_le. lia. }
    assert (∀ p, p ∈ sort_by (λ a b : N * nat, a.2 <=? b.2) ((λ n, (nm_id n, nm_degree n + nm_in_degree n)) <$> gm_values g it) →
      p.2 = a_total_degree A p.1) as Hd.
    { intros p Hp. rewrite sort_by_perm in Hp. apply elem_of_list_fmap in Hp as (n & -> & (k & Hn)%(with_values g it Hit)).
      cbn [fst snd]. destruct (with_node dir _ _ g s Hrel k n Hn) as [-> _]. by apply degree_spec. }
    intros ([x' dx] & -> & Hi)%list_lookup_fmap_inv ([y' dy] & -> & Hj)%list_lookup_fmap_inv Hij. cbn [fst].
    change (a_total_degree A (x', dx).1 ≤ a_total_degree A (y', dy).1).
    rewrite <-(Hd _ (elem_of_list_lookup_2 _ _ _ Hi)), <-(Hd _ (elem_of_list_lookup_2 _ _ _ Hj)).
    cbn [fst snd] in *. clear Hd.
    revert i j Hi Hj Hij. induction Hs as [|z l Hs IH Hz]; intros i j Hi Hj Hij; [done|].
    destruct j as [|j]; [lia|]. cbn in Hj. destruct i as [|i]; cbn in Hi; [|apply (IH i j); try done; lia].
    injection Hi as ->. rewrite Forall_forall in Hz. apply elem_of_list_lookup_2 in Hj. apply Hz in Hj.
    by apply Nat.leb_le in Hj.
  Qed.

  Lemma node_order_onto : covers idt (Some (node_order g it)) (a_has_node A) →
    let f := vf idt (Some (node_order g it)) in
    onto_prefix f A ∧ ∀ x y, a_has_node A x → a_has_node A y → a_total_degree A x < a_total_degree A y → (f x < f y)%N.
  Proof.
    intros Hc f. split; [split|].
    - intros x Hx. destruct (vf_index idt _ _ x Hc Hx) as (i & _ & _ & Hv & Hi). subst f. cbn beta. rewrite Hv.
      rewrite node_order_length in Hi. lia.
    - intros y Hy. destruct (lookup_lt_is_Some_2 (node_order g it) (N.to_nat y)) as [x Hx]; [rewrite node_order_length; lia|].
      exists x. assert (a_has_node A x) as HxA by (apply node_order_elem; by eapply elem_of_list_lookup_2).
      split; [done|]. destruct (vf_index idt _ _ x Hc HxA) as (i & _ & Hi & Hv & _). subst f. cbn beta. rewrite Hv.
      pose proof (NoDup_lookup _ _ _ _ node_order_NoDup Hx Hi). lia.
    - intros x y Hx Hy Hd. destruct (vf_index idt _ _ x Hc Hx) as (i & _ & Hi & Hvi & _).
      destruct (vf_index idt _ _ y Hc Hy) as (j & _ & Hj & Hvj & _). subst f. cbn beta. rewrite Hvi, Hvj.
      destruct (decide (i < j)) as [|Hge]; [lia|exfalso].
      destruct (decide (i = j)) as [->|]; [rewrite Hi in Hj; injection Hj as ->; lia|].
      pose proof (node_order_sorted j i y x Hj Hi ltac:(lia)). lia.
  Qed.
End node_order.

Section reorder.
  Context {NL EL : Type} `{EqDecision NL, EqDecision EL} (dir : bool) (idt lt : idty).
  Notation lrel := (rel dir (@lab_rel NL) (@lab_rel EL)).
  Context (g : graphmap NL EL) (s : sstate NL EL) (Hrel : lrel g s) (it : list N) (Hit : hash_order g it).
  Notation A := (sp_g s).

  Lemma node_lids : Forall2 (lab_rel (g_nlm g)) (gm_node_list g it).*2 ((λ k, label_of (ag_nodes A !! k)) <$> it).
  Proof.
    assert (∀ k, k ∈ it → is_Some (g_nodes g !! k)) as Hk by (intros k; by apply hash_order_elem).
    unfold gm_node_list. rewrite values_fmap. clear Hit. induction it as [|k it' IH]; [constructor|].
    destruct (Hk k ltac:(left)) as [n Hn]. cbn [omap list_omap]. rewrite Hn. csimpl. constructor.
    - pose proof (ar_node _ _ _ _ _ (r_abs _ _ _ _ _ Hrel) k) as H1. rewrite Hn in H1.
      inversion H1 as [? l [Hl0 Hl] Hx0 Hx|]. cbn. by destruct l.
    - apply IH. intros; apply Hk; by right.
  Qed.
  Lemma edge_list_fst : (gm_edge_list dir g it).*1 = gm_edge_indices dir g it.
  Proof.
    unfold gm_edge_list, gm_edge_indices. clear. induction (gm_values g it) as [|n l IH]; [done|].
    rewrite !bind_cons, fmap_app, IH. f_equal. 
    destruct dir; [unfold nm_neighbors_full, nm_neighbors, bt_keys|unfold nm_non_less_neighbors_full, nm_non_less_neighbors];
      by rewrite <-!list_fmap_compose.
  Qed.
  Lemma edge_list_adj x y l : (x, y, l) ∈ gm_edge_list dir g it → adj (g_nodes g) x y = Some l.
  Proof.
    unfold gm_edge_list. intros (n & Hin & (k & Hn)%(with_values g it Hit))%elem_of_list_bind.
    destruct (with_node dir _ _ g s Hrel k n Hn) as [Hid _].
    assert (nm_id n = x ∧ nm_nbrs n !! y = Some l) as [<- Hy].
    { destruct dir.
      - unfold nm_neighbors_full in Hin. apply elem_of_list_fmap in Hin as ([t l'] & [= -> -> ->] & Hin%elem_of_bt_iter). done.
      - unfold nm_non_less_neighbors_full in Hin. apply elem_of_list_fmap in Hin as ([t l'] & [= -> -> ->] & Hin%elem_of_bt_range).
        split; [done|]. apply Hin. }
    unfold adj. rewrite Hid, Hn. done.
  Qed.
  Lemma edge_lids : Forall2 (lab_rel (g_elm g)) (gm_edge_list dir g it).*2
    ((λ e, label_of (ag_edges A !! e)) <$> gm_edge_indices dir g it).
  Proof.
    rewrite <-edge_list_fst. rewrite <-list_fmap_compose. apply Forall2_fmap. apply Forall_Forall2_diag.
    apply Forall_forall. intros [[x y] l] Hin. cbn [compose fst snd].
    pose proof (edge_list_adj x y l Hin) as Hadj.
    assert ((x, y) ∈ gm_edge_indices dir g it) as Hi.
    { rewrite <-edge_list_fst. apply elem_of_list_fmap. by exists (x, y, l). }
    apply (edge_indices_exact _ _ _ _ _ _ (r_abs _ _ _ _ _ Hrel) Hit) in Hi.
    pose proof (ar_edge _ _ _ _ _ (r_abs _ _ _ _ _ Hrel) x y) as H1. rewrite Hadj in H1.
    rewrite (wf_edge_key _ _ _ (with_wf dir _ _ g s Hrel) Hi) in H1.
    inversion H1 as [? l1 Hl Hx0 Hx|]. cbn. by destruct l1.
  Qed.

  Lemma node_lid_counted i : node_lid g i → i ∈ node_label_ids g it.
  Proof.
    intros (k & n & Hn & Hi). unfold node_label_ids, gm_node_list. apply elem_of_list_omap.
    exists (nm_id n, nm_label n). split; [|done]. apply elem_of_list_fmap. exists n. split; [done|].
    apply (with_values g it Hit). by exists k.
  Qed.
  Lemma edge_lid_counted i : edge_lid g i → i ∈ edge_label_ids dir g it.
  Proof.
    intros (x & y & Hadj).
    pose proof (r_abs _ _ _ _ _ Hrel) as Ha.
    assert (∀ x y, adj (g_nodes g) x y = Some (Some i) → (dir = true ∨ (x ≤ y)%N) → i ∈ edge_label_ids dir g it) as Hlow.
    { clear x y Hadj. intros x y Hadj Ho. 
      assert ((x, y) ∈ gm_edge_indices dir g it) as Hin.
      { apply (edge_indices_exact _ _ _ _ _ _ Ha Hit). apply wf_stored; [apply Ha|]. cbn [fst snd].
        rewrite (ar_dir _ _ _ _ _ Ha). split; [|done]. apply (abs_adj _ _ _ _ _ x y Ha). by eexists. }
      rewrite <-edge_list_fst in Hin. apply elem_of_list_fmap in Hin as ([[x' y'] l] & [= <- <-] & Hin).
      pose proof (edge_list_adj x y l Hin) as Hadj'. unfold edge_label_ids. apply elem_of_list_omap.
      exists (x, y, l). split; [done|]. cbn. congruence. }
    destruct (decide (dir = true ∨ (x ≤ y)%N)) as [Ho|Ho]; [by apply (Hlow x y)|].
    assert (dir = false) as Hd by (destruct dir; naive_solver).
    apply (Hlow y x); [|right; destruct (N.le_gt_cases x y); [naive_solver|lia]].
    pose proof (ar_edge _ _ _ _ _ Ha x y) as H1. pose proof (ar_edge _ _ _ _ _ Ha y x) as H2.
    rewrite (edge_at_sym A y x) in H2 by (rewrite (ar_dir _ _ _ _ _ Ha); done).
    rewrite Hadj in H1. inversion H1 as [? l1 Hl1 Hx0 Hx1|]. rewrite <-Hx1 in H2.
    inversion H2 as [l2 ? Hl2 Hx2 Hx3|]. f_equal.
    destruct l1 as [l1|]; [|done]. destruct l2 as [j|]; [|done]. cbn in Hl1, Hl2. f_equal.
    assert (NoDup (g_elm g)) as Hnd by (rewrite (r_els _ _ _ _ _ Hrel); apply Hrel).
    pose proof (NoDup_lookup _ _ _ _ Hnd Hl1 Hl2). lia.
  Qed.

  Lemma lmap_from {X} `{EqDecision X} (ls : list X) items o l2 (P : N → Prop) :
    labels_fit lt ls → counter_order items o → (∀ i, P i → i ∈ items) → ∀ l1, items = omap id l1 →
    Forall2 (lab_rel ls) l1 l2 →
    sm_from_iter (label_order items o) = Ok (label_order items o) ∧
    lmap_ok lt ls (Some (label_order items o)) P.
  Proof.
    intros Hfit Ho HP l1 Hitems HF. pose proof (label_order_perm items o Ho) as Hp.
    assert (NoDup (label_order items o)) as Hnd by (rewrite Hp; apply Ho).
    assert (∀ i, i ∈ label_order items o → N.to_nat i < length ls) as Hb.
    { intros i Hi. rewrite Hp in Hi. apply Ho in Hi. rewrite Hitems in Hi.
      destruct (ids_bounded ls l1 l2 HF i Hi) as [x Hx]. by eapply lookup_lt_Some. }
    split; [rewrite from_iter_from_vec; by rewrite from_vec_id|].
    split; [|done]. split.
    - intros i Hi. rewrite Hp. apply Ho. by apply HP.
    - unfold labels_fit in Hfit.
      assert (length (label_order items o) ≤ length ls); [|lia].
      rewrite <-(fmap_length N.to_nat). rewrite <-(seq_length (length ls) 0).
      apply submseteq_length, NoDup_submseteq.
      + apply NoDup_fmap_2; [|done]. intros a b. lia.
      + intros k (i & -> & Hi)%elem_of_list_fmap. apply elem_of_seq. apply Hb in Hi. lia.
  Qed.

  (** *** The result *)
  Lemma reorder_ok no eo fn fnl fel :
    (∀ x, a_has_node A x → (x < id_card idt)%N) →
    labels_fit lt (g_nlm g) → labels_fit lt (g_elm g) →
    counter_order (node_label_ids g it) no → counter_order (edge_label_ids dir g it) eo →
    let im := if fn : bool then Some (node_order g it) else None in
    let nlm := if fnl : bool then Some (label_order (node_label_ids g it) no) else None in
    let elm := if fel : bool then Some (label_order (edge_label_ids dir g it) eo) else None in
    let f := vf idt im in
    covers idt im (a_has_node A) ∧
    ∃ g' mx, gm_reorder_id dir idt lt it no eo fn fnl fel g = Ok (ReorderResult im (Some g')) ∧
      renames f A (a_rename f A) ∧
      lrel g' (SState (a_rename f A) (sp_count s) mx (new_labels nlm (sp_nls s)) (new_labels elm (sp_els s))).
  Proof.
    intros Hid Hfn Hfe Hno Heo. intros im nlm elm f.
    assert (omap snd (gm_node_list g it) = omap id (gm_node_list g it).*2) as Hn2.
    { induction (gm_node_list g it) as [|[a [b|]] l IH]; csimpl; [done|by rewrite IH..]. }
    assert (omap snd (gm_edge_list dir g it) = omap id (gm_edge_list dir g it).*2) as He2.
    { induction (gm_edge_list dir g it) as [|[a [b|]] l IH]; csimpl; [done|by rewrite IH..]. }
    destruct (lmap_from (g_nlm g) (node_label_ids g it) no _ (node_lid g) Hfn Hno node_lid_counted _ Hn2 node_lids) as [Hn1 Hn3].
    destruct (lmap_from (g_elm g) (edge_label_ids dir g it) eo _ (edge_lid g) Hfe Heo edge_lid_counted _ He2 edge_lids) as [He1 He3].
    assert (covers idt im (a_has_node A)) as Hc by (subst im; destruct fn; [by eapply node_order_covers|done]).
    split; [done|].
    assert (lmap_ok lt (g_nlm g) nlm (node_lid g)) as HN3 by (by subst nlm; destruct fnl).
    assert (lmap_ok lt (g_elm g) elm (edge_lid g)) as HE3 by (by subst elm; destruct fel).
    destruct (reorder_with_ok dir idt lt _ _ g s Hrel it Hit im nlm elm) as (g' & mx & Hg' & _ & HR & Hr).
    - done.
    - apply HN3.
    - apply HE3.
    - intros i l Hi. by apply (new_labels_rel lt (g_nlm g) nlm (node_lid g)).
    - intros i l Hi. by apply (new_labels_rel lt (g_elm g) elm (edge_lid g)).
    - eapply new_labels_ok; [exact HN3|]. rewrite (r_nls _ _ _ _ _ Hrel). apply Hrel.
    - eapply new_labels_ok; [exact HE3|]. rewrite (r_els _ _ _ _ _ Hrel). apply Hrel.
    - exists g', mx. split; [|done]. unfold gm_reorder_id.
      assert ((if fn then rmap Some (sm_from_iter (node_order g it)) else Ok None) = Ok im) as ->.
      { subst im. destruct fn; [|done]. rewrite from_iter_from_vec. by rewrite from_vec_id by (by eapply node_order_NoDup). }
      cbn [rbind]. rewrite Hn1, He1.
      replace (if fnl then rmap Some (Ok (label_order (node_label_ids g it) no)) else Ok None) with (Ok nlm) by (by subst nlm; destruct fnl).
      replace (if fel then rmap Some (Ok (label_order (edge_label_ids dir g it) eo)) else Ok None) with (Ok elm) by (by subst elm; destruct fel).
      cbn [rbind]. rewrite Hg'. done.
  Qed.

  Lemma frequency {X} `{EqDecision X} (ls : list X) items o l1 l2 (cnt : X → nat) :
    NoDup ls → counter_order items o → items = omap id l1 → Forall2 (lab_rel ls) l1 l2 →
    (∀ x, counter_get x (omap id l2) = cnt x) →
    by_frequency cnt (new_labels (Some (label_order items o)) ls).
  Proof.
    intros Hls Ho Hitems HF Hcnt. pose proof (label_order_perm items o Ho) as Hp.
    assert (NoDup (label_order items o)) as Hnd by (rewrite Hp; apply Ho).
    assert (∀ i, i ∈ label_order items o ↔ i ∈ items) as Hel.
    { intros i. rewrite Hp. apply Ho. }
    assert (∀ i x, ls !! N.to_nat i = Some x → count_of items i = cnt x) as Hc.
    { intros i x Hi. rewrite Hitems, <-Hcnt. by eapply count_through. }
    cbn [new_labels]. split; [by apply label_map_NoDup|]. split.
    - intros x. rewrite elem_of_list_omap. split.
      + intros (i & Hi & Hx). rewrite <-(Hc i x Hx). apply count_pos. by apply Hel.
      + rewrite <-Hcnt. unfold counter_get. intros Hpos.
        destruct (filter (λ y, y = x) (omap id l2)) as [|y l] eqn:Hf; [cbn in Hpos; lia|].
        assert (y ∈ filter (λ y, y = x) (omap id l2)) as Hy by (rewrite Hf; left).
        apply elem_of_list_filter in Hy as [-> Hy]. apply elem_of_list_omap in Hy as (o2 & Ho2 & Hid). cbn in Hid. subst o2.
        apply elem_of_list_lookup in Ho2 as [k Hk]. apply (Forall2_lookup_r _ _ _ _ _ HF) in Hk as (o1 & Hk & Hl).
        destruct o1 as [i|]; [|done]. cbn in Hl. exists i. split; [|done]. apply Hel. rewrite Hitems.
        apply elem_of_list_omap. exists (Some i). split; [by eapply elem_of_list_lookup_2|done].
    - assert (∀ i, i ∈ label_order items o → is_Some (ls !! N.to_nat i)) as Htot.
      { intros i Hi. apply Hel in Hi. rewrite Hitems in Hi. destruct (ids_bounded ls l1 l2 HF i Hi) as [x Hx]. by exists x. }
      intros a b x y Ha Hb Hab.
      assert (∀ j z, omap (λ i : N, ls !! N.to_nat i) (label_order items o) !! j = Some z →
        ∃ i, label_order items o !! j = Some i ∧ ls !! N.to_nat i = Some z) as Hinv.
      { intros j z Hj. pose proof (lookup_lt_Some _ _ _ Hj) as Hlt. rewrite omap_total_length in Hlt by done.
        apply lookup_lt_is_Some in Hlt as [i Hi]. exists i. split; [done|].
        rewrite (omap_total _ _ j i) in Hj; done. }
      apply Hinv in Ha as (i1 & Ha & Hx), Hb as (i2 & Hb & Hy).
      rewrite <-(Hc i1 x Hx), <-(Hc i2 y Hy). by eapply (label_order_sorted items o).
  Qed.
  Lemma node_labels_by_frequency no : counter_order (node_label_ids g it) no →
    by_frequency (a_node_label_count A) (new_labels (Some (label_order (node_label_ids g it) no)) (g_nlm g)).
  Proof.
    intros Hno. eapply frequency; [|done| |exact node_lids|].
    - rewrite (r_nls _ _ _ _ _ Hrel). apply Hrel.
    - unfold node_label_ids. induction (gm_node_list g it) as [|[a [b|]] l IH]; csimpl; [done|by rewrite IH..].
    - intros x. apply counter_size. split; [by eapply hash_order_NoDup|]. intros y. by apply (has_node_it dir _ _ g s Hrel).
  Qed.
  Lemma edge_labels_by_frequency eo : counter_order (edge_label_ids dir g it) eo →
    by_frequency (a_edge_label_count A) (new_labels (Some (label_order (edge_label_ids dir g it) eo)) (g_elm g)).
  Proof.
    intros Hno. eapply frequency; [|done| |exact edge_lids|].
    - rewrite (r_els _ _ _ _ _ Hrel). apply Hrel.
    - unfold edge_label_ids. induction (gm_edge_list dir g it) as [|[a [b|]] l IH]; csimpl; [done|by rewrite IH..].
    - intros x. apply counter_size. apply (edge_indices_exact _ _ _ _ _ _ (r_abs _ _ _ _ _ Hrel) Hit).
  Qed.
End reorder.
