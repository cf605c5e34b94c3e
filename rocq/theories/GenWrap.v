(** The generators when asked for more nodes than there are node ids (C83). *)
From stdpp Require Import gmap.
From Coq.Floats Require Import SpecFloat.
From Verif Require Import Base BaseFacts Api Spec Map MapFacts SpecFacts GraphMap GraphMapFacts GraphMapRefine GraphMapThms SpecGen SpecGenWrap Gen GenFacts GenProps.

Section wrap.
  Context {NL EL : Type} `{EqDecision NL, EqDecision EL} (dir : bool) (idt : idty) (R : rng).
  Notation wrel := (rel (NL:=NL) (EL:=EL) dir (wrap_rel idt) (wrap_rel idt)).
  Implicit Types (g : graphmap NL EL) (s : sstate NL EL).

  Definition wnodes (n : nat) nls els s : Prop :=
    sp_nls s = nls ∧ sp_els s = els ∧ sp_count s = 0 ∧ ag_edges (sp_g s) = ∅ ∧
    (∀ x, a_has_node (sp_g s) x ↔ ∃ i, i < n ∧ x = id_new idt i) ∧
    ∀ x l, ag_nodes (sp_g s) !! x = Some l → drawn nls l.
  Lemma wnodes_loop nls els a c k g s : wrel g s → wnodes a nls els s →
    ∃ k' g' s', rfold (gen_node idt R) (seq a c) (k, g) = Ok (k', g') ∧ wrel g' s' ∧ wnodes (a + c) nls els s'.
  Proof.
    revert a k g s. induction c as [|c IH]; intros a k g s Hr Hi.
    { do 3 eexists. split; [done|]. split; [done|]. by rewrite Nat.add_0_r. }
    cbn [seq rfold]. unfold gen_node at 2.
    destruct Hi as (H1 & H2 & H3 & H4 & H5 & H6).
    destruct (random_label_drawn R (g_nlm g) k) as (l & k' & -> & Hl).
    rewrite (r_nls _ _ _ _ _ Hr), H1 in Hl.
    destruct (wrel_add_node dir idt g s (id_new idt a) l Hr) as (b & g1 & -> & Hr1). cbn [rbind].
    replace (a + S c) with (S a + c) by lia. apply (IH (S a) k' g1 (s_add_node (id_new idt a) l s)); [done|].
    unfold wnodes. cbn [s_add_node sp_nls sp_els sp_count sp_g a_add_node ag_edges]. rewrite H1. split_and!; try done.
    - by apply register_drawn.
    - intros x. unfold a_has_node in *. cbn [a_add_node ag_nodes]. destruct (decide (x = id_new idt a)) as [->|Hne].
      + rewrite lookup_insert. split; [|by eexists]. intros _. exists a. split; [lia|done].
      + rewrite lookup_insert_ne by done. rewrite H5. split; intros (i & Hi & ->); exists i; (split; [|done]); [lia|].
        destruct (decide (i = a)) as [->|]; [done|lia].
    - intros x l' Hx. cbn [a_add_node ag_nodes] in Hx. apply lookup_insert_Some in Hx as [[_ <-]|[_ Hx]]; [done|]. by eapply H6.
  Qed.
  Lemma wempty n nls els k :
    ∃ k' g s, empty_graph idt R n nls els k = Ok (k', g) ∧ wrel g s ∧ wnodes n (sm_from_vec nls) (sm_from_vec els) s.
  Proof.
    unfold empty_graph.
    apply (wnodes_loop (sm_from_vec nls) (sm_from_vec els) 0 n k _ (s_init dir (sm_from_vec nls) (sm_from_vec els))).
    - apply rel_init; apply from_vec_NoDup.
    - unfold wnodes. simpl. split_and!; try done.
      intros x. unfold a_has_node. simpl. rewrite lookup_empty. split; [intros [? ?]; done|intros (i & ? & _); lia].
  Qed.

  Definition wkey (p : nat * nat) : N * N := ekey dir (id_new idt p.1) (id_new idt p.2).
  Record wbuilt (qs : list (nat * nat)) s s' : Prop := {
    w_nls : sp_nls s' = sp_nls s;
    w_els : sp_els s' = sp_els s;
    w_dir : ag_dir (sp_g s') = ag_dir (sp_g s);
    w_nodes : ag_nodes (sp_g s') = ag_nodes (sp_g s);
    w_edges : ∀ k, is_Some (ag_edges (sp_g s') !! k) ↔ is_Some (ag_edges (sp_g s) !! k) ∨ k ∈ wkey <$> qs;
    w_labels : ∀ k l, ag_edges (sp_g s') !! k = Some l → ag_edges (sp_g s) !! k = Some l ∨ drawn (sp_els s) l;
    w_count : sp_count s' = sp_count s + length qs;
  }.
  Lemma wbuilt_nil s : wbuilt [] s s.
  Proof. split; try done; simpl; try lia; [set_solver|by left]. Qed.
  Definition below_nodes (n : nat) s : Prop := ∀ i, i < n → a_has_node (sp_g s) (id_new idt i).
  Lemma wbuilt_cons n p qs s l :
    ag_dir (sp_g s) = dir → drawn (sp_els s) l → below_nodes n s → p.1 < n → p.2 < n →
    let s1 := s_add_edge (id_new idt p.1) (id_new idt p.2) l s in
    below_nodes n s1 ∧ ag_dir (sp_g s1) = dir ∧ ∀ s', wbuilt qs s1 s' → wbuilt (p :: qs) s s'.
  Proof.
    intros Hd Hl Hn Hp1 Hp2 s1. destruct (Hn _ Hp1) as [l1 H1], (Hn _ Hp2) as [l2 H2].
    assert (a_add_edge (id_new idt p.1) (id_new idt p.2) l (sp_g s) =
      AG dir (ag_nodes (sp_g s)) (<[wkey p := l]> (ag_edges (sp_g s)))) as HA.
    { unfold a_add_edge.
      assert (a_touch (id_new idt p.2) (a_touch (id_new idt p.1) (sp_g s)) = sp_g s) as ->.
      { unfold a_touch at 2. rewrite H1. unfold a_touch. by rewrite H2. }
      by rewrite Hd. }
    subst s1. unfold below_nodes. cbn [s_add_edge sp_g]. rewrite HA. split; [exact Hn|]. split; [done|].
    intros s' [B1 B2 B3 B4 B5 B6 B7].
    cbn [s_add_edge sp_nls sp_els sp_g sp_count] in *. rewrite (register_drawn _ _ Hl) in *.
    rewrite HA in *. cbn [ag_dir ag_nodes ag_edges] in *.
    split; try done; cbn [length].
    - congruence.
    - intros k. rewrite B5, fmap_cons, elem_of_cons. destruct (decide (k = wkey p)) as [->|Hne].
      + rewrite lookup_insert. naive_solver.
      + rewrite lookup_insert_ne by done. naive_solver.
    - intros k l' [Hk|?]%B6; [|by right]. apply lookup_insert_Some in Hk as [[_ <-]|[_ Hk]]; [by right|by left].
    - lia.
  Qed.
  Lemma wstep k g s p : wrel g s → 
    ∃ k' g' l, gen_edge dir idt R (k, g) p = Ok (k', g') ∧
      wrel g' (s_add_edge (id_new idt p.1) (id_new idt p.2) l s) ∧ drawn (sp_els s) l.
  Proof.
    intros Hr. unfold gen_edge.
    destruct (random_label_drawn R (g_elm g) k) as (l & k' & -> & Hl).
    destruct (wrel_add_edge dir idt g s (id_new idt p.1) (id_new idt p.2) l Hr) as (b & g1 & -> & Hr1). cbn [rbind].
    rewrite (r_els _ _ _ _ _ Hr) in Hl. by exists k', g1, l.
  Qed.
  Lemma wedges_loop n ps : ∀ k g s, wrel g s → below_nodes n s → (∀ p, p ∈ ps → p.1 < n ∧ p.2 < n) →
    ∃ k' g' s', rfold (gen_edge dir idt R) ps (k, g) = Ok (k', g') ∧ wrel g' s' ∧ wbuilt ps s s'.
  Proof.
    induction ps as [|p ps IH]; intros k g s Hr Hn Hin.
    { do 3 eexists. split; [done|]. split; [done|]. apply wbuilt_nil. }
    cbn [rfold]. destruct (Hin p ltac:(set_solver)) as (? & ?).
    destruct (wstep k g s p Hr) as (k1 & g1 & l & -> & Hr1 & Hl). cbn [rbind].
    destruct (wbuilt_cons n p ps s l) as (Hn1 & Hd1 & Hb); [apply (r_abs _ _ _ _ _ Hr)|done..|].
    destruct (IH k1 g1 _ Hr1 Hn1) as (k' & g' & s' & -> & Hr' & Hb'); [set_solver|]. do 3 eexists. split; [done|]. split; [done|].
    by apply Hb.
  Qed.
  Lemma wgnp_loop p n ps : ∀ k g s, wrel g s → below_nodes n s → (∀ p, p ∈ ps → p.1 < n ∧ p.2 < n) →
    ∃ k' g' s' qs, rfold (gnp_edge dir idt R p) ps (k, g) = Ok (k', g') ∧ wrel g' s' ∧ wbuilt qs s s' ∧ qs `sublist_of` ps.
  Proof.
    induction ps as [|e ps IH]; intros k g s Hr Hn Hin.
    { do 4 eexists. split; [done|]. split; [done|]. split; [apply wbuilt_nil|]. done. }
    cbn [rfold]. unfold gnp_edge at 2, gen_f32. destruct (Hin e ltac:(set_solver)) as (? & ?).
    destruct (SFltb (rng_f32 R k) p) eqn:Hk.
    - destruct (wstep (S k) g s e Hr) as (k1 & g1 & l & -> & Hr1 & Hl). cbn [rbind].
      assert (ag_dir (sp_g s) = dir) as Hd by apply (r_abs _ _ _ _ _ Hr).
      destruct (wbuilt_cons n e [] s l Hd Hl Hn) as (Hn1 & Hd1 & _); [done..|].
      destruct (IH k1 g1 _ Hr1 Hn1) as (k' & g' & s' & qs & -> & Hr' & Hb' & Hs); [set_solver|].
      exists k', g', s', (e :: qs). split; [done|]. split; [done|]. split; [|by constructor].
      destruct (wbuilt_cons n e qs s l Hd Hl Hn) as (_ & _ & Hb); [done..|]. by apply Hb.
    - cbn [rbind]. destruct (IH (S k) g s Hr Hn) as (k' & g' & s' & qs & -> & Hr' & Hb' & Hs); [set_solver|].
      exists k', g', s', qs. split; [done|]. split; [done|]. split; [done|]. by constructor.
  Qed.

  Lemma ids_below n x : (∃ i, i < n ∧ x = id_new idt i) ↔ (x < N.min (N.of_nat n) (id_card idt))%N.
  Proof.
    pose proof (id_card_pos idt) as Hc. unfold id_new. split.
    - intros (i & Hi & ->). pose proof (N.mod_lt (N.of_nat i) (id_card idt) ltac:(lia)).
      pose proof (N.mod_le (N.of_nat i) (id_card idt) ltac:(lia)). lia.
    - intros Hx. exists (N.to_nat x). split; [lia|]. rewrite N2Nat.id, N.mod_small; lia.
  Qed.
  Lemma wbuilt_shows n nls els g s s' qs : wrel g s' → wnodes n (sm_from_vec nls) (sm_from_vec els) s →
    ag_dir (sp_g s) = dir → wbuilt qs s s' →
    ∃ A, ∀ it, hash_order g it → shows_wrapped dir (id_card idt) n nls els qs (gm_view dir it g) A.
  Proof.
    intros Hr (E1 & E2 & E3 & E4 & E5 & E6) Hd [B1 B2 B3 B4 B5 B6 B8].
    apply wrel_lrel in Hr as Hl. exists (sp_g (relabel idt s')).
    assert (ag_dir (sp_g s') = dir) as Hd' by congruence.
    intros it Hit. destruct (lrel_view dir g _ it Hl Hit) as (V1 & V2 & V3 & V4 & _ & _ & _).
    split; try done.
    - intros x. unfold a_has_node. cbn [relabel sp_g ag_nodes]. rewrite lookup_fmap, fmap_is_Some, B4, <-ids_below. apply E5.
    - intros x y. unfold a_has_edge, a_edge_at. cbn [relabel sp_g ag_edges ag_dir]. rewrite Hd', lookup_fmap, fmap_is_Some, B5, E4.
      rewrite lookup_empty, elem_of_list_fmap.
      assert (∀ p, ekey dir x y = wkey p ↔ let s := (N.of_nat p.1 mod id_card idt)%N in let t := (N.of_nat p.2 mod id_card idt)%N in
        x = s ∧ y = t ∨ dir = false ∧ x = t ∧ y = s) as Hk.
      { intros p. unfold wkey, ekey, id_new. destruct dir; simpl.
        - split; [intros [= -> ->]; by left|]. intros [[-> ->]|[? _]]; done.
        - split; [intros [=]; lia|]. intros [[-> ->]|(_ & -> & ->)]; [done|]. f_equal; lia. }
      split.
      + intros [[? ?]|(p & Hp & ?)]; [done|]. exists p. split; [done|]. by apply Hk.
      + intros (p & Hp & Hx). right. exists p. split; [|done]. by apply Hk.
    - rewrite V4. cbn [relabel sp_count]. rewrite B8, E3. done.
    - split.
      + intros x l. cbn [relabel sp_g ag_nodes]. rewrite lookup_fmap, fmap_Some, B4. intros (l' & Hx & ->).
        apply drawn_from_vec. rewrite B1, E1. apply rewrap_drawn; [apply from_vec_NoDup|]. by eapply E6.
      + intros x y l. unfold a_edge_at. cbn [relabel sp_g ag_edges ag_dir]. rewrite lookup_fmap, fmap_Some. intros (l' & Hx & ->).
        apply drawn_from_vec. rewrite B2, E2. apply rewrap_drawn; [apply from_vec_NoDup|].
        apply B6 in Hx as [Hx|Hx]; [by rewrite E4, lookup_empty in Hx|by rewrite E2 in Hx].
  Qed.
  Lemma wnodes_below n nls els s : wnodes n nls els s → below_nodes n s.
  Proof. intros (_ & _ & _ & _ & H & _) i Hi. apply H. by exists i. Qed.
  Lemma complete_below n p : p ∈ complete_edge_pairs dir n → p.1 < n ∧ p.2 < n.
  Proof. destruct p as [a b]. intros H%elem_of_pairs. simpl. destruct dir; lia. Qed.
  Lemma complete_pairs n : pairs_below dir n (complete_edge_pairs dir n) ∧ length (complete_edge_pairs dir n) = max_edges dir n.
  Proof.
    split; [|apply pairs_length]. split; [apply pairs_NoDup|]. intros [a b] H%elem_of_pairs. simpl. destruct dir; lia.
  Qed.

  Lemma complete_wrap n nls els : ∃ g, complete_graph dir idt R n nls els = Ok g ∧
    ∃ ps A, (∀ it, hash_order g it → shows_wrapped dir (id_card idt) n nls els ps (gm_view dir it g) A) ∧
      pairs_below dir n ps ∧ length ps = max_edges dir n.
  Proof.
    unfold complete_graph. destruct (wempty n nls els 0) as (k' & g & s & -> & Hr & Hi). cbn [rbind].
    destruct (wedges_loop n (complete_edge_pairs dir n) k' g s Hr) as (k1 & g1 & s1 & -> & Hr1 & Hb1);
      [by eapply wnodes_below|apply complete_below|].
    cbn [rbind]. exists g1. split; [done|].
    destruct (wbuilt_shows n nls els g1 s s1 _ Hr1 Hi ltac:(apply (r_abs _ _ _ _ _ Hr)) Hb1) as (A & HA).
    exists (complete_edge_pairs dir n), A. split; [done|]. apply complete_pairs.
  Qed.
  Lemma gnm_wrap n m nls els : m ≤ max_edges dir n → ∃ g, random_gnm_graph dir idt R n m nls els = Ok g ∧
    ∃ ps A, (∀ it, hash_order g it → shows_wrapped dir (id_card idt) n nls els ps (gm_view dir it g) A) ∧
      pairs_below dir n ps ∧ length ps = m.
  Proof.
    intros Hm. unfold random_gnm_graph. destruct (wempty n nls els 0) as (k' & g & s & -> & Hr & Hi). cbn [rbind].
    pose proof (sample_spec R (complete_edge_pairs dir n) m k' (pairs_NoDup dir n)) as Hs.
    rewrite pairs_length, decide_True in Hs by done. destruct Hs as (qs & k2 & -> & Hlen & Hnd & Hin).
    destruct (wedges_loop n qs k2 g s Hr) as (k1 & g1 & s1 & -> & Hr1 & Hb1);
      [by eapply wnodes_below|intros p Hp; by apply complete_below, Hin|].
    cbn [rbind]. exists g1. split; [done|].
    destruct (wbuilt_shows n nls els g1 s s1 _ Hr1 Hi ltac:(apply (r_abs _ _ _ _ _ Hr)) Hb1) as (A & HA).
    exists qs, A. split; [done|]. split; [|done]. split; [done|]. intros p Hp. by apply complete_pairs, Hin.
  Qed.
  Lemma gnp_wrap n p nls els : in_unit p → is_f32 p → ∃ g, random_gnp_graph dir idt R n p nls els = Ok g ∧
    ∃ ps A, (∀ it, hash_order g it → shows_wrapped dir (id_card idt) n nls els ps (gm_view dir it g) A) ∧
      pairs_below dir n ps.
  Proof.
    intros Hu Hp. unfold random_gnp_graph.
    assert (SFltb p (S754_zero false) || SFltb (S754_finite false 8388608 (-23)) p = false) as ->.
    { apply unit_check; [done| |done]. by intros ->. }
    destruct (wempty n nls els 0) as (k' & g & s & -> & Hr & Hi). cbn [rbind].
    destruct (wgnp_loop p n (complete_edge_pairs dir n) k' g s Hr) as (k1 & g1 & s1 & qs & -> & Hr1 & Hb1 & Hsub);
      [by eapply wnodes_below|apply complete_below|].
    cbn [rbind]. exists g1. split; [done|].
    destruct (wbuilt_shows n nls els g1 s s1 _ Hr1 Hi ltac:(apply (r_abs _ _ _ _ _ Hr)) Hb1) as (A & HA).
    exists qs, A. split; [done|]. pose proof (proj1 (complete_pairs n)) as [Hnd Hall]. split.
    - apply sublist_submseteq in Hsub. destruct (submseteq_Permutation _ _ Hsub) as [k Hk]. rewrite Hk in Hnd.
      by apply NoDup_app in Hnd as [? _].
    - intros q Hq. apply Hall. eapply elem_of_submseteq; [exact Hq|]. by apply sublist_submseteq.
  Qed.
End wrap.

Lemma ekey_cases (dir : bool) (x y s t : N) : (x = s ∧ y = t ∨ dir = false ∧ x = t ∧ y = s) ↔ ekey dir x y = ekey dir s t.
Proof.
  unfold ekey. destruct dir.
  - split; [intros [[-> ->]|[? _]]; done|]. intros [= -> ->]. by left.
  - split; [intros [[-> ->]|(_ & -> & ->)]; [done|f_equal; lia]|]. intros [=]. lia.
Qed.
Lemma covered_size {NL EL} (A : agraph NL EL) (l : list (N * N)) :
  (∀ k, is_Some (ag_edges A !! k) → k ∈ l) → a_num_edges A ≤ length l.
Proof.
  intros H. unfold a_num_edges. assert (size (ag_edges A) = length (map_to_list (ag_edges A)).*1) as -> by (by rewrite fmap_length).
  apply submseteq_length, NoDup_submseteq; [apply NoDup_fst_map_to_list|].
  intros k Hk. apply elem_of_list_fmap in Hk as ([k' x] & -> & Hk). apply elem_of_map_to_list in Hk. apply H. by eexists.
Qed.
Lemma shows_wf {NL EL} dir c n nls els ps (V : gview NL EL) A : shows_wrapped dir c n nls els ps V A → ag_wf A.
Proof. intros H. apply (sw_rep _ _ _ _ _ _ _ _ H). Qed.
Lemma wrapped_drift {NL EL} dir c n nls els ps (V : gview NL EL) A i j :
  shows_wrapped dir c n nls els ps V A → i ≠ j → i < length ps → j < length ps →
  (∀ p q, ps !! i = Some p → ps !! j = Some q →
    ekey dir (N.of_nat p.1 mod c)%N (N.of_nat p.2 mod c)%N = ekey dir (N.of_nat q.1 mod c)%N (N.of_nat q.2 mod c)%N) →
  a_num_edges A < v_edge_count V.
Proof.
  intros HS Hij Hi Hj Hk. rewrite (sw_count _ _ _ _ _ _ _ _ HS).
  set (key := λ p : nat * nat, ekey dir (N.of_nat p.1 mod c)%N (N.of_nat p.2 mod c)%N).
  assert (a_num_edges A ≤ length (key <$> delete i ps)) as Hle.
  { apply covered_size. intros [x y] Hxy.
    destruct (shows_wf _ _ _ _ _ _ _ _ HS x y Hxy) as (Hn & _). rewrite (sw_dir _ _ _ _ _ _ _ _ HS) in Hn.
    assert (a_has_edge A x y) as He. { unfold a_has_edge, a_edge_at. by rewrite (sw_dir _ _ _ _ _ _ _ _ HS), Hn. }
    apply (sw_edges _ _ _ _ _ _ _ _ HS) in He as (p & Hp & He). apply ekey_cases in He. rewrite Hn in He. rewrite He.
    change (key p ∈ key <$> delete i ps).
    destruct (lookup_lt_is_Some_2 _ _ Hi) as [p1 H1], (lookup_lt_is_Some_2 _ _ Hj) as [p2 H2].
    pose proof (delete_Permutation _ _ _ H1) as HP. rewrite HP in Hp. apply elem_of_cons in Hp as [-> |Hp]; [|by apply elem_of_list_fmap_1].
    assert (key p1 = key p2) as -> by (by apply Hk). apply elem_of_list_fmap_1.
    apply elem_of_list_lookup. destruct (decide (j < i)).
    - exists j. by rewrite lookup_delete_lt.
    - exists (pred j). rewrite lookup_delete_ge by lia. by replace (S (pred j)) with j by lia. }
  rewrite fmap_length, length_delete in Hle by (by apply lookup_lt_is_Some_2). lia.
Qed.

(** A complete graph on more nodes than there are ids has a self-loop at 0, and counts edges twice. *)
Lemma all_pairs dir n ps : pairs_below dir n ps → length ps = max_edges dir n →
  ∀ a b, a < n → b < n → a < b → (a, b) ∈ ps ∧ (dir = true → (b, a) ∈ ps).
Proof.
  intros [Hnd Hall] Hlen a b Ha Hb Hab.
  assert (ps ≡ₚ complete_edge_pairs dir n) as HP.
  { assert (ps ⊆+ complete_edge_pairs dir n) as Hs.
    { apply NoDup_submseteq; [done|]. intros [x y] Hxy. apply Hall in Hxy as (? & ? & ?). apply elem_of_pairs. simpl in *. destruct dir; lia. }
    destruct (submseteq_Permutation _ _ Hs) as [k Hk]. pose proof (Permutation_length Hk) as Hl. rewrite pairs_length, app_length in Hl.
    destruct k; [by rewrite Hk, app_nil_r|simpl in Hl; lia]. }
  setoid_rewrite HP. rewrite !elem_of_pairs. split; [destruct dir; lia|]. intros ->. lia.
Qed.
Lemma all_pairs1 n ps a b : pairs_below false n ps → length ps = max_edges false n → a < n → b < n → a < b → (a, b) ∈ ps.
Proof. intros HP Hl Ha Hb Hab. exact (proj1 (all_pairs false n ps HP Hl a b Ha Hb Hab)). Qed.
Lemma complete_oversize {NL EL} dir c n nls els ps (V : gview NL EL) A : (0 < c)%N → (c < N.of_nat n)%N →
  shows_wrapped dir c n nls els ps V A → pairs_below dir n ps → length ps = max_edges dir n →
  a_has_edge A 0 0 ∧ (dir = true ∨ 3 ≤ n → a_num_edges A < v_edge_count V).
Proof.
  intros Hc Hn HS HP Hlen.
  assert (c mod c = 0)%N as Hcc by (apply N.mod_same; lia).
  assert (0 mod c = 0)%N as H0 by (apply N.mod_small; lia).
  destruct (all_pairs dir n ps HP Hlen 0 (N.to_nat c)) as [Hp1 Hp2]; [lia..|]. split.
  { apply (sw_edges _ _ _ _ _ _ _ _ HS). exists (0, N.to_nat c). split; [done|]. cbn -[N.modulo]. rewrite N2Nat.id, Hcc. left. by rewrite H0. }
  intros Hd.
  assert (∃ p q, p ≠ q ∧ p ∈ ps ∧ q ∈ ps ∧
    ekey dir (N.of_nat p.1 mod c)%N (N.of_nat p.2 mod c)%N = ekey dir (N.of_nat q.1 mod c)%N (N.of_nat q.2 mod c)%N) as (p & q & Hne & Hp & Hq & Hk).
  { destruct dir.
    - exists (0, N.to_nat c), (N.to_nat c, 0). split; [intros [=]; lia|]. split; [done|]. split; [by apply Hp2|].
      cbn -[N.modulo]. by rewrite N2Nat.id, Hcc, H0.
    - destruct Hd as [?|Hd]; [done|]. destruct (decide (c = 1%N)) as [->|].
      + exists (0, 1), (0, 2). split; [done|]. split; [apply (all_pairs1 n ps _ _ HP Hlen); lia|]. split; [apply (all_pairs1 n ps _ _ HP Hlen); lia|].
        cbn -[N.modulo]. by rewrite !N.mod_1_r.
      + exists (0, 1), (1, N.to_nat c). split; [done|]. split; [apply (all_pairs1 n ps _ _ HP Hlen); lia|]. split; [apply (all_pairs1 n ps _ _ HP Hlen); lia|].
        cbn -[N.modulo]. rewrite N2Nat.id, Hcc, H0. unfold ekey. f_equal; lia. }
  apply elem_of_list_lookup in Hp as [i Hi], Hq as [j Hj].
  apply (wrapped_drift dir c n nls els ps V A i j HS).
  - intros ->. congruence.
  - by eapply lookup_lt_Some.
  - by eapply lookup_lt_Some.
  - intros p' q' Hp' Hq'. rewrite Hi in Hp'. rewrite Hj in Hq'. by simplify_eq.
Qed.
