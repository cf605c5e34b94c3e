(** The generators build the graphs they promise (C52-C54). *)
From stdpp Require Import gmap.
From Coq.Floats Require Import SpecFloat.
From Verif Require Import Base BaseFacts Api Spec Map MapFacts SpecFacts GraphMap GraphMapFacts GraphMapRefine GraphMapThms SpecGen Gen GenFacts.

(** A stored label id is the position of the label, truncated to the id type. *)
Definition wrap_rel (lt : idty) {X} (ls : list X) (lid : option N) (l : option X) : Prop :=
  match lid, l with
  | None, None => True
  | Some j, Some x => ∃ i, ls !! i = Some x ∧ j = id_new lt i
  | _, _ => False
  end.
(** The label the truncated position denotes. *)
Definition rewrap (lt : idty) {X} `{EqDecision X} (ls : list X) (l : option X) : option X :=
  l ≫= λ x, index_of x ls ≫= λ i, ls !! N.to_nat (id_new lt i).

Lemma index_of_lookup {X} `{EqDecision X} (ls : list X) i x : NoDup ls → ls !! i = Some x → index_of x ls = Some i.
Proof.
  revert i. induction ls as [|y ls IH]; intros i Hn Hi; [done|]. apply NoDup_cons in Hn as [Hy Hn]. simpl.
  destruct i as [|i]; simpl in Hi.
  - simplify_eq. by rewrite decide_True.
  - rewrite decide_False; [by rewrite (IH i)|]. intros ->. apply Hy. by eapply elem_of_list_lookup_2.
Qed.
Lemma id_new_le lt i : N.to_nat (id_new lt i) ≤ i.
Proof. unfold id_new. pose proof (N.mod_le (N.of_nat i) (id_card lt)) as H. pose proof (id_card_pos lt). lia. Qed.
Lemma rewrap_rel lt {X} `{EqDecision X} (ls : list X) lid l : NoDup ls →
  wrap_rel lt ls lid l → lab_rel ls lid (rewrap lt ls l).
Proof.
  intros Hn. destruct lid as [j|], l as [x|]; try done. intros (i & Hi & ->). simpl.
  rewrite (index_of_lookup ls i x) by done. simpl.
  destruct (lookup_lt_is_Some_2 ls (N.to_nat (id_new lt i))) as [y Hy].
  { pose proof (id_new_le lt i). apply lookup_lt_Some in Hi. lia. }
  by rewrite Hy.
Qed.
Lemma rewrap_drawn lt {X} `{EqDecision X} (ls : list X) l : NoDup ls → drawn ls l → drawn ls (rewrap lt ls l).
Proof.
  intros Hn. destruct l as [x|]; [|done]. intros (i & Hi)%elem_of_list_lookup. simpl.
  rewrite (index_of_lookup ls i x) by done. simpl.
  destruct (lookup_lt_is_Some_2 ls (N.to_nat (id_new lt i))) as [y Hy].
  { pose proof (id_new_le lt i). apply lookup_lt_Some in Hi. lia. }
  rewrite Hy. by eapply elem_of_list_lookup_2.
Qed.
Lemma drawn_from_vec {X} `{EqDecision X} (ls : list X) l : drawn (sm_from_vec ls) l ↔ drawn ls l.
Proof.
  destruct l as [x|]; simpl; [apply elem_of_from_vec|]. split; [|by intros ->].
  intros H. destruct ls as [|x ls]; [done|]. exfalso. apply (not_elem_of_nil x). rewrite <- H.
  apply elem_of_from_vec. set_solver.
Qed.
Lemma register_drawn {X} `{EqDecision X} (ls : list X) l : drawn ls l → register l ls = ls.
Proof. destruct l as [x|]; [|done]. simpl. intros. by rewrite decide_True. Qed.
Lemma random_label_drawn {X} R (ls : list X) k : ∃ l k', random_label R ls k = (l, k') ∧ drawn ls l.
Proof.
  unfold random_label. destruct ls as [|x ls]; [by do 2 eexists|]. unfold gen_range. do 2 eexists. split; [done|].
  set (i := rng_int R k mod _). unfold sm_get_item.
  destruct (lookup_lt_is_Some_2 (x :: ls) i) as [y Hy].
  { apply Nat.mod_upper_bound. done. }
  rewrite Hy. by eapply elem_of_list_lookup_2.
Qed.

Section gen.
  Context {NL EL : Type} `{EqDecision NL, EqDecision EL} (dir : bool) (idt : idty) (R : rng).
  Notation wrel := (rel (NL:=NL) (EL:=EL) dir (wrap_rel idt) (wrap_rel idt)).
  Notation lrel := (rel (NL:=NL) (EL:=EL) dir lab_rel lab_rel).
  Implicit Types (g : graphmap NL EL) (s : sstate NL EL).

  Lemma wrap_new {X} (ls : list X) i x : True → ls !! i = Some x → wrap_rel idt ls (Some (id_new idt i)) (Some x).
  Proof. intros _ H. by exists i. Qed.
  Lemma wrap_mono {X} (ls ls' : list X) i x : ls `prefix_of` ls' → wrap_rel idt ls i x → wrap_rel idt ls' i x.
  Proof.
    intros Hp. destruct i, x; try done. intros (i & Hi & ->). exists i. split; [|done]. by eapply prefix_lookup.
  Qed.
  Lemma wrel_add_node g s n l : wrel g s →
    ∃ b g', gm_add_node idt n l g = Ok (b, g') ∧ wrel g' (s_add_node n l s).
  Proof.
    intros H. destruct (rel_add_node dir idt (wrap_rel idt) (wrap_rel idt) (λ _, True) (λ _, I) wrap_new wrap_mono g s n l H I)
      as (g' & ? & ?). by do 2 eexists.
  Qed.
  Lemma wrel_add_edge g s x y l : wrel g s →
    ∃ b g', gm_add_edge dir idt x y l g = Ok (b, g') ∧ wrel g' (s_add_edge x y l s).
  Proof.
    intros H. destruct (rel_add_edge dir idt (wrap_rel idt) (wrap_rel idt) (λ _, True) (λ _, True) (λ _, I) (λ _, I)
      wrap_new wrap_new wrap_mono wrap_mono g s x y l H I I) as (g' & ? & ?). by do 2 eexists.
  Qed.

  (** The graph with the labels the stored ids denote. *)
  Definition relabel s : sstate NL EL :=
    SState (AG (ag_dir (sp_g s)) (rewrap idt (sp_nls s) <$> ag_nodes (sp_g s)) (rewrap idt (sp_els s) <$> ag_edges (sp_g s)))
      (sp_count s) (sp_max s) (sp_nls s) (sp_els s).
  Lemma wrel_lrel g s : wrel g s → lrel g (relabel s).
  Proof.
    intros [Ha Hc Hm Hn He Hnd Hed Hge Hb]. split; simpl; try done.
    - destruct Ha as [H1 H2 H3 H4 H5]. split; simpl.
      + done.
      + intros x y. simpl. rewrite lookup_fmap, fmap_is_Some. intros (? & ? & ?)%H2. split; [done|].
        unfold a_has_node in *. simpl. by rewrite !lookup_fmap, !fmap_is_Some.
      + intros k. rewrite lookup_fmap. specialize (H3 k). inversion H3 as [n l [??]|]; constructor.
        split; [done|]. rewrite Hn in *. by apply rewrap_rel.
      + intros x y. unfold a_edge_at. simpl. rewrite lookup_fmap. specialize (H4 x y). unfold a_edge_at in H4.
        inversion H4; constructor. rewrite He in *. by apply rewrap_rel.
      + intros t n Ht. specialize (H5 t n Ht). destruct dir; [|done]. intros x. rewrite H5.
        unfold a_has_edge, a_edge_at. simpl. by rewrite lookup_fmap, fmap_is_Some.
    - unfold a_num_edges in *. simpl. by rewrite map_size_fmap.
    - intros n. unfold a_has_node. simpl. rewrite lookup_fmap, fmap_is_Some. apply Hb.
  Qed.

  (** *** Nodes *)
  Definition empty_inv (n : nat) nls els s : Prop :=
    sp_nls s = nls ∧ sp_els s = els ∧ sp_count s = 0 ∧ ag_edges (sp_g s) = ∅ ∧
    (∀ x, a_has_node (sp_g s) x ↔ (x < N.of_nat n)%N) ∧
    ∀ x l, ag_nodes (sp_g s) !! x = Some l → drawn nls l.
  Lemma nodes_loop nls els a c k g s : (N.of_nat (a + c) ≤ id_card idt)%N → wrel g s → empty_inv a nls els s →
    ∃ k' g' s', rfold (gen_node idt R) (seq a c) (k, g) = Ok (k', g') ∧ wrel g' s' ∧ empty_inv (a + c) nls els s'.
  Proof.
    revert a k g s. induction c as [|c IH]; intros a k g s Hfit Hr Hi.
    { do 3 eexists. split; [done|]. split; [done|]. by rewrite Nat.add_0_r. }
    cbn [seq rfold]. unfold gen_node at 2.
    destruct Hi as (H1 & H2 & H3 & H4 & H5 & H6).
    destruct (random_label_drawn R (g_nlm g) k) as (l & k' & -> & Hl).
    rewrite (r_nls _ _ _ _ _ Hr), H1 in Hl.
    destruct (wrel_add_node g s (id_new idt a) l Hr) as (b & g1 & -> & Hr1). cbn [rbind].
    rewrite id_new_small in Hr1 by lia.
    replace (a + S c) with (S a + c) by lia. apply (IH (S a) k' g1 (s_add_node (N.of_nat a) l s)); [lia|done|].
    unfold empty_inv. cbn [s_add_node sp_nls sp_els sp_count sp_g a_add_node ag_edges]. rewrite H1. split_and!; try done.
    - by apply register_drawn.
    - intros x. unfold a_has_node in *. cbn [a_add_node ag_nodes]. destruct (decide (x = N.of_nat a)) as [->|Hne].
      + rewrite lookup_insert. split; [lia|by eexists].
      + rewrite lookup_insert_ne by done. rewrite H5. lia.
    - intros x l' Hx. cbn [a_add_node ag_nodes] in Hx. apply lookup_insert_Some in Hx as [[_ <-]|[_ Hx]]; [done|]. by eapply H6.
  Qed.
  Lemma empty_thm n nls els k : (N.of_nat n ≤ id_card idt)%N →
    ∃ k' g s, empty_graph idt R n nls els k = Ok (k', g) ∧ wrel g s ∧
      empty_inv n (sm_from_vec nls) (sm_from_vec els) s.
  Proof.
    intros Hf. unfold empty_graph.
    apply (nodes_loop (sm_from_vec nls) (sm_from_vec els) 0 n k _ (s_init dir (sm_from_vec nls) (sm_from_vec els))); [done|..].
    - apply rel_init; apply from_vec_NoDup.
    - unfold empty_inv. simpl. split_and!; try done.
      intros x. unfold a_has_node. simpl. rewrite lookup_empty. split; [intros [? ?]; done|lia].
  Qed.

  (** *** Edges *)
  Definition pkey (p : nat * nat) : N * N := ekey dir (N.of_nat p.1) (N.of_nat p.2).
  Record built (qs : list (nat * nat)) s s' : Prop := {
    b_nls : sp_nls s' = sp_nls s;
    b_els : sp_els s' = sp_els s;
    b_dir : ag_dir (sp_g s') = ag_dir (sp_g s);
    b_nodes : ag_nodes (sp_g s') = ag_nodes (sp_g s);
    b_edges : ∀ k, is_Some (ag_edges (sp_g s') !! k) ↔ is_Some (ag_edges (sp_g s) !! k) ∨ k ∈ pkey <$> qs;
    b_labels : ∀ k l, ag_edges (sp_g s') !! k = Some l → ag_edges (sp_g s) !! k = Some l ∨ drawn (sp_els s) l;
    b_size : size (ag_edges (sp_g s')) = size (ag_edges (sp_g s)) + length qs;
    b_count : sp_count s' = sp_count s + length qs;
  }.
  Lemma built_nil s : built [] s s.
  Proof. split; try done; simpl; try lia; [set_solver|by left]. Qed.
  Lemma built_cons p qs s s' l :
    ag_dir (sp_g s) = dir → drawn (sp_els s) l →
    a_has_node (sp_g s) (N.of_nat p.1) → a_has_node (sp_g s) (N.of_nat p.2) →
    ag_edges (sp_g s) !! pkey p = None →
    built qs (s_add_edge (N.of_nat p.1) (N.of_nat p.2) l s) s' → built (p :: qs) s s'.
  Proof.
    intros Hd Hl [l1 H1] [l2 H2] Hno [B1 B2 B3 B4 B5 B6 B7 B8].
    cbn [s_add_edge sp_nls sp_els sp_g sp_count] in *. rewrite (register_drawn _ _ Hl) in *.
    assert (a_touch (N.of_nat p.2) (a_touch (N.of_nat p.1) (sp_g s)) = sp_g s) as Ht.
    { unfold a_touch at 2. rewrite H1. unfold a_touch. by rewrite H2. }
    unfold a_add_edge in *. rewrite Ht in *. cbn [ag_dir ag_nodes ag_edges] in *. rewrite Hd in *.
    change (ekey dir (N.of_nat p.1) (N.of_nat p.2)) with (pkey p) in *.
    split; try done; cbn [length].
    - congruence.
    - intros k. rewrite B5, fmap_cons, elem_of_cons. destruct (decide (k = pkey p)) as [->|Hne].
      + rewrite lookup_insert. naive_solver.
      + rewrite lookup_insert_ne by done. naive_solver.
    - intros k l' [Hk|?]%B6; [|by right]. apply lookup_insert_Some in Hk as [[_ <-]|[_ Hk]]; [by right|by left].
    - rewrite B7, map_size_insert, Hno. simpl. lia.
    - lia.
  Qed.
  (** Pairs over 0..n-1 that are not yet edges. *)
  Definition fresh (n : nat) s (ps : list (nat * nat)) : Prop :=
    NoDup (pkey <$> ps) ∧ ∀ p, p ∈ ps → p.1 < n ∧ p.2 < n ∧ ag_edges (sp_g s) !! pkey p = None.

  Lemma edge_step n k g s p : (N.of_nat n ≤ id_card idt)%N → wrel g s → numbered n (sp_g s) →
    p.1 < n → p.2 < n → ag_edges (sp_g s) !! pkey p = None →
    ∃ k' g' l, gen_edge dir idt R (k, g) p = Ok (k', g') ∧
      wrel g' (s_add_edge (N.of_nat p.1) (N.of_nat p.2) l s) ∧ drawn (sp_els s) l.
  Proof.
    intros Hfit Hr Hn H1 H2 Hno. unfold gen_edge.
    destruct (random_label_drawn R (g_elm g) k) as (l & k' & -> & Hl).
    destruct (wrel_add_edge g s (id_new idt p.1) (id_new idt p.2) l Hr) as (b & g1 & -> & Hr1). cbn [rbind].
    rewrite !id_new_small in Hr1 by lia. rewrite (r_els _ _ _ _ _ Hr) in Hl. by exists k', g1, l.
  Qed.
  Lemma fresh_step n s p ps l : fresh n s (p :: ps) → numbered n (sp_g s) → ag_dir (sp_g s) = dir → drawn (sp_els s) l →
    let s1 := s_add_edge (N.of_nat p.1) (N.of_nat p.2) l s in
    fresh n s1 ps ∧ numbered n (sp_g s1) ∧ ag_dir (sp_g s1) = dir ∧ (∀ qs s', built qs s1 s' → built (p :: qs) s s').
  Proof.
    intros [Hnd Hf] Hn Hd Hl s1. destruct (Hf p ltac:(set_solver)) as (Hp1 & Hp2 & Hno).
    assert (a_has_node (sp_g s) (N.of_nat p.1)) as Hh1 by (apply Hn; lia).
    assert (a_has_node (sp_g s) (N.of_nat p.2)) as Hh2 by (apply Hn; lia).
    assert (a_add_edge (N.of_nat p.1) (N.of_nat p.2) l (sp_g s) =
      AG dir (ag_nodes (sp_g s)) (<[pkey p := l]> (ag_edges (sp_g s)))) as HA.
    { unfold a_add_edge. destruct Hh1 as [l1 H1], Hh2 as [l2 H2].
      assert (a_touch (N.of_nat p.2) (a_touch (N.of_nat p.1) (sp_g s)) = sp_g s) as ->.
      { unfold a_touch at 2. rewrite H1. unfold a_touch. by rewrite H2. }
      by rewrite Hd. }
    rewrite fmap_cons in Hnd. apply NoDup_cons in Hnd as [Hp Hnd].
    subst s1. cbn [s_add_edge sp_g]. rewrite HA. split_and!; try done.
    - split; [done|]. intros q Hq. destruct (Hf q ltac:(set_solver)) as (? & ? & Hqn). split_and!; [done..|].
      cbn [s_add_edge sp_g]. rewrite HA. cbn [ag_edges]. rewrite lookup_insert_ne; [done|].
      intros Heq. apply Hp. rewrite Heq. by apply elem_of_list_fmap_1.
    - intros qs s' Hb. by eapply built_cons.
  Qed.
  Lemma edges_loop n ps : ∀ k g s, (N.of_nat n ≤ id_card idt)%N → wrel g s → numbered n (sp_g s) → fresh n s ps →
    ∃ k' g' s', rfold (gen_edge dir idt R) ps (k, g) = Ok (k', g') ∧ wrel g' s' ∧ built ps s s'.
  Proof.
    induction ps as [|p ps IH]; intros k g s Hfit Hr Hn Hf.
    { do 3 eexists. split; [done|]. split; [done|]. apply built_nil. }
    cbn [rfold]. destruct (proj2 Hf p ltac:(set_solver)) as (? & ? & ?).
    destruct (edge_step n k g s p) as (k1 & g1 & l & -> & Hr1 & Hl); [done..|]. cbn [rbind].
    destruct (fresh_step n s p ps l) as (Hf1 & Hn1 & Hd1 & Hb); [done|done|apply (r_abs _ _ _ _ _ Hr)|done|].
    destruct (IH k1 g1 _ Hfit Hr1 Hn1 Hf1) as (k' & g' & s' & -> & Hr' & Hb'). do 3 eexists. split; [done|]. split; [done|].
    by apply Hb.
  Qed.
  Lemma gnp_loop p n ps : ∀ k g s, (N.of_nat n ≤ id_card idt)%N → wrel g s → numbered n (sp_g s) → fresh n s ps →
    ∃ k' g' s' qs, rfold (gnp_edge dir idt R p) ps (k, g) = Ok (k', g') ∧ wrel g' s' ∧ built qs s s' ∧ qs `sublist_of` ps ∧
      ((∀ j, SFltb (rng_f32 R j) p = true) → qs = ps) ∧ ((∀ j, SFltb (rng_f32 R j) p = false) → qs = []).
  Proof.
    induction ps as [|e ps IH]; intros k g s Hfit Hr Hn Hf.
    { do 4 eexists. split; [done|]. split; [done|]. split; [apply built_nil|]. done. }
    cbn [rfold]. unfold gnp_edge at 2, gen_f32. destruct (proj2 Hf e ltac:(set_solver)) as (? & ? & ?).
    destruct (SFltb (rng_f32 R k) p) eqn:Hk.
    - destruct (edge_step n (S k) g s e) as (k1 & g1 & l & -> & Hr1 & Hl); [done..|]. cbn [rbind].
      destruct (fresh_step n s e ps l) as (Hf1 & Hn1 & Hd1 & Hb); [done|done|apply (r_abs _ _ _ _ _ Hr)|done|].
      destruct (IH k1 g1 _ Hfit Hr1 Hn1 Hf1) as (k' & g' & s' & qs & -> & Hr' & Hb' & Hs & Ha & Hz).
      exists k', g', s', (e :: qs). split; [done|]. split; [done|]. split; [by apply Hb|]. split; [by constructor|]. split.
      + intros Hall. by rewrite Ha.
      + intros Hall. by rewrite Hall in Hk.
    - cbn [rbind]. destruct (IH (S k) g s Hfit Hr Hn) as (k' & g' & s' & qs & -> & Hr' & Hb' & Hs & Ha & Hz).
      { destruct Hf as [Hf1 Hf2]. rewrite fmap_cons in Hf1. apply NoDup_cons in Hf1 as [_ Hf1]. split; [done|]. set_solver. }
      exists k', g', s', qs. split; [done|]. split; [done|]. split; [done|]. split; [by constructor|]. split.
      + intros Hall. by rewrite Hall in Hk.
      + done.
  Qed.

  (** *** From the construction to the view *)
  Lemma pkey_inj_dir p q : pkey p = pkey q →
    if dir then p = q else p = q ∨ (p.1 = q.2 ∧ p.2 = q.1).
  Proof.
    destruct p as [a b], q as [c d]. unfold pkey, ekey. destruct dir; simpl; intros [=].
    - f_equal; lia.
    - destruct (decide (a = c)); [left; f_equal; lia|right; lia].
  Qed.
  Lemma pairs_fresh n s ps : ag_edges (sp_g s) = ∅ → NoDup ps → (∀ p, p ∈ ps → p ∈ complete_edge_pairs dir n) → fresh n s ps.
  Proof.
    intros He Hnd Hin. split.
    - apply NoDup_alt. intros i j k Hi Hj.
      apply list_lookup_fmap_inv in Hi as (p & -> & Hi). apply list_lookup_fmap_inv in Hj as (q & Hk & Hj).
      apply pkey_inj_dir in Hk.
      pose proof (Hin p (elem_of_list_lookup_2 _ _ _ Hi)) as Hp. pose proof (Hin q (elem_of_list_lookup_2 _ _ _ Hj)) as Hq.
      destruct p as [a b], q as [c d]. apply elem_of_pairs in Hp, Hq. destruct dir.
      + simplify_eq. by eapply NoDup_lookup.
      + destruct Hk as [Hk|Hk]; [simplify_eq; by eapply NoDup_lookup|]. simpl in Hk. lia.
    - intros [a b] Hp%Hin%elem_of_pairs. simpl. split_and!; try lia. rewrite He. apply lookup_empty.
  Qed.
  Lemma built_shows_at n nls els g s s' qs : wrel g s' → empty_inv n (sm_from_vec nls) (sm_from_vec els) s →
    ag_dir (sp_g s) = dir → built qs s s' → (∀ p, p ∈ qs → p ∈ complete_edge_pairs dir n) →
    let A := sp_g (relabel s') in (∀ it, hash_order g it → shows_random dir n nls els (gm_view dir it g) A) ∧
      a_num_edges A = length qs ∧
      ∀ x y, a_has_edge A x y ↔ ∃ p, p ∈ qs ∧ ekey dir x y = pkey p.
  Proof.
    intros Hr (E1 & E2 & E3 & E4 & E5 & E6) Hd [B1 B2 B3 B4 B5 B6 B7 B8] Hin.
    apply wrel_lrel in Hr as Hl. intros A. subst A.
    assert (ag_dir (sp_g s') = dir) as Hd' by congruence.
    assert (∀ x y, a_has_edge (sp_g (relabel s')) x y ↔ ∃ p, p ∈ qs ∧ ekey dir x y = pkey p) as Hedge.
    { intros x y. unfold a_has_edge, a_edge_at. cbn [relabel sp_g ag_edges ag_dir]. rewrite Hd', lookup_fmap, fmap_is_Some, B5, E4.
      rewrite lookup_empty, elem_of_list_fmap. split; [intros [[? ?]|(p & ? & ?)]; [done|by eauto]|intros (p & ? & ?); right; eauto]. }
    assert (a_num_edges (sp_g (relabel s')) = length qs) as Hnum.
    { unfold a_num_edges. cbn [relabel sp_g ag_edges]. rewrite map_size_fmap, B7, E4, map_size_empty. lia. }
    split_and!; [|done|done].
    intros it Hit. destruct (lrel_view dir g _ it Hl Hit) as (V1 & V2 & V3 & V4 & _ & _ & _).
    split; try done.
    - unfold exact_count. rewrite V4, Hnum. cbn [relabel sp_count]. lia.
    - intros x. unfold a_has_node. cbn [relabel sp_g ag_nodes]. rewrite lookup_fmap, fmap_is_Some, B4. apply E5.
    - intros x (p & Hp & Hk)%Hedge. apply Hin in Hp. destruct p as [a b]. apply elem_of_pairs in Hp.
      unfold pkey, ekey in Hk. destruct dir; simpl in Hk; injection Hk; intros; lia.
    - split.
      + intros x l. cbn [relabel sp_g ag_nodes]. rewrite lookup_fmap, fmap_Some, B4. intros (l' & Hx & ->).
        apply drawn_from_vec. rewrite B1, E1. apply rewrap_drawn; [apply from_vec_NoDup|]. by eapply E6.
      + intros x y l. unfold a_edge_at. cbn [relabel sp_g ag_edges ag_dir]. rewrite lookup_fmap, fmap_Some. intros (l' & Hx & ->).
        apply drawn_from_vec. rewrite B2, E2. apply rewrap_drawn; [apply from_vec_NoDup|].
        apply B6 in Hx as [Hx|Hx]; [by rewrite E4, lookup_empty in Hx|by rewrite E2 in Hx].
  Qed.
  Lemma built_shows n nls els g s s' qs : wrel g s' → empty_inv n (sm_from_vec nls) (sm_from_vec els) s →
    ag_dir (sp_g s) = dir → built qs s s' → (∀ p, p ∈ qs → p ∈ complete_edge_pairs dir n) →
    ∃ A, (∀ it, hash_order g it → shows_random dir n nls els (gm_view dir it g) A) ∧
      a_num_edges A = length qs ∧
      ∀ x y, a_has_edge A x y ↔ ∃ p, p ∈ qs ∧ ekey dir x y = pkey p.
  Proof. intros H1 H2 H3 H4 H5. eexists. exact (built_shows_at n nls els g s s' qs H1 H2 H3 H4 H5). Qed.
  Lemma empty_numbered n nls els s : empty_inv n nls els s → numbered n (sp_g s).
  Proof. by intros (_ & _ & _ & _ & H & _). Qed.

  Lemma empty_graph_thm n nls els k : (N.of_nat n ≤ id_card idt)%N →
    ∃ k' g, empty_graph idt R n nls els k = Ok (k', g) ∧
    ∃ A, (∀ it, hash_order g it → shows_random dir n nls els (gm_view dir it g) A) ∧ edge_free A.
  Proof.
    intros Hf. destruct (empty_thm n nls els k Hf) as (k' & g & s & -> & Hr & Hi). exists k', g. split; [done|].
    destruct (built_shows n nls els g s s [] Hr Hi) as (A & HA & _ & He); [apply (r_abs _ _ _ _ _ Hr)|apply built_nil|set_solver|].
    exists A. split; [done|]. intros x y (p & Hp & _)%He. by apply elem_of_nil in Hp.
  Qed.
  Lemma complete_edges n x y : (∃ p, p ∈ complete_edge_pairs dir n ∧ ekey dir x y = pkey p) ↔
    ((x < N.of_nat n) ∧ (y < N.of_nat n) ∧ x ≠ y)%N.
  Proof.
    split.
    - intros ([a b] & Hp%elem_of_pairs & Hk). unfold pkey, ekey in Hk. destruct dir; simpl in Hk; injection Hk; intros; lia.
    - intros (Hx & Hy & Hne). destruct (decide (x < y)%N).
      + exists (N.to_nat x, N.to_nat y). rewrite elem_of_pairs. unfold pkey. simpl. rewrite !N2Nat.id. split; [|done].
        destruct dir; lia.
      + destruct (decide (dir = true)) as [Hd|Hd%not_true_is_false].
        * exists (N.to_nat x, N.to_nat y). rewrite elem_of_pairs. unfold pkey. simpl. rewrite !N2Nat.id, Hd. split; [|done]. lia.
        * exists (N.to_nat y, N.to_nat x). rewrite elem_of_pairs. unfold pkey, ekey. simpl. rewrite !N2Nat.id, Hd.
          split; [lia|]. f_equal; lia.
  Qed.
  Lemma complete_thm n nls els : (N.of_nat n ≤ id_card idt)%N →
    ∃ g, complete_graph dir idt R n nls els = Ok g ∧
    ∃ A, (∀ it, hash_order g it → shows_random dir n nls els (gm_view dir it g) A) ∧
      all_joined A ∧ a_num_edges A = max_edges dir n.
  Proof.
    intros Hf. unfold complete_graph. destruct (empty_thm n nls els 0 Hf) as (k' & g & s & -> & Hr & Hi). cbn [rbind].
    pose proof Hi as (_ & _ & _ & He & Hn & _).
    destruct (edges_loop n (complete_edge_pairs dir n) k' g s Hf Hr Hn) as (k1 & g1 & s1 & -> & Hr1 & Hb1).
    { apply pairs_fresh; [done|apply pairs_NoDup|done]. }
    cbn [rbind]. exists g1. split; [done|].
    destruct (built_shows n nls els g1 s s1 (complete_edge_pairs dir n) Hr1 Hi) as (A & HA & Hnum & Hed); [apply (r_abs _ _ _ _ _ Hr)|done|done|].
    exists A. split; [done|]. rewrite Hnum, pairs_length. split; [|done].
    assert (numbered n A) as HnA.
    { apply (sr_nodes dir n nls els _ A (HA _ (Permutation_refl _))). }
    intros x y. rewrite Hed, complete_edges. rewrite (HnA x), (HnA y). done.
  Qed.
  Lemma gnm_thm n m nls els : (N.of_nat n ≤ id_card idt)%N →
    (max_edges dir n < m → random_gnm_graph dir idt R n m nls els = Panic) ∧
    (m ≤ max_edges dir n → ∃ g, random_gnm_graph dir idt R n m nls els = Ok g ∧
      ∃ A, (∀ it, hash_order g it → shows_random dir n nls els (gm_view dir it g) A) ∧ a_num_edges A = m).
  Proof.
    intros Hf. unfold random_gnm_graph. destruct (empty_thm n nls els 0 Hf) as (k' & g & s & -> & Hr & Hi). cbn [rbind].
    pose proof Hi as (_ & _ & _ & He & Hn & _).
    pose proof (sample_spec R (complete_edge_pairs dir n) m k' (pairs_NoDup dir n)) as Hs.
    rewrite pairs_length in Hs. destruct (decide (m ≤ max_edges dir n)).
    - split; [lia|]. intros _. destruct Hs as (qs & k2 & -> & Hlen & Hnd & Hin).
      destruct (edges_loop n qs k2 g s Hf Hr Hn) as (k1 & g1 & s1 & -> & Hr1 & Hb1).
      { by apply pairs_fresh. }
      cbn [rbind]. exists g1. split; [done|].
      destruct (built_shows n nls els g1 s s1 qs Hr1 Hi) as (A & HA & Hnum & Hed); [apply (r_abs _ _ _ _ _ Hr)|done|done|].
      exists A. by rewrite Hnum.
    - split; [|lia]. intros _. by destruct Hs as (k2 & ->).
  Qed.
  Lemma gnp_thm n p nls els : (N.of_nat n ≤ id_card idt)%N → is_f32 p →
    (∀ j, is_f32 (rng_f32 R j) ∧ below_one (rng_f32 R j)) →
    (p ≠ S754_nan → ¬ in_unit p → random_gnp_graph dir idt R n p nls els = Panic) ∧
    (in_unit p ∨ p = S754_nan → ∃ g, random_gnp_graph dir idt R n p nls els = Ok g ∧
      ∃ A, (∀ it, hash_order g it → shows_random dir n nls els (gm_view dir it g) A) ∧
        (is_zero p ∨ p = S754_nan → edge_free A) ∧ (p = f32_one → all_joined A)).
  Proof.
    intros Hf Hp Hdraw. split.
    { intros Hnan Hu. unfold random_gnp_graph. rewrite <-(unit_check p) in Hu by done. apply not_false_is_true in Hu. by rewrite Hu. }
    intros Hu. unfold random_gnp_graph.
    assert (SFltb p (S754_zero false) || SFltb (S754_finite false 8388608 (-23)) p = false) as ->.
    { destruct Hu as [Hu| ->]; [|done]. apply unit_check; [done| |done]. by intros ->. }
    destruct (empty_thm n nls els 0 Hf) as (k' & g & s & -> & Hr & Hi). cbn [rbind].
    pose proof Hi as (_ & _ & _ & He & Hn & _).
    destruct (gnp_loop p n (complete_edge_pairs dir n) k' g s Hf Hr Hn) as (k1 & g1 & s1 & qs & -> & Hr1 & Hb1 & Hsub & Hall & Hnone).
    { apply pairs_fresh; [done|apply pairs_NoDup|done]. }
    cbn [rbind]. exists g1. split; [done|].
    destruct (built_shows n nls els g1 s s1 qs Hr1 Hi) as (A & HA & Hnum & Hed); [apply (r_abs _ _ _ _ _ Hr)|done| |].
    { intros e He'. eapply elem_of_submseteq; [exact He'|]. by apply sublist_submseteq. }
    exists A. split; [done|]. split.
    - intros Hz. rewrite Hnone in Hed.
      + intros x y (e & Hx & _)%Hed. by apply elem_of_nil in Hx.
      + intros j. destruct Hz as [Hz| ->]; [|apply nothing_below_nan]. apply draw_not_below_zero; [apply Hdraw|done].
    - intros ->. rewrite Hall in Hed; [|intros j; apply draw_below_one; apply Hdraw].
      assert (numbered n A) as HnA. { apply (sr_nodes dir n nls els _ A (HA _ (Permutation_refl _))). }
      intros x y. rewrite Hed, complete_edges. rewrite (HnA x), (HnA y). done.
  Qed.
End gen.
