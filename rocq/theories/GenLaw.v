(** Which draw decides what in a generated graph (C107). *)
From Coq Require Import Factorial.
From stdpp Require Import gmap.
From Coq.Floats Require Import SpecFloat.
From Verif Require Import Base BaseFacts Api Spec Map MapFacts SpecFacts SpecLabelHist LabelHist GraphMap GraphMapFacts GraphMapRefine GraphMapThms SpecGen SpecGenWrap Gen GenFacts GenProps
  SpecGenLaw Reservoir ImportAny.

Definition takes {X} (ls : list X) : nat := match ls with [] => 0 | _ => 1 end.
Definition pick {X} (ls : list X) (d : nat) : option X := ls !! (d mod length ls).
Lemma random_label_is {X} R (ls : list X) k : random_label R ls k = (pick ls (rng_int R k), k + takes ls).
Proof. unfold random_label, pick. destruct ls as [|x ls]; cbn [takes]; [by rewrite Nat.add_0_r|]. unfold gen_range, sm_get_item. by rewrite Nat.add_1_r. Qed.
Lemma pick_drawn {X} (ls : list X) d : drawn ls (pick ls d).
Proof.
  unfold pick. destruct ls as [|x ls]; [done|]. destruct (lookup_lt_is_Some_2 (x :: ls) (d mod length (x :: ls))) as [y Hy].
  { by apply Nat.mod_upper_bound. }
  rewrite Hy. by eapply elem_of_list_lookup_2.
Qed.
Lemma pick_picked {X} `{EqDecision X} (ls : list X) d : pick (sm_from_vec ls) d = picked ls d.
Proof. unfold pick, picked. by rewrite from_vec_first. Qed.
Lemma takes_draws {X} `{EqDecision X} n (ls : list X) : n * takes (sm_from_vec ls) = label_draws n ls.
Proof. rewrite from_vec_first. destruct ls; cbn; lia. Qed.
Lemma pick_takes {X} (R : rng) (ls : list X) k j : pick ls (rng_int R (k + j * takes ls)) = pick ls (rng_int R (k + j)).
Proof. destruct ls as [|x ls]; [done|]. cbn [takes]. by rewrite Nat.mul_1_r. Qed.

(** The draw that decides the j-th pair of random_gnp_graph: a draw for every pair before, and one for the label of every edge. *)
Fixpoint gpos (acc : nat → bool) (t k j : nat) : nat :=
  match j with O => k | S j => gpos acc t (S k + (if acc k then t else 0)) j end.
Lemma gpos_ge acc t k j : k + j ≤ gpos acc t k j.
Proof. revert k. induction j as [|j IH]; intros k; cbn [gpos]; [lia|]. specialize (IH (S k + (if acc k then t else 0))). lia. Qed.
Lemma gpos_lt acc t k i j : i < j → gpos acc t k i + (if acc (gpos acc t k i) then t else 0) < gpos acc t k j.
Proof.
  revert k j. induction i as [|i IH]; intros k [|j] Hij; [lia| |lia|]; cbn [gpos].
  - pose proof (gpos_ge acc t (S k + (if acc k then t else 0)) j). lia.
  - apply IH. lia.
Qed.
Lemma gpos_inj acc t k i j : gpos acc t k i = gpos acc t k j → i = j.
Proof. intros H. destruct (lt_eq_lt_dec i j) as [[Hl|He]|Hl]; [|done|]; apply (gpos_lt acc t k) in Hl; lia. Qed.
Lemma gpos_adapted acc acc' t k j : (∀ i, i < gpos acc t k j → acc i = acc' i) → gpos acc' t k j = gpos acc t k j.
Proof.
  revert k. induction j as [|j IH]; intros k H; cbn [gpos] in *; [done|]. rewrite <-(H k); [by apply IH|].
  pose proof (gpos_ge acc t (S k + (if acc k then t else 0)) j). lia.
Qed.

Section law.
  Context {NL EL : Type} `{EqDecision NL, EqDecision EL} (dir : bool) (idt : idty) (R : rng).
  Notation wrel := (rel (NL:=NL) (EL:=EL) dir (wrap_rel idt) (wrap_rel idt)).
  Implicit Types (g : graphmap NL EL) (s : sstate NL EL).

  Lemma rewrap_fits {X} `{EqDecision X} (ls : list X) l : NoDup ls → (N.of_nat (length ls) ≤ id_card idt)%N → drawn ls l → rewrap idt ls l = l.
  Proof.
    intros Hn Hf Hl. destruct l as [x|]; [|done]. cbn in Hl. apply elem_of_list_lookup in Hl as [i Hi]. unfold rewrap. cbn [mbind option_bind].
    rewrite (index_of_lookup ls i x) by done. cbn [mbind option_bind]. apply lookup_lt_Some in Hi as Hlt. rewrite id_new_small by lia. by rewrite Nat2N.id.
  Qed.
  Lemma nodes_exact nls els a c k g s : (N.of_nat (a + c) ≤ id_card idt)%N → wrel g s → empty_inv a nls els s →
    ∃ g' s', rfold (gen_node idt R) (seq a c) (k, g) = Ok (k + c * takes nls, g') ∧ wrel g' s' ∧ empty_inv (a + c) nls els s' ∧
      (∀ i, i < c → ag_nodes (sp_g s') !! N.of_nat (a + i) = Some (pick nls (rng_int R (k + i)))) ∧
      (∀ x, (x < N.of_nat a)%N → ag_nodes (sp_g s') !! x = ag_nodes (sp_g s) !! x).
  Proof.
    revert a k g s. induction c as [|c IH]; intros a k g s Hfit Hr Hi.
    { exists g, s. split; [by rewrite Nat.add_0_r|]. split; [done|]. split; [by rewrite Nat.add_0_r|]. split; [lia|done]. }
    cbn [seq rfold]. unfold gen_node at 2. rewrite random_label_is. pose proof Hi as (H1 & H2 & H3 & H4 & H5 & H6).
    rewrite (r_nls _ _ _ _ _ Hr), H1. pose proof (pick_drawn nls (rng_int R k)) as Hl. set (l := pick nls (rng_int R k)) in *.
    destruct (wrel_add_node dir idt g s (id_new idt a) l Hr) as (b & g1 & -> & Hr1). cbn [rbind].
    rewrite id_new_small in Hr1 by lia.
    destruct (IH (S a) (k + takes nls) g1 (s_add_node (N.of_nat a) l s)) as (g' & s' & E1 & E2 & E3 & E4 & E5); [lia|done| |].
    { unfold empty_inv. cbn [s_add_node sp_nls sp_els sp_count sp_g a_add_node ag_edges]. rewrite H1. split_and!; try done.
      - by apply register_drawn.
      - intros x. unfold a_has_node in *. cbn [a_add_node ag_nodes]. destruct (decide (x = N.of_nat a)) as [->|Hne].
        + rewrite lookup_insert. split; [lia|by eexists].
        + rewrite lookup_insert_ne by done. rewrite H5. lia.
      - intros x l' Hx. cbn [a_add_node ag_nodes] in Hx. apply lookup_insert_Some in Hx as [[_ <-]|[_ Hx]]; [done|]. by eapply H6. }
    exists g', s'. rewrite E1. split; [f_equal; f_equal; lia|]. split; [done|]. split; [by replace (a + S c) with (S a + c) by lia|]. split.
    - intros [|i] Hlt.
      + rewrite !Nat.add_0_r, E5 by lia. cbn [s_add_node sp_g a_add_node ag_nodes]. apply lookup_insert.
      + replace (a + S i) with (S a + i) by lia. rewrite E4 by lia. f_equal. destruct nls as [|x nls]; [done|]. cbn [takes]. f_equal. f_equal. lia.
    - intros x Hx. rewrite E5 by lia. cbn [s_add_node sp_g a_add_node ag_nodes]. rewrite lookup_insert_ne by lia. done.
  Qed.
  Lemma empty_exact n nls els : (N.of_nat n ≤ id_card idt)%N →
    ∃ g s, empty_graph idt R n nls els 0 = Ok (label_draws n nls, g) ∧ wrel g s ∧ empty_inv n (sm_from_vec nls) (sm_from_vec els) s ∧
      ∀ i, i < n → ag_nodes (sp_g s) !! N.of_nat i = Some (picked nls (rng_int R i)).
  Proof.
    intros Hf. destruct (nodes_exact (sm_from_vec nls) (sm_from_vec els) 0 n 0 (gm_with_label_map (sm_from_vec nls) (sm_from_vec els)) (s_init dir (sm_from_vec nls) (sm_from_vec els)))
      as (g' & s' & E1 & E2 & E3 & E4 & _); [done|apply rel_init; apply from_vec_NoDup| |].
    - unfold empty_inv. cbn. split_and!; try done. intros x. split; [by intros [? ?]|lia].
    - exists g', s'. unfold empty_graph. rewrite E1. split; [cbn [plus]; by rewrite takes_draws|]. split; [done|]. split; [done|]. intros i Hi. rewrite <-pick_picked. by apply (E4 i).
  Qed.

  Lemma add_edge_at n s p ps l : fresh dir n s (p :: ps) → numbered n (sp_g s) → ag_dir (sp_g s) = dir →
    ag_edges (sp_g (s_add_edge (N.of_nat p.1) (N.of_nat p.2) l s)) = <[pkey dir p := l]> (ag_edges (sp_g s)).
  Proof.
    intros [_ Hf] Hn Hd. destruct (Hf p ltac:(by left)) as (Hp1 & Hp2 & _).
    assert (a_has_node (sp_g s) (N.of_nat p.1)) as [l1 H1] by (apply Hn; lia). assert (a_has_node (sp_g s) (N.of_nat p.2)) as [l2 H2] by (apply Hn; lia).
    cbn [s_add_edge sp_g]. unfold a_add_edge.
    assert (a_touch (N.of_nat p.2) (a_touch (N.of_nat p.1) (sp_g s)) = sp_g s) as ->.
    { unfold a_touch at 2. rewrite H1. unfold a_touch. by rewrite H2. }
    cbn [ag_edges]. by rewrite Hd.
  Qed.
  Lemma edge_exact n k g s p els : (N.of_nat n ≤ id_card idt)%N → wrel g s → numbered n (sp_g s) → sp_els s = els → p.1 < n → p.2 < n →
    ∃ g', gen_edge dir idt R (k, g) p = Ok (k + takes els, g') ∧ wrel g' (s_add_edge (N.of_nat p.1) (N.of_nat p.2) (pick els (rng_int R k)) s).
  Proof.
    intros Hfit Hr Hn He H1 H2. unfold gen_edge. rewrite random_label_is. rewrite (r_els _ _ _ _ _ Hr), He.
    destruct (wrel_add_edge dir idt g s (id_new idt p.1) (id_new idt p.2) (pick els (rng_int R k)) Hr) as (b & g1 & -> & Hr1). cbn [rbind].
    rewrite !id_new_small in Hr1 by lia. by exists g1.
  Qed.
  Lemma els_kept s p l els : sp_els s = els → drawn els l → sp_els (s_add_edge (N.of_nat p.1) (N.of_nat p.2) l s) = els.
  Proof. intros <- Hl. cbn [s_add_edge sp_els]. by apply register_drawn. Qed.
  Lemma edges_exact n els ps : ∀ k g s, (N.of_nat n ≤ id_card idt)%N → wrel g s → numbered n (sp_g s) → fresh dir n s ps → sp_els s = els →
    ∃ g' s', rfold (gen_edge dir idt R) ps (k, g) = Ok (k + length ps * takes els, g') ∧ wrel g' s' ∧ built dir ps s s' ∧
      (∀ j p, ps !! j = Some p → ag_edges (sp_g s') !! pkey dir p = Some (pick els (rng_int R (k + j)))) ∧
      (∀ e, e ∉ pkey dir <$> ps → ag_edges (sp_g s') !! e = ag_edges (sp_g s) !! e).
  Proof.
    induction ps as [|p ps IH]; intros k g s Hfit Hr Hn Hf He.
    { exists g, s. split; [by rewrite Nat.add_0_r|]. split; [done|]. split; [apply built_nil|]. done. }
    cbn [rfold]. destruct (proj2 Hf p ltac:(by left)) as (Hp1 & Hp2 & _). pose proof (pick_drawn els (rng_int R k)) as Hl.
    destruct (edge_exact n k g s p els) as (g1 & -> & Hr1); [done..|]. cbn [rbind]. assert (ag_dir (sp_g s) = dir) as Hd by apply (r_abs _ _ _ _ _ Hr).
    rewrite <-He in Hl. destruct (fresh_step dir n s p ps _ Hf Hn Hd Hl) as (Hf1 & Hn1 & Hd1 & Hb). rewrite He in *.
    destruct (IH (k + takes els) g1 _ Hfit Hr1 Hn1 Hf1) as (g' & s' & -> & E2 & E3 & E4 & E5); [by apply els_kept|].
    rewrite (add_edge_at n s p ps _ Hf Hn Hd) in E5.
    assert (pkey dir p ∉ pkey dir <$> ps) as Hp. { destruct Hf as [Hf _]. rewrite fmap_cons in Hf. by apply NoDup_cons in Hf as [? _]. }
    exists g', s'. split; [f_equal; f_equal; cbn [length]; lia|]. split; [done|]. split; [by apply Hb|]. split.
    - intros [|j] q Hq; cbn in Hq.
      + injection Hq as <-. rewrite E5 by done. rewrite Nat.add_0_r. apply lookup_insert.
      + rewrite (E4 j q Hq). f_equal. destruct els as [|x els]; [done|]. cbn [takes]. f_equal. f_equal. lia.
    - intros e Hin. rewrite fmap_cons in Hin. apply not_elem_of_cons in Hin as [H1 H2]. rewrite E5 by done. by rewrite lookup_insert_ne.
  Qed.
  Lemma gnp_exact p n els ps : let acc k := SFltb (rng_f32 R k) p in ∀ k g s, (N.of_nat n ≤ id_card idt)%N → wrel g s → numbered n (sp_g s) → fresh dir n s ps → sp_els s = els →
    ∃ k' g' s' qs, rfold (gnp_edge dir idt R p) ps (k, g) = Ok (k', g') ∧ wrel g' s' ∧ built dir qs s s' ∧ qs `sublist_of` ps ∧
      (∀ j e, ps !! j = Some e → ag_edges (sp_g s') !! pkey dir e =
        if acc (gpos acc (takes els) k j) then Some (pick els (rng_int R (S (gpos acc (takes els) k j)))) else None) ∧
      (∀ e, e ∉ pkey dir <$> ps → ag_edges (sp_g s') !! e = ag_edges (sp_g s) !! e).
  Proof.
    intros acc. induction ps as [|e ps IH]; intros k g s Hfit Hr Hn Hf He.
    { exists k, g, s, []. split; [done|]. split; [done|]. split; [apply built_nil|]. done. }
    cbn [rfold]. unfold gnp_edge at 2, gen_f32. destruct (proj2 Hf e ltac:(by left)) as (Hp1 & Hp2 & Hno). change (SFltb (rng_f32 R k) p) with (acc k).
    assert (pkey dir e ∉ pkey dir <$> ps) as Hp. { destruct Hf as [Hf _]. rewrite fmap_cons in Hf. by apply NoDup_cons in Hf as [? _]. }
    destruct (acc k) eqn:Hk.
    - pose proof (pick_drawn els (rng_int R (S k))) as Hl.
      destruct (edge_exact n (S k) g s e els) as (g1 & -> & Hr1); [done..|]. cbn [rbind]. assert (ag_dir (sp_g s) = dir) as Hd by apply (r_abs _ _ _ _ _ Hr).
      rewrite <-He in Hl. destruct (fresh_step dir n s e ps _ Hf Hn Hd Hl) as (Hf1 & Hn1 & Hd1 & Hb). rewrite He in *.
      destruct (IH (S k + takes els) g1 _ Hfit Hr1 Hn1 Hf1) as (k' & g' & s' & qs & -> & E2 & E3 & E6 & E4 & E5); [by apply els_kept|].
      rewrite (add_edge_at n s e ps _ Hf Hn Hd) in E5.
      exists k', g', s', (e :: qs). split; [done|]. split; [done|]. split; [by apply Hb|]. split; [by constructor|]. split.
      + intros [|j] q Hq; cbn in Hq; cbn [gpos].
        * injection Hq as <-. rewrite E5 by done. rewrite Hk. apply lookup_insert.
        * rewrite Hk. by apply E4.
      + intros q Hin. rewrite fmap_cons in Hin. apply not_elem_of_cons in Hin as [H1 H2]. rewrite E5 by done. by rewrite lookup_insert_ne.
    - cbn [rbind]. destruct (IH (S k) g s Hfit Hr Hn) as (k' & g' & s' & qs & -> & E2 & E3 & E6 & E4 & E5); [|done|].
      { destruct Hf as [Hf1 Hf2]. rewrite fmap_cons in Hf1. apply NoDup_cons in Hf1 as [_ Hf1]. split; [done|]. intros q Hq. apply Hf2. by right. }
      exists k', g', s', qs. split; [done|]. split; [done|]. split; [done|]. split; [by constructor|]. split.
      + intros [|j] q Hq; cbn in Hq; cbn [gpos].
        * injection Hq as <-. rewrite E5 by done. by rewrite Hk.
        * rewrite Hk, Nat.add_0_r. by apply E4.
      + intros q Hin. rewrite fmap_cons in Hin. apply not_elem_of_cons in Hin as [H1 H2]. by apply E5.
  Qed.

  (** ** The graph *)
  Context (n : nat) (nls : list NL) (els : list EL) (Hfit : (N.of_nat n ≤ id_card idt)%N).
  Lemma final_labels s s' qs : (N.of_nat (length (first_uses nls)) ≤ id_card idt)%N → empty_inv n (sm_from_vec nls) (sm_from_vec els) s → built dir qs s s' →
    (∀ i, i < n → ag_nodes (sp_g s) !! N.of_nat i = Some (picked nls (rng_int R i))) →
    ∀ i, i < n → ag_nodes (sp_g (relabel idt s')) !! N.of_nat i = Some (picked nls (rng_int R i)).
  Proof.
    intros Hl (E1 & _) Hb Hi i Hlt. cbn [relabel sp_g ag_nodes]. rewrite lookup_fmap, (b_nodes _ _ _ _ Hb), Hi by done. cbn [fmap option_fmap option_map]. f_equal.
    rewrite (b_nls _ _ _ _ Hb), E1. apply rewrap_fits; [apply from_vec_NoDup|by rewrite from_vec_first|]. rewrite <-pick_picked. apply pick_drawn.
  Qed.
  Lemma final_edge s s' qs x y d : (N.of_nat (length (first_uses els)) ≤ id_card idt)%N → empty_inv n (sm_from_vec nls) (sm_from_vec els) s → built dir qs s s' → ag_dir (sp_g s) = dir →
    ag_edges (sp_g s') !! ekey dir x y = Some (pick (sm_from_vec els) d) → a_edge_at (sp_g (relabel idt s')) x y = Some (picked els d).
  Proof.
    intros Hl (_ & E2 & _) Hb Hd Hx. unfold a_edge_at. cbn [relabel sp_g ag_edges ag_dir]. rewrite (b_dir _ _ _ _ Hb), Hd, lookup_fmap, Hx. cbn [fmap option_fmap option_map]. f_equal.
    rewrite (b_els _ _ _ _ Hb), E2. rewrite pick_picked. apply rewrap_fits; [apply from_vec_NoDup|by rewrite from_vec_first|]. rewrite <-pick_picked. apply pick_drawn.
  Qed.
End law.

(** ** What a generator makes of its draws *)
Definition idx (dir : bool) (ps : list (nat * nat)) (e : N * N) : nat :=
  match list_find (λ p, pkey dir p = ekey dir e.1 e.2) ps with Some (j, _) => j | None => 0 end.
Lemma idx_spec dir ps x y : (∃ p, p ∈ ps ∧ ekey dir x y = pkey dir p) → ∃ p, ps !! idx dir ps (x, y) = Some p ∧ ekey dir x y = pkey dir p.
Proof.
  intros (p & Hp & Hk). unfold idx. cbn [fst snd]. destruct (list_find_elem_of (λ p, pkey dir p = ekey dir x y) ps p) as ([j q] & E); [done|by symmetry|].
  rewrite E. apply list_find_Some in E as (E1 & E2 & _). by exists q.
Qed.
Lemma idx_apart dir ps x y x' y' : (∃ p, p ∈ ps ∧ ekey dir x y = pkey dir p) → (∃ p, p ∈ ps ∧ ekey dir x' y' = pkey dir p) →
  idx dir ps (x, y) = idx dir ps (x', y') → x = x' ∧ y = y' ∨ dir = false ∧ x = y' ∧ y = x'.
Proof.
  intros (p & H1 & H2)%idx_spec (q & H3 & H4)%idx_spec He. rewrite He, H3 in H1. injection H1 as ->. apply ekey_eq. congruence.
Qed.
Lemma joins_keys {NL EL} dir qs (A : agraph NL EL) : joins dir qs A ↔ ∀ x y, a_has_edge A x y ↔ ∃ p, p ∈ qs ∧ ekey dir x y = pkey dir p.
Proof.
  unfold joins. split; intros H x y; rewrite H; apply exist_proper; intros p; apply and_iff_compat_l; unfold pkey; by rewrite ekey_eq.
Qed.
Lemma joins_same {NL EL} dir n S T (A : agraph NL EL) : pairs_below dir n S → pairs_below dir n T → joins dir S A → joins dir T A → ∀ p, p ∈ S → p ∈ T.
Proof.
  intros [_ HS] [_ HT] H1 H2 [a b] Hp. assert (a_has_edge A (N.of_nat a) (N.of_nat b)) as He. { apply H1. exists (a, b). split; [done|]. by left. }
  apply H2 in He as ([c d] & Hc & Hk). destruct (HS _ Hp) as (_ & _ & S1). destruct (HT _ Hc) as (_ & _ & T1). cbn in *.
  destruct Hk as [[K1 K2]|(-> & K1 & K2)]; [|lia]. apply Nat2N.inj in K1, K2. by subst.
Qed.
Lemma joins_iff {NL EL} dir S T (A : agraph NL EL) : (∀ p, p ∈ S ↔ p ∈ T) → joins dir S A → joins dir T A.
Proof. unfold joins. intros He H x y. rewrite H. apply exist_proper. intros p. by rewrite He. Qed.
Lemma in_pairs dir n p : p ∈ complete_edge_pairs dir n ↔ p.2 < n ∧ p.1 < n ∧ if dir then p.1 ≠ p.2 else p.1 < p.2.
Proof. destruct p as [a b]. rewrite elem_of_pairs. cbn. destruct dir; lia. Qed.
Lemma with_draws_below R k ds i : i < k → rng_int (with_draws R k ds) i = rng_int R i.
Proof. intros Hi. cbn. rewrite decide_False by lia. done. Qed.
Lemma rdraws_with R k b ds : outcome (seq b (length ds)) ds → rdraws (with_draws R k ds) k b (length ds) = ds.
Proof.
  intros Ho. apply list_eq_same_length with (length ds); [done|unfold rdraws; by rewrite fmap_length, seq_length|].
  intros i x y Hi Hx Hy. unfold rdraws in Hx. rewrite list_lookup_fmap, lookup_seq_lt in Hx by done. cbn in Hx. injection Hx as <-.
  rewrite decide_True by lia. replace (k + i - k) with i by lia. rewrite Hy. cbn [default from_option]. apply Nat.mod_small.
  destruct (Forall2_lookup_l _ _ _ _ _ Ho Hy) as (z & Hz & Hlt). rewrite lookup_seq_lt in Hz by done. injection Hz as <-. done.
Qed.
Lemma rdraws_outcome R k b len : 0 < b → outcome (seq b len) (rdraws R k b len).
Proof.
  intros Hb. unfold outcome, rdraws. apply Forall2_fmap_l. apply Forall2_same_length_lookup. split; [by rewrite !seq_length|].
  intros i x y Hx Hy. apply lookup_seq in Hx as [-> Hi]. rewrite lookup_seq_lt in Hy by done. injection Hy as <-. cbn. apply Nat.mod_upper_bound. lia.
Qed.
Lemma rdraws_ext R R' k b len : (∀ i, i < k + len → rng_int R i = rng_int R' i) → rdraws R k b len = rdraws R' k b len.
Proof. intros H. unfold rdraws. apply list_fmap_ext. intros i x [-> Hi]%lookup_seq. cbn. by rewrite H by lia. Qed.

Section laws.
  Context {NL EL : Type} `{EqDecision NL, EqDecision EL} (dir : bool) (idt : idty).
  Context (n : nat) (nls : list NL) (els : list EL) (Hfit : (N.of_nat n ≤ id_card idt)%N).
  Notation M := (max_edges dir n).
  (** The pairs that random_gnm_graph samples. *)
  Definition sampled (R : rng) (m : nat) : list (nat * nat) :=
    fill (rdraws R (label_draws n nls) (S m) (M - m)) (drop m (complete_edge_pairs dir n)) (take m (complete_edge_pairs dir n)).
  Lemma sampled_props R m : m ≤ M → length (sampled R m) = m ∧ pairs_below dir n (sampled R m).
  Proof using.
    clear Hfit. intros Hm. pose proof (pairs_length dir n) as Hl.
    destruct (fill_props (drop m (complete_edge_pairs dir n)) (rdraws R (label_draws n nls) (S m) (M - m)) (take m (complete_edge_pairs dir n))) as (F1 & F2 & F3).
    - rewrite take_drop. apply pairs_NoDup.
    - unfold rdraws. rewrite fmap_length, seq_length, drop_length. lia.
    - unfold sampled. split; [rewrite F1, take_length; lia|]. split; [done|]. intros p Hp. apply in_pairs. rewrite <-(take_drop m (complete_edge_pairs dir n)). by apply elem_of_app, F3.
  Qed.
  Lemma sample_is R m : m ≤ M → sample_iter R (complete_edge_pairs dir n) m (label_draws n nls) = (Some (sampled R m), label_draws n nls + (M - m)).
  Proof using.
    clear Hfit. intros Hm. pose proof (pairs_length dir n) as Hl. unfold sample_iter. rewrite decide_True by (rewrite take_length; lia). rewrite reservoir_fill.
    rewrite drop_length, Hl. done.
  Qed.
  Lemma gnm_law R m : m ≤ M → ∃ g A, random_gnm_graph dir idt R n m nls els = Ok g ∧ (∀ it, hash_order g it → shows_random dir n nls els (gm_view dir it g) A) ∧
    joins dir (sampled R m) A ∧
    ((N.of_nat (length (first_uses nls)) ≤ id_card idt)%N → ∀ i, i < n → ag_nodes A !! N.of_nat i = Some (picked nls (rng_int R i))) ∧
    ((N.of_nat (length (first_uses els)) ≤ id_card idt)%N → ∀ x y, a_has_edge A x y →
      a_edge_at A x y = Some (picked els (rng_int R (label_draws n nls + (M - m) + idx dir (sampled R m) (x, y))))).
  Proof using Hfit.
    intros Hm. destruct (sampled_props R m Hm) as (P1 & P2 & P3). unfold random_gnm_graph.
    destruct (empty_exact dir idt R n nls els Hfit) as (g & s & -> & Hr & Hi & Hlab). cbn [rbind]. rewrite sample_is by done.
    pose proof Hi as (_ & Hels & _ & He & Hn & _). assert (ag_dir (sp_g s) = dir) as Hd by apply (r_abs _ _ _ _ _ Hr).
    destruct (edges_exact dir idt R n (sm_from_vec els) (sampled R m) (label_draws n nls + (M - m)) g s) as (g1 & s1 & -> & Hr1 & Hb & Hed & _); [done|done|done| |done|].
    { apply pairs_fresh; [done|done|]. intros p Hp. by apply in_pairs, P3. }
    cbn [rbind]. exists g1, (sp_g (relabel idt s1)). split; [done|].
    destruct (built_shows_at dir idt n nls els g1 s s1 (sampled R m) Hr1 Hi Hd Hb) as (HA & _ & Hj). { intros p Hp. by apply in_pairs, P3. }
    split; [done|]. split; [by apply joins_keys|]. split.
    - intros Hl. by apply (final_labels dir idt R n nls els s s1 (sampled R m)).
    - intros Hl x y Hxy. apply Hj in Hxy as (p & Hp & Hk)%idx_spec. apply (final_edge dir idt n nls els s s1 (sampled R m)); [done..|]. rewrite Hk. by apply Hed.
  Qed.
  Lemma complete_law R : ∃ g A, complete_graph dir idt R n nls els = Ok g ∧ (∀ it, hash_order g it → shows_random dir n nls els (gm_view dir it g) A) ∧
    (∀ x y, a_has_edge A x y ↔ (x < N.of_nat n ∧ y < N.of_nat n ∧ x ≠ y)%N) ∧
    ((N.of_nat (length (first_uses nls)) ≤ id_card idt)%N → ∀ i, i < n → ag_nodes A !! N.of_nat i = Some (picked nls (rng_int R i))) ∧
    ((N.of_nat (length (first_uses els)) ≤ id_card idt)%N → ∀ x y, a_has_edge A x y →
      a_edge_at A x y = Some (picked els (rng_int R (label_draws n nls + idx dir (complete_edge_pairs dir n) (x, y))))).
  Proof using Hfit.
    unfold complete_graph. destruct (empty_exact dir idt R n nls els Hfit) as (g & s & -> & Hr & Hi & Hlab). cbn [rbind].
    pose proof Hi as (_ & Hels & _ & He & Hn & _). assert (ag_dir (sp_g s) = dir) as Hd by apply (r_abs _ _ _ _ _ Hr).
    destruct (edges_exact dir idt R n (sm_from_vec els) (complete_edge_pairs dir n) (label_draws n nls) g s) as (g1 & s1 & -> & Hr1 & Hb & Hed & _); [done|done|done| |done|].
    { apply pairs_fresh; [done|apply pairs_NoDup|done]. }
    cbn [rbind]. exists g1, (sp_g (relabel idt s1)). split; [done|].
    destruct (built_shows_at dir idt n nls els g1 s s1 (complete_edge_pairs dir n) Hr1 Hi Hd Hb) as (HA & _ & Hj); [done|].
    split; [done|]. split; [intros x y; by rewrite Hj, complete_edges|]. split.
    - intros Hl. by apply (final_labels dir idt R n nls els s s1 (complete_edge_pairs dir n)).
    - intros Hl x y Hxy. apply Hj in Hxy as (p & Hp & Hk)%idx_spec. apply (final_edge dir idt n nls els s s1 (complete_edge_pairs dir n)); [done..|]. rewrite Hk. by apply Hed.
  Qed.
  (** The draw that decides about a pair. *)
  Definition decides (p : spec_float) (R : rng) (e : N * N) : nat :=
    gpos (λ k, SFltb (rng_f32 R k) p) (takes (sm_from_vec els)) (label_draws n nls) (idx dir (complete_edge_pairs dir n) e).
  Lemma gnp_law R p : is_f32 p → in_unit p ∨ p = S754_nan → ∃ g A, random_gnp_graph dir idt R n p nls els = Ok g ∧
    (∀ it, hash_order g it → shows_random dir n nls els (gm_view dir it g) A) ∧
    (∀ x y, a_has_edge A x y ↔ (x < N.of_nat n ∧ y < N.of_nat n ∧ x ≠ y)%N ∧ SFltb (rng_f32 R (decides p R (x, y))) p = true) ∧
    ((N.of_nat (length (first_uses nls)) ≤ id_card idt)%N → ∀ i, i < n → ag_nodes A !! N.of_nat i = Some (picked nls (rng_int R i))) ∧
    ((N.of_nat (length (first_uses els)) ≤ id_card idt)%N → ∀ x y, a_has_edge A x y →
      a_edge_at A x y = Some (picked els (rng_int R (S (decides p R (x, y)))))).
  Proof using Hfit.
    intros Hp Hu. unfold random_gnp_graph.
    assert (SFltb p (S754_zero false) || SFltb (S754_finite false 8388608 (-23)) p = false) as ->.
    { destruct Hu as [Hu| ->]; [|done]. apply unit_check; [done| |done]. by intros ->. }
    destruct (empty_exact dir idt R n nls els Hfit) as (g & s & -> & Hr & Hi & Hlab). cbn [rbind].
    pose proof Hi as (_ & Hels & _ & He & Hn & _). assert (ag_dir (sp_g s) = dir) as Hd by apply (r_abs _ _ _ _ _ Hr).
    destruct (gnp_exact dir idt R p n (sm_from_vec els) (complete_edge_pairs dir n) (label_draws n nls) g s) as (k1 & g1 & s1 & qs & -> & Hr1 & Hb & Hsub & Hed & Hno); [done|done|done| |done|].
    { apply pairs_fresh; [done|apply pairs_NoDup|done]. }
    cbn [rbind]. exists g1, (sp_g (relabel idt s1)). split; [done|].
    destruct (built_shows_at dir idt n nls els g1 s s1 qs Hr1 Hi Hd Hb) as (HA & _ & Hj).
    { intros e He'. eapply elem_of_submseteq; [exact He'|]. by apply sublist_submseteq. }
    assert (∀ x y, a_has_edge (sp_g (relabel idt s1)) x y ↔ is_Some (ag_edges (sp_g s1) !! ekey dir x y)) as Hsome.
    { intros x y. unfold a_has_edge, a_edge_at. cbn [relabel sp_g ag_edges ag_dir]. by rewrite (b_dir _ _ _ _ Hb), Hd, lookup_fmap, fmap_is_Some. }
    assert (∀ x y, a_has_edge (sp_g (relabel idt s1)) x y ↔ (x < N.of_nat n ∧ y < N.of_nat n ∧ x ≠ y)%N ∧ SFltb (rng_f32 R (decides p R (x, y))) p = true) as Hiff.
    { intros x y. rewrite Hsome. destruct (decide (ekey dir x y ∈ pkey dir <$> complete_edge_pairs dir n)) as [Hx|Hx].
      - assert (∃ q, q ∈ complete_edge_pairs dir n ∧ ekey dir x y = pkey dir q) as Hq by (apply elem_of_list_fmap in Hx; naive_solver).
        rewrite <-complete_edges. destruct (idx_spec dir _ x y Hq) as (q & Hq1 & Hq2). rewrite Hq2, (Hed _ q Hq1). unfold decides.
        destruct (SFltb _ p); split; [done|by eexists|by intros [? ?]|by intros [_ ?]].
      - rewrite Hno, He, lookup_empty by done. split; [by intros [? ?]|]. rewrite <-complete_edges. intros [(q & Hq1 & Hq2) _]. destruct Hx. apply elem_of_list_fmap. by exists q. }
    split; [done|]. split; [done|]. split.
    - intros Hl. by apply (final_labels dir idt R n nls els s s1 qs).
    - intros Hl x y Hxy. apply Hiff in Hxy as [Hx Ht]. apply (final_edge dir idt n nls els s s1 qs); [done..|].
      apply (complete_edges dir) in Hx. destruct (idx_spec dir _ x y Hx) as (q & Hq1 & Hq2). rewrite Hq2, (Hed _ q Hq1). unfold decides in *. by rewrite Ht.
  Qed.
End laws.
