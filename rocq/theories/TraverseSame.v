(** The order of a traversal is determined by the graph and the start. *)
From Verif Require Import Base BaseFacts Api Spec SpecFacts Map GraphMap Traverse SpecTraverse TraverseFacts TraverseRun TraverseProps.
From Verif Require Import GraphMapProps GraphMapThms Static IntoStatic IntoStaticProps.

Section same.
  Context {NL EL : Type} (A : agraph NL EL).
  (** An order that fixes the next node out of the nodes visited so far. *)
  Definition next_fixed (ord : list N → N → list N → Prop) : Prop :=
    ∀ pre r b b' i x x', ord pre r b → ord pre r b' → take (S i) b = take (S i) b' → b !! S i = Some x → b' !! S i = Some x' →
      x ∉ pre ++ take (S i) b → x' ∉ pre ++ take (S i) b → x = x'.
  Lemma discovered_take b b' i x j : take (S i) b = take (S i) b' → j ≤ i → discovered_at A b x j → discovered_at A b' x j.
  Proof.
    intros Ht Hj [(p & Hp & He) Hk].
    assert (∀ k, k ≤ i → b !! k = b' !! k) as Hb. { intros k Hle. rewrite <-(lookup_take b (S i) k), <-(lookup_take b' (S i) k) by lia. by rewrite Ht. }
    split; [exists p; split; [by rewrite <-Hb|done]|]. intros k p' Hlt Hp'. apply (Hk k); [done|]. rewrite Hb by lia. done.
  Qed.
  Lemma earliest_fixed : next_fixed (earliest_discovered A).
  Proof.
    intros pre r b b' i x x' Ho Ho' Ht Hx Hx' Hn Hn'.
    destruct (Ho i x Hx) as (j & Hj & Hd & Hmin). destruct (Ho' i x' Hx') as (j' & Hj' & Hd' & Hmin').
    specialize (Hmin x' j' Hn' Hj' (discovered_take _ _ i x' j' (eq_sym Ht) Hj' Hd')). rewrite <-Ht in Hmin'.
    specialize (Hmin' x j Hn Hj (discovered_take _ _ i x j Ht Hj Hd)). lia.
  Qed.
  Lemma latest_fixed : next_fixed (latest_discovered A).
  Proof.
    intros pre r b b' i x x' Ho Ho' Ht Hx Hx' Hn Hn'.
    destruct (Ho i x Hx) as (j & Hj & Hd & Hmin). destruct (Ho' i x' Hx') as (j' & Hj' & Hd' & Hmin').
    specialize (Hmin x' j' Hn' Hj' (discovered_take _ _ i x' j' (eq_sym Ht) Hj' Hd')). rewrite <-Ht in Hmin'.
    specialize (Hmin' x j Hn Hj (discovered_take _ _ i x j Ht Hj Hd)). lia.
  Qed.
  Lemma not_earlier (b : list N) i x : NoDup b → b !! i = Some x → x ∉ take i b.
  Proof.
    intros Hnd Hx [k Hk]%elem_of_list_lookup. pose proof (lookup_lt_Some _ _ _ Hk) as Hl. rewrite take_length in Hl. rewrite lookup_take in Hk by lia.
    assert (k = i) by (eapply NoDup_lookup; eassumption). lia.
  Qed.
  Context (ord : list N → N → list N → Prop) (Hord : next_fixed ord).
  Lemma block_unique pre r b b' : block A (ord pre) pre r b → block A (ord pre) pre r b' → b = b'.
  Proof using Hord.
    intros (H1 & H2 & H3 & H4) (H1' & H2' & H3' & H4').
    assert (length b = length b') as Hlen. { apply Permutation_length, NoDup_Permutation; [done|done|]. intros x. by rewrite H3, H3'. }
    assert (∀ i, take (S i) b = take (S i) b') as Ht.
    { induction i as [|i IH].
      - destruct b, b'; try done. simpl in *. by simplify_eq.
      - destruct (b !! S i) as [x|] eqn:Hx.
        + destruct (lookup_lt_is_Some_2 b' (S i)) as [x' Hx']; [rewrite <-Hlen; by eapply lookup_lt_Some|].
          rewrite (take_S_r b (S i) x Hx), (take_S_r b' (S i) x' Hx'), IH. do 2 f_equal. eapply (Hord pre r b b' i); try done.
          * rewrite not_elem_of_app. split; [apply H3; by eapply elem_of_list_lookup_2|]. by apply not_earlier.
          * rewrite not_elem_of_app. split; [apply H3'; by eapply elem_of_list_lookup_2|]. rewrite IH. by apply not_earlier.
        + apply lookup_ge_None in Hx. rewrite !(take_ge _ (S (S i))) by lia. rewrite !(take_ge _ (S i)) in IH by lia. done. }
    specialize (Ht (length b)). by rewrite !take_ge in Ht by lia.
  Qed.
  Lemma smallest_unique pre r r' : smallest_left A pre r → smallest_left A pre r' → r = r'.
  Proof. intros (H1 & H2 & H3) (H1' & H2' & H3'). specialize (H3 r' H1' H2'). specialize (H3' r H1 H2). lia. Qed.
  Lemma blocks_unique pre l l' : blocks A ord pre l → blocks A ord pre l' → l = l'.
  Proof using Hord.
    intros Hb. revert l'. induction Hb as [pre Hall|pre r b l Hr Hb Hbs IH]; intros l' Hb'.
    - inversion Hb' as [|? r b l2 Hr]; [done|]. exfalso. destruct Hr as (Ha & Hnp & _). by apply Hnp, Hall.
    - inversion Hb' as [? Hall|? r' b' l2 Hr' Hb2 Hbs2 E1 E2]; clear Hb'.
      + exfalso. destruct Hr as (Ha & Hnp & _). by apply Hnp, Hall.
      + assert (r' = r) as -> by (by eapply smallest_unique). assert (b' = b) as -> by (by eapply block_unique). f_equal. by apply IH.
  Qed.
  Lemma traversal_unique s l l' : traversal A ord s l → traversal A ord s l' → l = l'.
  Proof using Hord.
    intros (b & l1 & -> & Hb & Hl) (b' & l1' & -> & Hb' & Hl'). assert (b' = b) as -> by (by eapply block_unique). f_equal. by eapply blocks_unique.
  Qed.
End same.
Lemma same_order {NL EL} (idt idt' : idty) (V V' : gview NL EL) (A : agraph NL EL) start start' s :
  represents V A → represents V' A → (∀ m, v_max_seen_id V = Ok (Some m) → (m < id_card idt)%N) →
  (∀ m, v_max_seen_id V' = Ok (Some m) → (m < id_card idt')%N) → starts A V start s → starts A V' start' s →
  (∃ l, ∀ fuel, v_node_count V < fuel → bfs_run idt V fuel start = Ok l ∧ bfs_run idt' V' fuel start' = Ok l) ∧
  (∃ l, ∀ fuel, v_node_count V < fuel → dfs_run idt V fuel start = Ok l ∧ dfs_run idt' V' fuel start' = Ok l).
Proof.
  intros R R' Hi Hi' Hs Hs'. assert (v_node_count V' = v_node_count V) as Hn by (by rewrite (rp_node_count _ _ R), (rp_node_count _ _ R')). split.
  - destruct (bfs_thm idt V A R Hi start s Hs) as (l & H1 & _ & _ & _ & H2). destruct (bfs_thm idt' V' A R' Hi' start' s Hs') as (l' & H1' & _ & _ & _ & H2').
    exists l. intros fuel Hf. split; [by apply H1|]. rewrite (traversal_unique A _ (earliest_fixed A) s l l' H2 H2'). apply H1'. by rewrite Hn.
  - destruct (dfs_thm idt V A R Hi start s Hs) as (l & H1 & _ & _ & H2). destruct (dfs_thm idt' V' A R' Hi' start' s Hs') as (l' & H1' & _ & _ & H2').
    exists l. intros fuel Hf. split; [by apply H1|]. rewrite (traversal_unique A _ (latest_fixed A) s l l' H2 H2'). apply H1'. by rewrite Hn.
Qed.

(** The graph and the static graph made of it. *)
Lemma static_max_fits {NL EL} idt lt dir (sg : sgraph NL EL) m : v_max_seen_id (sg_view idt lt dir sg) = Ok (Some m) → (m < id_card idt)%N.
Proof.
  cbn [sg_view v_max_seen_id]. unfold sg_max_seen_id, usub. destruct (decide (1 ≤ sg_num_nodes sg)); cbn [rbind]; [|done].
  intros [= <-]. apply N.mod_lt. by destruct idt.
Qed.
Lemma same_order_static {NL EL} (idt lt : idty) dir (g : graphmap NL EL) ord A s :
  represents (gm_view dir ord g) A → a_has_node A s → (∀ n, a_has_node A n → (n < id_max idt)%N) →
  (∀ n m, a_has_node A n → (m < n)%N → a_has_node A m) →
  (N.of_nat (length (g_nlm g)) ≤ id_max lt)%N → (N.of_nat (length (g_elm g)) ≤ id_max lt)%N →
  (∀ m, v_max_seen_id (gm_view dir ord g) = Ok (Some m) → (m < id_card idt)%N) →
  ∃ sg, gm_into_static idt lt dir g = Ok sg ∧
    (∃ l, ∀ fuel, gm_node_count g < fuel →
       bfs_run idt (gm_view dir ord g) fuel (Some s) = Ok l ∧ bfs_run idt (sg_view idt lt dir sg) fuel (Some s) = Ok l) ∧
    (∃ l, ∀ fuel, gm_node_count g < fuel →
       dfs_run idt (gm_view dir ord g) fuel (Some s) = Ok l ∧ dfs_run idt (sg_view idt lt dir sg) fuel (Some s) = Ok l).
Proof.
  intros HA Hs Hids Hdense Hnl Hel Hmax.
  destruct (into_static_dense idt lt dir g ord A HA s Hs Hids Hdense Hnl Hel) as (sg & Hsg & _ & HW & _).
  exists sg. split; [done|]. exact (same_order idt idt _ _ A (Some s) (Some s) s HA HW Hmax (static_max_fits idt lt dir sg) (conj eq_refl Hs) (conj eq_refl Hs)).
Qed.

(** Without a start node the first node decides, and that depends on the iteration order. *)
Lemma no_start_wit : ∃ (g : graphmap N N) it it' l l', gm_reachable false TU8 g ∧ hash_order g it ∧ hash_order g it' ∧
  bfs_run TU8 (gm_view false it g) 6 None = Ok l ∧ bfs_run TU8 (gm_view false it' g) 6 None = Ok l' ∧ l ≠ l' ∧
  dfs_run TU8 (gm_view false it g) 6 None = Ok l ∧ dfs_run TU8 (gm_view false it' g) 6 None = Ok l'.
Proof.
  exists (run_gm false split_wit), [0; 2; 3; 5; 7]%N, [7; 5; 3; 2; 0]%N, [0; 5; 2; 3; 7]%N, [7; 3; 2; 5; 0]%N.
  split. { apply run_view_all. vm_compute. lia. }
  assert (hash_order (run_gm false split_wit) [0; 2; 3; 5; 7]%N) as H. { unfold hash_order. apply (bool_decide_unpack _). by vm_compute. }
  split; [done|]. split; [unfold hash_order in *; rewrite <- H; apply (bool_decide_unpack _); by vm_compute|].
  split_and!; by vm_compute.
Qed.
Lemma same_case : ∃ (g : graphmap N N) it it' A, gm_reachable false TU8 g ∧ hash_order g it ∧ hash_order g it' ∧ it ≠ it' ∧
  represents (gm_view false it g) A ∧ represents (gm_view false it' g) A ∧ a_has_node A 5%N ∧
  v_max_seen_id (gm_view false it g) = Ok (Some 7%N) ∧ a_num_edges A = 4 ∧
  bfs_run TU8 (gm_view false it g) 6 (Some 5%N) = Ok [5; 0; 2; 3; 7]%N ∧ dfs_run TU8 (gm_view false it' g) 6 (Some 5%N) = Ok [5; 2; 3; 7; 0]%N.
Proof.
  assert (∃ rs, spec_run split_wit (s_init false [] []) = SOk (rs, run_spec false split_wit)) as [rs Hrs] by (eexists; by vm_compute).
  destruct (refinement false TU8 [] [] split_wit rs (run_spec false split_wit)) as (g & Hg & Hv);
    [apply NoDup_nil_2|apply NoDup_nil_2|done|by vm_compute|by vm_compute|].
  assert (g = run_gm false split_wit) as Heq by (unfold run_gm; by rewrite Hg).
  assert (hash_order g [0; 2; 3; 5; 7]%N) as H. { rewrite Heq. unfold hash_order. apply (bool_decide_unpack _). by vm_compute. }
  assert (hash_order g [7; 5; 3; 2; 0]%N) as H'. { unfold hash_order in *. rewrite <- H. apply (bool_decide_unpack _). by vm_compute. }
  exists g, [0; 2; 3; 5; 7]%N, [7; 5; 3; 2; 0]%N, (sp_g (run_spec false split_wit)).
  destruct (Hv _ H) as (?&_). destruct (Hv _ H') as (?&_).
  split. { exists [], [], split_wit, rs. split_and!; [constructor|constructor|exact Hg]. }
  split; [done|]. split; [done|]. split; [done|]. split; [done|]. split; [done|].
  split; [apply (bool_decide_unpack _); by vm_compute|]. rewrite Heq. split_and!; by vm_compute.
Qed.
