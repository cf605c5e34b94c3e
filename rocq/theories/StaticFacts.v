(** Lemmas on binary search, edge vectors and the edge iterator. *)
From Verif Require Import Base BaseFacts Api Spec SpecStatic Map GraphMap Static.

(** ** Binary search *)
Lemma increasing_lookup l i j x y : increasing l → l !! i = Some x → l !! j = Some y → i < j → (x < y)%N.
Proof.
  intros Hl. revert i j. induction Hl as [|z l Hl IH Hz]; intros i j Hi Hj Hij; [done|].
  destruct j as [|j]; [lia|]. simpl in Hj. destruct i as [|i]; simpl in Hi.
  - injection Hi as <-. rewrite Forall_forall in Hz. apply Hz. by eapply elem_of_list_lookup_2.
  - apply (IH i j); [done|done|lia].
Qed.
Lemma increasing_lookup_le l i j x y : increasing l → l !! i = Some x → l !! j = Some y → i ≤ j → (x ≤ y)%N.
Proof.
  intros Hl Hi Hj Hij. destruct (decide (i = j)) as [-> |]; [rewrite Hi in Hj; injection Hj as ->; lia|].
  pose proof (increasing_lookup l i j x y). naive_solver lia.
Qed.
(** What a search for [x] answers: a position of [x], or where it would go. *)
Definition search_answer (l : list N) (x : N) (r : nat + nat) : Prop :=
  match r with
  | inl i => l !! i = Some x
  | inr i => i ≤ length l ∧ (∀ j y, l !! j = Some y → (j < i → (y < x)%N) ∧ (i ≤ j → (x < y)%N))
  end.
Lemma bsearch_loop_spec l x fuel base size : increasing l → size ≤ fuel → 1 ≤ size → base + size ≤ length l →
  (base = 0 ∨ ∃ y, l !! base = Some y ∧ (y ≤ x)%N) → (∀ j y, l !! j = Some y → base + size ≤ j → (x < y)%N) →
  ∃ i, bsearch_loop fuel l x base size = Ok i ∧ i < length l ∧
    (i = 0 ∨ ∃ y, l !! i = Some y ∧ (y ≤ x)%N) ∧ (∀ j y, l !! j = Some y → i < j → (x < y)%N).
Proof.
  intros Hl. revert base size. induction fuel as [|fuel IH]; intros base size Hf H1 Hlen Hlo Hhi; [lia|].
  cbn [bsearch_loop]. destruct (decide (size ≤ 1)) as [Hs|Hs].
  - exists base. split; [done|]. split; [lia|]. split; [done|]. intros j y Hj Hij. apply (Hhi j y Hj). lia.
  - pose proof (Nat.div_lt size 2) as Hd1. assert (1 ≤ size / 2) as Hd2 by (apply Nat.div_le_lower_bound; lia).
    assert (size / 2 ≤ size) as Hd3 by lia.
    destruct (lookup_lt_is_Some_2 l (base + size / 2)) as [y Hy]; [lia|]. rewrite Hy. cbn [unwrap rbind].
    destruct (decide (x < y)%N) as [Hxy|Hxy].
    + apply IH; [lia|lia|lia|done|]. intros j z Hj Hij. 
      assert (y ≤ z)%N; [|lia]. eapply (increasing_lookup_le l); [done|exact Hy|exact Hj|].
      assert (size = 2 * (size / 2) + size `mod` 2) by (apply Nat.div_mod; lia).
      pose proof (Nat.mod_upper_bound size 2). lia.
    + apply IH; [lia|lia|lia|right; exists y; split; [done|lia]|]. intros j z Hj Hij. apply (Hhi j z Hj). lia.
Qed.
Lemma bsearch_spec l x : increasing l → ∃ r, bsearch l x = Ok r ∧ search_answer l x r.
Proof.
  intros Hl. unfold bsearch. destruct (decide (length l = 0)) as [H0|H0].
  { eexists. split; [done|]. split; [lia|]. intros j y Hj. apply lookup_lt_Some in Hj. lia. }
  destruct (bsearch_loop_spec l x (length l) 0 (length l)) as (i & -> & Hi & Hlo & Hhi); [done|lia|lia|lia|by left| |].
  { intros j y Hj. apply lookup_lt_Some in Hj. lia. }
  cbn [rbind]. destruct (lookup_lt_is_Some_2 l i Hi) as [y Hy]. rewrite Hy. cbn [unwrap rbind].
  destruct (decide (y = x)) as [-> |Hne]; [by eexists|]. eexists. split; [done|]. simpl.
  destruct (decide (y < x)%N) as [Hlt|Hlt].
  - split; [lia|]. intros j z Hj. split; intros Hij; [|by apply (Hhi j z)].
    assert (z ≤ y)%N; [|lia]. eapply (increasing_lookup_le l); [done|exact Hj|exact Hy|lia].
  - split; [lia|]. intros j z Hj. destruct Hlo as [-> | (y' & Hy' & Hle)]; [|rewrite Hy in Hy'; injection Hy' as ->; lia].
    split; [lia|]. intros _. destruct (decide (j = 0)) as [-> |]; [rewrite Hy in Hj; injection Hj as ->; lia|].
    apply (Hhi j z Hj). lia.
Qed.
Lemma search_found l x i : search_answer l x (inl i) → x ∈ l.
Proof. intros H. by eapply elem_of_list_lookup_2. Qed.
Lemma search_not_found l x i : search_answer l x (inr i) → x ∉ l.
Proof.
  intros [_ H] [j Hj]%elem_of_list_lookup. destruct (H j x Hj) as [H1 H2]. destruct (decide (j < i)); [specialize (H1 l0); lia|].
  assert (i ≤ j) as Hij by lia. specialize (H2 Hij). lia.
Qed.

(** ** Edge vectors *)
Section evec.
  Context (e : evec) (Hwf : csr_wf (ev_offsets e) (ev_edges e)).
  Local Notation offs := (ev_offsets e).
  Local Notation edges := (ev_edges e).
  Local Notation rw := (row offs edges).

  Lemma offs_length : length offs = S (length offs - 1).
  Proof. pose proof (csr_nonempty _ _ Hwf) as H. destruct offs; [done|simpl; lia]. Qed.
  Lemma num_nodes_ok : ev_num_nodes e = Ok (length offs - 1).
  Proof. unfold ev_num_nodes, usub. rewrite decide_True; [done|]. pose proof offs_length. lia. Qed.
  Lemma has_node_ok n : ev_has_node e n = Ok (bool_decide (n < csr_nodes offs)%N).
  Proof.
    unfold ev_has_node. rewrite num_nodes_ok. cbn [rbind]. f_equal. unfold csr_nodes, id_id. apply bool_decide_ext. lia.
  Qed.
  Lemma bounds_ok n : (n < csr_nodes offs)%N → ∃ a b, offs !! N.to_nat n = Some a ∧ offs !! S (N.to_nat n) = Some b ∧
    a ≤ b ∧ b ≤ length edges ∧ ev_bounds e n = Ok (a, b).
  Proof.
    intros Hn. unfold csr_nodes in Hn. pose proof offs_length as Hlen.
    destruct (lookup_lt_is_Some_2 offs (N.to_nat n)) as [a Ha]; [lia|].
    destruct (lookup_lt_is_Some_2 offs (S (N.to_nat n))) as [b Hb]; [lia|].
    exists a, b. split; [done|]. split; [done|]. split; [by eapply (csr_mono _ _ Hwf)|]. split; [by eapply (csr_bound _ _ Hwf)|].
    unfold ev_bounds. rewrite has_node_ok. cbn [rbind]. rewrite bool_decide_true by (unfold csr_nodes; lia). cbn [negb].
    unfold id_id. rewrite Ha. cbn [unwrap rbind]. rewrite Nat.add_1_r, Hb. done.
  Qed.
  Lemma bounds_panic n : ¬ (n < csr_nodes offs)%N → ev_bounds e n = Panic.
  Proof. intros Hn. unfold ev_bounds. rewrite has_node_ok, bool_decide_false by done. done. Qed.
  Lemma neighbors_ok n : (n < csr_nodes offs)%N → ev_neighbors e n = Ok (rw n).
  Proof.
    intros Hn. destruct (bounds_ok n Hn) as (a & b & Ha & Hb & Hab & Hbl & He). unfold ev_neighbors. rewrite He. cbn [rbind].
    rewrite decide_True by done. unfold row. by rewrite Ha, Hb.
  Qed.
  Lemma neighbors_panic n : ¬ (n < csr_nodes offs)%N → ev_neighbors e n = Panic.
  Proof. intros Hn. unfold ev_neighbors. by rewrite bounds_panic. Qed.
  Lemma row_length n a b : offs !! N.to_nat n = Some a → offs !! S (N.to_nat n) = Some b → length (rw n) = b - a.
  Proof.
    intros Ha Hb. unfold row. rewrite Ha, Hb. pose proof (csr_bound _ _ Hwf _ _ Hb). rewrite take_length, drop_length. lia.
  Qed.
  Lemma row_lookup n a b i : offs !! N.to_nat n = Some a → offs !! S (N.to_nat n) = Some b → i < b - a → rw n !! i = edges !! (a + i).
  Proof. intros Ha Hb Hi. unfold row. rewrite Ha, Hb, lookup_take, lookup_drop by done. done. Qed.
  Lemma row_out n : ¬ (n < csr_nodes offs)%N → rw n = [].
  Proof.
    intros Hn. unfold row, csr_nodes in *. destruct (offs !! N.to_nat n) eqn:Ha; [|done].
    destruct (offs !! S (N.to_nat n)) eqn:Hb; [|done]. apply lookup_lt_Some in Hb. lia.
  Qed.
  Lemma degree_ok n : (n < csr_nodes offs)%N → ev_degree e n = Ok (length (rw n)).
  Proof.
    intros Hn. destruct (bounds_ok n Hn) as (a & b & Ha & Hb & Hab & Hbl & He). unfold ev_degree. rewrite He. cbn [rbind].
    rewrite (row_length n a b) by done. unfold usub. by rewrite decide_True.
  Qed.
  Lemma degree_panic n : ¬ (n < csr_nodes offs)%N → ev_degree e n = Panic.
  Proof. intros Hn. unfold ev_degree. by rewrite bounds_panic. Qed.

  Lemma find_spec s t : ∃ o, ev_find_edge_index e s t = Ok o ∧ ∀ k, o = Some k ↔
    ∃ a b, offs !! N.to_nat s = Some a ∧ offs !! S (N.to_nat s) = Some b ∧ a ≤ k < b ∧ edges !! k = Some t.
  Proof.
    unfold ev_find_edge_index. rewrite (has_node_ok s). cbn [rbind].
    destruct (bool_decide (s < csr_nodes offs)%N) eqn:Hs.
    2:{ cbn [rbind negb]. exists None. split; [done|]. intros k. split; [done|]. intros (a & b & Ha & Hb & _).
        apply bool_decide_eq_false in Hs. unfold csr_nodes in Hs. apply lookup_lt_Some in Hb. lia. }
    apply bool_decide_eq_true in Hs. rewrite (has_node_ok t). cbn [rbind].
    destruct (bounds_ok s Hs) as (a & b & Ha & Hb & Hab & Hbl & He).
    destruct (bool_decide (t < csr_nodes offs)%N) eqn:Ht; cbn [negb].
    2:{ exists None. split; [done|]. intros k. split; [done|]. intros (a' & b' & Ha' & Hb' & Hk & Hkt). simplify_eq.
        apply bool_decide_eq_false in Ht. destruct Ht. apply (csr_targets _ _ Hwf s).
        apply elem_of_list_lookup. exists (k - a). rewrite (row_lookup s a b) by (done || lia). by rewrite Nat.add_sub_assoc, Nat.add_comm, Nat.add_sub by lia. }
    rewrite (neighbors_ok s Hs). cbn [rbind].
    destruct (bsearch_spec (rw s) t) as (r & -> & Hr); [apply (csr_sorted _ _ Hwf)|]. cbn [rbind]. destruct r as [i|i].
    - unfold id_id. rewrite Ha. cbn [unwrap rbind]. eexists. split; [done|]. intros k. simpl in Hr.
      pose proof (lookup_lt_Some _ _ _ Hr) as Hi. rewrite (row_length s a b) in Hi by done. split.
      + intros [= <-]. exists a, b. split; [done|]. split; [done|]. split; [lia|]. rewrite <- (row_lookup s a b) by (done || lia). done.
      + intros (a' & b' & Ha' & Hb' & Hk & Hkt). assert (a' = a) as -> by congruence. assert (b' = b) as -> by congruence. f_equal.
        assert (rw s !! (k - a) = Some t) as Hkt'. { rewrite (row_lookup s a b) by (done || lia). by replace (a + (k - a)) with k by lia. }
        enough (i = k - a) by lia.
        pose proof (increasing_NoDup _ (csr_sorted _ _ Hwf s)) as Hnd. by eapply NoDup_lookup.
    - exists None. split; [done|]. intros k. split; [done|]. intros (a' & b' & Ha' & Hb' & Hk & Hkt). assert (a' = a) as -> by congruence. assert (b' = b) as -> by congruence.
      exfalso. apply (search_not_found _ _ _ Hr). apply elem_of_list_lookup. exists (k - a). rewrite (row_lookup s a b) by (done || lia). by replace (a + (k - a)) with k by lia.
  Qed.
  Lemma row_elem s t : t ∈ rw s ↔ ∃ k a b, offs !! N.to_nat s = Some a ∧ offs !! S (N.to_nat s) = Some b ∧ a ≤ k < b ∧ edges !! k = Some t.
  Proof.
    split.
    - intros [i Hi]%elem_of_list_lookup. destruct (decide (s < csr_nodes offs)%N) as [Hs|Hs]; [|rewrite row_out in Hi; done].
      destruct (bounds_ok s Hs) as (a & b & Ha & Hb & Hab & Hbl & He). exists (a + i), a, b. split; [done|]. split; [done|].
      pose proof (lookup_lt_Some _ _ _ Hi) as Hlt. rewrite (row_length s a b) in Hlt by done. split; [lia|].
      by rewrite <- (row_lookup s a b).
    - intros (k & a & b & Ha & Hb & Hk & Hkt). apply elem_of_list_lookup. exists (k - a).
      rewrite (row_lookup s a b) by (done || lia). by replace (a + (k - a)) with k by lia.
  Qed.
  Lemma has_edge_ok s t : ev_has_edge e s t = Ok (bool_decide (t ∈ rw s)).
  Proof.
    destruct (find_spec s t) as (o & Ho & Hk). unfold ev_has_edge. rewrite Ho. cbn [rbind]. f_equal.
    destruct o as [k|]; symmetry; [apply bool_decide_eq_true|apply bool_decide_eq_false]; rewrite row_elem.
    - exists k. by apply Hk.
    - intros [k H]. by apply Hk in H.
  Qed.
  (** The label slice of a node is aligned with its neighbour slice. *)
  Lemma label_ok s t i : rw s !! i = Some t → ev_find_edge_label_id e s t = Ok (row offs (ev_labels e) s !! i).
  Proof.
    intros Hi. unfold ev_find_edge_label_id.
    assert (s < csr_nodes offs)%N as Hs. { destruct (decide (s < csr_nodes offs)%N) as [|Hn]; [done|]. rewrite row_out in Hi; done. }
    destruct (bounds_ok s Hs) as (a & b & Ha & Hb & Hab & Hbl & He).
    pose proof (lookup_lt_Some _ _ _ Hi) as Hlt. rewrite (row_length s a b) in Hlt by done.
    destruct (find_spec s t) as (o & Ho & Hk). rewrite Ho. cbn [rbind].
    assert (o = Some (a + i)) as ->. { apply Hk. exists a, b. split; [done|]. split; [done|]. split; [lia|]. by rewrite <- (row_lookup s a b). }
    assert (row offs (ev_labels e) s !! i = ev_labels e !! (a + i)) as ->.
    { unfold row. rewrite Ha, Hb, lookup_take, lookup_drop by done. done. }
    destruct (ev_labels e) eqn:El; done.
  Qed.
End evec.

(** ** The edge iterator *)
Section iter.
  Context (it : idty) (dir : bool) (e : evec) (Hwf : csr_wf (ev_offsets e) (ev_edges e)).
  Local Notation offs := (ev_offsets e).
  Local Notation rw := (row (ev_offsets e) (ev_edges e)).
  Context (Hfit : (csr_nodes offs < id_card it)%N).
  Local Notation nn := (length offs - 1).

  Definition kept (n : N) (t : N) : Prop := dir = true ∨ (n ≤ t)%N.
  #[local] Instance kept_dec n t : Decision (kept n t).
  Proof. unfold kept. apply _. Defined.
  Definition out_row (n : N) (idx : nat) : list (N * N) := (λ t, (n, t)) <$> filter (kept n) (drop idx (rw n)).
  Definition rest (c : nat) : list (N * N) := seq c (nn - c) ≫= λ n, out_row (N.of_nat n) 0.
  Definition remaining (curr idx : nat) : list (N * N) := out_row (N.of_nat curr) idx ++ rest (S curr).

  Lemma rest_cons c : rest c = remaining c 0.
  Proof.
    unfold rest, remaining. destruct (decide (c < nn)) as [Hc|Hc].
    - replace (nn - c) with (S (nn - S c)) by lia. done.
    - unfold rest. replace (nn - c) with 0 by lia. replace (nn - S c) with 0 by lia. simpl. unfold out_row.
      rewrite (row_out e) by (unfold csr_nodes; lia). done.
  Qed.
  Lemma filter_drop n idx i : idx ≤ i → (∀ j y, rw n !! j = Some y → j < i → ¬ kept n y) →
    filter (kept n) (drop idx (rw n)) = filter (kept n) (drop i (rw n)).
  Proof.
    intros Hle Hnot. replace (drop i (rw n)) with (drop (i - idx) (drop idx (rw n))) by (rewrite drop_drop; f_equal; lia).
    rewrite <- (take_drop (i - idx) (drop idx (rw n))) at 1. rewrite filter_app.
    replace (filter (kept n) (take (i - idx) (drop idx (rw n)))) with (@nil N); [done|]. symmetry.
    assert (Forall (λ y, ¬ kept n y) (take (i - idx) (drop idx (rw n)))) as Hf.
    { apply Forall_lookup. intros j y Hj. pose proof (lookup_lt_Some _ _ _ Hj) as Hlt. rewrite take_length in Hlt.
      rewrite lookup_take, lookup_drop in Hj by lia. apply (Hnot _ _ Hj). lia. }
    induction Hf as [|y l Hy Hf IH]; [done|]. rewrite filter_cons. by destruct (decide (kept n y)).
  Qed.

  Lemma ei_next_spec fuel curr idx : curr ≤ nn → nn - curr < fuel →
    (remaining curr idx = [] ∧ ei_next it dir e fuel curr idx = Ok None) ∨
    ∃ x curr' idx', ei_next it dir e fuel curr idx = Ok (Some (x, (curr', idx'))) ∧
      remaining curr idx = x :: remaining curr' idx' ∧ curr' ≤ nn.
  Proof.
    revert curr idx. induction fuel as [|fuel IH]; intros curr idx Hc Hf; [lia|]. cbn [ei_next].
    assert (id_new it curr = N.of_nat curr) as ->.
    { apply N.mod_small. unfold csr_nodes in Hfit. lia. }
    rewrite (has_node_ok e Hwf). cbn [rbind].
    destruct (decide (curr < nn)) as [Hlt|Hge].
    2:{ rewrite bool_decide_false by (unfold csr_nodes; lia). cbn [rbind negb]. left. split; [|done]. unfold remaining, out_row, rest.
        rewrite (row_out e) by (unfold csr_nodes; lia). replace (nn - S curr) with 0 by lia. by rewrite drop_nil. }
    assert (N.of_nat curr < csr_nodes offs)%N as Hn by (unfold csr_nodes; lia).
    rewrite bool_decide_true by done. rewrite (degree_ok e Hwf) by done. cbn [rbind].
    assert (out_row (N.of_nat curr) idx = [] → remaining curr idx = remaining (S curr) 0) as Hskip.
    { intros Ho. unfold remaining at 1. by rewrite Ho, <- rest_cons. }
    destruct (bool_decide (length (rw (N.of_nat curr)) ≤ idx)) eqn:Hd.
    { apply bool_decide_eq_true in Hd. rewrite Hskip; [apply IH; lia|]. unfold out_row. by rewrite drop_ge by done. }
    apply bool_decide_eq_false in Hd. cbn [negb]. rewrite (neighbors_ok e Hwf) by done. cbn [rbind].
    assert (∀ i x, idx ≤ i → rw (N.of_nat curr) !! i = Some x → kept (N.of_nat curr) x →
      (∀ j y, rw (N.of_nat curr) !! j = Some y → idx < i → j < i → ¬ kept (N.of_nat curr) y) →
      remaining curr idx = (N.of_nat curr, x) :: remaining curr (S i)) as Hyield.
    { intros i x Hi Hx Hk Hnot. unfold remaining, out_row.
      assert (filter (kept (N.of_nat curr)) (drop idx (rw (N.of_nat curr))) = filter (kept (N.of_nat curr)) (drop i (rw (N.of_nat curr)))) as ->.
      { destruct (decide (idx = i)) as [-> |]; [done|]. apply filter_drop; [done|]. intros j y Hj Hji. apply (Hnot j y Hj); lia. }
      rewrite (drop_S _ _ _ Hx), filter_cons, decide_True by done. done. }
    destruct (lookup_lt_is_Some_2 (rw (N.of_nat curr)) idx) as [x Hx]; [lia|].
    assert (∀ i y, idx ≤ i → rw (N.of_nat curr) !! i = Some y → kept (N.of_nat curr) y →
      (∀ j y, rw (N.of_nat curr) !! j = Some y → idx < i → j < i → ¬ kept (N.of_nat curr) y) →
      ∃ x' curr' idx', (let* x := unwrap (rw (N.of_nat curr) !! i) in Ok (Some ((N.of_nat curr, x), (curr, S i)))) = Ok (Some (x', (curr', idx'))) ∧
      remaining curr idx = x' :: remaining curr' idx' ∧ curr' ≤ nn) as Hgo.
    { intros i y Hi Hy Hk Hnot. rewrite Hy. cbn [unwrap rbind]. eexists _, _, _. split; [done|]. split; [by apply Hyield|done]. }
    destruct dir eqn:Hdir.
    { right. apply (Hgo idx x); [done|done|by left|lia]. }
    rewrite Hx. cbn [unwrap rbind]. destruct (decide (x < N.of_nat curr)%N) as [Hxn|Hxn].
    - destruct (bsearch_spec (rw (N.of_nat curr)) (N.of_nat curr)) as (r & -> & Hr); [apply (csr_sorted _ _ Hwf)|]. cbn [rbind].
      pose proof (csr_sorted _ _ Hwf (N.of_nat curr)) as Hsort. destruct r as [i|i]; simpl in Hr.
      + right. apply (Hgo i (N.of_nat curr)); [|done|by right|].
        * destruct (decide (idx ≤ i)); [done|]. pose proof (increasing_lookup_le _ i idx _ _ Hsort Hr Hx). lia.
        * intros j y Hj _ Hji [?|Hk]; [congruence|]. pose proof (increasing_lookup _ j i _ _ Hsort Hj Hr). lia.
      + destruct Hr as [Hil Hr]. destruct (decide (i < length (rw (N.of_nat curr)))) as [Hi|Hi].
        * right. destruct (lookup_lt_is_Some_2 (rw (N.of_nat curr)) i Hi) as [y Hy].
          apply (Hgo i y); [|done|right; destruct (Hr i y Hy) as [_ H]; specialize (H ltac:(lia)); lia|].
          -- destruct (decide (idx ≤ i)); [done|]. destruct (Hr idx x Hx) as [_ H]. specialize (H ltac:(lia)). lia.
          -- intros j z Hj _ Hji [?|Hk]; [congruence|]. destruct (Hr j z Hj) as [H _]. specialize (H Hji). lia.
        * rewrite Hskip; [apply IH; lia|]. unfold out_row. rewrite (filter_drop _ idx (length (rw (N.of_nat curr)))); [|lia|].
          -- rewrite drop_ge by done. done.
          -- intros j y Hj Hji [?|Hk]; [congruence|]. destruct (Hr j y Hj) as [H _]. specialize (H ltac:(lia)). lia.
    - right. eexists _, _, _. split; [done|]. split; [|done]. apply Hyield; [done|done|right; lia|lia].
  Qed.
  Lemma ei_collect_spec fuel inner curr idx : curr ≤ nn → nn < inner → length (remaining curr idx) < fuel →
    ei_collect it dir e fuel inner curr idx = Ok (remaining curr idx).
  Proof.
    revert curr idx. induction fuel as [|fuel IH]; intros curr idx Hc Hi Hf; [lia|]. cbn [ei_collect].
    destruct (ei_next_spec inner curr idx) as [[Hr ->] | (x & curr' & idx' & -> & Hr & Hc')]; [done|lia| |]; cbn [rbind].
    - by rewrite Hr.
    - rewrite Hr in Hf |- *. simpl in Hf. rewrite IH by (done || lia). done.
  Qed.
  Lemma remaining_elem s t : (s, t) ∈ remaining 0 0 ↔ t ∈ rw s ∧ kept s t.
  Proof.
    rewrite <- rest_cons. unfold rest. rewrite elem_of_list_bind. split.
    - intros (n & Hn & _). unfold out_row in Hn. rewrite drop_0 in Hn. apply elem_of_list_fmap in Hn as (t' & [= -> ->] & Ht).
      apply elem_of_list_filter in Ht. tauto.
    - intros [Ht Hk]. exists (N.to_nat s). rewrite N2Nat.id. split.
      + unfold out_row. rewrite drop_0. apply elem_of_list_fmap. exists t. split; [done|]. by apply elem_of_list_filter.
      + apply elem_of_seq. destruct (decide (s < csr_nodes offs)%N) as [Hs|Hs].
        * unfold csr_nodes in Hs. lia.
        * rewrite (row_out e) in Ht by done. by apply elem_of_nil in Ht.
  Qed.
  Lemma out_row_sorted n : StronglySorted lex_lt (out_row n 0).
  Proof.
    unfold out_row. rewrite drop_0. pose proof (csr_sorted _ _ Hwf n) as Hs.
    apply (StronglySorted_filter _ (kept n)) in Hs. induction Hs as [|t l Hl IH Hf]; csimpl; constructor; [done|].
    apply Forall_fmap. eapply Forall_impl; [exact Hf|]. intros t' Ht. right. simpl. done.
  Qed.
  Lemma rest_sorted c : StronglySorted lex_lt (rest c) ∧ ∀ p, p ∈ rest c → (N.of_nat c ≤ p.1)%N.
  Proof.
    remember (nn - c) as k eqn:Hk. revert c Hk. induction k as [|k IH]; intros c Hk.
    - unfold rest. rewrite <- Hk. simpl. split; [constructor|]. intros p Hp. by apply elem_of_nil in Hp.
    - assert (rest c = out_row (N.of_nat c) 0 ++ rest (S c)) as -> by apply rest_cons.
      destruct (IH (S c)) as [Hs Hge]; [lia|]. split.
      + apply StronglySorted_app_iff. split; [apply out_row_sorted|]. split; [done|]. intros p q Hp Hq.
        apply elem_of_list_fmap in Hp as (t & -> & _). apply Hge in Hq. left. simpl. lia.
      + intros p [Hp|Hp]%elem_of_app; [|apply Hge in Hp; lia]. apply elem_of_list_fmap in Hp as (t & -> & _). simpl. lia.
  Qed.
  Lemma row_drop_len n : length (out_row n 0) ≤ length (rw n).
  Proof. unfold out_row. rewrite fmap_length, drop_0. apply filter_length. Qed.
  Lemma rest_length c : c ≤ nn → length (rest c) ≤ length (ev_edges e) - default 0 (offs !! c).
  Proof.
    remember (nn - c) as k eqn:Hk. revert c Hk. induction k as [|k IH]; intros c Hk Hc.
    - unfold rest. rewrite <- Hk. simpl. lia.
    - assert (rest c = out_row (N.of_nat c) 0 ++ rest (S c)) as -> by apply rest_cons. rewrite app_length.
      specialize (IH (S c)). assert (N.of_nat c < csr_nodes offs)%N as Hn by (unfold csr_nodes; lia).
      destruct (bounds_ok e Hwf (N.of_nat c) Hn) as (a & b & Ha & Hb & Hab & Hbl & _).
      pose proof (row_drop_len (N.of_nat c)) as Hl. rewrite (row_length e Hwf _ a b) in Hl by done. rewrite Nat2N.id in *.
      rewrite Hb in IH. rewrite Ha. simpl in *. lia.
  Qed.
  Lemma ei_all_ok : ei_all it dir e = Ok (remaining 0 0).
  Proof.
    unfold ei_all. apply ei_collect_spec; [lia| |].
    - lia.
    - rewrite <- rest_cons. pose proof (rest_length 0 ltac:(lia)). lia.
  Qed.
  Lemma ei_all_spec : ∃ l, ei_all it dir e = Ok l ∧ StronglySorted lex_lt l ∧
    ∀ s t, (s, t) ∈ l ↔ t ∈ rw s ∧ (dir = true ∨ (s ≤ t)%N).
  Proof.
    exists (remaining 0 0). split; [apply ei_all_ok|]. split; [rewrite <- rest_cons; apply rest_sorted|]. apply remaining_elem.
  Qed.
End iter.
