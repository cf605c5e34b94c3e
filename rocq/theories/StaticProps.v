(** Static graphs answer as the graph their arrays describe. *)
From Verif Require Import Base BaseFacts Api Spec SpecFacts SpecStatic SpecSGraph Map GraphMap Static StaticFacts.

Lemma lex_lt_NoDup l : StronglySorted lex_lt l → NoDup l.
Proof.
  induction 1 as [|x l Hl IH Hf]; constructor; [|done]. intros Hx. rewrite Forall_forall in Hf. specialize (Hf x Hx). unfold lex_lt in Hf. lia.
Qed.
Lemma size_below {X} (m : gmap N X) k : (∀ n, is_Some (m !! n) ↔ (n < N.of_nat k)%N) → size m = k.
Proof.
  intros H. rewrite <- (lists_exactly_length (N.of_nat <$> seq 0 k)); [by rewrite fmap_length, seq_length|].
  split; [apply NoDup_fmap; [apply _|apply NoDup_seq]|]. intros n. rewrite H, elem_of_list_fmap. split.
  - intros (i & -> & Hi). apply elem_of_seq in Hi. lia.
  - intros Hn. exists (N.to_nat n). split; [lia|]. apply elem_of_seq. lia.
Qed.

Section rep.
  Context {NL EL : Type} (it lt : idty) (g : sgraph NL EL) (A : agraph NL EL).
  Context (H : arrays_of lt g A) (Hfit : (csr_nodes (ev_offsets (sg_evec g)) < id_card it)%N).
  Local Notation e := (sg_evec g).
  Local Notation offs := (ev_offsets (sg_evec g)).
  Local Notation V := (sg_view it lt (ag_dir A) g).

  Lemma sg_node_indices_eq : sg_node_indices it g = N.of_nat <$> seq 0 (sg_num_nodes g).
  Proof.
    unfold sg_node_indices. apply list_fmap_ext. intros i n Hi. apply lookup_seq in Hi. apply N.mod_small.
    pose proof (so_count _ _ _ H). lia.
  Qed.
  Lemma sg_has_node_ok n : sg_has_node g n = true ↔ a_has_node A n.
  Proof.
    unfold sg_has_node, id_id. rewrite bool_decide_eq_true, (so_nodes _ _ _ H). pose proof (so_count _ _ _ H). lia.
  Qed.
  Lemma sg_get_node_ok n : a_has_node A n → ∃ lid, sg_get_node lt g n = Ok (Some (n, lid)) ∧
    denotes (sg_nlm g) lid = label_of (ag_nodes A !! n).
  Proof.
    intros Hn. unfold sg_get_node. rewrite (proj2 (sg_has_node_ok n) Hn). cbn [negb].
    pose proof (so_node_labels _ _ _ H n Hn) as Hl. destruct (sg_labels g) as [ls|].
    - destruct Hl as (i & Hi & Hl). unfold id_id. rewrite Hi. cbn [unwrap rbind]. eauto.
    - eexists. split; [done|]. by rewrite Hl.
  Qed.
  Lemma sg_get_edge_row s t k : row offs (ev_edges e) s !! k = Some t →
    sg_get_edge lt g s t = Ok (Some (s, t, row offs (ev_labels e) s !! k ≫= static_label lt)).
  Proof.
    intros Hk. unfold sg_get_edge. rewrite (has_edge_ok e (so_csr _ _ _ H)), bool_decide_true by (by eapply elem_of_list_lookup_2).
    cbn [rbind negb]. rewrite (label_ok e (so_csr _ _ _ H) s t k Hk). cbn [rbind]. by destruct (row offs (ev_labels e) s !! k).
  Qed.
  Lemma row_nil {X} s : row offs (@nil X) s = [].
  Proof. unfold row. destruct (offs !! N.to_nat s), (offs !! S (N.to_nat s)); [|done..]. by rewrite drop_nil, take_nil. Qed.
  Lemma sg_get_edge_ok s t : a_has_edge A s t → ∃ lid, sg_get_edge lt g s t = Ok (Some (s, t, lid)) ∧
    denotes (sg_elm g) lid = label_of (a_edge_at A s t).
  Proof.
    intros He. apply (so_edges _ _ _ H) in He. apply elem_of_list_lookup in He as [k Hk].
    rewrite (sg_get_edge_row s t k Hk). eexists. split; [done|].
    pose proof (so_edge_labels _ _ _ H s t k Hk) as Hl. unfold ev_labels. destruct (ev_label_vec e) as [ls|]; simpl.
    - destruct Hl as (i & -> & ->). done.
    - rewrite Hl, row_nil. done.
  Qed.

  Lemma static_represents : represents V A.
  Proof.
    pose proof (so_csr _ _ _ H) as Hc. constructor.
    - apply (so_wf _ _ _ H).
    - done.
    - done.
    - simpl. unfold a_num_nodes. symmetry. apply size_below. intros n. rewrite (so_count _ _ _ H). apply (so_nodes _ _ _ H).
    - apply sg_has_node_ok.
    - apply sg_get_node_ok.
    - intros s t _. simpl. rewrite (has_edge_ok e Hc). eexists. split; [done|]. by rewrite bool_decide_eq_true, (so_edges _ _ _ H).
    - apply sg_get_edge_ok.
    - simpl. rewrite sg_node_indices_eq. split; [apply NoDup_fmap; [apply _|apply NoDup_seq]|]. intros n.
      rewrite (so_nodes _ _ _ H), <- (so_count _ _ _ H), elem_of_list_fmap. split.
      + intros (i & -> & Hi). apply elem_of_seq in Hi. lia.
      + intros Hn. exists (N.to_nat n). split; [lia|]. apply elem_of_seq. lia.
    - simpl. unfold sg_edge_indices. destruct (ei_all_spec it (ag_dir A) e Hc Hfit) as (l & Hl & Hs & Hin). exists l. split; [done|].
      split; [by apply lex_lt_NoDup|]. intros [s t]. rewrite Hin, (wf_stored A (s, t) (so_wf _ _ _ H)). simpl. by rewrite (so_edges _ _ _ H).
    - intros n Hn. apply (so_nodes _ _ _ H) in Hn. simpl. by rewrite (degree_ok e Hc), (neighbors_ok e Hc).
    - intros n Hn. apply (so_nodes _ _ _ H) in Hn. simpl. rewrite (neighbors_ok e Hc) by done. eexists. split; [done|].
      split; [apply (csr_sorted _ _ Hc)|]. intros t. by rewrite (so_edges _ _ _ H).
    - done.
    - intros Hd n Hn. apply (so_nodes _ _ _ H) in Hn. destruct (so_in _ _ _ H Hd) as (ie & Hie & Hic & Hin & Hiff). simpl.
      unfold sg_in_neighbors. rewrite Hie. cbn [unwrap rbind]. rewrite (neighbors_ok ie Hic) by (by rewrite Hin). eexists. split; [done|].
      split; [apply (csr_sorted _ _ Hic)|]. intros s. by rewrite Hiff.
    - intros n Hn. apply (so_nodes _ _ _ H) in Hn. simpl. unfold sg_max_seen_id, usub. pose proof (so_count _ _ _ H) as Hcnt.
      rewrite decide_True by lia. cbn [rbind]. eexists. split; [done|]. unfold id_new. rewrite N.mod_small by lia. lia.
  Qed.
  Lemma static_missing : answers_missing V A.
  Proof.
    pose proof (so_csr _ _ _ H) as Hc. constructor.
    - intros n Hn. simpl. unfold sg_get_node. destruct (sg_has_node g n) eqn:Hh; [|done]. by apply sg_has_node_ok in Hh.
    - intros s t Hs. simpl. rewrite (has_edge_ok e Hc), bool_decide_false; [done|]. intros He. apply Hs, (so_nodes _ _ _ H).
      destruct (decide (s < csr_nodes offs)%N) as [|Hn]; [done|]. rewrite (row_out e) in He by done. by apply elem_of_nil in He.
    - intros s t He. simpl. unfold sg_get_edge. rewrite (has_edge_ok e Hc), bool_decide_false; [done|]. by rewrite <- (so_edges _ _ _ H).
    - intros n Hn. rewrite (so_nodes _ _ _ H) in Hn. simpl. by rewrite (degree_panic e Hc), (neighbors_panic e Hc).
    - intros n Hd Hn. rewrite (so_nodes _ _ _ H) in Hn. destruct (so_in _ _ _ H Hd) as (ie & Hie & Hic & Hin & _). simpl.
      unfold sg_in_degree, sg_in_neighbors. rewrite Hie. cbn [unwrap rbind]. rewrite (neighbors_panic ie Hic) by (by rewrite Hin). done.
  Qed.

  Lemma static_nodes : v_nodes V = rmapl (λ n, let* o := v_get_node V n in unwrap o) (v_node_indices V).
  Proof.
    simpl. unfold sg_nodes. rewrite sg_node_indices_eq.
    assert (∀ n, n ∈ (N.of_nat <$> seq 0 (sg_num_nodes g)) → a_has_node A n) as Hin.
    { intros n Hn. apply elem_of_list_fmap in Hn as (i & -> & Hi). apply elem_of_seq in Hi. apply (so_nodes _ _ _ H). rewrite <- (so_count _ _ _ H). lia. }
    destruct (sg_labels g) as [ls|] eqn:Hls.
    - rewrite (rmapl_ext _ (λ n, Ok (n, static_label lt (ls !!! N.to_nat n)))), rmapl_ok_fmap.
      2:{ intros n Hn. apply Hin in Hn. unfold sg_get_node. rewrite (proj2 (sg_has_node_ok n) Hn). cbn [negb]. rewrite Hls.
          pose proof (so_node_labels _ _ _ H n Hn) as Hl. rewrite Hls in Hl. destruct Hl as (i & Hi & _). unfold id_id. rewrite Hi.
          cbn [unwrap rbind]. by rewrite (list_lookup_total_correct _ _ _ Hi). }
      f_equal. apply list_eq. intros k. rewrite !list_lookup_fmap.
      destruct (decide (k < sg_num_nodes g)) as [Hk|Hk].
      + rewrite lookup_zip_with, list_lookup_fmap, lookup_seq_lt by done. simpl.
        assert (a_has_node A (N.of_nat k)) as Hn by (apply Hin, elem_of_list_fmap; exists k; split; [done|apply elem_of_seq; lia]).
        pose proof (so_node_labels _ _ _ H _ Hn) as Hl. rewrite Hls in Hl. destruct Hl as (i & Hi & _). rewrite Nat2N.id in *. rewrite Hi. simpl.
        by rewrite (list_lookup_total_correct _ _ _ Hi).
      + rewrite lookup_zip_with, list_lookup_fmap, lookup_seq_ge by lia. done.
    - rewrite (rmapl_ext _ (λ n, Ok (n, None))), rmapl_ok_fmap; [done|].
      intros n Hn. apply Hin in Hn. unfold sg_get_node. rewrite (proj2 (sg_has_node_ok n) Hn). cbn [negb]. by rewrite Hls.
  Qed.
End rep.

(** ** edges() *)
Section edges.
  Context (e : evec) (Hwf : csr_wf (ev_offsets e) (ev_edges e)) (Ht : csr_tight (ev_offsets e) (ev_edges e)).
  Local Notation offs := (ev_offsets e).
  Local Notation nn := (length (ev_offsets e) - 1).
  Lemma concat_rows {X} (entries : list X) c : length entries = length (ev_edges e) → c ≤ nn →
    (seq c (nn - c) ≫= λ n, row offs entries (N.of_nat n)) = drop (default 0 (offs !! c)) entries.
  Proof.
    intros Hlen. remember (nn - c) as k eqn:Hk. revert c Hk. induction k as [|k IH]; intros c Hk Hc.
    - simpl. assert (offs !! c = last offs) as ->. { rewrite last_lookup. f_equal. lia. }
      destruct Ht as [_ ->]. simpl. by rewrite <- Hlen, drop_all.
    - cbn [seq]. rewrite bind_cons. assert (N.of_nat c < csr_nodes offs)%N as Hn by (unfold csr_nodes; lia).
      destruct (bounds_ok e Hwf (N.of_nat c) Hn) as (a & b & Ha & Hb & Hab & Hbl & _). rewrite Nat2N.id in Ha, Hb.
      pose proof (IH (S c) ltac:(lia) ltac:(lia)) as IHc. rewrite IHc, Hb, Ha. simpl. unfold row. rewrite Nat2N.id, Ha, Hb.
      replace (drop b entries) with (drop (b - a) (drop a entries)) by (rewrite drop_drop; f_equal; lia). apply take_drop.
  Qed.
  Lemma concat_rows_all {X} (entries : list X) : length entries = length (ev_edges e) →
    (seq 0 nn ≫= λ n, row offs entries (N.of_nat n)) = entries.
  Proof.
    intros Hlen. pose proof (concat_rows entries 0 Hlen ltac:(lia)) as Hc. rewrite Nat.sub_0_r in Hc. rewrite Hc.
    destruct Ht as [Hh _]. destruct offs; [done|]. simpl in Hh. injection Hh as ->. done.
  Qed.
  Lemma row_len_eq {X Y} (xs : list X) (ys : list Y) n : length xs = length ys → length (row offs xs n) = length (row offs ys n).
  Proof.
    intros Hl. unfold row. destruct (offs !! N.to_nat n), (offs !! S (N.to_nat n)); [|done..]. rewrite !take_length, !drop_length. lia.
  Qed.
End edges.
  Lemma zip_bind {X Y Z} (f : X → list Y) (h : X → list Z) l : (∀ x, x ∈ l → length (f x) = length (h x)) →
    zip (l ≫= f) (l ≫= h) = l ≫= λ x, zip (f x) (h x).
  Proof.
    induction l as [|x l IH]; intros Hl; [done|]. csimpl. rewrite zip_with_app by (apply Hl; set_solver). f_equal.
    apply IH. intros y Hy. apply Hl. set_solver.
  Qed.
Lemma bind_ext {X Y} (f h : X → list Y) l : (∀ x, x ∈ l → f x = h x) → l ≫= f = l ≫= h.
Proof. induction l as [|x l IH]; intros Hl; [done|]. csimpl. rewrite IH, Hl; set_solver. Qed.
Lemma fmap_bind' {X Y Z} (f : Y → Z) (h : X → list Y) l : f <$> (l ≫= h) = l ≫= λ x, f <$> h x.
Proof. induction l as [|x l IH]; [done|]. csimpl. by rewrite fmap_app, IH. Qed.

Section rep_edges.
  Context {NL EL : Type} (it lt : idty) (dir : bool) (g : sgraph NL EL).
  Local Notation e := (sg_evec g).
  Local Notation offs := (ev_offsets (sg_evec g)).
  Context (Hc : csr_wf offs (ev_edges e)) (Hfit : (csr_nodes offs < id_card it)%N).
  Local Notation V := (sg_view it lt dir g).
  Lemma get_edge_row s t k : row offs (ev_edges e) s !! k = Some t →
    sg_get_edge lt g s t = Ok (Some (s, t, row offs (ev_labels e) s !! k ≫= static_label lt)).
  Proof.
    intros Hk. unfold sg_get_edge. rewrite (has_edge_ok e Hc), bool_decide_true by (by eapply elem_of_list_lookup_2).
    cbn [rbind negb]. rewrite (label_ok e Hc s t k Hk). cbn [rbind]. by destruct (row offs (ev_labels e) s !! k).
  Qed.
  Lemma edges_unlabelled : ev_labels e = [] →
    v_edges V = let* es := v_edge_indices V in rmapl (λ x, let* o := v_get_edge V x.1 x.2 in unwrap o) es.
  Proof.
    intros Hl. simpl. unfold sg_edges, sg_edge_indices. rewrite (ei_all_ok it dir e Hc Hfit). cbn [rbind]. rewrite Hl.
    rewrite (rmapl_ext _ (λ x, Ok (x, None))), rmapl_ok_fmap; [done|]. intros [s t] Hx. apply (remaining_elem it dir e Hfit) in Hx as [Hx _].
    apply elem_of_list_lookup in Hx as [k Hk]. simpl. rewrite (get_edge_row s t k Hk). cbn [rbind unwrap].
    rewrite Hl. unfold row. by destruct (offs !! N.to_nat s), (offs !! S (N.to_nat s)); rewrite ?drop_nil, ?take_nil.
  Qed.
  Lemma edges_directed : dir = true → csr_tight offs (ev_edges e) → length (ev_labels e) = length (ev_edges e) →
    v_edges V = let* es := v_edge_indices V in rmapl (λ x, let* o := v_get_edge V x.1 x.2 in unwrap o) es.
  Proof.
    intros Hdir Ht Hlen. destruct (ev_labels e) as [|l0 ls0] eqn:Hl; [by apply edges_unlabelled|].
    simpl. unfold sg_edges, sg_edge_indices. rewrite (ei_all_ok it dir e Hc Hfit). cbn [rbind]. rewrite Hl.
    rewrite <- (rest_cons it dir e Hfit). unfold rest. rewrite Nat.sub_0_r.
    assert (∀ n, out_row dir e n 0 = (λ t, (n, t)) <$> row offs (ev_edges e) n) as Hrow.
    { intros n. unfold out_row. rewrite drop_0. f_equal. induction (row offs (ev_edges e) n) as [|x l IH]; [done|].
      rewrite filter_cons, decide_True by (by left). by rewrite IH. }
    assert (∀ x, x ∈ (seq 0 (length offs - 1) ≫= λ n, out_row dir e (N.of_nat n) 0) →
      (λ x : N * N, let* o := sg_get_edge lt g x.1 x.2 in unwrap o) x =
      (λ x, Ok (x, default None (match sg_get_edge lt g x.1 x.2 with Ok (Some (_, _, l)) => Some l | _ => None end))) x) as Hget.
    { intros [s t] Hx. apply elem_of_list_bind in Hx as (n & Hx & _). rewrite Hrow in Hx. apply elem_of_list_fmap in Hx as (t' & [= -> ->] & Hx).
      apply elem_of_list_lookup in Hx as [k Hk]. simpl. by rewrite (get_edge_row _ _ k Hk). }
    rewrite (rmapl_ext _ _ _ Hget), rmapl_ok_fmap. f_equal. clear Hget.
    replace (l0 :: ls0) with (seq 0 (length offs - 1) ≫= λ n, row offs (ev_labels e) (N.of_nat n)).
    2:{ rewrite (concat_rows_all e Hc Ht) by (by rewrite Hl). done. }
    rewrite zip_bind.
    2:{ intros n _. rewrite Hrow, fmap_length. apply row_len_eq. by rewrite Hl. }
    rewrite !fmap_bind'. apply bind_ext. intros n _. rewrite Hrow. apply list_eq. intros k.
    rewrite !list_lookup_fmap, lookup_zip_with, list_lookup_fmap. destruct (row offs (ev_edges e) (N.of_nat n) !! k) as [t|] eqn:Hk; [|done].
    simpl. rewrite (get_edge_row _ _ k Hk). simpl.
    destruct (row offs (ev_labels e) (N.of_nat n) !! k) as [i|] eqn:Hi; [done|].
    apply lookup_ge_None in Hi. apply lookup_lt_Some in Hk. rewrite (row_len_eq e (ev_labels e) (ev_edges e)) in Hi by (by rewrite Hl). lia.
  Qed.
End rep_edges.
