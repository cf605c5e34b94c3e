(** Concrete cases and counterexamples for Properties_Reorder.v. *)
From Verif Require Import Base BaseFacts Api Spec SpecFacts ViewFacts Map GraphMap GraphMapFacts GraphMapRefine GraphMapSim
  GraphMapThms GraphMapProps GraphMapQueries StaticWit SpecReorder Reorder ReorderMain.

(** Sparse ids; node 10 has the highest degree; labels 7 and 5 are the common ones, the
    labels 9 (node) and 4 (edge) are registered but unused. *)
Definition ro_history : list (gop N N) :=
  [OAddNodeLabel (Some 9); OAddEdgeLabel (Some 4); OAddNode 10 (Some 7); OAddNode 20 (Some 8); OAddNode 30 (Some 7);
   OAddEdge 10 20 (Some 5); OAddEdge 10 30 (Some 6); OAddEdge 30 40 (Some 5); OAddEdge 50 10 None; OAddEdge 30 30 (Some 5)]%N.

Lemma counter_order_dec items o : bool_decide (NoDup o) && forallb (λ x, bool_decide (x ∈ items)) o && forallb (λ x, bool_decide (x ∈ o)) items = true →
  counter_order items o.
Proof.
  rewrite !andb_true_iff, bool_decide_eq_true, !forallb_forall. intros [[H1 H2] H3]. split; [done|].
  intros x. specialize (H2 x). specialize (H3 x). rewrite bool_decide_eq_true in H2, H3. rewrite <-!elem_of_list_In in *. naive_solver.
Qed.
Lemma hash_order_dec (g : graphmap N N) it : bool_decide (NoDup it) && bool_decide (length it = size (g_nodes g)) &&
  forallb (λ k, bool_decide (is_Some (g_nodes g !! k))) it = true → hash_order g it.
Proof.
  rewrite !andb_true_iff, !bool_decide_eq_true. intros ((Hnd & Hlen) & Hall).
  apply submseteq_Permutation_length_le.
  - rewrite fmap_length. by rewrite Hlen.
  - apply NoDup_submseteq; [done|]. intros k Hk. rewrite forallb_forall in Hall. specialize (Hall k).
    apply elem_of_list_In in Hk. specialize (Hall Hk). apply bool_decide_eq_true in Hall as [n Hn].
    apply elem_of_list_fmap. exists (k, n). by rewrite elem_of_map_to_list.
Qed.
Lemma ro_case dir : ∃ rs s, spec_run ro_history (s_init dir [] []) = SOk (rs, s) ∧
  labels_fit TU8 (sp_nls s) ∧ labels_fit TU8 (sp_els s) ∧
  (∀ x, a_has_node (sp_g s) x → (x < id_card TU8)%N) ∧ size (ag_nodes (sp_g s)) = 5 ∧
  a_total_degree (sp_g s) 40 < a_total_degree (sp_g s) 10.
Proof.
  assert (∀ (r : sres (list (gout N N) * sstate N N)) (P : list (gout N N) → sstate N N → Prop),
    match r with SOk (a, b) => P a b | _ => False end → ∃ a b, r = SOk (a, b) ∧ P a b) as Hex.
  { intros [[a b]| |] P HP; try done. by exists a, b. }
  apply Hex. destruct (spec_run ro_history (s_init dir [] [])) as [[rs s]| |] eqn:Hs.
  2,3: destruct dir; by vm_compute in Hs.
  assert (bool_decide (N.of_nat (length (sp_nls s)) ≤ id_card TU8)%N && bool_decide (N.of_nat (length (sp_els s)) ≤ id_card TU8)%N &&
    (forallb (λ n, bool_decide (n < id_card TU8)%N) (map_to_list (ag_nodes (sp_g s))).*1) && bool_decide (size (ag_nodes (sp_g s)) = 5) &&
    bool_decide (a_total_degree (sp_g s) 40 < a_total_degree (sp_g s) 10) = true) as Hb.
  { destruct dir; vm_compute in Hs; injection Hs as <- <-; by vm_compute. }
  rewrite !andb_true_iff, !bool_decide_eq_true in Hb. destruct Hb as ((((H1 & H2) & H3) & H4) & H5).
  split; [done|]. split; [done|]. split; [|by split]. apply (ids_of _ _). exact H3.
Qed.

(** What reorder_id computes for one iteration order of each hash table. *)
Definition ro_run (dir : bool) : res (graphmap N N) := rmap snd (gm_run dir TU8 ro_history (gm_with_label_map [] [])).
Definition ro_it : list N := [30; 10; 50; 40; 20]%N.
Definition order_check (g : graphmap N N) it : bool := bool_decide (NoDup it) && bool_decide (length it = size (g_nodes g)) &&
  forallb (λ k, bool_decide (is_Some (g_nodes g !! k))) it.
Definition counter_check (items o : list N) : bool :=
  bool_decide (NoDup o) && forallb (λ x, bool_decide (x ∈ items)) o && forallb (λ x, bool_decide (x ∈ o)) items.
Lemma ro_result dir : ∃ g R g', ro_run dir = Ok g ∧ hash_order g ro_it ∧
  counter_order (node_label_ids g ro_it) [1; 2]%N ∧ counter_order (edge_label_ids dir g ro_it) [2; 1]%N ∧
  gm_reorder_id dir TU8 TU8 ro_it [1; 2]%N [2; 1]%N true true true g = Ok R ∧ rr_graph R = Some g' ∧
  rr_map R = Some (if dir then [50; 40; 20; 10; 30]%N else [50; 40; 20; 30; 10]%N) ∧
  rmapl (rr_find_new_node_id TU8 R) [10; 20; 30; 40; 50]%N = Ok (if dir then [3; 2; 4; 1; 0]%N else [4; 2; 3; 1; 0]%N) ∧
  g_nlm g' = [8; 7]%N ∧ g_elm g' = [6; 5]%N ∧
  gm_has_edge g' (if dir then 4 else 3)%N 1 = true ∧ gm_has_edge g' 1 (if dir then 4 else 3)%N = negb dir.
Proof.
  assert (match ro_run dir with
    | Ok g => order_check g ro_it && counter_check (node_label_ids g ro_it) [1; 2]%N && counter_check (edge_label_ids dir g ro_it) [2; 1]%N &&
      match gm_reorder_id dir TU8 TU8 ro_it [1; 2]%N [2; 1]%N true true true g with
      | Ok R => match rr_graph R with
        | Some g' => bool_decide (rr_map R = Some (if dir then [50; 40; 20; 10; 30]%N else [50; 40; 20; 30; 10]%N)) &&
            bool_decide (rmapl (rr_find_new_node_id TU8 R) [10; 20; 30; 40; 50]%N = Ok (if dir then [3; 2; 4; 1; 0]%N else [4; 2; 3; 1; 0]%N)) &&
            bool_decide (g_nlm g' = [8; 7]%N) && bool_decide (g_elm g' = [6; 5]%N) &&
            gm_has_edge g' (if dir then 4 else 3)%N 1 && bool_decide (gm_has_edge g' 1 (if dir then 4 else 3)%N = negb dir)
        | None => false end
      | _ => false end
    | _ => false end = true) as Hb.
  { destruct dir; by vm_compute. }
  destruct (ro_run dir) as [g| |]; [|done..]. rewrite !andb_true_iff in Hb. destruct Hb as (((H1 & H2) & H3) & Hb).
  destruct (gm_reorder_id _ _ _ _ _ _ _ _ _ g) as [R| |] eqn:HR; [|done..]. destruct (rr_graph R) as [g'|] eqn:Hg'; [|done].
  rewrite !andb_true_iff, !bool_decide_eq_true in Hb. destruct Hb as (((((H4 & H5) & H6) & H7) & H8) & H9).
  exists g, R, g'. split; [done|]. split; [by apply hash_order_dec|]. split; [by apply counter_order_dec|].
  split; [by apply counter_order_dec|]. exact (conj HR (conj Hg' (conj H4 (conj H5 (conj H6 (conj H7 (conj H8 H9))))))).
Qed.

(** Raw label ids: an undirected edge labelled differently on its two sides, and a label id
    without label. *)
Lemma raw_panics dir (h : list (gop N N)) it no eo (F : graphmap N N → bool) :
  match gm_run dir TU8 h (gm_with_label_map [] []) with
  | Ok (rs, g) => order_check g it && counter_check (node_label_ids g it) no && counter_check (edge_label_ids dir g it) eo && F g
  | _ => false end = true →
  ∃ g : graphmap N N, gm_reachable dir TU8 g ∧ hash_order g it ∧
    counter_order (node_label_ids g it) no ∧ counter_order (edge_label_ids dir g it) eo ∧ F g = true.
Proof.
  destruct (gm_run dir TU8 h (gm_with_label_map [] [])) as [[rs g]| |] eqn:Hg; [|done..].
  rewrite !andb_true_iff. intros (((H1 & H2) & H3) & H4). exists g. split.
  { exists [], [], h, rs. split; [constructor|]. by split; [constructor|]. }
  split; [by apply hash_order_dec|]. split; [by apply counter_order_dec|]. by split; [apply counter_order_dec|].
Qed.
Definition panics {X} (r : res X) : bool := match r with Panic => true | _ => false end.
Lemma ro_raw_edge : ∃ (g : graphmap N N) it no eo, gm_reachable false TU8 g ∧ hash_order g it ∧
  counter_order (node_label_ids g it) no ∧ counter_order (edge_label_ids false g it) eo ∧
  ∀ fn fnl, gm_reorder_id false TU8 TU8 it no eo fn fnl true g = Panic.
Proof.
  destruct (raw_panics false [OAddEdgeLabel (Some 4); OAddEdge 0 1 (Some 5); OSetEdgeLabelId 1 0 (Some 0)]%N [0; 1]%N [] [1]%N
    (λ g, forallb (λ p : bool * bool, panics (gm_reorder_id false TU8 TU8 [0; 1]%N [] [1]%N p.1 p.2 true g))
       [(true, true); (true, false); (false, true); (false, false)])) as (g & H1 & H2 & H3 & H4 & H5).
  { by vm_compute. }
  exists g, [0; 1]%N, [], [1]%N. split; [done|]. split; [done|]. split; [done|]. split; [done|]. intros fn fnl.
  rewrite forallb_forall in H5. specialize (H5 (fn, fnl) ltac:(destruct fn, fnl; simpl; tauto)). cbn [fst snd] in H5.
  by destruct (gm_reorder_id _ _ _ _ _ _ _ _ _ g).
Qed.
Lemma ro_raw_node dir : ∃ (g : graphmap N N) it no eo, gm_reachable dir TU8 g ∧ hash_order g it ∧
  counter_order (node_label_ids g it) no ∧ counter_order (edge_label_ids dir g it) eo ∧
  ∀ fn fel, gm_reorder_id dir TU8 TU8 it no eo fn true fel g = Panic.
Proof.
  destruct (raw_panics dir [OAddNode 0 None; OSetNodeLabelId 0 (Some 3)]%N [0]%N [3]%N []
    (λ g, forallb (λ p : bool * bool, panics (gm_reorder_id dir TU8 TU8 [0]%N [3]%N [] p.1 true p.2 g))
       [(true, true); (true, false); (false, true); (false, false)])) as (g & H1 & H2 & H3 & H4 & H5).
  { destruct dir; by vm_compute. }
  exists g, [0]%N, [3]%N, []. split; [done|]. split; [done|]. split; [done|]. split; [done|]. intros fn fnl.
  rewrite forallb_forall in H5. specialize (H5 (fn, fnl) ltac:(destruct fn, fnl; simpl; tauto)). cbn [fst snd] in H5.
  by destruct (gm_reorder_id _ _ _ _ _ _ _ _ _ g).
Qed.
