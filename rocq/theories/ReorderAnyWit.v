(** Concrete cases for Properties_ReorderAny.v. *)
From Verif Require Import Base Api Spec BaseFacts SpecFacts Map GraphMap GraphMapFacts
  GraphMapRefine GraphMapQueries GraphMapSim GraphMapThms GraphMapMore GraphMapFrame GraphMapProps ViewFacts SpecReorder Reorder ReorderMain ReorderWit SpecReorderAny ReorderAny.

(** Whether a label id of type u8 is small enough, and the check for a whole table. *)
Definition lid_check (o : option N) : bool := match o with Some i => bool_decide (i < 256)%N | None => true end.
Definition typed_check (g : graphmap N N) : bool :=
  forallb (λ p : N * nodemap, lid_check (nm_label p.2) && forallb (λ q : N * option N, lid_check q.2) (map_to_list (nm_nbrs p.2))) (map_to_list (g_nodes g)) &&
  forallb (λ p : N * nodemap, bool_decide (p.1 < 256)%N) (map_to_list (g_nodes g)).
Lemma typed_dec dir it (g : graphmap N N) : typed_check g = true →
  label_ids_typed TU8 (gm_view dir it g) ∧ ∀ x, v_has_node (gm_view dir it g) x = true → (x < id_card TU8)%N.
Proof.
  unfold typed_check. rewrite andb_true_iff, !forallb_forall. intros [H1 H2].
  assert (∀ x n, g_nodes g !! x = Some n → lid_check (nm_label n) = true ∧ ∀ y l, nm_nbrs n !! y = Some l → lid_check l = true) as Hn.
  { intros x n Hx. specialize (H1 (x, n)). rewrite <-elem_of_list_In, elem_of_map_to_list in H1. specialize (H1 Hx). cbn [snd] in H1.
    rewrite andb_true_iff, forallb_forall in H1. destruct H1 as [Ha Hb]. split; [done|]. intros y l Hy. apply (Hb (y, l)).
    by rewrite <-elem_of_list_In, elem_of_map_to_list. }
  split; [split|].
  - intros x i. cbn. unfold gm_get_node. destruct (g_nodes g !! x) as [n|] eqn:E; [|done]. cbn. intros [= _ Hl].
    destruct (Hn x n E) as [Hl' _]. rewrite Hl in Hl'. cbn in Hl'. by apply bool_decide_eq_true in Hl'.
  - intros x y i. rewrite shown_edge. unfold adj. destruct (g_nodes g !! x) as [n|] eqn:E; [|done]. intros Hl.
    destruct (Hn x n E) as [_ Hb]. specialize (Hb y _ Hl). cbn in Hb. by apply bool_decide_eq_true in Hb.
  - intros x. cbn. unfold gm_has_node. rewrite bool_decide_eq_true. intros [n Hx]. specialize (H2 (x, n)).
    rewrite <-elem_of_list_In, elem_of_map_to_list in H2. specialize (H2 Hx). by apply bool_decide_eq_true in H2.
Qed.

(** Label 5 written from one end, and registered, so that it is counted at the other edge. *)
Definition ra_history : list (gop N N) :=
  [OAddEdgeLabel (Some 4); OAddEdge 10 20 (Some 5); OAddEdge 20 30 (Some 4); OSetEdgeLabelId 20 10 (Some 0)]%N.
(** The same without the edge that shows label 4 from its smaller end. *)
Definition ra_bad : list (gop N N) := [OAddEdgeLabel (Some 4); OAddEdge 10 20 (Some 5); OSetEdgeLabelId 20 10 (Some 0)]%N.
Lemma ra_good : ∃ (g : graphmap N N), gm_reachable false TU8 g ∧ hash_order g [20; 10; 30]%N ∧
  (let V := gm_view false [20; 10; 30]%N g in
   label_ids_typed TU8 V ∧ (∀ x, v_has_node V x = true → (x < id_card TU8)%N) ∧
   v_edge_label V 10 20 = Ok (Some 5%N) ∧ v_edge_label V 20 10 = Ok (Some 4%N)) ∧
  counter_order (node_label_ids g [20; 10; 30]%N) [] ∧ counter_order (edge_label_ids false g [20; 10; 30]%N) [1; 0]%N ∧
  ∃ R, gm_reorder_id false TU8 TU8 [20; 10; 30]%N [] [1; 0]%N true true true g = Ok R.
Proof.
  destruct (raw_panics false ra_history [20; 10; 30]%N [] [1; 0]%N
    (λ g, typed_check g && bool_decide (v_edge_label (gm_view false [20; 10; 30]%N g) 10 20 = Ok (Some 5%N)) &&
      bool_decide (v_edge_label (gm_view false [20; 10; 30]%N g) 20 10 = Ok (Some 4%N)) &&
      match gm_reorder_id false TU8 TU8 [20; 10; 30]%N [] [1; 0]%N true true true g with Ok _ => true | _ => false end))
    as (g & H1 & H2 & H3 & H4 & H5).
  { by vm_compute. }
  rewrite !andb_true_iff, !bool_decide_eq_true in H5. destruct H5 as [[[H5 H6] H7] H8]. exists g.
  split; [exact H1|split; [exact H2|split; [|split; [exact H3|split; [exact H4|]]]]].
  - destruct (typed_dec false [20; 10; 30]%N g H5) as [Ha Hb]. exact (conj Ha (conj Hb (conj H6 H7))).
  - destruct (gm_reorder_id false TU8 TU8 [20; 10; 30]%N [] [1; 0]%N true true true g) as [R| |]; [by exists R|done..].
Qed.
Lemma ra_bad_case : ∃ (g : graphmap N N), gm_reachable false TU8 g ∧ hash_order g [20; 10]%N ∧
  (let V := gm_view false [20; 10]%N g in
   label_ids_typed TU8 V ∧ (∀ x, v_has_node V x = true → (x < id_card TU8)%N) ∧
   v_edge_label V 10 20 = Ok (Some 5%N) ∧ v_edge_label V 20 10 = Ok (Some 4%N) ∧ ¬ nameless_node V ∧ nameless_edge false V) ∧
  counter_order (node_label_ids g [20; 10]%N) [] ∧ counter_order (edge_label_ids false g [20; 10]%N) [1]%N ∧
  gm_reorder_id false TU8 TU8 [20; 10]%N [] [1]%N true true true g = Panic.
Proof.
  destruct (raw_panics false ra_bad [20; 10]%N [] [1]%N
    (λ g, typed_check g && bool_decide (v_edge_label (gm_view false [20; 10]%N g) 10 20 = Ok (Some 5%N)) &&
      bool_decide (v_edge_label (gm_view false [20; 10]%N g) 20 10 = Ok (Some 4%N)) &&
      panics (gm_reorder_id false TU8 TU8 [20; 10]%N [] [1]%N true true true g) &&
      negb (panics (gm_reorder_id false TU8 TU8 [20; 10]%N [] [1]%N true true false g)) &&
      bool_decide (v_get_edge (gm_view false [20; 10]%N g) 20 10 = Ok (Some (20, 10, Some 0)%N))))
    as (g & H1 & H2 & H3 & H4 & H5).
  { by vm_compute. }
  rewrite !andb_true_iff, !bool_decide_eq_true in H5. destruct H5 as [[[[[H5 H6] H7] H8] H9] H10]. exists g.
  destruct (typed_dec false [20; 10]%N g H5) as [Ha Hb].
  assert (¬ nameless_node (gm_view false [20; 10]%N g)) as Hnn.
  { intros Hbad. destruct (reorder_exact false TU8 TU8 g [20; 10]%N [] [1]%N true true false H1 H2 Hb Ha H3 H4) as [HP _].
    rewrite (HP (or_introl (conj eq_refl Hbad))) in H9. done. }
  assert (gm_reorder_id false TU8 TU8 [20; 10]%N [] [1]%N true true true g = Panic) as HPan
    by (destruct (gm_reorder_id false TU8 TU8 [20; 10]%N [] [1]%N true true true g); done).
  split; [exact H1|split; [exact H2|split; [|split; [exact H3|split; [exact H4|exact HPan]]]]].
  refine (conj Ha (conj Hb (conj H6 (conj H7 (conj Hnn _))))).
  exists 20%N, 10%N, 0%N. split; [exact H10|]. right. split; [done|]. intros a b Hab Hs.
  apply shown_edge in Hs. destruct (reach_skrel false TU8 g H1) as [s Hs'].
  assert (0%N ∈ edge_label_ids false g [20; 10]%N) as Hin.
  { apply (any_edge_ids false _ _ g s Hs' [20; 10]%N H2). exists a, b. by split; [|right]. }
  destruct H4 as [_ H4]. apply H4 in Hin. by apply elem_of_list_singleton in Hin.
Qed.
