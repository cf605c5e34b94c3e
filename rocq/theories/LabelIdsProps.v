(** The counters of label ids and of labels agree; what the label maps say about the labels in use. *)
From Verif Require Import Base BaseFacts Api Spec SpecFacts SpecOps ViewFacts ViewOps ViewOpsProps LabelIds Map GraphMap GraphMapQueries TraverseProps Static IntoStatic StaticWit ViewOpsWit.

Lemma same_counter {X Y Z} `{EqDecision Y, EqDecision Z} (ks : list X) (f : X → option Y) (g : X → option Z) (a : Y) (b : Z) :
  (∀ k, k ∈ ks → f k = Some a ↔ g k = Some b) → counter_get a (omap f ks) = counter_get b (omap id (g <$> ks)).
Proof.
  intros Hfg. induction ks as [|k ks IH]; [done|]. csimpl. assert (∀ k, k ∈ ks → f k = Some a ↔ g k = Some b) as Hks by (intros; apply Hfg; by right).
  specialize (IH Hks). specialize (Hfg k (elem_of_list_here _ _)). unfold counter_get in *. simpl.
  destruct (f k) as [y|] eqn:Hf, (g k) as [z|] eqn:Hg; simpl; rewrite ?filter_cons.
  - destruct (decide (y = a)) as [->|Hy], (decide (z = b)) as [->|Hz]; simpl; rewrite ?IH; try done; exfalso.
    + destruct Hfg as [H _]. specialize (H eq_refl). congruence.
    + destruct Hfg as [_ H]. specialize (H eq_refl). congruence.
  - destruct (decide (y = a)) as [->|]; [|done]. destruct Hfg as [H _]. by specialize (H eq_refl).
  - destruct (decide (z = b)) as [->|]; [|done]. destruct Hfg as [_ H]. by specialize (H eq_refl).
  - done.
Qed.
Lemma omap_of_fmap {X Y Z} (f : Y → option Z) (g : X → Y) (l : list X) : omap f (g <$> l) = omap (λ x, f (g x)) l.
Proof. induction l as [|x l IH]; [done|]. csimpl. by rewrite IH. Qed.
Lemma denotes_once {X} (lm : list X) lid i x : NoDup lm → lm !! N.to_nat i = Some x → lid = Some i ↔ denotes lm lid = Some x.
Proof.
  intros Hnd Hi. destruct lid as [j|]; simpl; [|done]. split; [by intros [= ->]|]. intros Hj.
  assert (N.to_nat i = N.to_nat j) as Heq by (eapply NoDup_lookup; eassumption). f_equal. lia.
Qed.

Section ids.
  Context {NL EL : Type} `{EqDecision NL, EqDecision EL} (V : gview NL EL) (A : agraph NL EL).
  Context (R : represents V A) (I : iterates V).
  Lemma node_id_counter_thm : NoDup (v_node_label_map V) → ∃ c, v_node_label_id_counter V = Ok c ∧
    ∀ i l, v_node_label_map V !! N.to_nat i = Some l →
      counter_get i c = size (filter (λ p : N * option NL, p.2 = Some l) (ag_nodes A)).
  Proof using R I.
    intros Hnd. set (lid n := match v_get_node V n with Ok (Some (_, l)) => l | _ => None end).
    assert (∀ n, n ∈ v_node_indices V → v_get_node V n = Ok (Some (n, lid n)) ∧ denotes (v_node_label_map V) (lid n) = label_of (ag_nodes A !! n)) as Hlid.
    { intros n Hn. apply (rp_node_indices _ _ R) in Hn. destruct (rp_get_node _ _ R n Hn) as (l & Hl & Hd). unfold lid. by rewrite Hl. }
    unfold v_node_label_id_counter. rewrite (it_nodes _ I).
    rewrite (rmapl_ext _ (λ n, Ok (n, lid n))), rmapl_ok_fmap. 2:{ intros n Hn. by rewrite (proj1 (Hlid n Hn)). }
    cbn [rbind]. eexists. split; [done|]. intros i l Hi. rewrite <- (counter_size _ (v_node_indices V)) by apply (rp_node_indices _ _ R).
    rewrite omap_of_fmap. apply same_counter. intros n Hn. cbn [snd]. rewrite <- (proj2 (Hlid n Hn)). by apply denotes_once.
  Qed.
  Lemma edge_id_counter_thm : NoDup (v_edge_label_map V) → ∃ c, v_edge_label_id_counter V = Ok c ∧
    ∀ i l, v_edge_label_map V !! N.to_nat i = Some l →
      counter_get i c = size (filter (λ p : (N * N) * option EL, p.2 = Some l) (ag_edges A)).
  Proof using R I.
    intros Hnd. destruct (rp_edge_indices _ _ R) as (es & Hes & Hl).
    set (lid (e : N * N) := match v_get_edge V e.1 e.2 with Ok (Some (_, l)) => l | _ => None end).
    assert (∀ e, e ∈ es → v_get_edge V e.1 e.2 = Ok (Some (e, lid e)) ∧ denotes (v_edge_label_map V) (lid e) = label_of (ag_edges A !! e)) as Hlid.
    { intros [x y] He. apply Hl in He. pose proof He as Hk. apply (rp_wf _ _ R) in Hk as (Hk & _).
      assert (a_edge_at A x y = ag_edges A !! (x, y)) as Hat by (unfold a_edge_at; by rewrite Hk).
      destruct (rp_get_edge _ _ R x y) as (l & Hg & Hd); [unfold a_has_edge; by rewrite Hat|]. unfold lid. cbn [fst snd]. rewrite Hg. by rewrite Hat in Hd. }
    unfold v_edge_label_id_counter. rewrite (it_edges _ I), Hes. cbn [rbind].
    rewrite (rmapl_ext _ (λ e, Ok (e, lid e))), rmapl_ok_fmap. 2:{ intros e He. by rewrite (proj1 (Hlid e He)). }
    cbn [rbind]. eexists. split; [done|]. intros i l Hi. rewrite <- (counter_size _ es) by done.
    rewrite omap_of_fmap. apply same_counter. intros e He. cbn [snd]. rewrite <- (proj2 (Hlid e He)). by apply denotes_once.
  Qed.
End ids.
(** Labels in use are in the label maps. *)
Section maps.
  Context {NL EL : Type} (V : gview NL EL) (A : agraph NL EL) (R : represents V A).
  Lemma denotes_in {X} (lm : list X) lid x : denotes lm lid = Some x → x ∈ lm.
  Proof. destruct lid; simpl; [|done]. apply elem_of_list_lookup_2. Qed.
  Lemma maps_cover : uses_labels A (v_node_labels V) (v_edge_labels V).
  Proof using R.
    split.
    - intros n l Hn. destruct (rp_get_node _ _ R n) as (lid & _ & Hd); [by exists (Some l)|]. rewrite Hn in Hd. by eapply denotes_in.
    - intros [x y] l He. pose proof (rp_wf _ _ R x y (mk_is_Some _ _ He)) as (Hk & _).
      assert (a_edge_at A x y = Some (Some l)) as Hat by (unfold a_edge_at; by rewrite Hk).
      destruct (rp_get_edge _ _ R x y) as (lid & _ & Hd); [by exists (Some l)|]. rewrite Hat in Hd. by eapply denotes_in.
  Qed.
  Lemma maps_size ls : NoDup ls → (∀ l, l ∈ ls → ∃ n, ag_nodes A !! n = Some (Some l)) → length ls ≤ v_num_node_labels V.
  Proof using R.
    intros Hnd Hl. apply submseteq_length, NoDup_submseteq; [done|]. intros l Hin. destruct (Hl l Hin) as [n Hn]. by eapply maps_cover.
  Qed.
  Lemma maps_size_edges ls : NoDup ls → (∀ l, l ∈ ls → ∃ e, ag_edges A !! e = Some (Some l)) → length ls ≤ v_num_edge_labels V.
  Proof using R.
    intros Hnd Hl. apply submseteq_length, NoDup_submseteq; [done|]. intros l Hin. destruct (Hl l Hin) as [e He]. by eapply maps_cover.
  Qed.
  Lemma maps_none : (v_has_node_labels V = false → ∀ n l, ag_nodes A !! n ≠ Some (Some l)) ∧
    (v_has_edge_labels V = false → ∀ e l, ag_edges A !! e ≠ Some (Some l)).
  Proof using R.
    unfold v_has_node_labels, v_has_edge_labels. destruct maps_cover as [H1 H2]. split.
    - destruct (v_node_labels V); [|done]. intros _ n l Hn. by apply H1, elem_of_nil in Hn.
    - destruct (v_edge_labels V); [|done]. intros _ n l Hn. by apply H2, elem_of_nil in Hn.
  Qed.
End maps.
(** The converse fails: a label no longer in use is still counted. *)
Definition used_wit : list (gop N N) := [OAddNode 1 (Some 7); OUpdateNodeLabel 1 None; OAddEdge 1 2 (Some 5); ORemoveEdge 1 2]%N.
Lemma unused_wit dir : ∃ (V : gview N N) A, represents V A ∧ gm_reachable dir TU8 (run_gm dir used_wit) ∧ V = run_view dir used_wit ∧
  (∀ n l, ag_nodes A !! n ≠ Some (Some l)) ∧ (∀ e, ag_edges A !! e = None) ∧
  v_has_node_labels V = true ∧ v_has_edge_labels V = true ∧ v_num_node_labels V = 1 ∧ v_num_edge_labels V = 1.
Proof.
  exists (run_view dir used_wit), (sp_g (run_spec dir used_wit)). destruct (run_view_all dir used_wit) as (H1 & _ & _ & _ & _ & _ & H2); [destruct dir; vm_compute; lia|].
  split; [done|]. split; [done|]. split; [done|]. split.
  { intros n l Hn. apply elem_of_map_to_list in Hn.
    assert (forallb (λ p, match p.2 with Some _ => false | None => true end) (map_to_list (ag_nodes (sp_g (run_spec dir used_wit)))) = true) as Hf by (destruct dir; by vm_compute).
    rewrite forallb_forall in Hf. apply elem_of_list_In in Hn. by specialize (Hf _ Hn). }
  split. { assert (map_to_list (ag_edges (sp_g (run_spec dir used_wit))) = []) as He by (destruct dir; by vm_compute).
    apply map_to_list_empty_iff in He. intros e. rewrite He. apply lookup_empty. }
  destruct dir; split_and!; by vm_compute.
Qed.
Lemma id_counter_case dir : ∃ (V : gview N N) A, represents V A ∧ iterates V ∧ ag_dir A = dir ∧ NoDup (v_node_label_map V) ∧ NoDup (v_edge_label_map V) ∧
  v_node_label_map V = [7]%N ∧ v_edge_label_map V = [5]%N ∧
  rmap (counter_get 0%N) (v_node_label_id_counter V) = Ok 2 ∧ rmap (counter_get 0%N) (v_edge_label_id_counter V) = Ok 1.
Proof.
  destruct (run_view_all dir eq_wit1) as (H0 & _ & HI & _); [destruct dir; vm_compute; lia|].
  exists (run_view dir eq_wit1), (sp_g (run_spec dir eq_wit1)). split; [exact H0|]. split; [exact HI|]. split; [by destruct dir|].
  assert (v_node_label_map (run_view dir eq_wit1) = [7]%N) as -> by (destruct dir; by vm_compute).
  assert (v_edge_label_map (run_view dir eq_wit1) = [5]%N) as -> by (destruct dir; by vm_compute).
  split; [apply NoDup_singleton|]. split; [apply NoDup_singleton|]. split; [done|]. split; [done|]. destruct dir; (split; by vm_compute).
Qed.
(** An undirected static graph with edge labels counts wrongly, because edges() is wrong (C32). *)
Lemma static_id_counter_bad : ∃ (g : graphmap N N) sg, gm_reachable false TU8 g ∧ gm_into_static TU8 TU8 false g = Ok sg ∧
  v_edge_label_map (sg_view TU8 TU8 false sg) = [5; 6]%N ∧
  rmap (counter_get 5%N) (v_edge_label_counter (sg_view TU8 TU8 false sg)) = Ok 1 ∧ rmap (counter_get 0%N) (v_edge_label_id_counter (sg_view TU8 TU8 false sg)) = Ok 2.
Proof.
  assert (fits_u8 false st_path) as Hf by (vm_compute; lia).
  destruct (run_view_all false st_path Hf) as (_ & _ & _ & _ & _ & _ & H4).
  assert (match gm_into_static TU8 TU8 false (run_gm false st_path) with
      | Ok sg => bool_decide (v_edge_label_map (sg_view TU8 TU8 false sg) = [5; 6]%N ∧ rmap (counter_get 5%N) (v_edge_label_counter (sg_view TU8 TU8 false sg)) = Ok 1 ∧
         rmap (counter_get 0%N) (v_edge_label_id_counter (sg_view TU8 TU8 false sg)) = Ok 2)
      | _ => false end = true) as Hc by (by vm_compute).
  destruct (gm_into_static TU8 TU8 false (run_gm false st_path)) as [sg| |] eqn:Hs; [|done..]. apply bool_decide_eq_true in Hc.
  exists (run_gm false st_path), sg. split; [exact H4|]. split; [exact Hs|exact Hc].
Qed.
