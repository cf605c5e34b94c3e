(** Lemmas about the abstract graphs of Spec.v. *)
From Verif Require Import Base Api Spec BaseFacts.

Lemma ekey_eq dir s t x y :
  ekey dir s t = ekey dir x y ↔
  (s = x ∧ t = y) ∨ (dir = false ∧ s = y ∧ t = x).
Proof.
  unfold ekey. destruct dir.
  - split; [intros [= -> ->]; by left|]. intros [[-> ->]|[? _]]; done.
  - split.
    + intros [= H1 H2]. destruct (decide (s = x)) as [->|]; [left; split; lia|right; lia].
    + intros [[-> ->]|(_ & -> & ->)]; [done|]. f_equal; lia.
Qed.
Lemma ekey_idem dir s t : ekey dir (ekey dir s t).1 (ekey dir s t).2 = ekey dir s t.
Proof. destruct dir; [done|]. unfold ekey. simpl. f_equal; lia. Qed.
Lemma ekey_sym s t : ekey false s t = ekey false t s.
Proof. unfold ekey. f_equal; lia. Qed.
Lemma ekey_loop dir s : ekey dir s s = (s, s).
Proof. destruct dir; unfold ekey; f_equal; lia. Qed.
Lemma ekey_cases dir s t : ekey dir s t = (s, t) ∨ (dir = false ∧ ekey dir s t = (t, s)).
Proof.
  destruct dir; [by left|]. unfold ekey. destruct (decide (s ≤ t)%N).
  - left. f_equal; lia.
  - right. split; [done|]. f_equal; lia.
Qed.
Lemma ekey_touches dir s t n : touches n (ekey dir s t) ↔ s = n ∨ t = n.
Proof.
  unfold touches. destruct (ekey_cases dir s t) as [->|[_ ->]]; simpl; naive_solver.
Qed.

Section facts.
  Context {NL EL : Type}.
  Implicit Types A : agraph NL EL.

  Lemma edge_at_sym A s t : ag_dir A = false → a_edge_at A s t = a_edge_at A t s.
  Proof. intros Hd. unfold a_edge_at. rewrite Hd. by rewrite ekey_sym. Qed.
  Lemma has_edge_sym A s t : ag_dir A = false → a_has_edge A s t ↔ a_has_edge A t s.
  Proof. intros Hd. unfold a_has_edge. by rewrite edge_at_sym. Qed.
  Lemma wf_edge_nodes A s t : ag_wf A → a_has_edge A s t → a_has_node A s ∧ a_has_node A t.
  Proof.
    intros Hwf He. unfold a_has_edge, a_edge_at in He.
    destruct (ekey_cases (ag_dir A) s t) as [Heq|[_ Heq]]; rewrite Heq in He;
      apply Hwf in He as (_ & ? & ?); done.
  Qed.
  Lemma wf_edge_key A s t : ag_wf A → is_Some (ag_edges A !! (s, t)) →
    a_edge_at A s t = ag_edges A !! (s, t).
  Proof. intros Hwf He. unfold a_edge_at. by apply Hwf in He as (-> & _). Qed.
  (** The stored edges in terms of the API notion of edge. *)
  Lemma wf_stored A e : ag_wf A →
    is_Some (ag_edges A !! e) ↔ a_has_edge A e.1 e.2 ∧ (ag_dir A = true ∨ (e.1 ≤ e.2)%N).
  Proof.
    intros Hwf. destruct e as [s t]. simpl. split.
    - intros He. split; [unfold a_has_edge; by rewrite wf_edge_key|].
      apply Hwf in He as (Hk & _). unfold ekey in Hk. destruct (ag_dir A); [by left|right].
      simplify_eq. lia.
    - intros [He Ho]. unfold a_has_edge, a_edge_at in He.
      enough (ekey (ag_dir A) s t = (s, t)) as Heq by (by rewrite Heq in He).
      unfold ekey. destruct (ag_dir A); [done|]. destruct Ho as [?|?]; [done|]. f_equal; lia.
  Qed.

  Lemma wf_empty dir : ag_wf (a_empty dir : agraph NL EL).
  Proof. intros s t [? H]. simpl in H. rewrite lookup_empty in H. done. Qed.

  Lemma add_node_dir n l A : ag_dir (a_add_node n l A) = ag_dir A.
  Proof. done. Qed.
  Lemma add_node_edge_at n l A s t : a_edge_at (a_add_node n l A) s t = a_edge_at A s t.
  Proof. done. Qed.
  Lemma add_node_has_node n l A k : a_has_node (a_add_node n l A) k ↔ k = n ∨ a_has_node A k.
  Proof. unfold a_has_node. simpl. rewrite lookup_insert_is_Some'. naive_solver. Qed.
  Lemma wf_add_node n l A : ag_wf A → ag_wf (a_add_node n l A).
  Proof.
    intros Hwf s t He. destruct (Hwf s t He) as (? & ? & ?). split; [done|].
    rewrite !add_node_has_node. by split; right.
  Qed.

  Lemma touch_dir n A : ag_dir (a_touch n A) = ag_dir A.
  Proof. unfold a_touch. by destruct (ag_nodes A !! n). Qed.
  Lemma touch_edges n A : ag_edges (a_touch n A) = ag_edges A.
  Proof. unfold a_touch. by destruct (ag_nodes A !! n). Qed.
  Lemma touch_nodes n A k : ag_nodes (a_touch n A) !! k =
    if decide (k = n) then Some (default None (ag_nodes A !! n)) else ag_nodes A !! k.
  Proof.
    unfold a_touch. destruct (ag_nodes A !! n) as [l|] eqn:Hn; simpl.
    - case_decide; subst; done.
    - case_decide; subst; [by rewrite lookup_insert|by rewrite lookup_insert_ne].
  Qed.
  Lemma touch_has_node n A k : a_has_node (a_touch n A) k ↔ k = n ∨ a_has_node A k.
  Proof.
    unfold a_has_node. rewrite touch_nodes. case_decide as Hk; [|naive_solver].
    split; [by left|by eexists].
  Qed.
  Lemma touch_present n A : a_has_node A n → a_touch n A = A.
  Proof. intros [l Hl]. unfold a_touch. by rewrite Hl. Qed.
  Lemma wf_touch n A : ag_wf A → ag_wf (a_touch n A).
  Proof. intros Hwf. unfold a_touch. destruct (ag_nodes A !! n); [done|]. by apply wf_add_node. Qed.

  Lemma add_edge_dir s t l A : ag_dir (a_add_edge s t l A) = ag_dir A.
  Proof. unfold a_add_edge. simpl. by rewrite !touch_dir. Qed.
  Lemma add_edge_nodes s t l A : ag_nodes (a_add_edge s t l A) = ag_nodes (a_touch t (a_touch s A)).
  Proof. done. Qed.
  Lemma add_edge_edges s t l A :
    ag_edges (a_add_edge s t l A) = <[ekey (ag_dir A) s t := l]> (ag_edges A).
  Proof. unfold a_add_edge. simpl. by rewrite !touch_edges. Qed.
  Lemma add_edge_has_node s t l A k :
    a_has_node (a_add_edge s t l A) k ↔ k = s ∨ k = t ∨ a_has_node A k.
  Proof.
    unfold a_has_node at 1. rewrite add_edge_nodes.
    change (a_has_node (a_touch t (a_touch s A)) k ↔ k = s ∨ k = t ∨ a_has_node A k).
    rewrite !touch_has_node. naive_solver.
  Qed.
  Lemma add_edge_edge_at s t l A x y :
    a_edge_at (a_add_edge s t l A) x y =
      if decide (ekey (ag_dir A) s t = ekey (ag_dir A) x y) then Some l else a_edge_at A x y.
  Proof.
    unfold a_edge_at. rewrite add_edge_dir, add_edge_edges.
    case_decide as Hk; [rewrite Hk; by rewrite lookup_insert|by rewrite lookup_insert_ne].
  Qed.
  Lemma wf_add_edge s t l A : ag_wf A → ag_wf (a_add_edge s t l A).
  Proof.
    intros Hwf x y He. rewrite add_edge_dir. rewrite !add_edge_has_node. rewrite add_edge_edges in He.
    destruct (decide (ekey (ag_dir A) s t = (x, y))) as [Hk|Hk].
    - split; [|destruct (ekey_cases (ag_dir A) s t) as [Heq|[_ Heq]]; rewrite Heq in Hk; naive_solver].
      rewrite <-(ekey_idem (ag_dir A) s t) in Hk. pose proof Hk as Hk2.
      rewrite ekey_idem in Hk2. rewrite Hk2 in Hk. done.
    - rewrite lookup_insert_ne in He by done. destruct (Hwf x y He) as (? & ? & ?). naive_solver.
  Qed.

  Lemma remove_edge_edge_at s t A x y :
    a_edge_at (a_remove_edge s t A) x y =
      if decide (ekey (ag_dir A) s t = ekey (ag_dir A) x y) then None else a_edge_at A x y.
  Proof.
    unfold a_edge_at, a_remove_edge. simpl.
    case_decide as Hk; [rewrite Hk; by rewrite lookup_delete|by rewrite lookup_delete_ne].
  Qed.
  Lemma wf_remove_edge s t A : ag_wf A → ag_wf (a_remove_edge s t A).
  Proof.
    intros Hwf x y He. simpl in *. apply lookup_delete_is_Some in He as [_ He]. by apply Hwf.
  Qed.

  Lemma remove_node_edge_at n A x y :
    a_edge_at (a_remove_node n A) x y =
      if decide (x = n ∨ y = n) then None else a_edge_at A x y.
  Proof.
    unfold a_edge_at, a_remove_node. simpl. destruct (decide (x = n ∨ y = n)) as [Hk|Hk].
    - apply map_filter_lookup_None. right. intros v _. simpl. rewrite ekey_touches. naive_solver.
    - destruct (ag_edges A !! ekey (ag_dir A) x y) as [l|] eqn:Hl.
      + apply map_filter_lookup_Some. simpl. rewrite ekey_touches. naive_solver.
      + apply map_filter_lookup_None. by left.
  Qed.
  Lemma remove_node_has_node n A k : a_has_node (a_remove_node n A) k ↔ k ≠ n ∧ a_has_node A k.
  Proof. unfold a_has_node. simpl. rewrite lookup_delete_is_Some. naive_solver. Qed.
  Lemma wf_remove_node n A : ag_wf A → ag_wf (a_remove_node n A).
  Proof.
    intros Hwf x y [l He]. simpl in He. apply map_filter_lookup_Some in He as [He Ht].
    destruct (Hwf x y) as (? & ? & ?); [by exists l|]. split; [done|].
    unfold touches in Ht. simpl in Ht. rewrite !remove_node_has_node. naive_solver.
  Qed.

  (** Node removal splits the edges into the incident and the remaining ones. *)
  Lemma remove_node_num_edges n A :
    a_num_edges (a_remove_node n A) + size (a_incident n A) = a_num_edges A.
  Proof.
    unfold a_num_edges, a_incident, a_remove_node. simpl.
    rewrite Nat.add_comm. rewrite <-map_size_disj_union.
    - f_equal. apply map_filter_union_complement.
    - apply map_disjoint_filter_complement.
  Qed.
End facts.
