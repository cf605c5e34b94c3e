(** A NodeMap under any history of calls (C84), and writes through a node handle (C85). *)
From Verif Require Import Base BaseFacts Api Spec Map GraphMap NodeOps SpecNodeOps.

Lemma shows_self n : node_shows (nm_id n) (nm_label n) (λ x, nm_nbrs n !! x) (λ x, x ∈ nm_in n) n.
Proof.
  split; try done.
  - intros x. unfold nm_has_neighbor. by rewrite bool_decide_eq_true.
  - intros x. unfold nm_has_in_neighbor. by rewrite bool_decide_eq_true.
  - split; [apply bt_keys_increasing|apply elem_of_bt_keys].
  - split; [apply bs_iter_increasing|apply elem_of_bs_iter].
  - unfold nm_degree, nm_neighbors. by rewrite bt_keys_length.
  - unfold nm_in_degree, nm_in_neighbors. by rewrite bs_iter_length.
  - unfold nm_neighbors_full, nm_neighbors, bt_keys. split; [by rewrite <-!list_fmap_compose|].
    intros s x lx. rewrite elem_of_list_fmap. split.
    + intros ([k a] & [= -> -> ->] & Hk). by apply elem_of_bt_iter in Hk.
    + intros [-> Hx]. exists (x, lx). split; [done|]. by apply elem_of_bt_iter.
  - unfold nm_non_less_neighbors. split; [apply bt_range_keys_increasing|]. intros x. apply elem_of_bt_range_keys.
  - unfold nm_non_less_neighbors_full, nm_non_less_neighbors. split; [by rewrite <-!list_fmap_compose|].
    intros s x lx. rewrite elem_of_list_fmap. split.
    + intros ([k a] & [= -> -> ->] & Hk). by apply elem_of_bt_range in Hk.
    + intros (-> & Hx). exists (x, lx). split; [done|]. by apply elem_of_bt_range.
Qed.
Lemma shows_ext id l nb inn nb' inn' n : node_shows id l nb inn n → (∀ x, nb x = nb' x) → (∀ x, inn x ↔ inn' x) →
  node_shows id l nb' inn' n.
Proof.
  intros [Q1 Q2 H1 H2 H3 [Q3 H4] [Q4 H5] Q5 Q6 [Q7 H6] [Q8 H7] [Q9 H8]] Hn Hi. split; try done.
  - intros x. by rewrite <-Hn.
  - intros x. by rewrite <-Hn.
  - intros x. by rewrite <-Hi.
  - split; [done|]. intros x. by rewrite <-Hn.
  - split; [done|]. intros x. by rewrite <-Hi.
  - split; [done|]. intros s x lx. by rewrite <-Hn.
  - split; [done|]. intros x. by rewrite <-Hn.
  - split; [done|]. intros s x lx. by rewrite <-Hn.
Qed.

(** One call, on the stored fields. *)
Lemma step_fields o n ni ii rh :
  (∀ x, nm_nbrs n !! x = nbr_after (nm_id n) ni rh x) → (∀ x, x ∈ nm_in n ↔ in_after ii rh x) →
  let n' := (nm_step o n).2 in
  nm_id n' = nm_id n ∧ nm_label n' = label_after (nm_label n) [o] ∧
  (∀ x, nm_nbrs n' !! x = nbr_after (nm_id n) ni (o :: rh) x) ∧ (∀ x, x ∈ nm_in n' ↔ in_after ii (o :: rh) x) ∧
  returns (nm_id n) ni ii rh o (nm_step o n).1.
Proof.
  intros Hn Hi n'. subst n'. destruct o as [a|a l|a|a|a l|f|f|l]; cbn [nm_step nbr_after in_after label_after returns].
  - unfold nm_add_in_edge, nm_has_in_neighbor. cbn [fst snd].
    assert (negb (bool_decide (a ∈ nm_in n)) = true ↔ ¬ in_after ii rh a) as Hret.
    { rewrite negb_true_iff, bool_decide_eq_false. by rewrite Hi. }
    destruct (decide (a ∈ nm_in n)) as [Ha|Ha]; [rewrite (bool_decide_eq_true_2 _ Ha) in *|rewrite (bool_decide_eq_false_2 _ Ha) in *].
    + split_and!; try done. intros x. rewrite Hi. split; [by right|]. intros [->|?]; [|done]. by apply Hi.
    + split_and!; try done. intros x. cbn [nm_in]. rewrite elem_of_union, elem_of_singleton. by rewrite Hi.
  - unfold nm_add_edge. cbn [fst snd nm_id nm_label nm_nbrs nm_in]. split_and!; try done.
    + intros x. destruct (decide (x = a)) as [->|]; [by rewrite lookup_insert|by rewrite lookup_insert_ne].
    + by rewrite bool_decide_eq_true, Hn.
  - unfold nm_remove_in_edge, nm_has_in_neighbor. cbn [fst snd nm_id nm_label nm_nbrs nm_in]. split_and!; try done.
    + intros x. rewrite elem_of_difference, elem_of_singleton, Hi. naive_solver.
    + by rewrite bool_decide_eq_true, Hi.
  - unfold nm_remove_edge. destruct (nm_nbrs n !! a) as [la|] eqn:Ha; cbn [fst snd nm_id nm_label nm_nbrs nm_in].
    + split_and!; try done.
      * intros x. destruct (decide (x = a)) as [->|]; [by rewrite lookup_delete|by rewrite lookup_delete_ne].
      * by rewrite <-Hn, Ha.
    + split_and!; try done.
      * intros x. destruct (decide (x = a)) as [->|]; done.
      * by rewrite <-Hn, Ha.
  - unfold nm_set_neighbor_label. destruct (nm_nbrs n !! a) as [la|] eqn:Ha; cbn [fst snd nm_id nm_label nm_nbrs nm_in].
    + split_and!; try done.
      * intros x. destruct (decide (x = a)) as [->|]; [by rewrite lookup_insert, <-Hn, Ha|by rewrite lookup_insert_ne].
      * rewrite <-Hn, Ha. split; [by eexists|done].
    + split_and!; try done.
      * intros x. destruct (decide (x = a)) as [->|]; [|done]. by rewrite <-Hn, Ha.
      * rewrite <-Hn, Ha. split; [done|by intros [? ?]].
  - unfold nm_map_neighbors. cbn [fst snd nm_id nm_label nm_nbrs nm_in]. split_and!; try done.
    intros x. rewrite map_lookup_imap, <-Hn. by destruct (nm_nbrs n !! x).
  - unfold nm_map_non_less. cbn [fst snd nm_id nm_label nm_nbrs nm_in]. split_and!; try done.
    intros x. rewrite map_lookup_imap, <-Hn. destruct (nm_nbrs n !! x); simpl; by case_decide.
  - unfold nm_set_label_id. cbn [fst snd nm_id nm_label nm_nbrs nm_in]. done.
Qed.

Lemma run_fields h : ∀ n ni ii rh l0, (∀ x, nm_nbrs n !! x = nbr_after (nm_id n) ni rh x) → (∀ x, x ∈ nm_in n ↔ in_after ii rh x) →
  nm_label n = label_after l0 rh →
  let n' := (nm_run h n).2 in let h' := reverse h ++ rh in
  nm_id n' = nm_id n ∧ nm_label n' = label_after l0 h' ∧
  (∀ x, nm_nbrs n' !! x = nbr_after (nm_id n) ni h' x) ∧ (∀ x, x ∈ nm_in n' ↔ in_after ii h' x) ∧
  length (nm_run h n).1 = length h ∧
  ∀ i o r, h !! i = Some o → (nm_run h n).1 !! i = Some r → returns (nm_id n) ni ii (reverse (take i h) ++ rh) o r.
Proof.
  induction h as [|o h IH]; intros n ni ii rh l0 Hn Hi Hl n' h'; subst n' h'.
  { cbn [nm_run fst snd]. rewrite reverse_nil. cbn [app]. split_and!; done. }
  cbn [nm_run]. destruct (step_fields o n ni ii rh Hn Hi) as (H1 & H2 & H3 & H4 & H5).
  destruct (nm_step o n) as [r n1]. cbn [fst snd] in *.
  destruct (IH n1 ni ii (o :: rh) l0) as (J1 & J2 & J3 & J4 & J5 & J6).
  - intros x. rewrite H3, H1. done.
  - done.
  - rewrite H2. destruct o; simpl; done.
  - destruct (nm_run h n1) as [rs n2]. cbn [fst snd length] in *. rewrite H1 in *.
    rewrite reverse_cons, <-app_assoc. cbn [app]. split_and!; try done; [lia|].
    intros i o' r' Ho Hr. destruct i as [|i]; cbn in Ho, Hr; simplify_eq.
    + done.
    + cbn [take]. rewrite reverse_cons, <-app_assoc. cbn [app]. by apply J6.
Qed.
Lemma node_history n h rs n' : nm_run h n = (rs, n') →
  node_shows (nm_id n) (label_after (nm_label n) (reverse h))
    (nbr_after (nm_id n) (nm_get_neighbor n) (reverse h)) (in_after (λ x, x ∈ nm_in_neighbors n) (reverse h)) n' ∧
  returns_all (nm_id n) (nm_get_neighbor n) (λ x, x ∈ nm_in_neighbors n) h rs.
Proof.
  intros Hr. destruct (run_fields h n (nm_get_neighbor n) (λ x, x ∈ nm_in_neighbors n) [] (nm_label n)) as (J1 & J2 & J3 & J4 & J5 & J6).
  - done.
  - intros x. cbn [in_after]. symmetry. apply elem_of_bs_iter.
  - done.
  - rewrite Hr in *. cbn [fst snd] in *. rewrite app_nil_r in *. split.
    + rewrite <-J1, <-J2 in *. eapply shows_ext; [apply shows_self|done|done].
    + split; [done|]. intros i o r Ho Hri. rewrite <-(app_nil_r (reverse (take i h))). by apply J6.
Qed.
(** From an empty node. *)
Lemma nbr_ext id ni ni' rh x : (∀ t, ni t = ni' t) → nbr_after id ni rh x = nbr_after id ni' rh x.
Proof. intros Hx. induction rh as [|o rh IH]; [apply Hx|]. cbn [nbr_after]. by rewrite IH. Qed.
Lemma in_ext (ii ii' : N → Prop) rh x : (∀ t, ii t ↔ ii' t) → in_after ii rh x ↔ in_after ii' rh x.
Proof. intros Hx. induction rh as [|o rh IH]; [apply Hx|]. destruct o; cbn [in_after]; by rewrite IH. Qed.
Lemma shows_new id l ni (ii ii' : N → Prop) rh n : node_shows id l (nbr_after id ni rh) (in_after ii rh) n →
  (∀ x, ii x ↔ ii' x) → node_shows id l (nbr_after id ni rh) (in_after ii' rh) n.
Proof. intros H Hi. eapply shows_ext; [exact H|done|]. intros x. by apply in_ext. Qed.
Lemma returns_new id (ii ii' : N → Prop) h rs ni ni' : (∀ x, ni x = ni' x) → (∀ x, ii x ↔ ii' x) → returns_all id ni ii h rs → returns_all id ni' ii' h rs.
Proof.
  intros Hn Hi [Hlen Hret]. split; [done|]. intros i o r Ho Hri. specialize (Hret i o r Ho Hri).
  destruct o, r; cbn [returns] in *; try done; rewrite <-?(nbr_ext id _ _ _ _ Hn); try done; by rewrite <-(in_ext _ _ _ _ Hi).
Qed.
Lemma new_history id label h rs n : nm_run h (nm_new id label) = (rs, n) →
  node_shows id (label_after label (reverse h)) (nbr_after id (λ _, None) (reverse h)) (in_after (λ _, False) (reverse h)) n ∧
  returns_all id (λ _, None) (λ _, False) h rs.
Proof.
  intros Hr. destruct (node_history (nm_new id label) h rs n Hr) as [H1 H2].
  assert (∀ x, nm_get_neighbor (nm_new id label) x = None) as Hn by done.
  assert (∀ x, x ∈ nm_in_neighbors (nm_new id label) ↔ False) as Hi by (intros x; split; [apply not_elem_of_nil|done]).
  split.
  - eapply shows_ext; [exact H1|intros x; by apply nbr_ext|intros x; by apply in_ext].
  - eapply returns_new; [exact Hn|exact Hi|exact H2].
Qed.
