(** The nodes at which Bfs and Dfs start again. *)
From Verif Require Import Base BaseFacts Api Spec SpecFacts Traverse SpecTraverse TraverseFacts TraverseRun SpecTravCost TravCost TravCostProps.

Section parts.
  Context {NL EL : Type} (idt : idty) (V : gview NL EL) (A : agraph NL EL).
  Context (Hrep : represents V A) (m : N) (Hm : v_max_seen_id V = Ok (Some m)).
  Context (Hids : ∀ m, v_max_seen_id V = Ok (Some m) → (m < id_card idt)%N).

  Lemma parts_spec later fuel : ∀ pre r cur q d c, pinv A pre r cur q → dinv idt A (pre ++ cur ++ q) d →
    drain_cost idt V (tnext idt V later) fuel (TState q d) = Ok c →
    (∀ x, x ∈ c_items c → reaches A r x ∨ ∃ r', r' ∈ c_restarts c ∧ reaches A r' x) ∧
    StronglySorted (λ a b, ¬ reaches A a b) (c_restarts c) ∧
    (∀ y r', y ∈ pre ++ cur ++ q → r' ∈ c_restarts c → ¬ reaches A y r').
  Proof using Hrep Hm Hids.
    induction fuel as [|fuel IH]; intros pre r cur q d c Hp Hd; [done|].
    cbn [drain_cost]. destruct q as [|x q].
    - destruct (pinv_end A (rp_wf _ _ Hrep) _ _ _ Hp) as (Hb1 & Hb2 & Hb3 & Hb4 & Hb5 & Hb6). rewrite app_nil_r in Hd.
      pose proof (next_unvisited_spec idt V A Hrep Hids _ _ Hd) as Hnu. pose proof (next_nil idt V later d) as Hnn.
      destruct (next_unvisited idt V d) as [r'|].
      + destruct Hnu as (Hr1 & Hr2 & Hr3). destruct (dinv_set idt V A Hrep Hids _ _ r' Hd Hr1) as (d1 & Hset & Hd1 & _).
        rewrite (Hnn _ Hset).
        assert (pinv A (pre ++ cur) r' [] [r']) as Hp1 by (apply pinv_init; [apply (rp_wf _ _ Hrep)|done..]).
        destruct (next_cons idt V A Hrep Hids later r' [] d1 _ _ _ Hp1) as (news & d2 & Hnx & Hnews & Hd2).
        { simpl. done. }
        rewrite Hnx. cbn [rbind t_todo t_disc].
        destruct (rp_neighbors _ _ Hrep r' Hr1) as (nb & Hnb & _). rewrite Hnb. cbn [rbind].
        destruct (drain_cost idt V (tnext idt V later) fuel _) as [k| |] eqn:Hk; [|done..]. cbn [rbind]. intros [= <-].
        destruct (IH (pre ++ cur) r' ([] ++ [r']) (place later [] news) d2 k) as (I1 & I2 & I3).
        { eapply pinv_step; [apply (rp_wf _ _ Hrep)|done..|]. by rewrite place_perm. }
        { done. }
        { done. }
        cbn [c_items c_restarts]. split_and!.
        * intros y [->|Hy]%elem_of_cons; [right; exists r'; split; [left|apply rtc_refl]|].
          destruct (I1 y Hy) as [Hr|(r1 & Hr & Hr')]; right; [exists r'; split; [left|done]|exists r1; split; [by right|done]].
        * constructor; [done|]. apply Forall_forall. intros b Hbb. apply I3; [set_solver|done].
        * intros y b Hy [->|Hb]%elem_of_cons Hyb.
          -- rewrite app_nil_r in Hy. apply Hr2. by eapply (rtc_closed A (λ z, z ∈ pre ++ cur) y).
          -- revert Hyb. apply I3; [set_solver|done].
      + rewrite Hnn. cbn [rbind t_todo t_disc]. intros [= <-]. cbn [c_items c_restarts]. split_and!; [set_solver|constructor|set_solver].
    - assert (a_has_node A x) as Hc. { apply (pi_nodes _ _ _ _ _ Hp). set_solver. }
      destruct (next_cons idt V A Hrep Hids later x q d _ _ _ Hp Hd) as (news & d2 & Hnx & Hnews & Hd2).
      rewrite Hnx. cbn [rbind t_todo].
      destruct (rp_neighbors _ _ Hrep x Hc) as (nb & Hnb & _). rewrite Hnb. cbn [rbind].
      destruct (drain_cost idt V (tnext idt V later) fuel _) as [k| |] eqn:Hk; [|done..]. cbn [rbind]. intros [= <-].
      destruct (IH pre r (cur ++ [x]) (place later q news) d2 k) as (I1 & I2 & I3).
      { eapply pinv_step; [apply (rp_wf _ _ Hrep)|done..|]. by rewrite place_perm. }
      { done. }
      { done. }
      cbn [c_items c_restarts]. split_and!; [|done|].
      + intros y [->|Hy]%elem_of_cons; [|by apply I1]. left. apply (pi_reach _ _ _ _ _ Hp). set_solver.
      + intros y b Hy Hb. apply I3; [|done]. rewrite place_perm. set_solver.
  Qed.
  Lemma parts_run later start s : starts A V start s →
    ∃ c, (∀ fuel, v_node_count V < fuel → tcost idt V later fuel start = Ok c) ∧
      (∀ x, a_has_node A x → ∃ r, r ∈ s :: c_restarts c ∧ reaches A r x) ∧
      StronglySorted (λ a b, ¬ reaches A a b) (s :: c_restarts c) ∧ ∀ r, r ∈ s :: c_restarts c → a_has_node A r.
  Proof using Hrep Hm Hids.
    intros Hs. destruct (cost_run idt V A Hrep m Hm Hids later start s Hs) as (c & H1 & _ & _ & _ & _ & H6 & l & H7 & H8 & _).
    destruct (tnew_spec idt V A Hrep Hids later start s Hs) as (d & Hnew & Hd).
    pose proof (starts_node idt V A Hrep Hids _ _ Hs) as Hn.
    assert (pinv A [] s [] [s]) as Hp.
    { apply pinv_init; [apply (rp_wf _ _ Hrep)|set_solver|constructor|set_solver|set_solver|done]. }
    exists c. split; [done|]. specialize (H1 (S (v_node_count V)) ltac:(lia)).
    assert (tcost idt V later (S (v_node_count V)) start = let* st := tnew V later start in drain_cost idt V (tnext idt V later) (S (v_node_count V)) st) as E by (by destruct later).
    rewrite E, Hnew in H1. cbn [rbind] in H1. destruct (parts_spec later _ _ _ _ _ _ _ Hp Hd H1) as (I1 & I2 & I3). split_and!.
    - intros x Hx. apply H6 in Hx. destruct (I1 x Hx) as [Hr|(r & Hr & Hrx)]; [exists s; split; [left|done]|exists r; split; [by right|done]].
    - constructor; [done|]. apply Forall_forall. intros b Hb. apply I3; [set_solver|done].
    - intros r [->|Hr]%elem_of_cons; [done|]. apply H6. rewrite H7. right. by eapply sublist_submseteq, elem_of_submseteq in H8.
  Qed.
End parts.

Lemma sorted_pairs {T} (R : T → T → Prop) l : StronglySorted R l → ∀ i j a b, l !! i = Some a → l !! j = Some b → i < j → R a b.
Proof.
  induction 1 as [|x l Hl IH Hx]; intros i j a b Hi Hj Hij; [done|]. destruct j as [|j]; [lia|]. destruct i as [|i]; simpl in *.
  - injection Hi as ->. rewrite Forall_forall in Hx. apply Hx. by eapply elem_of_list_lookup_2.
  - eapply IH; [done..|lia].
Qed.
Lemma parts_main {NL EL} (idt : idty) (V : gview NL EL) A (dfs : bool) start s m :
  represents V A → v_max_seen_id V = Ok (Some m) → (m < id_card idt)%N → starts A V start s →
  ∃ c, (∀ fuel, v_node_count V < fuel → (if dfs then dfs_cost idt V fuel start else bfs_cost idt V fuel start) = Ok c) ∧
    (∀ x, a_has_node A x → ∃ r, r ∈ s :: c_restarts c ∧ reaches A r x) ∧
    (∀ i j a b, (s :: c_restarts c) !! i = Some a → (s :: c_restarts c) !! j = Some b → i < j → ¬ reaches A a b) ∧
    (v_directed V = false → ∀ x, a_has_node A x → ∃ i r, (s :: c_restarts c) !! i = Some r ∧ reaches A r x ∧
       ∀ j r', (s :: c_restarts c) !! j = Some r' → reaches A r' x → j = i).
Proof.
  intros Hrep Hm Hlt Hs. assert (∀ m, v_max_seen_id V = Ok (Some m) → (m < id_card idt)%N) as Hids by (intros m' Hm'; rewrite Hm in Hm'; by injection Hm' as <-).
  destruct (parts_run idt V A Hrep m Hm Hids dfs start s Hs) as (c & H1 & H2 & H3 & H4). exists c.
  pose proof (sorted_pairs _ _ H3) as H3'.
  split; [intros fuel Hf; specialize (H1 fuel Hf); unfold tcost in H1; by destruct dfs|]. split; [done|]. split; [done|].
  intros Hd x Hx. destruct (H2 x Hx) as (r & [i Hi]%elem_of_list_lookup & Hrx). exists i, r. split; [done|]. split; [done|].
  intros j r' Hj Hrx'.
  assert (∀ x y, reaches A x y → reaches A y x) as Hsym.
  { intros a b H. induction H as [|a b z Hab _ IH]; [apply rtc_refl|]. eapply rtc_r; [exact IH|].
    rewrite (rp_directed _ _ Hrep) in Hd. by apply has_edge_sym. }
  assert (reaches A r r') as G1 by (etrans; [exact Hrx|by apply Hsym]). assert (reaches A r' r) as G2 by (by apply Hsym).
  destruct (lt_eq_lt_dec i j) as [[Hij|Hij]|Hij]; [|done|]; [by edestruct (H3' i j)|by edestruct (H3' j i)].
Qed.
(** A Bfs or Dfs panics exactly when there is no node to start at. *)
Lemma start_panics {NL EL} (idt : idty) (V : gview NL EL) A (dfs : bool) start o fuel :
  represents V A → v_max_seen_id V = Ok o → (∀ m, o = Some m → (m < id_card idt)%N) → v_node_count V < fuel →
  (if dfs then dfs_run idt V fuel start else bfs_run idt V fuel start) = Panic ↔ ¬ ∃ s, starts A V start s.
Proof.
  intros Hrep Ho Hlt Hf. assert (∀ m, v_max_seen_id V = Ok (Some m) → (m < id_card idt)%N) as Hids.
  { intros m Hm. rewrite Ho in Hm. apply Hlt. by injection Hm. }
  split.
  - intros Hp (s & Hs). pose proof (starts_node idt V A Hrep Hids _ _ Hs) as Hn. destruct (rp_max_seen _ _ Hrep _ Hn) as (m & Hm & _).
    destruct (cost_run idt V A Hrep m Hm Hids dfs start s Hs) as (c & _ & H & _). specialize (H fuel Hf). unfold trun in H. destruct dfs; by rewrite H in Hp.
  - intros Hn. destruct start as [s|].
    + assert (v_has_node V s = false) as Hh.
      { apply not_true_iff_false. intros Hh%(rp_has_node _ _ Hrep). apply Hn. by exists s. }
      unfold bfs_run, dfs_run, bfs_new, dfs_new, dfs_with_capacity, dfs_move_to, undiscovered_all. rewrite Ho. destruct o; cbn [rbind unwrap]; rewrite ?Hh; by destruct dfs.
    + assert (v_node_indices V = []) as Hh. { destruct (v_node_indices V) as [|s l] eqn:E; [done|]. exfalso. apply Hn. exists s. simpl. by rewrite E. }
      unfold bfs_run, dfs_run, bfs_new, dfs_new, dfs_with_capacity, dfs_move_to, undiscovered_all. rewrite Ho. destruct o; cbn [rbind unwrap]; [|by destruct dfs].
      case_decide; [by destruct dfs|]. rewrite Hh. by destruct dfs.
Qed.
