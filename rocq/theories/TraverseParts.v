(** A Dfs made with from_parts or with_capacity, a Dfs after reset(), and calls of next after the end. *)
From Verif Require Import Base BaseFacts Api Spec SpecFacts Map GraphMap Traverse SpecTraverse TraverseFacts TraverseRun TraverseProps.

Section parts.
  Context {NL EL : Type} (idt : idty) (V : gview NL EL).
  Lemma fused later st st' : tnext idt V later st = Ok (None, st') → st' = st.
  Proof.
    unfold tnext, dfs_next, bfs_next. intros H.
    destruct later; destruct st as [[|c q] d]; cbn [t_todo t_disc rbind] in H.
    all: try (destruct (next_unvisited idt V d) as [r|]; cbn [rbind t_todo] in H; [|by injection H as <-];
      destruct (fb_set_false r d) as [d1| |]; cbn [rbind t_todo t_disc] in H; [|done..]).
    all: match type of H with context [v_neighbors V ?c] => destruct (v_neighbors V c) as [nb| |]; cbn [rbind] in H; [|done..] end.
    all: match type of H with context [rfold ?f ?l ?s] => destruct (rfold f l s) as [s1| |]; cbn [rbind] in H; done end.
  Qed.
  Context (A : agraph NL EL) (R : represents V A).
  Context (Hids : ∀ m, v_max_seen_id V = Ok (Some m) → (m < id_card idt)%N).

  Lemma next_step later c q d seen : a_has_node A c → dinv idt A seen d →
    ∃ news d', tnext idt V later (TState (c :: q) d) = Ok (Some c, TState (place later q news) d') ∧
      dinv idt A (seen ++ news) d' ∧ NoDup news ∧ (∀ x, x ∈ news → a_has_node A x ∧ x ∉ seen).
  Proof using R Hids.
    intros Hc Hd. destruct (rp_neighbors _ _ R c Hc) as (nbrs & Hn & Hinc & Hnb).
    assert (∀ x, x ∈ nbrs → a_has_node A x) as Hnodes. { intros x Hx%Hnb. by apply (wf_edge_nodes A c x (rp_wf _ _ R)). }
    assert (NoDup nbrs) as Hnd by (by apply increasing_NoDup).
    destruct (fold_spec idt V A R Hids later nbrs Hnd Hnodes seen d q Hd) as (d' & Hf & Hd').
    exists (filter (λ x, x ∉ seen) nbrs), d'. split_and!.
    - unfold tnext, dfs_next, bfs_next. destruct later; cbn [t_todo t_disc rbind]; rewrite Hn; cbn [rbind]; by rewrite Hf.
    - done.
    - by apply NoDup_filter.
    - intros x [Hx Hx']%elem_of_list_filter. by split; [apply Hnodes|].
  Qed.

  Definition left (seen : list N) : list N := filter (λ x, x ∉ seen) (v_node_indices V).
  Lemma left_app seen (news : list N) : NoDup news → (∀ x, x ∈ news → a_has_node A x ∧ x ∉ seen) →
    length (left (seen ++ news)) + length news = length (left seen).
  Proof using R Hids.
    intros Hnd Hn. destruct (rp_node_indices _ _ R) as [Hnd' Hin]. rewrite <- app_length. apply Permutation_length, NoDup_Permutation.
    - apply NoDup_app. split; [by apply NoDup_filter|]. split; [|done]. intros x [Hx _]%elem_of_list_filter Hx'. set_solver.
    - by apply NoDup_filter.
    - intros x. rewrite elem_of_app. unfold left. rewrite !elem_of_list_filter, not_elem_of_app. split.
      + intros [[[? ?] ?]|Hx]; [done|]. destruct (Hn x Hx). split; [done|]. by apply Hin.
      + intros [? ?]. destruct (decide (x ∈ news)); [by right|by left].
  Qed.
  Lemma drain_all later fuel : ∀ q d seen, dinv idt A seen d → NoDup q → (∀ x, x ∈ q → a_has_node A x ∧ x ∈ seen) →
    length q + length (left seen) < fuel →
    ∃ l, drain (tnext idt V later) fuel (TState q d) = Ok l ∧ NoDup l ∧ ∀ x, x ∈ l ↔ x ∈ q ∨ (a_has_node A x ∧ x ∉ seen).
  Proof using R Hids.
    induction fuel as [|fuel IH]; intros q d seen Hd Hnd Hq Hf; [lia|].
    assert (∀ c q d seen, dinv idt A seen d → NoDup (c :: q) → (∀ x, x ∈ c :: q → a_has_node A x ∧ x ∈ seen) →
      length q + length (left seen) < fuel →
      ∃ l, drain (tnext idt V later) (S fuel) (TState (c :: q) d) = Ok l ∧ NoDup l ∧ ∀ x, x ∈ l ↔ x ∈ c :: q ∨ (a_has_node A x ∧ x ∉ seen)) as Hcons.
    { clear q d seen Hd Hnd Hq Hf. intros c q d seen Hd Hnd Hq Hf. apply NoDup_cons in Hnd as [Hcq Hnd].
      destruct (Hq c (elem_of_list_here _ _)) as [Hc Hcs]. destruct (next_step later c q d seen Hc Hd) as (news & d' & Hnx & Hd' & Hnn & Hnew).
      cbn [drain]. rewrite Hnx. cbn [rbind]. pose proof (left_app seen news Hnn Hnew) as Hl.
      destruct (IH (place later q news) d' (seen ++ news) Hd') as (l & Hdr & Hndl & Hin).
      - rewrite place_perm. apply NoDup_app. split; [done|]. split; [|done]. intros x Hx Hx'. destruct (Hnew x Hx') as [_ Hns]. apply Hns, Hq. by right.
      - intros x. rewrite place_perm, !elem_of_app. intros [Hx|Hx]; [|split; [by apply Hnew|by right]].
        destruct (Hq x) as [? ?]; [by right|]. split; [done|by left].
      - rewrite place_perm, app_length. lia.
      - assert (∀ x, x ∈ l ↔ x ∈ q ∨ (a_has_node A x ∧ x ∉ seen)) as Hin'.
        { intros x. rewrite Hin, place_perm, elem_of_app, not_elem_of_app. destruct (decide (x ∈ news)) as [Hx|Hx].
          - destruct (Hnew x Hx). tauto.
          - tauto. }
        exists (c :: l). rewrite Hdr. split; [done|]. split.
        + apply NoDup_cons. split; [|done]. rewrite Hin'. tauto.
        + intros x. rewrite !elem_of_cons, Hin'. tauto. }
    destruct q as [|c q].
    - cbn [drain]. pose proof (next_unvisited_spec idt V A R Hids seen d Hd) as Hnu. pose proof (next_nil idt V later d) as Hnn.
      destruct (next_unvisited idt V d) as [r|].
      + destruct Hnu as (Hr1 & Hr2 & Hr3). destruct (dinv_set idt V A R Hids _ _ r Hd Hr1) as (d1 & Hset & Hd1 & _).
        rewrite (Hnn _ Hset). assert (∀ x, x ∈ [r] → a_has_node A x ∧ x ∉ seen) as Hr by (intros x ->%elem_of_list_singleton; done).
        pose proof (left_app seen [r] (NoDup_singleton r) Hr) as Hl. simpl in Hl, Hf.
        destruct (Hcons r [] d1 (seen ++ [r]) Hd1 (NoDup_singleton r)) as (l & Hdr & Hndl & Hin).
        { intros x ->%elem_of_list_singleton. split; [done|]. apply elem_of_app. right. apply elem_of_list_here. }
        { simpl. lia. }
        exists l. split; [exact Hdr|]. split; [done|]. intros x. rewrite Hin, not_elem_of_app, elem_of_list_singleton, elem_of_nil.
        destruct (decide (x = r)) as [->|]; tauto.
      + rewrite Hnn. cbn [rbind]. exists []. split; [done|]. split; [constructor|]. intros x. rewrite elem_of_nil. split; [done|].
        intros [[]|[Hx Hns]]. by apply Hns, Hnu.
    - simpl in Hf. apply Hcons; [done|done|done|lia].
  Qed.

  (** Dfs::from_parts. *)
  Lemma from_parts_thm stack (d : fbs) :
    (∀ x, a_has_node A x → (x < fb_len d)%N) → (fb_len d ≤ id_card idt)%N → (∀ x, x ∈ fb_ones d → (x < fb_len d)%N) →
    NoDup stack → (∀ x, x ∈ stack → a_has_node A x ∧ x ∉ fb_ones d) →
    ∃ l, (∀ fuel, v_node_count V < fuel → drain (dfs_next idt V) fuel (dfs_from_parts stack d) = Ok l) ∧ NoDup l ∧
      ∀ x, x ∈ l ↔ x ∈ stack ∨ (a_has_node A x ∧ x ∈ fb_ones d).
  Proof using R Hids.
    intros H1 H2 H3 Hnd Hs. destruct (rp_node_indices _ _ R) as [Hnd' Hin].
    set (seen := filter (λ x, x ∉ fb_ones d) (v_node_indices V)).
    assert (∀ x, a_has_node A x → x ∉ seen ↔ x ∈ fb_ones d) as Hseen.
    { intros x Hx. unfold seen. rewrite elem_of_list_filter, Hin. destruct (decide (x ∈ fb_ones d)); tauto. }
    assert (∀ x, x ∈ stack → a_has_node A x ∧ x ∈ seen) as Hss.
    { intros x Hx. destruct (Hs x Hx). split; [done|]. unfold seen. apply elem_of_list_filter. split; [done|]. by apply Hin. }
    assert (length stack + length (left seen) < S (v_node_count V)) as Hlen.
    { rewrite (rp_node_count _ _ R). unfold a_num_nodes. rewrite <- (lists_exactly_length (v_node_indices V) (ag_nodes A)) by done.
      rewrite <- app_length. apply Nat.lt_succ_r, submseteq_length, NoDup_submseteq.
      - apply NoDup_app. split; [done|]. split; [|by apply NoDup_filter]. intros x Hx [Hx' _]%elem_of_list_filter. by apply Hx', Hss.
      - intros x [Hx|Hx]%elem_of_app; [by apply Hin, Hss|]. by apply elem_of_list_filter in Hx as [_ ?]. }
    destruct (drain_all true (S (v_node_count V)) (reverse stack) d seen) as (l & Hdr & Hndl & Hl).
    4: by rewrite reverse_length.
    2: by rewrite reverse_Permutation.
    2: { intros x Hx. apply Hss. by rewrite elem_of_reverse in Hx. }
    { constructor; [done|done|done|]. intros x Hx. by rewrite Hseen. }
    exists l. split; [|split; [done|]].
    - intros fuel Hf. eapply drain_mono; [exact Hdr|lia].
    - intros x. rewrite Hl, elem_of_reverse. destruct (decide (a_has_node A x)) as [Hx|Hx]; [rewrite Hseen by done|]; tauto.
  Qed.

  (** with_capacity, and hence a Dfs after reset(): begins with the smallest node. *)
  Lemma with_capacity_run n : a_has_node A n → ∃ r st, smallest_left A [] r ∧ dfs_with_capacity V = Ok st ∧
    ∀ fuel, drain (dfs_next idt V) fuel st = dfs_run idt V fuel (Some r).
  Proof using R Hids.
    intros Hn. destruct (undiscovered_spec idt V A R Hids n Hn) as (d & Hu & Hd).
    pose proof (next_unvisited_spec idt V A R Hids [] d Hd) as Hnu. pose proof (next_nil idt V true d) as Hnn.
    unfold dfs_with_capacity. rewrite Hu. cbn [rbind].
    destruct (next_unvisited idt V d) as [r|]; [|by apply Hnu, elem_of_nil in Hn].
    exists r, (TState [] d). split; [done|]. split; [done|]. destruct Hnu as (Hr & _).
    destruct (dinv_set idt V A R Hids _ _ r Hd Hr) as (d1 & Hset & _).
    intros fuel. unfold dfs_run, dfs_new, dfs_with_capacity. rewrite Hu. cbn [rbind dfs_move_to t_disc].
    rewrite (proj2 (rp_has_node _ _ R r) Hr), Hset. cbn [rbind]. specialize (Hnn _ Hset). unfold tnext in Hnn.
    destruct fuel; [done|]. cbn [drain]. by rewrite Hnn.
  Qed.
  Lemma reset_run st0 st start : dfs_new V start = Ok st0 →
    rtc (λ st st', ∃ o, dfs_next idt V st = Ok (o, st')) st0 st →
    ∃ r, smallest_left A [] r ∧ ∀ fuel, drain (dfs_next idt V) fuel (dfs_reset st) = dfs_run idt V fuel (Some r).
  Proof using R Hids.
    intros Hnew Hr.
    assert (∃ n, a_has_node A n) as [n Hn].
    { clear -Hnew R. unfold dfs_new, dfs_move_to in Hnew. apply rbind_Ok in Hnew as (st & _ & Hm). destruct start as [s|].
      - destruct (v_has_node V s) eqn:Hs; [|done]. exists s. by apply (rp_has_node _ _ R).
      - destruct (decide (v_node_count V = 0)); [done|]. apply rbind_Ok in Hm as (id & Hid & _).
        exists id. apply (rp_node_indices _ _ R). destruct (v_node_indices V); [done|]. injection Hid as ->. apply elem_of_list_here. }
    destruct (with_capacity_run n Hn) as (r & st1 & Hsm & Hw & Hrun). exists r. split; [done|]. intros fuel. rewrite <- Hrun. f_equal.
    (* after reset the state is the one of with_capacity *)
    pose proof (dfs_reset_spec idt V st0 st start Hnew Hr (Some r)) as Hres. unfold dfs_new in Hres. rewrite Hw in Hres. cbn [rbind] in Hres.
    unfold dfs_with_capacity in Hw. apply rbind_Ok in Hw as (d & Hd & [= <-]). unfold dfs_reset. f_equal.
    unfold undiscovered_all in Hd. apply rbind_Ok in Hd as (om & Hom & Hd). apply rbind_Ok in Hd as (m & Hom' & [= <-]).
    unfold dfs_move_to in Hres. rewrite (proj2 (rp_has_node _ _ R r)) in Hres by apply Hsm. cbn [dfs_reset t_disc] in Hres.
    (* both maps have the same length *)
    assert (fb_len (t_disc st) = m + 1)%N as Hlen.
    { unfold fb_set_false in Hres. cbn [fb_insert_all fb_clear fb_len] in Hres.
      destruct Hsm as (Hrn & _). destruct (rp_max_seen _ _ R r Hrn) as (m' & Hm' & Hle). rewrite Hom in Hm'. injection Hm' as ->. injection Hom' as ->.
      rewrite (decide_True (P := (r < m + 1)%N)) in Hres by lia. case_decide; [|done]. cbn [rbind] in Hres. by injection Hres. }
    unfold fb_insert_all, fb_clear. simpl. by rewrite Hlen.
  Qed.
End parts.

Lemma parts_case : ∃ (V : gview N N) A d, represents V A ∧ v_max_seen_id V = Ok (Some 7%N) ∧
  (∀ x, a_has_node A x → (x < fb_len d)%N) ∧ (fb_len d ≤ id_card TU8)%N ∧ (∀ x, x ∈ fb_ones d → (x < fb_len d)%N) ∧
  (∀ x, x ∈ [5; 7]%N → a_has_node A x ∧ x ∉ fb_ones d) ∧ a_num_nodes A = 5 ∧
  drain (dfs_next TU8 V) 6 (dfs_from_parts [5; 7]%N d) = Ok [7; 3; 5; 0]%N ∧
  ∃ st0 st, dfs_new V (Some 5%N) = Ok st0 ∧ dfs_next TU8 V st0 = Ok (Some 5%N, st) ∧
    drain (dfs_next TU8 V) 6 st = Ok [2; 3; 7; 0]%N ∧ drain (dfs_next TU8 V) 6 (dfs_reset st) = Ok [0; 5; 2; 3; 7]%N.
Proof.
  exists (run_view false split_wit), (sp_g (run_spec false split_wit)), (Fbs 8 {[0; 1; 3]}%N).
  assert (∀ x, a_has_node (sp_g (run_spec false split_wit)) x → (x < 8)%N ∧ x ∈ ([0; 2; 3; 5; 7]%N)) as Hn.
  { intros x Hx. assert (Forall (λ x, (x < 8)%N ∧ x ∈ ([0; 2; 3; 5; 7]%N)) (map_to_list (ag_nodes (sp_g (run_spec false split_wit)))).*1) as H.
    { apply (bool_decide_unpack _). by vm_compute. }
    rewrite Forall_forall in H. apply H. destruct Hx as [l Hl]. apply elem_of_list_fmap. exists (x, l). split; [done|]. by apply elem_of_map_to_list. }
  split; [apply split_wit_represents|]. split; [by vm_compute|]. split; [intros x Hx; by apply Hn|]. split; [done|].
  split. { cbn [fb_ones fb_len]. intros x Hx. rewrite !elem_of_union, !elem_of_singleton in Hx. lia. }
  split. { intros x Hx. rewrite !elem_of_cons, elem_of_nil in Hx. destruct Hx as [->|[->|[]]]; (split; [apply (bool_decide_unpack _); by vm_compute|]); apply (bool_decide_unpack _); by vm_compute. }
  split; [by vm_compute|]. split; [by vm_compute|].
  eexists _, _. split; [by vm_compute|]. split; [by vm_compute|]. split; by vm_compute.
Qed.
