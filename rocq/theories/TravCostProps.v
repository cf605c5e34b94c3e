(** The work of Bfs and Dfs. *)
From Verif Require Import Base BaseFacts Api Spec SpecFacts Traverse SpecTraverse TraverseFacts TraverseRun SpecTravCost TravCost.

Lemma rmapl_perm {A B} (f : A → res B) l l' r : l ≡ₚ l' → rmapl f l = Ok r → ∃ r', rmapl f l' = Ok r' ∧ r ≡ₚ r'.
Proof.
  intros Hp. revert r. induction Hp as [|x l l' Hp IH|x y l|l l1 l2 H1 IH1 H2 IH2]; intros r.
  - intros [= <-]. by exists [].
  - cbn [rmapl]. destruct (f x) as [b| |]; [|done..]. cbn [rbind]. destruct (rmapl f l) as [r0| |]; [|done..].
    intros [= <-]. destruct (IH r0 eq_refl) as (r' & -> & Hr). exists (b :: r'). split; [done|]. by apply Permutation_skip.
  - cbn [rmapl]. destruct (f y) as [b| |]; [|done..]. cbn [rbind]. destruct (f x) as [a| |]; [|done..]. cbn [rbind].
    destruct (rmapl f l) as [r0| |]; [|done..]. intros [= <-]. exists (a :: b :: r0). split; [done|]. apply Permutation_swap.
  - intros Hr. destruct (IH1 r Hr) as (r1 & E1 & P1). destruct (IH2 r1 E1) as (r2 & E2 & P2). exists r2. split; [done|]. by etrans.
Qed.
Lemma sum_list_perm (l l' : list nat) : l ≡ₚ l' → sum_list l = sum_list l'.
Proof. induction 1; cbn; lia. Qed.

Section work.
  Context {NL EL : Type} (idt : idty) (V : gview NL EL) (A : agraph NL EL).
  Context (Hrep : represents V A) (m : N) (Hm : v_max_seen_id V = Ok (Some m)).
  Context (Hids : ∀ m, v_max_seen_id V = Ok (Some m) → (m < id_card idt)%N).
  Implicit Types d : fbs.

  (** The bits of ids that are not nodes stay set. *)
  Definition ginv d : Prop := ∀ x, ¬ a_has_node A x → x ∈ fb_ones d ↔ (x < m + 1)%N.
  Lemma ginv_set x d d' : ginv d → a_has_node A x → fb_set_false x d = Ok d' → ginv d'.
  Proof using.
    intros Hg Hx. unfold fb_set_false. destruct (decide _); [|done]. intros [= <-] y Hy. cbn [fb_ones].
    rewrite elem_of_difference, (Hg y Hy), elem_of_singleton. split; [tauto|]. intros Hlt. split; [done|]. by intros ->.
  Qed.
  Lemma ginv_fold (later : bool) nbrs : (∀ x, x ∈ nbrs → a_has_node A x) → ∀ st st',
    rfold (λ (st : tstate) n,
        if fb_contains (t_disc st) n then
          let* d := fb_set_false n (t_disc st) in
          Ok (TState (if later then n :: t_todo st else t_todo st ++ [n]) d)
        else Ok st) nbrs st = Ok st' → ginv (t_disc st) → ginv (t_disc st').
  Proof using.
    induction nbrs as [|x l IH]; intros Hl st st'; [by intros [= <-]|]. cbn [rfold].
    destruct (fb_contains (t_disc st) x).
    - destruct (fb_set_false x (t_disc st)) as [d| |] eqn:E; [|done..]. cbn [rbind]. intros Hr Hg.
      apply (IH ltac:(intros; apply Hl; by right) _ _ Hr). cbn [t_disc]. eapply ginv_set; [exact Hg| |exact E]. apply Hl. by left.
    - cbn [rbind]. apply IH. intros; apply Hl; by right.
  Qed.
  Lemma ginv_next later c q d o st' : a_has_node A c → tnext idt V later (TState (c :: q) d) = Ok (o, st') → ginv d → ginv (t_disc st').
  Proof using Hrep.
    intros Hc. destruct (rp_neighbors _ _ Hrep c Hc) as (nbrs & Hn & _ & Hnb).
    assert (∀ x, x ∈ nbrs → a_has_node A x) as Hnodes. { intros x Hx%Hnb. by apply (wf_edge_nodes A c x (rp_wf _ _ Hrep)). }
    pose proof (ginv_fold later nbrs Hnodes (TState q d)) as Hf.
    unfold tnext, dfs_next, bfs_next. destruct later; cbn [t_todo t_disc rbind] in *; rewrite Hn; cbn [rbind];
      (match goal with |- rbind _ ?r = _ → _ => destruct r as [st1| |] eqn:E end; [|done..]); cbn [rbind]; intros [= _ <-]; exact (Hf _ eq_refl).
  Qed.

  Lemma node_false x : v_has_node V x = false ↔ ¬ a_has_node A x.
  Proof using Hrep. rewrite <-(rp_has_node _ _ Hrep x). by destruct (v_has_node V x). Qed.
  Lemma gaps_are b l : NoDup l → (∀ x, x ∈ l ↔ ¬ a_has_node A x ∧ (x < b)%N) → length l = gaps_below V b.
  Proof using Hrep.
    intros Hnd Hl. apply Permutation_length, NoDup_Permutation; [done| |].
    - apply NoDup_filter, NoDup_fmap; [apply _|apply NoDup_seq].
    - intros x. rewrite Hl, elem_of_list_filter, node_false, elem_of_list_fmap. split; intros [H1 H2]; (split; [done|]).
      + exists (N.to_nat x). split; [lia|]. apply elem_of_seq. lia.
      + destruct H2 as (k & -> & Hk%elem_of_seq). lia.
  Qed.
  (** The nodes the scan tests. *)
  Lemma scan_count seen d : dinv idt A seen d → ginv d →
    count_tests idt V (bs_iter (fb_ones d)) =
    match next_unvisited idt V d with Some r => S (gaps_below V r) | None => gaps_below V (m + 1) end.
  Proof using Hrep Hm Hids.
    intros Hd Hg. pose proof (next_unvisited_spec idt V A Hrep Hids seen d Hd) as Hspec. destruct Hd as [H1 H2 H3 H4].
    unfold next_unvisited in *.
    set (go := fix go (l : list N) : option N :=
      match l with
      | [] => None
      | x :: l' => let id := id_new idt (N.to_nat x) in
                   if v_has_node V id then Some id else go l'
      end) in *.
    assert (∀ l, increasing l → (∀ x, x ∈ l → x ∈ fb_ones d) →
      count_tests idt V l = match go l with Some r => S (length (filter (λ x, x < r)%N l)) | None => length l end) as Hgo.
    { induction 1 as [|x l Hs IH Hf]; intros Hl; [done|]. rewrite Forall_forall in Hf. cbn [count_tests go].
      assert (id_new idt (N.to_nat x) = x) as ->.
      { rewrite id_new_small; rewrite N2Nat.id; [done|]. specialize (H3 x (Hl x ltac:(left))). lia. }
      destruct (v_has_node V x).
      - f_equal. rewrite filter_cons_False by lia. symmetry. apply length_zero_iff_nil.
        destruct (filter (λ y, y < x)%N l) as [|y l'] eqn:E; [done|]. exfalso.
        assert (y ∈ filter (λ y, y < x)%N l) as [Hy Hin]%elem_of_list_filter by (rewrite E; left). specialize (Hf y Hin). lia.
      - rewrite IH by (intros; apply Hl; by right). fold go. destruct (go l) as [r|] eqn:E; [|done].
        assert (x < r)%N as Hxr.
        { assert (r ∈ l) as Hin; [|by apply Hf in Hin].
          clear -E Hl H2 H3. revert E. assert (∀ y, y ∈ l → id_new idt (N.to_nat y) = y) as Hid.
          { intros y Hy. rewrite id_new_small; rewrite N2Nat.id; [done|]. specialize (H3 y (Hl y ltac:(by right))). lia. }
          clear -Hid. induction l as [|y l IH]; [done|]. cbn [go]. rewrite (Hid y) by left. destruct (v_has_node V y).
          - intros [= <-]. left.
          - intros E. right. apply IH; [|exact E]. intros z Hz. apply Hid. by right. }
        by rewrite filter_cons_True by done. }
    specialize (Hgo (bs_iter (fb_ones d)) (bs_iter_increasing _) (λ x, proj1 (elem_of_bs_iter _ x))). rewrite Hgo.
    pose proof (increasing_NoDup _ (bs_iter_increasing (fb_ones d))) as Hnd.
    destruct (go (bs_iter (fb_ones d))) as [r|].
    - destruct Hspec as (Hr & Hrs & Hmin). f_equal. apply gaps_are; [by apply NoDup_filter|]. intros x.
      rewrite elem_of_list_filter, elem_of_bs_iter. split.
      + intros [Hx Hin]. split; [|done]. intros Hn. apply H4 in Hin; [|done]. specialize (Hmin x Hn Hin). lia.
      + intros [Hn Hx]. split; [done|]. apply (Hg x Hn). destruct (rp_max_seen _ _ Hrep r Hr) as (m' & Hm' & Hle). rewrite Hm in Hm'. injection Hm' as <-. lia.
    - apply gaps_are; [done|]. intros x. rewrite elem_of_bs_iter. split.
      + intros Hin. assert (¬ a_has_node A x) as Hn. { intros Hn. apply H4 in Hin; [|done]. by apply Hin, Hspec. }
        split; [done|]. by apply (Hg x Hn).
      + intros [Hn Hx]. by apply (Hg x Hn).
  Qed.

  Definition looks_of (c : cost) : Prop := ∃ ds, rmapl (v_degree V) (c_items c) = Ok ds ∧ c_looks c = sum_list ds.
  Definition tests_of (c : cost) : Prop :=
    c_tests c = gaps_below V (m + 1) + sum_list ((λ r, S (gaps_below V r)) <$> c_restarts c).
  (** One call, and what it adds to the work of the later calls. *)
  Lemma looks_cons x c nb s R p : a_has_node A x → v_neighbors V x = Ok nb → looks_of c →
    looks_of (Cost (x :: c_items c) (length nb + c_looks c) s R p).
  Proof using Hrep.
    intros Hx Hn (ds & Hds & Hl). exists (length nb :: ds). cbn [c_items c_looks rmapl].
    assert (v_degree V x = Ok (length nb)) as ->.
    { by rewrite (rp_degree _ _ Hrep x Hx), Hn. }
    cbn [rbind]. rewrite Hds. split; [done|]. cbn. lia.
  Qed.
  Lemma cost_spec later fuel : ∀ pre r cur q d, pinv A pre r cur q → dinv idt A (pre ++ cur ++ q) d → ginv d →
    a_num_nodes A < fuel + length (pre ++ cur) →
    ∃ c, drain_cost idt V (tnext idt V later) fuel (TState q d) = Ok c ∧
      drain (tnext idt V later) fuel (TState q d) = Ok (c_items c) ∧
      looks_of c ∧ tests_of c ∧ c_peak c ≤ a_num_nodes A ∧ c_restarts c `sublist_of` c_items c ∧
      ∀ x, x ∈ c_items c → x ∈ q ∨ x ∈ c_restarts c ∨ ∃ y, a_has_edge A y x.
  Proof using Hrep Hm Hids.
    assert (∀ pre r cur q, pinv A pre r cur q → length (pre ++ cur ++ q) ≤ a_num_nodes A) as Hlen.
    { intros pre r cur q Hp. pose proof (rp_node_indices _ _ Hrep) as Hni.
      unfold a_num_nodes. rewrite <- (lists_exactly_length (v_node_indices V) (ag_nodes A)); [|done].
      apply submseteq_length, NoDup_submseteq; [apply (pi_nd _ _ _ _ _ Hp)|].
      intros x Hx%(pi_nodes _ _ _ _ _ Hp). by apply Hni. }
    induction fuel as [|fuel IH]; intros pre r cur q d Hp Hd Hg Hfuel.
    { exfalso. pose proof (Hlen _ _ _ _ Hp). rewrite !app_length in *. simpl in *. lia. }
    cbn [drain drain_cost]. destruct q as [|c q].
    - destruct (pinv_end A (rp_wf _ _ Hrep) _ _ _ Hp) as (Hb1 & Hb2 & Hb3 & Hb4 & Hb5 & Hb6). rewrite app_nil_r in Hd.
      pose proof (next_unvisited_spec idt V A Hrep Hids _ _ Hd) as Hnu. pose proof (next_nil idt V later d) as Hnn.
      pose proof (scan_count _ _ Hd Hg) as Hscan.
      destruct (next_unvisited idt V d) as [r'|].
      + destruct Hnu as (Hr1 & Hr2 & Hr3). destruct (dinv_set idt V A Hrep Hids _ _ r' Hd Hr1) as (d1 & Hset & Hd1 & _).
        rewrite (Hnn _ Hset).
        assert (pinv A (pre ++ cur) r' [] [r']) as Hp1 by (apply pinv_init; [apply (rp_wf _ _ Hrep)|done..]).
        destruct (next_cons idt V A Hrep Hids later r' [] d1 _ _ _ Hp1) as (news & d2 & Hnx & Hnews & Hd2).
        { simpl. done. }
        pose proof (ginv_next later r' [] d1 _ _ Hr1 Hnx (ginv_set _ _ _ Hg Hr1 Hset)) as Hg2. cbn [t_disc] in Hg2.
        rewrite Hnx. cbn [rbind t_todo t_disc].
        destruct (IH (pre ++ cur) r' ([] ++ [r']) (place later [] news) d2) as (k & Hk & Hdr & Hlk & Htk & Hpk & Hsk & Hik).
        { eapply pinv_step; [apply (rp_wf _ _ Hrep)|done..|]. by rewrite place_perm. }
        { done. }
        { done. }
        { rewrite !app_length in *. simpl in *. lia. }
        destruct (rp_neighbors _ _ Hrep r' Hr1) as (nb & Hnb & _). rewrite Hnb, Hk. cbn [rbind]. eexists. split; [done|].
        cbn [c_items c_looks c_tests c_restarts c_peak]. split; [by rewrite Hdr|]. split; [by apply looks_cons|].
        split; [|split; [done|split; [by apply sublist_skip|]]].
        2:{ intros x [->|[Hx|[Hx|Hx]]%Hik]%elem_of_cons; [right; left; left| |right; left; by right|by right; right].
            right. right. rewrite place_perm, app_nil_l in Hx. exists r'. destruct Hnews as [_ Hnews]. by apply Hnews. }
        unfold tests_of in *. cbn [c_tests c_restarts fmap list_fmap sum_list foldr]. rewrite Hscan, Htk. cbn. lia.
      + rewrite Hnn. cbn [rbind t_todo t_disc]. eexists. split; [done|]. cbn [c_items c_looks c_tests c_restarts c_peak].
        split; [done|]. split; [by exists []|]. split; [|split; [cbn; lia|split; [done|intros x Hx; by apply elem_of_nil in Hx]]]. unfold tests_of. cbn [c_tests c_restarts fmap list_fmap sum_list foldr]. rewrite Hscan. cbn. lia.
    - assert (a_has_node A c) as Hc. { apply (pi_nodes _ _ _ _ _ Hp). set_solver. }
      destruct (next_cons idt V A Hrep Hids later c q d _ _ _ Hp Hd) as (news & d2 & Hnx & Hnews & Hd2).
      pose proof (ginv_next later c q d _ _ Hc Hnx Hg) as Hg2. cbn [t_disc] in Hg2.
      rewrite Hnx. cbn [rbind t_todo].
      destruct (IH pre r (cur ++ [c]) (place later q news) d2) as (k & Hk & Hdr & Hlk & Htk & Hpk & Hsk & Hik).
      { eapply pinv_step; [apply (rp_wf _ _ Hrep)|done..|]. by rewrite place_perm. }
      { done. }
      { done. }
      { rewrite !app_length in *. simpl in *. lia. }
      destruct (rp_neighbors _ _ Hrep c Hc) as (nb & Hnb & _). rewrite Hnb, Hk. cbn [rbind]. eexists. split; [done|].
      cbn [c_items c_looks c_tests c_restarts c_peak]. split; [by rewrite Hdr|]. split; [by apply looks_cons|].
      split; [done|]. split; [|split; [by apply sublist_cons|]].
      2:{ intros x [->|[Hx|[Hx|Hx]]%Hik]%elem_of_cons; [left; left| |right; by left|by right; right].
          rewrite place_perm in Hx. apply elem_of_app in Hx as [Hx|Hx]; [left; by right|]. right. right. exists c. destruct Hnews as [_ Hnews]. by apply Hnews. }
      pose proof (Hlen _ _ _ _ Hp) as Hl. rewrite !app_length in Hl. cbn in Hl |- *. lia.
  Qed.

  Definition tcost (later : bool) (fuel : nat) (start : option N) : res cost :=
    if later then dfs_cost idt V fuel start else bfs_cost idt V fuel start.
  Lemma drain_cost_mono next fuel fuel' st c : drain_cost idt V next fuel st = Ok c → fuel ≤ fuel' → drain_cost idt V next fuel' st = Ok c.
  Proof using.
    revert fuel' st c. induction fuel as [|fuel IH]; intros fuel' st c; [done|]. destruct fuel' as [|fuel']; [lia|].
    cbn [drain_cost]. intros Hd Hf. destruct (next st) as [[o st']| |]; [|done..]. cbn [rbind] in *. destruct o as [x|]; [|done].
    destruct (v_neighbors V x) as [nb| |]; [|done..]. cbn [rbind] in *.
    destruct (drain_cost idt V next fuel st') as [c'| |] eqn:E; [|done..]. by rewrite (IH fuel' _ c') by (done || lia).
  Qed.
  Lemma cost_run later start s : starts A V start s →
    ∃ c, (∀ fuel, v_node_count V < fuel → tcost later fuel start = Ok c) ∧
      (∀ fuel, v_node_count V < fuel → trun idt V later fuel start = Ok (c_items c)) ∧
      looks_of c ∧ tests_of c ∧ c_peak c ≤ v_node_count V ∧
      lists_exactly (c_items c) (a_has_node A) ∧ ∃ l, c_items c = s :: l ∧ c_restarts c `sublist_of` l ∧
        ∀ x, x ∈ l → x ∈ c_restarts c ∨ ∃ y, a_has_edge A y x.
  Proof using Hrep Hm Hids.
    intros Hs. destruct (tnew_spec idt V A Hrep Hids later start s Hs) as (d & Hnew & Hd).
    pose proof (starts_node idt V A Hrep Hids _ _ Hs) as Hn.
    assert (ginv d) as Hg.
    { assert (∃ d0, undiscovered_all V = Ok d0 ∧ fb_set_false s d0 = Ok d) as (d0 & Hu & Hset).
      { clear -Hnew Hrep Hs Hn. unfold tnew, dfs_new, dfs_with_capacity, dfs_move_to, bfs_new in Hnew.
        destruct (undiscovered_all V) as [d0| |]; [|by destruct later..]. exists d0. split; [done|]. cbn [rbind t_disc] in Hnew.
        destruct start as [s'|].
        - destruct Hs as [-> _]. destruct later; (destruct (v_has_node V s'); [|done]); (destruct (fb_set_false s' d0); [|done..]); cbn [rbind] in Hnew; by injection Hnew as ->.
        - cbn in Hs. rewrite Hs in Hnew. destruct later; (destruct (decide (v_node_count V = 0)); [done|]); cbn [unwrap rbind] in Hnew;
            (destruct (fb_set_false s d0); [|done..]); cbn [rbind] in Hnew; by injection Hnew as ->. }
      eapply ginv_set; [|exact Hn|exact Hset]. unfold undiscovered_all in Hu. rewrite Hm in Hu. cbn [rbind unwrap] in Hu. injection Hu as <-.
      intros x _. cbn. rewrite elem_of_list_to_set, elem_of_list_fmap. split.
      - intros (k & -> & Hk%elem_of_seq). lia.
      - intros Hx. exists (N.to_nat x). split; [lia|]. apply elem_of_seq. lia. }
    assert (pinv A [] s [] [s]) as Hp.
    { apply pinv_init; [apply (rp_wf _ _ Hrep)|set_solver|constructor|set_solver|set_solver|done]. }
    destruct (cost_spec later (S (v_node_count V)) [] s [] [s] d Hp Hd Hg) as (c & Hc & Hdr & H1 & H2 & H3 & H4 & _).
    { rewrite (rp_node_count _ _ Hrep). simpl. lia. }
    exists c. split; [|split; [|split; [done|split; [done|split; [by rewrite (rp_node_count _ _ Hrep)|]]]]].
    - intros fuel Hf. assert (tcost later fuel start = let* st := tnew V later start in drain_cost idt V (tnext idt V later) fuel st) as -> by (by destruct later).
      rewrite Hnew. cbn [rbind]. by eapply drain_cost_mono.
    - intros fuel Hf. rewrite trun_new, Hnew. cbn [rbind]. by eapply drain_mono.
    - split.
      + destruct (run_ordered idt V A Hrep Hids later (λ _ _ _ _, True) (λ _ _ _, True) start s) as (l & Hrun & Ht); [done..|].
        specialize (Hrun (S (v_node_count V)) ltac:(lia)). rewrite trun_new, Hnew in Hrun. cbn [rbind] in Hrun. rewrite Hdr in Hrun. injection Hrun as ->.
        apply (traversal_all V A Hrep _ s l Hn Ht).
      + (* the first call does not scan *)
        clear H1 H2 H3. cbn [drain_cost] in Hc. destruct (next_cons idt V A Hrep Hids later s [] d _ _ _ Hp Hd) as (news & d2 & Hnx & Hnews & Hd2).
        pose proof (ginv_next later s [] d _ _ Hn Hnx Hg) as Hg2. cbn [t_disc] in Hg2.
        rewrite Hnx in Hc. cbn [rbind t_todo] in Hc.
        destruct (cost_spec later (v_node_count V) [] s ([] ++ [s]) (place later [] news) d2) as (k & Hk & _ & _ & _ & _ & Hsk & Hik).
        { eapply pinv_step; [apply (rp_wf _ _ Hrep)|done..|]. by rewrite place_perm. }
        { done. }
        { done. }
        { rewrite (rp_node_count _ _ Hrep). cbn. lia. }
        destruct (rp_neighbors _ _ Hrep s Hn) as (nb & Hnb & _). rewrite Hnb, Hk in Hc. cbn [rbind] in Hc. injection Hc as <-.
        cbn [c_items c_restarts]. exists (c_items k). split; [done|]. split; [done|]. intros x [Hx|Hx]%Hik; [|exact Hx]. right.
        rewrite place_perm, app_nil_l in Hx. exists s. destruct Hnews as [_ Hnews]. by apply Hnews.
  Qed.
  Lemma looks_all c : looks_of c → lists_exactly (c_items c) (a_has_node A) →
    ∃ ds, rmapl (v_degree V) (v_node_indices V) = Ok ds ∧ c_looks c = sum_list ds.
  Proof using Hrep.
    intros (ds & Hds & Hl) [Hnd Hall]. destruct (rp_node_indices _ _ Hrep) as [Hnd' Hall'].
    destruct (rmapl_perm (v_degree V) (c_items c) (v_node_indices V) ds) as (ds' & E & P); [|done|].
    - apply NoDup_Permutation; [done..|]. intros x. rewrite Hall. by rewrite Hall'.
    - exists ds'. split; [done|]. rewrite Hl. by apply sum_list_perm.
  Qed.
  Lemma gaps_total : gaps_below V (m + 1) + v_node_count V = N.to_nat (m + 1).
  Proof using Hrep Hm.
    rewrite (rp_node_count _ _ Hrep). unfold a_num_nodes.
    rewrite <-(lists_exactly_length (v_node_indices V) (ag_nodes A)); [|apply (rp_node_indices _ _ Hrep)].
    unfold gaps_below. rewrite <-app_length. transitivity (length (N.of_nat <$> seq 0 (N.to_nat (m + 1)))).
    - apply Permutation_length, NoDup_Permutation.
      + apply NoDup_app. split; [apply NoDup_filter, NoDup_fmap; [apply _|apply NoDup_seq]|]. split; [|apply (rp_node_indices _ _ Hrep)].
        intros x [Hx _]%elem_of_list_filter Hin. apply node_false in Hx. by apply (rp_node_indices _ _ Hrep) in Hin.
      + apply NoDup_fmap; [apply _|apply NoDup_seq].
      + intros x. rewrite elem_of_app, elem_of_list_filter. split.
        * intros [[_ Hx]|Hx]; [done|]. apply (rp_node_indices _ _ Hrep) in Hx. destruct (rp_max_seen _ _ Hrep x Hx) as (m' & Hm' & Hle).
          rewrite Hm in Hm'. injection Hm' as <-. apply elem_of_list_fmap. exists (N.to_nat x). split; [lia|]. apply elem_of_seq. lia.
        * intros Hx. destruct (v_has_node V x) eqn:E; [right|by left]. apply (rp_node_indices _ _ Hrep). by apply (rp_has_node _ _ Hrep).
    - by rewrite fmap_length, seq_length.
  Qed.
  Lemma gaps_mono a b : (a ≤ b)%N → gaps_below V a ≤ gaps_below V b.
  Proof using.
    intros Hab. unfold gaps_below. apply submseteq_length, NoDup_submseteq; [apply NoDup_filter, NoDup_fmap; [apply _|apply NoDup_seq]|].
    intros x. rewrite !elem_of_list_filter, !elem_of_list_fmap. intros [H1 (k & -> & Hk%elem_of_seq)]. split; [done|].
    exists k. split; [done|]. apply elem_of_seq. lia.
  Qed.
  Lemma tests_bound c : tests_of c → (∀ x, x ∈ c_restarts c → a_has_node A x) →
    let G := gaps_below V (m + 1) in let R := length (c_restarts c) in
    R + G ≤ c_tests c ≤ R + S R * G.
  Proof using Hrep Hm.
    unfold tests_of. intros -> HR. cbv zeta.
    assert (∀ l, (∀ x, x ∈ l → a_has_node A x) →
      length l ≤ sum_list ((λ r, S (gaps_below V r)) <$> l) ≤ length l + length l * gaps_below V (m + 1)) as H.
    { induction l as [|x l IH]; intros Hl; [done|]. specialize (IH ltac:(intros; apply Hl; by right)). cbn [fmap list_fmap length].
      change (sum_list (?a :: ?b)) with (a + sum_list b). destruct (rp_max_seen _ _ Hrep x (Hl x ltac:(left))) as (m' & Hm' & Hle).
      rewrite Hm in Hm'. injection Hm' as <-. pose proof (gaps_mono x (m + 1) ltac:(lia)). lia. }
    specialize (H _ HR). lia.
  Qed.
  Lemma tests_first c : tests_of c → (∀ x, x ∈ c_restarts c → a_has_node A x) → gaps_first V →
    let G := gaps_below V (m + 1) in let R := length (c_restarts c) in c_tests c = R + S R * G.
  Proof using Hrep Hm.
    unfold tests_of. intros -> HR Hfirst. cbv zeta.
    assert (∀ l, (∀ x, x ∈ l → a_has_node A x) →
      sum_list ((λ r, S (gaps_below V r)) <$> l) = length l + length l * gaps_below V (m + 1)) as H.
    { induction l as [|x l IH]; intros Hl; [done|]. specialize (IH ltac:(intros; apply Hl; by right)). cbn [fmap list_fmap length].
      change (sum_list (?a :: ?b)) with (a + sum_list b). rewrite IH.
      assert (gaps_below V x = gaps_below V (m + 1)) as ->; [|lia].
      pose proof (Hl x ltac:(left)) as Hx. apply Nat.le_antisymm.
      - destruct (rp_max_seen _ _ Hrep x Hx) as (m' & Hm' & Hle). rewrite Hm in Hm'. injection Hm' as <-. apply gaps_mono. lia.
      - unfold gaps_below. apply submseteq_length, NoDup_submseteq; [apply NoDup_filter, NoDup_fmap; [apply _|apply NoDup_seq]|].
        intros y. rewrite !elem_of_list_filter, !elem_of_list_fmap. intros [H1 (k & -> & Hk%elem_of_seq)]. split; [done|].
        exists k. split; [done|]. apply elem_of_seq. pose proof (Hfirst (N.of_nat k) x H1) as Hlt.
        assert (N.of_nat k < x)%N; [|lia]. apply Hlt; [by apply (rp_has_node _ _ Hrep)|]. exists m. split; [done|lia]. }
    rewrite (H _ HR). lia.
  Qed.
End work.

Section final.
  Context {NL EL : Type} (idt : idty) (V : gview NL EL) (A : agraph NL EL) (dfs : bool) (start : option N) (s m : N).
  Lemma work_main : represents V A → v_max_seen_id V = Ok (Some m) → (m < id_card idt)%N → starts A V start s →
    ∃ c, (∀ fuel, v_node_count V < fuel →
        (if dfs then dfs_cost idt V fuel start else bfs_cost idt V fuel start) = Ok c ∧
        (if dfs then dfs_run idt V fuel start else bfs_run idt V fuel start) = Ok (c_items c)) ∧
      c_peak c ≤ v_node_count V ∧
      (∃ ds, rmapl (v_degree V) (v_node_indices V) = Ok ds ∧ c_looks c = sum_list ds) ∧
      (∃ l, c_items c = s :: l ∧ c_restarts c `sublist_of` l ∧ S (length l) = v_node_count V) ∧
      c_tests c = gaps_below V (m + 1) + sum_list ((λ r, S (gaps_below V r)) <$> c_restarts c).
  Proof using.
    intros Hrep Hm Hlt Hs. assert (∀ m, v_max_seen_id V = Ok (Some m) → (m < id_card idt)%N) as Hids by (intros m' Hm'; rewrite Hm in Hm'; by injection Hm' as <-).
    destruct (cost_run idt V A Hrep m Hm Hids dfs start s Hs) as (c & H1 & H2 & H3 & H4 & H5 & H6 & l & H7 & H8 & _).
    exists c. split.
    { intros fuel Hf. specialize (H1 fuel Hf). specialize (H2 fuel Hf). unfold tcost, trun in *. by destruct dfs. }
    split; [done|]. split; [by apply (looks_all V A Hrep)|]. split; [|done]. exists l. split; [done|]. split; [done|].
    rewrite (rp_node_count _ _ Hrep). unfold a_num_nodes. rewrite <-(lists_exactly_length (c_items c) (ag_nodes A)); [by rewrite H7|done].
  Qed.
  Lemma work_bounds c : represents V A → v_max_seen_id V = Ok (Some m) → (m < id_card idt)%N → starts A V start s →
    (if dfs then dfs_cost idt V (S (v_node_count V)) start else bfs_cost idt V (S (v_node_count V)) start) = Ok c →
    let G := gaps_below V (m + 1) in let R := length (c_restarts c) in
    G + v_node_count V = N.to_nat (m + 1) ∧ R < v_node_count V ∧ R + G ≤ c_tests c ≤ R + S R * G ∧
    (gaps_first V → c_tests c = R + S R * G) ∧
    ((∀ x y, ¬ a_has_edge A x y) → S R = v_node_count V).
  Proof using.
    intros Hrep Hm Hlt Hs Hc. assert (∀ m, v_max_seen_id V = Ok (Some m) → (m < id_card idt)%N) as Hids by (intros m' Hm'; rewrite Hm in Hm'; by injection Hm' as <-).
    destruct (cost_run idt V A Hrep m Hm Hids dfs start s Hs) as (c' & H1 & H2 & H3 & H4 & H5 & H6 & l & H7 & H8 & H9).
    assert (c' = c) as ->.
    { specialize (H1 (S (v_node_count V)) ltac:(lia)). unfold tcost in H1. destruct dfs; rewrite Hc in H1; by injection H1 as ->. }
    assert (S (length l) = v_node_count V) as Hn.
    { rewrite (rp_node_count _ _ Hrep). unfold a_num_nodes. rewrite <-(lists_exactly_length (c_items c) (ag_nodes A)); [by rewrite H7|done]. }
    assert (∀ x, x ∈ c_restarts c → a_has_node A x) as HR.
    { intros x Hx. apply H6. rewrite H7. right. by eapply sublist_submseteq, elem_of_submseteq in H8. }
    cbv zeta. split; [by apply (gaps_total V A)|]. pose proof (sublist_length _ _ H8). split; [lia|].
    split; [by apply (tests_bound V A Hrep m Hm)|]. split; [by apply (tests_first V A Hrep m Hm)|]. intros Hno.
    assert (length l ≤ length (c_restarts c)); [|lia]. apply submseteq_length, NoDup_submseteq.
    - destruct H6 as [Hnd _]. rewrite H7 in Hnd. by apply NoDup_cons in Hnd as [_ ?].
    - intros x Hx. destruct (H9 x Hx) as [?|[y Hy]]; [done|]. by apply Hno in Hy.
  Qed.
End final.
