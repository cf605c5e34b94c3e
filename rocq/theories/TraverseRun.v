(** Runs of the Bfs and Dfs iterators. *)
From Verif Require Import Base BaseFacts Api Spec SpecFacts Traverse SpecTraverse TraverseFacts.

Lemma filter_ext_in {X} (P Q : X → Prop) `{∀ x, Decision (P x), ∀ x, Decision (Q x)} (l : list X) :
  (∀ x, x ∈ l → P x ↔ Q x) → filter P l = filter Q l.
Proof.
  induction l as [|x l IH]; intros HPQ; [done|]. rewrite !filter_cons, IH by set_solver.
  rewrite (decide_ext (P x) (Q x)); [done|]. set_solver.
Qed.
Section run.
  Context {NL EL : Type} (idt : idty) (V : gview NL EL) (A : agraph NL EL).
  Context (Hrep : represents V A).
  Context (Hids : ∀ m, v_max_seen_id V = Ok (Some m) → (m < id_card idt)%N).
  Local Notation E := (a_has_edge A).

  Definition tnext (later : bool) : tstate → res (option N * tstate) :=
    if later then dfs_next idt V else bfs_next idt V.

  Record dinv (seen : list N) (d : fbs) : Prop := {
    di_len : ∀ x, a_has_node A x → (x < fb_len d)%N;
    di_card : (fb_len d ≤ id_card idt)%N;
    di_range : ∀ x, x ∈ fb_ones d → (x < fb_len d)%N;
    di_ones : ∀ x, a_has_node A x → x ∈ fb_ones d ↔ x ∉ seen;
  }.
  Lemma dinv_set seen d x : dinv seen d → a_has_node A x →
    ∃ d', fb_set_false x d = Ok d' ∧ dinv (seen ++ [x]) d' ∧ fb_ones d' = fb_ones d ∖ {[x]}.
  Proof.
    intros [H1 H2 H3 H4] Hx. unfold fb_set_false. rewrite decide_True by (by apply H1).
    eexists. split; [done|]. split; [|done]. constructor; simpl; [done|done| |].
    - intros y Hy. apply H3. set_solver.
    - intros y Hy. rewrite elem_of_difference, H4 by done. set_solver.
  Qed.
  Lemma dinv_perm seen seen' d : seen ≡ₚ seen' → dinv seen d → dinv seen' d.
  Proof. intros Hp [H1 H2 H3 H4]. constructor; [done..|]. intros x Hx. by rewrite <- Hp, H4. Qed.

  Lemma next_unvisited_spec seen d : dinv seen d →
    match next_unvisited idt V d with
    | Some r => smallest_left A seen r
    | None => ∀ n, a_has_node A n → n ∈ seen
    end.
  Proof.
    intros [H1 H2 H3 H4]. unfold next_unvisited.
    set (go := fix go (l : list N) : option N :=
      match l with
      | [] => None
      | x :: l' => let id := id_new idt (N.to_nat x) in
                   if v_has_node V id then Some id else go l'
      end).
    assert (∀ l, increasing l → (∀ x, x ∈ l → x ∈ fb_ones d) →
      match go l with
      | Some r => r ∈ l ∧ a_has_node A r ∧ ∀ n, n ∈ l → a_has_node A n → (r ≤ n)%N
      | None => ∀ n, n ∈ l → ¬ a_has_node A n
      end) as Hgo.
    { induction 1 as [|x l Hs IH Hf]; intros Hl; simpl; [set_solver|].
      rewrite Forall_forall in Hf.
      assert (id_new idt (N.to_nat x) = x) as ->.
      { rewrite id_new_small; rewrite N2Nat.id; [done|]. specialize (H3 x (Hl x ltac:(set_solver))). lia. }
      destruct (v_has_node V x) eqn:Hx.
      - apply (rp_has_node _ _ Hrep) in Hx. split_and!; [set_solver|done|].
        intros n [->|Hn]%elem_of_cons _; [lia|]. specialize (Hf n Hn). lia.
      - assert (¬ a_has_node A x) as Hx'. { intros Hx'. apply (rp_has_node _ _ Hrep) in Hx'. congruence. }
        specialize (IH ltac:(set_solver)). destruct (go l) as [r|].
        + destruct IH as (?&?&IH). split_and!; [set_solver|done|]. intros n [->|Hn]%elem_of_cons ?; [done|]. by apply IH.
        + intros n [->|Hn]%elem_of_cons; [done|]. by apply IH. }
    specialize (Hgo (bs_iter (fb_ones d)) (bs_iter_increasing _) (λ x, proj1 (elem_of_bs_iter _ x))).
    destruct (go (bs_iter (fb_ones d))) as [r|].
    - destruct Hgo as (Hr & Hn & Hmin). apply elem_of_bs_iter in Hr. apply H4 in Hr; [|done].
      split_and!; [done..|]. intros n Hn' Hns. apply Hmin; [|done]. apply elem_of_bs_iter. by apply H4.
    - intros n Hn. destruct (decide (n ∈ seen)); [done|]. exfalso. apply (Hgo n); [|done].
      apply elem_of_bs_iter. by apply H4.
  Qed.

  Lemma fold_spec (later : bool) nbrs : NoDup nbrs → (∀ x, x ∈ nbrs → a_has_node A x) →
    ∀ seen d q, dinv seen d →
    ∃ d', rfold (λ st n,
        if fb_contains (t_disc st) n then
          let* d := fb_set_false n (t_disc st) in
          Ok (TState (if later then n :: t_todo st else t_todo st ++ [n]) d)
        else Ok st) nbrs (TState q d) =
      Ok (TState (place later q (filter (λ x, x ∉ seen) nbrs)) d') ∧
      dinv (seen ++ filter (λ x, x ∉ seen) nbrs) d'.
  Proof.
    induction nbrs as [|x nbrs IH]; intros Hnd Hn seen d q Hd.
    - exists d. simpl. rewrite app_nil_r. split; [|done]. unfold place. destruct later; simpl; [done|]. by rewrite app_nil_r.
    - apply NoDup_cons in Hnd as [Hx Hnd]. cbn [rfold]. rewrite filter_cons. cbn [t_disc].
      pose proof (Hn x ltac:(set_solver)) as Hxn.
      destruct (decide (x ∉ seen)) as [Hs|Hs].
      + assert (fb_contains d x = true) as -> by (by apply bool_decide_true, (di_ones _ _ Hd)).
        destruct (dinv_set _ _ _ Hd Hxn) as (d1 & -> & Hd1 & _). cbn [rbind t_todo].
        destruct (IH Hnd ltac:(set_solver) _ _ (if later then x :: q else q ++ [x]) Hd1) as (d2 & Hr & Hd2).
        assert (filter (λ y, y ∉ seen ++ [x]) nbrs = filter (λ y, y ∉ seen) nbrs) as Hf.
        { apply filter_ext_in. intros y Hy. assert (y ≠ x) by (by intros ->). set_solver. }
        rewrite Hf in *. exists d2. split.
        * rewrite Hr. do 2 f_equal. unfold place. destruct later; [|by rewrite <- (assoc_L (++))].
          by rewrite reverse_cons, <- (assoc_L (++)).
        * by rewrite <- (assoc_L (++)) in Hd2.
      + assert (fb_contains d x = false) as ->. { apply bool_decide_false. by rewrite (di_ones _ _ Hd). }
        cbn [rbind]. by apply IH; [|set_solver|].
  Qed.

  (** One call of next on a non-empty to-do list. *)
  Lemma next_cons later c q d pre r cur : pinv A pre r cur (c :: q) → dinv (pre ++ cur ++ c :: q) d →
    ∃ news d', tnext later (TState (c :: q) d) = Ok (Some c, TState (place later q news) d') ∧
      news_of A pre cur c q news ∧ dinv (pre ++ (cur ++ [c]) ++ place later q news) d'.
  Proof.
    intros Hp Hd.
    destruct (rp_neighbors _ _ Hrep c) as (nbrs & Hn & Hinc & Hnb). { apply (pi_nodes _ _ _ _ _ Hp). set_solver. }
    destruct (fold_spec later nbrs) with (seen := pre ++ cur ++ c :: q) (d := d) (q := q) as (d' & Hf & Hd').
    { by apply increasing_NoDup. }
    { intros x Hx%Hnb. by apply (wf_edge_nodes A c x (rp_wf _ _ Hrep)). }
    { done. }
    exists (filter (λ x, x ∉ pre ++ cur ++ c :: q) nbrs), d'. split_and!.
    - unfold tnext, dfs_next, bfs_next. destruct later; cbn [t_todo t_disc rbind]; rewrite Hn; cbn [rbind]; by rewrite Hf.
    - split; [by apply StronglySorted_filter|]. intros x. rewrite elem_of_list_filter, Hnb. tauto.
    - eapply dinv_perm; [|exact Hd']. rewrite place_perm. by rewrite <- !(assoc_L (++)).
  Qed.
  Lemma next_nil later d : 
    match next_unvisited idt V d with
    | Some r => ∀ d', fb_set_false r d = Ok d' → tnext later (TState [] d) = tnext later (TState [r] d')
    | None => tnext later (TState [] d) = Ok (None, TState [] d)
    end.
  Proof.
    unfold tnext, dfs_next, bfs_next. destruct later; cbn [t_todo t_disc];
      (destruct (next_unvisited idt V d); [intros d' ->; done|done]).
  Qed.

  Section order.
    Context (later : bool) (J : list N → N → list N → list N → Prop) (ord : list N → N → list N → Prop).
    Context (Jinit : ∀ pre r, J pre r [] [r]).
    Context (Jstep : ∀ pre r cur c q news, pinv A pre r cur (c :: q) → news_of A pre cur c q news →
      J pre r cur (c :: q) → J pre r (cur ++ [c]) (place later q news)).
    Context (Jend : ∀ pre r cur, J pre r cur [] → ord pre r cur).

    Lemma drain_spec fuel : ∀ pre r cur q d, pinv A pre r cur q → dinv (pre ++ cur ++ q) d → J pre r cur q →
      a_num_nodes A < fuel + length (pre ++ cur) →
      ∃ l b l', drain (tnext later) fuel (TState q d) = Ok l ∧ cur ++ l = b ++ l' ∧
        block A (ord pre) pre r b ∧ blocks A ord (pre ++ b) l'.
    Proof.
      assert (∀ pre r cur q, pinv A pre r cur q → length (pre ++ cur ++ q) ≤ a_num_nodes A) as Hlen.
      { intros pre r cur q Hp. pose proof (rp_node_indices _ _ Hrep) as Hni.
        unfold a_num_nodes. rewrite <- (lists_exactly_length (v_node_indices V) (ag_nodes A)); [|done].
        apply submseteq_length, NoDup_submseteq; [apply (pi_nd _ _ _ _ _ Hp)|].
        intros x Hx%(pi_nodes _ _ _ _ _ Hp). by apply Hni. }
      induction fuel as [|fuel IH]; intros pre r cur q d Hp Hd HJ Hfuel.
      { exfalso. pose proof (Hlen _ _ _ _ Hp). rewrite !app_length in *. simpl in *. lia. }
      cbn [drain]. destruct q as [|c q].
      - destruct (pinv_end A (rp_wf _ _ Hrep) _ _ _ Hp) as (Hb1 & Hb2 & Hb3 & Hb4 & Hb5 & Hb6). rewrite app_nil_r in Hd.
        assert (block A (ord pre) pre r cur) as Hblk. { split_and!; [done..|by apply Jend]. }
        pose proof (next_unvisited_spec _ _ Hd) as Hnu. pose proof (next_nil later d) as Hnn.
        destruct (next_unvisited idt V d) as [r'|].
        + destruct Hnu as (Hr1 & Hr2 & Hr3). destruct (dinv_set _ _ r' Hd Hr1) as (d1 & Hset & Hd1 & _).
          rewrite (Hnn _ Hset).
          assert (pinv A (pre ++ cur) r' [] [r']) as Hp1 by (apply pinv_init; [apply (rp_wf _ _ Hrep)|done..]).
          destruct (next_cons later r' [] d1 _ _ _ Hp1) as (news & d2 & Hnx & Hnews & Hd2).
          { simpl. done. }
          rewrite Hnx. cbn [rbind].
          destruct (IH (pre ++ cur) r' ([] ++ [r']) (place later [] news) d2) as (l & b & l' & Hdr & Hl & Hbk & Hbs).
          { eapply pinv_step; [apply (rp_wf _ _ Hrep)|done..|]. by rewrite place_perm. }
          { done. }
          { apply Jstep; [done..|]. apply Jinit. }
          { rewrite !app_length in *. simpl in *. lia. }
          exists (r' :: l), cur, (b ++ l'). split_and!; [by rewrite Hdr| |done|].
          { rewrite <- Hl. done. }
          by apply blocks_cons with r'.
        + rewrite Hnn. cbn [rbind]. exists [], cur, []. split_and!; [done..|]. by constructor.
      - destruct (next_cons later c q d _ _ _ Hp Hd) as (news & d2 & Hnx & Hnews & Hd2).
        rewrite Hnx. cbn [rbind].
        destruct (IH pre r (cur ++ [c]) (place later q news) d2) as (l & b & l' & Hdr & Hl & Hbk & Hbs).
        { eapply pinv_step; [apply (rp_wf _ _ Hrep)|done..|]. by rewrite place_perm. }
        { done. }
        { by apply Jstep. }
        { rewrite !app_length in *. simpl in *. lia. }
        exists (c :: l), b, l'. split_and!; [by rewrite Hdr| |done..]. rewrite <- Hl. by rewrite <- (assoc_L (++)).
    Qed.
  End order.

  Lemma drain_mono next fuel fuel' st l : drain next fuel st = Ok l → fuel ≤ fuel' → drain next fuel' st = Ok l.
  Proof.
    revert fuel' st l. induction fuel as [|fuel IH]; intros fuel' st l; [done|]. destruct fuel' as [|fuel']; [lia|].
    cbn [drain]. intros Hd Hf. destruct (next st) as [[o st']| |]; [|done..]. cbn [rbind] in *. destruct o; [|done].
    apply rmap_Ok in Hd as (l' & Hd & <-). by rewrite (IH fuel' _ l') by (done || lia).
  Qed.

  (** The constructors. *)
  Definition trun (later : bool) (fuel : nat) (start : option N) : res (list N) :=
    if later then dfs_run idt V fuel start else bfs_run idt V fuel start.
  Definition tnew (later : bool) (start : option N) : res tstate :=
    if later then dfs_new V start else bfs_new V start.
  Lemma trun_new later fuel start : trun later fuel start = let* st := tnew later start in drain (tnext later) fuel st.
  Proof. by destruct later. Qed.

  Lemma undiscovered_spec n : a_has_node A n → ∃ d, undiscovered_all V = Ok d ∧ dinv [] d.
  Proof.
    intros Hn. destruct (rp_max_seen _ _ Hrep n Hn) as (m & Hm & _). unfold undiscovered_all. rewrite Hm. cbn [rbind unwrap].
    eexists. split; [done|]. pose proof (Hids m Hm). constructor; simpl.
    - intros x Hx. destruct (rp_max_seen _ _ Hrep x Hx) as (m' & Hm' & ?). rewrite Hm in Hm'. simplify_eq. lia.
    - lia.
    - intros x. rewrite elem_of_list_to_set, elem_of_list_fmap. intros (k & -> & Hk%elem_of_seq). lia.
    - intros x Hx. destruct (rp_max_seen _ _ Hrep x Hx) as (m' & Hm' & ?). rewrite Hm in Hm'. simplify_eq.
      rewrite elem_of_list_to_set, elem_of_list_fmap. split; [set_solver|]. intros _. exists (N.to_nat x).
      split; [lia|]. apply elem_of_seq. lia.
  Qed.
  Lemma starts_node start s : starts A V start s → a_has_node A s.
  Proof.
    destruct start; [by intros [-> ?]|]. simpl. intros Hh. apply (rp_node_indices _ _ Hrep).
    destruct (v_node_indices V); [done|]. simplify_eq/=. set_solver.
  Qed.
  Lemma tnew_spec later start s : starts A V start s →
    ∃ d, tnew later start = Ok (TState [s] d) ∧ dinv [s] d.
  Proof.
    intros Hs. pose proof (starts_node _ _ Hs) as Hn. destruct (undiscovered_spec s Hn) as (d & Hu & Hd).
    destruct (dinv_set _ _ s Hd Hn) as (d' & Hset & Hd' & _). exists d'. split; [|done].
    unfold tnew, dfs_new, dfs_with_capacity, dfs_move_to, bfs_new. rewrite Hu. cbn [rbind t_disc].
    destruct start as [s'|].
    - destruct Hs as [-> _]. rewrite (proj2 (rp_has_node _ _ Hrep s') Hn), Hset. by destruct later.
    - simpl in Hs. rewrite decide_False. { rewrite Hs. cbn [rbind unwrap]. rewrite Hset. by destruct later. }
      rewrite (rp_node_count _ _ Hrep). unfold a_num_nodes.
      rewrite <- (lists_exactly_length (v_node_indices V) (ag_nodes A)); [|apply (rp_node_indices _ _ Hrep)].
      by destruct (v_node_indices V).
  Qed.

  Lemma run_ordered later (J : list N → N → list N → list N → Prop) (ord : list N → N → list N → Prop) start s :
    (∀ pre r, J pre r [] [r]) →
    (∀ pre r cur c q news, pinv A pre r cur (c :: q) → news_of A pre cur c q news →
      J pre r cur (c :: q) → J pre r (cur ++ [c]) (place later q news)) →
    (∀ pre r cur, J pre r cur [] → ord pre r cur) →
    starts A V start s →
    ∃ l, (∀ fuel, v_node_count V < fuel → trun later fuel start = Ok l) ∧ traversal A ord s l.
  Proof.
    intros J1 J2 J3 Hs. destruct (tnew_spec later start s Hs) as (d & Hnew & Hd).
    assert (pinv A [] s [] [s]) as Hp.
    { apply pinv_init; [apply (rp_wf _ _ Hrep)|set_solver|constructor|set_solver|set_solver|by eapply starts_node]. }
    destruct (drain_spec later J ord J1 J2 J3 (S (v_node_count V)) [] s [] [s] d) as (l & b & l' & Hdr & Hl & Hb & Hbs); [done|done|done| |].
    { rewrite (rp_node_count _ _ Hrep). simpl. lia. }
    exists l. split; [|by exists b, l'].
    intros fuel Hf. rewrite trun_new, Hnew. cbn [rbind]. by eapply drain_mono.
  Qed.

  Lemma blocks_all ord pre l : blocks A ord pre l → NoDup pre → (∀ x, x ∈ pre → a_has_node A x) →
    lists_exactly (pre ++ l) (a_has_node A).
  Proof.
    induction 1 as [pre Hall|pre r b l Hr Hb Hbs IH]; intros Hnd Hpre.
    - rewrite app_nil_r. split; [done|]. intros x. split; [apply Hpre|apply Hall].
    - rewrite (assoc_L (++)). destruct Hb as (_ & Hnb & Hb & _). apply IH.
      + apply NoDup_app. split_and!; [done| |done]. intros x Hx [_ ?]%Hb. done.
      + intros x [Hx|[Hx _]%Hb]%elem_of_app; [by apply Hpre|]. apply (rtc_closed A (a_has_node A) r); [|by apply Hr|done].
        intros y z _ Hyz. by apply (wf_edge_nodes A y z (rp_wf _ _ Hrep)).
  Qed.
  Lemma traversal_all ord s l : a_has_node A s → traversal A ord s l →
    lists_exactly l (a_has_node A) ∧ head l = Some s.
  Proof.
    intros Hs (b & l' & -> & (Hh & Hnd & Hb & _) & Hbs). split.
    - apply (blocks_all _ _ _ Hbs); [done|]. intros x [Hx _]%Hb.
      apply (rtc_closed A (a_has_node A) s); [|done|done]. intros y z _ Hyz. by apply (wf_edge_nodes A y z (rp_wf _ _ Hrep)).
    - by destruct b.
  Qed.
End run.
