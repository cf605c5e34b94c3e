(** The traversal theorems, for every implementation of the graph traits and for GraphMap. *)
From Verif Require Import Base BaseFacts Api Spec SpecFacts Map GraphMap GraphMapFacts GraphMapRefine
  GraphMapSim GraphMapThms GraphMapMore GraphMapProps Traverse SpecTraverse TraverseFacts TraverseRun.

Lemma traversal_mono {NL EL} (A : agraph NL EL) (o o' : list N → N → list N → Prop) s l :
  (∀ pre r b, o pre r b → o' pre r b) → traversal A o s l → traversal A o' s l.
Proof.
  intros Ho (b & l' & -> & (H1&H2&H3&H4) & Hb). exists b, l'. split; [done|]. split.
  { split_and!; [done..|by apply Ho]. }
  clear H1 H2 H3 H4. induction Hb as [pre Hall|pre r b l Hr (K1&K2&K3&K4) Hbs IH].
  - by apply blocks_nil.
  - apply blocks_cons with r; [done| |done]. split_and!; [done..|by apply Ho].
Qed.
Section thms.
  Context {NL EL : Type} (idt : idty) (V : gview NL EL) (A : agraph NL EL).
  Context (Hrep : represents V A).
  Context (Hids : ∀ m, v_max_seen_id V = Ok (Some m) → (m < id_card idt)%N).

  Lemma bfs_thm start s : starts A V start s →
    ∃ l, (∀ fuel, v_node_count V < fuel → bfs_run idt V fuel start = Ok l) ∧
      lists_exactly l (a_has_node A) ∧ head l = Some s ∧
      traversal A (by_distance A) s l ∧ traversal A (earliest_discovered A) s l.
  Proof.
    intros Hs.
    destruct (run_ordered idt V A Hrep Hids false (λ pre r cur q, jdist A pre r cur q ∧ jdisc A false pre r cur q)
      (λ pre r b, by_distance A pre r b ∧ earliest_discovered A pre r b) start s) as (l & Hrun & Ht).
    - intros pre r. split; [apply jdist_init, Hrep|by apply jdisc_init].
    - intros pre r cur c q news Hp Hn [H1 H2]. split; [apply jdist_step; [apply Hrep|done..]|].
      apply jdisc_step; [apply Hrep|done..].
    - intros pre r cur [H1 H2]. split; [by apply jdist_end|].
      apply (jdisc_end A false pre r cur) in H2. exact H2.
    - done.
    - exists l. split; [exact Hrun|].
      destruct (traversal_all V A Hrep _ s l (starts_node idt V A Hrep Hids _ _ Hs) Ht) as [H1 H2].
      split_and!; [done|done| |].
      + eapply traversal_mono; [|exact Ht]. by intros ??? [? ?].
      + eapply traversal_mono; [|exact Ht]. by intros ??? [? ?].
  Qed.
  Lemma dfs_thm start s : starts A V start s →
    ∃ l, (∀ fuel, v_node_count V < fuel → dfs_run idt V fuel start = Ok l) ∧
      lists_exactly l (a_has_node A) ∧ head l = Some s ∧ traversal A (latest_discovered A) s l.
  Proof.
    intros Hs.
    destruct (run_ordered idt V A Hrep Hids true (jdisc A true) (latest_discovered A) start s) as (l & Hrun & Ht).
    - intros pre r. by apply jdisc_init.
    - intros pre r cur c q news Hp Hn H2. apply jdisc_step; [apply Hrep|done..].
    - intros pre r cur H2. apply (jdisc_end A true pre r cur) in H2. exact H2.
    - done.
    - exists l. split; [exact Hrun|].
      destruct (traversal_all V A Hrep _ s l (starts_node idt V A Hrep Hids _ _ Hs) Ht) as [H1 H2]. done.
  Qed.
  Lemma missing_start s fuel l : ¬ a_has_node A s →
    bfs_run idt V fuel (Some s) ≠ Ok l ∧ dfs_run idt V fuel (Some s) ≠ Ok l.
  Proof.
    intros Hs. assert (v_has_node V s = false) as Hf.
    { apply not_true_iff_false. intros H. by apply (rp_has_node _ _ Hrep) in H. }
    unfold bfs_run, dfs_run, bfs_new, dfs_new, dfs_with_capacity, dfs_move_to.
    destruct (undiscovered_all V); cbn [rbind]; rewrite ?Hf; done.
  Qed.
  Lemma empty_start fuel l : v_node_count V = 0 →
    bfs_run idt V fuel None ≠ Ok l ∧ dfs_run idt V fuel None ≠ Ok l.
  Proof.
    intros Hf. unfold bfs_run, dfs_run, bfs_new, dfs_new, dfs_with_capacity, dfs_move_to.
    destruct (undiscovered_all V); cbn [rbind]; rewrite ?decide_True by done; done.
  Qed.
  (** reset() after any number of next() calls, then move_to: as a new Dfs. *)
  Lemma dfs_next_len st o st' : dfs_next idt V st = Ok (o, st') → fb_len (t_disc st') = fb_len (t_disc st).
  Proof.
    assert (∀ i d d', fb_set_false i d = Ok d' → fb_len d' = fb_len d) as Hset.
    { intros i d d'. unfold fb_set_false. case_decide; [|done]. by intros [= <-]. }
    unfold dfs_next. intros H. apply rbind_Ok in H as (st1 & H1 & H).
    assert (fb_len (t_disc st1) = fb_len (t_disc st)) as <-.
    { destruct (t_todo st); [|by simplify_eq]. destruct (next_unvisited idt V (t_disc st)); [|by simplify_eq].
      apply rbind_Ok in H1 as (d & Hd & [= <-]). by apply Hset in Hd. }
    destruct (t_todo st1) as [|c q]; [by simplify_eq|]. apply rbind_Ok in H as (nb & _ & H).
    apply rbind_Ok in H as (st2 & H2 & [= _ <-]). clear H1.
    assert (fb_len (t_disc (TState q (t_disc st1))) = fb_len (t_disc st1)) as Hb by done. revert H2 Hb.
    generalize (TState q (t_disc st1)) as st0. generalize (fb_len (t_disc st1)) as len. clear - Hset.
    induction nb as [|n nb IH]; intros len st0; cbn [rfold]; [by intros [= <-]|].
    intros H Hl. apply rbind_Ok in H as (st3 & H3 & H). apply (IH len) in H; [exact H|]. clear H.
    destruct (fb_contains (t_disc st0) n); [|by simplify_eq]. apply rbind_Ok in H3 as (d & Hd & [= <-]). simpl.
    by rewrite (Hset _ _ _ Hd).
  Qed.
  Lemma fb_insert_clear d : fb_insert_all (fb_clear d) = fb_insert_all d.
  Proof. done. Qed.
  Lemma dfs_reset_spec st0 st start : dfs_new V start = Ok st0 →
    rtc (λ st st', ∃ o, dfs_next idt V st = Ok (o, st')) st0 st →
    ∀ start', dfs_move_to V start' (dfs_reset st) = dfs_new V start'.
  Proof.
    intros Hnew Hr start'. unfold dfs_new, dfs_with_capacity, undiscovered_all in *.
    apply rbind_Ok in Hnew as (st1 & H1 & Hm). apply rbind_Ok in H1 as (d & Hd & [= <-]).
    apply rbind_Ok in Hd as (om & Hom & Hd). apply rbind_Ok in Hd as (m & Hom' & [= <-]).
    rewrite Hom. cbn [rbind]. rewrite Hom'. cbn [rbind]. f_equal. unfold dfs_reset. f_equal.
    assert (fb_len (t_disc st) = m + 1)%N as Hlen.
    { assert (fb_len (t_disc st0) = m + 1)%N as <-.
      { assert (∀ i d d', fb_set_false i d = Ok d' → fb_len d' = fb_len d) as Hset.
        { intros i d d'. unfold fb_set_false. case_decide; [|done]. by intros [= <-]. }
        unfold dfs_move_to in Hm. destruct start.
        - destruct (v_has_node V n); [|done]. apply rbind_Ok in Hm as (d & Hd & [= <-]). by apply Hset in Hd.
        - destruct (decide (v_node_count V = 0)); [done|]. apply rbind_Ok in Hm as (i & _ & Hm).
          apply rbind_Ok in Hm as (d & Hd & [= <-]). by apply Hset in Hd. }
      clear -Hr. induction Hr as [|x y z [o Hxy] Hyz IH]; [done|]. rewrite IH. by eapply dfs_next_len. }
    unfold fb_insert_all, fb_clear. simpl. by rewrite Hlen.
  Qed.
End thms.

(** GraphMap: every state reached by any history. *)
Lemma gm_represents {NL EL} `{EqDecision NL, EqDecision EL} dir lt (g : graphmap NL EL) it :
  gm_reachable dir lt g → hash_order g it →
  ∃ A, represents (v_unlabelled (gm_view dir it g)) A.
Proof. intros [s Hs]%reach_skrel Hit. eexists. apply (skrel_view dir g s it Hs Hit). Qed.

(** Witness histories and graphs. *)
Definition edges_history (es : list (N * N)) : list (gop N N) := (λ e, OAddEdge e.1 e.2 None) <$> es.
Definition dfs_wit : list (gop N N) := edges_history [(0, 1); (0, 2); (0, 3); (3, 1)]%N.
Definition split_wit : list (gop N N) := edges_history [(0, 5); (5, 2); (7, 3); (3, 2)]%N.

Definition run_spec (dir : bool) (h : list (gop N N)) : sstate N N :=
  match spec_run h (s_init dir [] []) with SOk (_, s) => s | _ => s_init dir [] [] end.
Definition run_gm (dir : bool) (h : list (gop N N)) : graphmap N N :=
  match gm_run dir TU8 h (gm_with_label_map [] []) with Ok (_, g) => g | _ => gm_new end.
Definition run_view (dir : bool) (h : list (gop N N)) : gview N N :=
  gm_view dir (map_to_list (g_nodes (run_gm dir h))).*1 (run_gm dir h).
Definition fits_u8 (dir : bool) (h : list (gop N N)) : Prop :=
  match spec_run h (s_init dir [] []) with
  | SOk (_, s) => length (sp_nls s) ≤ 256 ∧ length (sp_els s) ≤ 256 | _ => False end.
Lemma run_view_all dir h : fits_u8 dir h →
  let V := run_view dir h in let s := run_spec dir h in
  represents V (sp_g s) ∧ answers_missing V (sp_g s) ∧ iterates V ∧ v_edge_count V = sp_count s ∧
  v_node_label_map V = sp_nls s ∧ v_edge_label_map V = sp_els s ∧ gm_reachable dir TU8 (run_gm dir h).
Proof.
  intros H. unfold fits_u8 in H. intros V s0.
  assert (s0 = match spec_run h (s_init dir [] []) with SOk (_, s) => s | _ => s_init dir [] [] end) as Hs0 by done. clearbody s0.
  destruct (spec_run h (s_init dir [] [])) as [[rs s]| |] eqn:Hs; [|done..]. subst s0.
  destruct (refinement dir TU8 [] [] h rs s) as (g & Hg & Hv); [constructor|constructor|done| | |].
  1,2: unfold labels_fit; simpl; lia.
  unfold V, run_view, run_gm. rewrite Hg.
  destruct (Hv _ (GraphMapQueries.hash_order_exists g)) as (?&?&?&?&_&?&?). split_and!; try done.
  exists [], [], h, rs. split_and!; [constructor|constructor|done].
Qed.
Lemma run_view_represents dir h : fits_u8 dir h → represents (run_view dir h) (sp_g (run_spec dir h)).
Proof. intros H. by destruct (run_view_all dir h H). Qed.

Lemma dfs_wit_represents : represents (run_view false dfs_wit) (sp_g (run_spec false dfs_wit)).
Proof. apply run_view_represents. vm_compute. lia. Qed.
Lemma split_wit_represents dir : represents (run_view dir split_wit) (sp_g (run_spec dir split_wit)).
Proof. apply run_view_represents. destruct dir; vm_compute; lia. Qed.

Lemma dfs_wit_refuted : ∃ (V : gview N N) A l, represents V A ∧
  v_max_seen_id V = Ok (Some 3%N) ∧ a_has_node A 0%N ∧
  dfs_run TU8 V 5 (Some 0%N) = Ok l ∧ ¬ traversal A (depth_first A) 0%N l.
Proof.
  exists (run_view false dfs_wit), (sp_g (run_spec false dfs_wit)), [0; 3; 2; 1]%N.
  split; [apply dfs_wit_represents|]. split; [by vm_compute|]. split; [apply (bool_decide_unpack _); by vm_compute|].
  split; [by vm_compute|].
  set (A := sp_g (run_spec false dfs_wit)).
  assert (∀ x y, bool_decide (a_has_edge A x y) = true → a_has_edge A x y) as Hy by (by intros ??; apply bool_decide_eq_true).
  assert (∀ x y, bool_decide (a_has_edge A x y) = false → ¬ a_has_edge A x y) as Hn by (by intros ??; apply bool_decide_eq_false).
  intros (b & l' & Heq & (_ & _ & Hb & Hdf) & _).
  assert (1%N ∈ b) as H1.
  { apply Hb. split; [|apply not_elem_of_nil]. eapply rtc_once, Hy. by vm_compute. }
  assert (b = [0; 3; 2; 1]%N) as ->.
  { clear -Heq H1. destruct b as [|? [|? [|? [|? [|]]]]]; simplify_eq/=; try done; exfalso; clear -H1; set_solver. }
  destruct (Hdf 1 2%N eq_refl) as (j & p & Hj & Hp & Hpx & Hlast).
  destruct j as [|[|]]; [injection Hp as <-|injection Hp as <-|lia].
  - assert (1%N ∈ [0; 3]%N) as H2; [|clear -H2; set_solver]. apply (Hlast 1 3%N); [lia|done|]. apply Hy. by vm_compute.
  - revert Hpx. apply Hn. by vm_compute.
Qed.

Lemma split_wit_refuted : ∃ (V : gview N N) A l l', represents V A ∧ a_has_node A 0%N ∧ v_max_seen_id V = Ok (Some 7%N) ∧
  bfs_run TU8 V 6 (Some 0%N) = Ok l ∧ dfs_run TU8 V 6 (Some 0%N) = Ok l' ∧
  ¬ (∀ x, x ∈ l → reaches A 0%N x) ∧ ¬ (∀ x, x ∈ l' → reaches A 0%N x).
Proof.
  exists (run_view true split_wit), (sp_g (run_spec true split_wit)), [0; 5; 2; 3; 7]%N, [0; 5; 2; 3; 7]%N.
  split; [apply split_wit_represents|]. split; [apply (bool_decide_unpack _); by vm_compute|].
  split; [by vm_compute|]. split; [by vm_compute|]. split; [by vm_compute|].
  set (A := sp_g (run_spec true split_wit)).
  assert (ag_edges A = {[ (0,5) := None; (5,2) := None; (7,3) := None; (3,2) := None ]}%N) as HA.
  { apply (bool_decide_unpack _). by vm_compute. }
  assert (ag_dir A = true) as Hd by (by vm_compute).
  assert (¬ reaches A 0%N 3%N) as Hno.
  { intros Hr.
    assert (3%N ∈ [0; 5; 2]%N) as H2; [|clear -H2; set_solver].
    apply (rtc_closed A (λ x, x ∈ [0; 5; 2]%N) 0%N 3%N); [|clear; set_solver|done].
    intros x y Hx Hxy. unfold a_has_edge, a_edge_at, ekey in Hxy. rewrite Hd, HA in Hxy. simpl in Hxy.
    destruct Hxy as [l Hl]. revert Hl. rewrite !lookup_insert_Some, lookup_singleton_Some. clear -Hx. set_solver. }
  split; intros H; apply Hno, H; clear; set_solver.
Qed.

Lemma graphmap_traversal {NL EL} `{EqDecision NL, EqDecision EL} (idt lt : idty) dir (g : graphmap NL EL) it s :
  gm_reachable dir lt g → hash_order g it →
  let V := gm_view dir it g in
  (∀ m, v_max_seen_id V = Ok (Some m) → (m < id_card idt)%N) →
  v_has_node V s = true →
  (∃ l, (∀ fuel, v_node_count V < fuel → bfs_run idt V fuel (Some s) = Ok l) ∧
    NoDup l ∧ (∀ n, n ∈ l ↔ v_has_node V n = true) ∧ head l = Some s) ∧
  (∃ l, (∀ fuel, v_node_count V < fuel → dfs_run idt V fuel (Some s) = Ok l) ∧
    NoDup l ∧ (∀ n, n ∈ l ↔ v_has_node V n = true) ∧ head l = Some s).
Proof.
  intros Hr Hit V Hids Hs. destruct (gm_represents dir lt g it Hr Hit) as (A & HA).
  pose proof (rp_has_node _ _ HA) as Hn.
  assert (starts A (v_unlabelled V) (Some s) s) as Hst. { split; [done|]. by apply Hn. }
  split.
  - destruct (bfs_thm idt _ A HA Hids (Some s) s Hst) as (l & Hl & [H1 H2] & H3 & _). exists l.
    split; [exact Hl|]. split; [done|]. split; [|done]. intros n. rewrite H2. symmetry. apply Hn.
  - destruct (dfs_thm idt _ A HA Hids (Some s) s Hst) as (l & Hl & [H1 H2] & H3 & _). exists l.
    split; [exact Hl|]. split; [done|]. split; [|done]. intros n. rewrite H2. symmetry. apply Hn.
Qed.
Lemma distance_unique {NL EL} (A : agraph NL EL) s x d d' : distance A s x d → distance A s x d' → d = d'.
Proof. intros [H1 H2] [H3 H4]. specialize (H2 _ H3). specialize (H4 _ H1). lia. Qed.
Lemma traversal_first {NL EL} (A : agraph NL EL) s l :
  traversal A (by_distance A) s l →
  ∃ l1 l2, l = l1 ++ l2 ∧ (∀ x, x ∈ l1 ↔ reaches A s x) ∧
    ∀ i j x y dx dy, i ≤ j → l1 !! i = Some x → l1 !! j = Some y →
      distance A s x dx → distance A s y dy → dx ≤ dy.
Proof.
  intros (b & l' & -> & (_ & _ & Hb & (ks & Hks & Hs)) & _). exists b, l'. split; [done|]. split.
  { intros x. rewrite Hb. set_solver. }
  intros i j x y dx dy Hij Hx Hy Hdx Hdy.
  destruct (Forall2_lookup_l _ _ _ _ _ Hks Hx) as (dx' & Hix & Hdx'). destruct (Forall2_lookup_l _ _ _ _ _ Hks Hy) as (dy' & Hjy & Hdy').
  rewrite (distance_unique _ _ _ _ _ Hdx Hdx'), (distance_unique _ _ _ _ _ Hdy Hdy').
  destruct (decide (i = j)) as [->|Hne]; [rewrite Hix in Hjy; simplify_eq; done|].
  rewrite <- (take_drop_middle ks i dx' Hix) in Hs, Hjy. apply StronglySorted_app_iff in Hs as (_ & Hs & _).
  inversion Hs as [|?? _ Hf]; subst. rewrite Forall_forall in Hf. apply Hf.
  apply lookup_lt_Some in Hix. rewrite lookup_app_r in Hjy; rewrite take_length in *; [|lia].
  replace (j - i `min` length ks) with (S (j - i - 1)) in Hjy by lia. simpl in Hjy. by eapply elem_of_list_lookup_2.
Qed.
Lemma dfs_once {NL EL} (idt : idty) (V : gview NL EL) (A : agraph NL EL) start s :
  represents V A → (∀ m, v_max_seen_id V = Ok (Some m) → (m < id_card idt)%N) → starts A V start s →
  ∃ l, (∀ fuel, v_node_count V < fuel → dfs_run idt V fuel start = Ok l) ∧
    NoDup l ∧ (∀ n, n ∈ l ↔ a_has_node A n) ∧ head l = Some s ∧
    ∃ l1 l2, l = l1 ++ l2 ∧ ∀ x, x ∈ l1 ↔ reaches A s x.
Proof.
  intros HA Hids Hst. destruct (dfs_thm idt _ A HA Hids _ s Hst) as (l & Hl & [H1 H2] & H3 & (b & l' & -> & (_&_&Hb&_) & _)).
  exists (b ++ l'). split_and!; [done..|]. exists b, l'. split; [done|]. intros x. rewrite Hb. set_solver.
Qed.
Lemma only_reachable_iff {NL EL} (idt : idty) (V : gview NL EL) (A : agraph NL EL) s :
  represents V A → (∀ m, v_max_seen_id V = Ok (Some m) → (m < id_card idt)%N) → a_has_node A s →
  ∃ l l', (∀ fuel, v_node_count V < fuel →
      bfs_run idt V fuel (Some s) = Ok l ∧ dfs_run idt V fuel (Some s) = Ok l') ∧
    ((∀ x, x ∈ l → reaches A s x) ↔ (∀ x, a_has_node A x → reaches A s x)) ∧
    ((∀ x, x ∈ l' → reaches A s x) ↔ (∀ x, a_has_node A x → reaches A s x)).
Proof.
  intros HA Hids Hst. assert (starts A V (Some s) s) as Hs by done.
  destruct (bfs_thm idt _ A HA Hids _ s Hs) as (l & Hl & [_ H2] & _).
  destruct (dfs_thm idt _ A HA Hids _ s Hs) as (l' & Hl' & [_ H2'] & _).
  exists l, l'. split; [intros; split; [by apply Hl|by apply Hl']|]. split.
  - by setoid_rewrite H2.
  - by setoid_rewrite H2'.
Qed.
Lemma split_wit_case : ∃ (V : gview N N) A, represents V A ∧ v_max_seen_id V = Ok (Some 7%N) ∧
  starts A V (Some 5%N) 5%N ∧ starts A V None 0%N ∧
  bfs_run TU8 V 6 (Some 5%N) = Ok [5; 0; 2; 3; 7]%N ∧ bfs_run TU8 V 6 None = Ok [0; 5; 2; 3; 7]%N.
Proof.
  exists (run_view false split_wit), (sp_g (run_spec false split_wit)).
  split; [apply split_wit_represents|]. split; [by vm_compute|].
  split; [split; [done|]; apply (bool_decide_unpack _); by vm_compute|].
 split; [by vm_compute|]. split; by vm_compute.
Qed.
Lemma two_ok_ex (r : res tstate) (f : tstate → res (option N * tstate)) :
  match r with
  | Ok st0 => match f st0 with Ok (o, st) => o = Some 0%N ∧ t_todo st0 = [0]%N ∧ t_todo st = [3; 2; 1]%N | _ => False end
  | _ => False
  end → ∃ st0 st, r = Ok st0 ∧ f st0 = Ok (Some 0%N, st) ∧ st0 ≠ st.
Proof.
  destruct r as [st0| |]; [|done..]. destruct (f st0) as [[o st]| |] eqn:Hf; [|done..]. intros (-> & H1 & H2).
  exists st0, st. split_and!; [done..|]. intros ->. congruence.
Qed.
Lemma dfs_wit_case : ∃ (V : gview N N) A, represents V A ∧ v_max_seen_id V = Ok (Some 3%N) ∧
  starts A V (Some 0%N) 0%N ∧ dfs_run TU8 V 5 (Some 0%N) = Ok [0; 3; 2; 1]%N ∧
  ∃ st0 st, dfs_new V (Some 0%N) = Ok st0 ∧ dfs_next TU8 V st0 = Ok (Some 0%N, st) ∧ st0 ≠ st.
Proof.
  exists (run_view false dfs_wit), (sp_g (run_spec false dfs_wit)).
  split; [apply dfs_wit_represents|]. split; [by vm_compute|].
  split; [split; [done|]; apply (bool_decide_unpack _); by vm_compute|].
  split; [by vm_compute|].
  apply (two_ok_ex (dfs_new (run_view false dfs_wit) (Some 0%N)) (dfs_next TU8 (run_view false dfs_wit))).
  by vm_compute.
Qed.
