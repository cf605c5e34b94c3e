(** Proofs for C118. *)
From Verif Require Import Base BaseFacts Api Spec SpecFacts GraphMap GraphMapFacts GraphMapRefine GraphMapThms ViewFacts GraphMapProps SpecConn ConnComp ConnCompFacts ConnCompProps SpecConnGrow Traverse SpecTraverse TraverseRun TraverseProps TraverseSame SpecSym.

Section sym.
  Context {NL EL : Type} `{EqDecision NL, EqDecision EL}.
  Implicit Types (A B : agraph NL EL) (s t : sstate NL EL).

  Record sym A B : Prop := {
    sy_dir : ag_dir A = false;
    sy_dir' : ag_dir B = true;
    sy_wf : ag_wf A;
    sy_wf' : ag_wf B;
    sy_nodes : ag_nodes B = ag_nodes A;
    sy_edges : ∀ x y, a_edge_at B x y = a_edge_at A x y;
  }.
  Lemma sym_empty : sym (a_empty false) (a_empty true).
  Proof. split; try done; apply wf_empty. Qed.
  Lemma sym_add_node A B n l : sym A B → sym (a_add_node n l A) (a_add_node n l B).
  Proof.
    intros H. split; [apply H|apply H|by apply wf_add_node, H|by apply wf_add_node, H| |].
    - cbn. by rewrite (sy_nodes _ _ H).
    - intros x y. rewrite !add_node_edge_at. apply H.
  Qed.
  Lemma touch_nodes n A B : ag_nodes B = ag_nodes A → ag_nodes (a_touch n B) = ag_nodes (a_touch n A).
  Proof. intros E. unfold a_touch. rewrite E. destruct (ag_nodes A !! n); [done|]. cbn. by rewrite E. Qed.
  Lemma add_edge_has x y l A : a_has_node (a_add_edge x y l A) x ∧ a_has_node (a_add_edge x y l A) y.
  Proof.
    unfold a_has_node. rewrite add_edge_nodes.
    assert (∀ n C, is_Some (ag_nodes (a_touch n C : agraph NL EL) !! n)) as Ht.
    { intros n C. unfold a_touch. destruct (ag_nodes C !! n) eqn:E; [by rewrite E|]. cbn. by rewrite lookup_insert. }
    split; [|apply Ht]. unfold a_touch at 1. destruct (ag_nodes (a_touch x A) !! y); [apply Ht|]. cbn.
    destruct (decide (x = y)) as [->|]; [by rewrite lookup_insert|]. rewrite lookup_insert_ne by done. apply Ht.
  Qed.
  Lemma sym_add_both A B x y l : sym A B → sym (a_add_edge x y l A) (a_add_edge y x l (a_add_edge x y l B)).
  Proof.
    intros H. split.
    - rewrite add_edge_dir. apply H.
    - rewrite !add_edge_dir. apply H.
    - by apply wf_add_edge, H.
    - by apply wf_add_edge, wf_add_edge, H.
    - destruct (add_edge_has x y l B). rewrite add_edge_nodes, !touch_present by (try rewrite touch_present by done; done).
      rewrite !add_edge_nodes. by apply touch_nodes, touch_nodes, H.
    - intros u v. rewrite !add_edge_edge_at, !add_edge_dir, (sy_dir _ _ H), (sy_dir' _ _ H), (sy_edges _ _ H).
      destruct (decide (ekey true y x = ekey true u v)) as [E|E]; rewrite ekey_eq in E.
      { rewrite decide_True; [done|]. rewrite ekey_eq. destruct E as [[-> ->]|(? & _)]; [by right|done]. }
      destruct (decide (ekey true x y = ekey true u v)) as [E'|E']; rewrite ekey_eq in E'.
      { rewrite decide_True; [done|]. rewrite ekey_eq. destruct E' as [[-> ->]|(? & _)]; [by left|done]. }
      rewrite decide_False; [done|]. rewrite ekey_eq. intros [[-> ->]|(_ & -> & ->)]; [apply E'|apply E]; by left.
  Qed.
  Lemma sym_add_loop A B x l : sym A B → sym (a_add_edge x x l A) (a_add_edge x x l B).
  Proof.
    intros H. split.
    - rewrite add_edge_dir. apply H.
    - rewrite !add_edge_dir. apply H.
    - by apply wf_add_edge, H.
    - by apply wf_add_edge, H.
    - rewrite !add_edge_nodes. by apply touch_nodes, touch_nodes, H.
    - intros u v. rewrite !add_edge_edge_at, (sy_dir _ _ H), (sy_dir' _ _ H), (sy_edges _ _ H).
      destruct (decide (ekey true x x = ekey true u v)) as [E|E]; rewrite ekey_eq in E.
      { rewrite decide_True; [done|]. rewrite ekey_eq. destruct E as [[-> ->]|(? & _)]; [by left|done]. }
      rewrite decide_False; [done|]. rewrite ekey_eq. intros [[-> ->]|(_ & -> & ->)]; apply E; by left.
  Qed.
  Lemma sym_remove_both A B x y : sym A B → sym (a_remove_edge x y A) (a_remove_edge y x (a_remove_edge x y B)).
  Proof.
    intros H. split; [apply H|apply H|by apply wf_remove_edge, H|by apply wf_remove_edge, wf_remove_edge, H|apply H|].
    intros u v. rewrite !remove_edge_edge_at. change (ag_dir (a_remove_edge x y B)) with (ag_dir B).
    rewrite (sy_dir _ _ H), (sy_dir' _ _ H), (sy_edges _ _ H).
    destruct (decide (ekey true y x = ekey true u v)) as [E|E]; rewrite ekey_eq in E.
    { rewrite decide_True; [done|]. rewrite ekey_eq. destruct E as [[-> ->]|(? & _)]; [by right|done]. }
    destruct (decide (ekey true x y = ekey true u v)) as [E'|E']; rewrite ekey_eq in E'.
    { rewrite decide_True; [done|]. rewrite ekey_eq. destruct E' as [[-> ->]|(? & _)]; [by left|done]. }
    rewrite decide_False; [done|]. rewrite ekey_eq. intros [[-> ->]|(_ & -> & ->)]; [apply E'|apply E]; by left.
  Qed.
  Lemma sym_remove_loop A B x : sym A B → sym (a_remove_edge x x A) (a_remove_edge x x B).
  Proof.
    intros H. split; [apply H|apply H|by apply wf_remove_edge, H|by apply wf_remove_edge, H|apply H|].
    intros u v. rewrite !remove_edge_edge_at, (sy_dir _ _ H), (sy_dir' _ _ H), (sy_edges _ _ H).
    destruct (decide (ekey true x x = ekey true u v)) as [E|E]; rewrite ekey_eq in E.
    { rewrite decide_True; [done|]. rewrite ekey_eq. destruct E as [[-> ->]|(? & _)]; [by left|done]. }
    rewrite decide_False; [done|]. rewrite ekey_eq. intros [[-> ->]|(_ & -> & ->)]; apply E; by left.
  Qed.
  Lemma sym_remove_node A B n : sym A B → sym (a_remove_node n A) (a_remove_node n B).
  Proof.
    intros H. split; [apply H|apply H|by apply wf_remove_node, H|by apply wf_remove_node, H| |].
    - cbn. by rewrite (sy_nodes _ _ H).
    - intros u v. rewrite !remove_node_edge_at. by rewrite (sy_edges _ _ H).
  Qed.
  Lemma set_edge_add A x y l : ag_wf A → a_has_edge A x y →
    AG (ag_dir A) (ag_nodes A) (<[ekey (ag_dir A) x y := l]> (ag_edges A)) = a_add_edge x y l A.
  Proof.
    intros Hw He. destruct (wf_edge_nodes A _ _ Hw He) as [Hx Hy]. unfold a_add_edge. by rewrite (touch_present x A Hx), (touch_present y A Hy).
  Qed.

  (** Every relation but edge_count(). *)
  Record symS s t : Prop := {
    yS_g : sym (sp_g s) (sp_g t);
    yS_max : sp_max t = sp_max s;
    yS_nls : sp_nls t = sp_nls s;
    yS_els : sp_els t = sp_els s;
  }.
  Lemma max_new_has A n o : a_has_node A n → max_new A n o = o.
  Proof. intros [l Hl]. unfold max_new. by rewrite Hl. Qed.
  Lemma max_new_nodes A B n o : ag_nodes B = ag_nodes A → max_new B n o = max_new A n o.
  Proof. intros E. unfold max_new. by rewrite E. Qed.
  Lemma register_again {X} `{EqDecision X} (l : option X) ls : register l (register l ls) = register l ls.
  Proof.
    destruct l as [x|]; [|done]. cbn. destruct (decide (x ∈ ls)) as [Hx|Hx]; [by rewrite decide_True|].
    rewrite decide_True; [done|]. rewrite elem_of_app, elem_of_list_singleton. by right.
  Qed.
  Lemma symS_add_both s t x y l : symS s t → symS (s_add_edge x y l s) (s_add_edge y x l (s_add_edge x y l t)).
  Proof.
    intros H. pose proof (yS_g _ _ H) as HG. split; cbn -[a_add_edge].
    - by apply sym_add_both.
    - destruct (add_edge_has x y l (sp_g t)) as [Hx Hy]. rewrite (touch_present y _ Hy), !max_new_has by done.
      rewrite (max_new_nodes _ _ y _ (touch_nodes x _ _ (sy_nodes _ _ HG))), (max_new_nodes _ _ x _ (sy_nodes _ _ HG)). by rewrite (yS_max _ _ H).
    - apply H.
    - by rewrite register_again, (yS_els _ _ H).
  Qed.
  Lemma symS_add_loop s t x l : symS s t → symS (s_add_edge x x l s) (s_add_edge x x l t).
  Proof.
    intros H. pose proof (yS_g _ _ H) as HG. split; cbn -[a_add_edge].
    - by apply sym_add_loop.
    - rewrite (max_new_nodes _ _ x _ (touch_nodes x _ _ (sy_nodes _ _ HG))), (max_new_nodes _ _ x _ (sy_nodes _ _ HG)). by rewrite (yS_max _ _ H).
    - apply H.
    - by rewrite (yS_els _ _ H).
  Qed.
  Lemma symS_add_node s t n l : symS s t → symS (s_add_node n l s) (s_add_node n l t).
  Proof.
    intros H. pose proof (yS_g _ _ H) as HG. split; cbn.
    - by apply sym_add_node.
    - rewrite (max_new_nodes _ _ n _ (sy_nodes _ _ HG)). by rewrite (yS_max _ _ H).
    - by rewrite (yS_nls _ _ H).
    - apply H.
  Qed.
  Definition sym_res s t (o : gop NL EL) : Prop :=
    match spec_step o s with
    | SOk (r, s') => ∃ rs t', spec_run (both_ways o) t = SOk (r :: rs, t') ∧ S (length rs) = length (both_ways o) ∧ symS s' t'
    | SPanic => spec_run (both_ways o) t = SPanic
    | SUnspec => True
    end.
  Lemma sym_loop s t o r s' t' : both_ways o = [o] → spec_step o s = SOk (r, s') → spec_step o t = SOk (r, t') → symS s' t' → sym_res s t o.
  Proof. intros E Hs Ht H. unfold sym_res. rewrite Hs, E. exists [], t'. cbn [spec_run length]. by rewrite Ht. Qed.
  Lemma sym_step s t o : symS s t → sym_res s t o.
  Proof.
    intros H. pose proof (yS_g _ _ H) as HR. pose proof (sy_edges _ _ HR) as HE. pose proof (sy_nodes _ _ HR) as HN.
    assert (∀ x y, a_edge_at (sp_g t) y x = a_edge_at (sp_g s) x y) as HE'.
    { intros x y. rewrite HE. apply edge_at_sym, HR. }
    destruct o as [n l|x y l|n|x y|n l|x y l|l|l| |n lid|x y lid].
    - eapply sym_loop; [done|done|cbn [spec_step]; by rewrite HN|]. by apply symS_add_node.
    - destruct (decide (x = y)) as [->|Hne].
      + eapply sym_loop; [cbn [both_ways]; by rewrite decide_True|done|cbn [spec_step]; by rewrite HE|]. by apply symS_add_loop.
      + unfold sym_res. cbn [spec_step both_ways]. rewrite decide_False by done. cbn [spec_run spec_step]. rewrite HE.
        do 2 eexists. split; [done|]. split; [done|]. by apply symS_add_both.
    - unfold sym_res. cbn [both_ways spec_run spec_step]. rewrite HN. destruct (ag_nodes (sp_g s) !! n) as [l|]; [|by exists [], t].
      destruct (decide (a_has_edge (sp_g s) n n)) as [E|E].
      + rewrite decide_True; [done|]. unfold a_has_edge. by rewrite HE.
      + rewrite decide_False by (unfold a_has_edge; by rewrite HE). do 2 eexists. split; [done|]. split; [done|].
        split; cbn -[a_remove_node]; [by apply sym_remove_node|apply H..].
    - unfold sym_res. cbn [both_ways spec_step]. destruct (decide (x = y)) as [->|Hne]; cbn [spec_run spec_step].
      + rewrite HE. destruct (a_edge_at (sp_g s) y y) as [l|]; [|by exists [], t]. do 2 eexists. split; [done|]. split; [done|].
        split; cbn -[a_remove_edge]; [by apply sym_remove_loop|apply H..].
      + rewrite HE. destruct (a_edge_at (sp_g s) x y) as [l|] eqn:El.
        * cbn [sp_g]. rewrite remove_edge_edge_at, decide_False, HE', El.
          2: { rewrite (sy_dir' _ _ HR). rewrite ekey_eq. intros [[? ?]|[? _]]; done. }
          do 2 eexists. split; [done|]. split; [done|]. split; cbn -[a_remove_edge]; [by apply sym_remove_both|apply H..].
        * rewrite HE', El. do 2 eexists. split; [done|]. split; [done|]. done.
    - unfold sym_res. cbn [both_ways spec_run spec_step]. rewrite HN. destruct (ag_nodes (sp_g s) !! n) as [l'|]; [|by exists [], t].
      do 2 eexists. split; [done|]. split; [done|]. by apply symS_add_node.
    - unfold sym_res. cbn [both_ways spec_step]. destruct (decide (x = y)) as [->|Hne]; cbn [spec_run spec_step].
      + rewrite HE. destruct (a_edge_at (sp_g s) y y) as [l'|]; [|by exists [], t]. do 2 eexists. split; [done|]. split; [done|].
        by apply symS_add_loop.
      + rewrite HE. destruct (a_edge_at (sp_g s) x y) as [l'|] eqn:El.
        * unfold s_add_edge at 1. cbn [sp_g]. rewrite add_edge_edge_at, decide_False, HE', El.
          2: { rewrite (sy_dir' _ _ HR). rewrite ekey_eq. intros [[? ?]|[? _]]; done. }
          do 2 eexists. split; [done|]. split; [done|]. by apply (symS_add_both s t x y l).
        * rewrite HE', El. do 2 eexists. split; [done|]. split; [done|]. done.
    - eapply sym_loop; [done|done|cbn [spec_step]; by rewrite (yS_nls _ _ H)|]. split; cbn; [done|apply H|done|apply H].
    - eapply sym_loop; [done|done|cbn [spec_step]; by rewrite (yS_els _ _ H)|]. split; cbn; [done|apply H|apply H|done].
    - eapply sym_loop; [done|done|done|]. split; cbn; [done|apply H..].
    - unfold sym_res. cbn [both_ways spec_run spec_step]. rewrite HN. destruct (ag_nodes (sp_g s) !! n) as [l'|]; [|by exists [], t].
      rewrite (yS_nls _ _ H). destruct lid as [i|].
      + destruct (sp_nls s !! N.to_nat i) as [k|]; [|done]. do 2 eexists. split; [done|]. split; [done|].
        split; cbn -[a_add_node]; [by apply sym_add_node|apply H|done|apply H].
      + do 2 eexists. split; [done|]. split; [done|]. split; cbn -[a_add_node]; [by apply sym_add_node|apply H|done|apply H].
    - unfold sym_res. cbn [both_ways spec_run spec_step]. rewrite HE. destruct (a_edge_at (sp_g s) x y) as [l'|] eqn:El; [|by exists [], t].
      rewrite (sy_dir _ _ HR). cbn [negb andb]. destruct (bool_decide (x ≠ y)) eqn:Exy; [done|].
      assert (x = y) as -> by (destruct (decide (x = y)); [done|]; by rewrite bool_decide_eq_true_2 in Exy).
      rewrite (sy_dir' _ _ HR). cbn [negb andb]. rewrite (yS_els _ _ H).
      assert (a_has_edge (sp_g s) y y) as He by (by exists l'). assert (a_has_edge (sp_g t) y y) as He' by (unfold a_has_edge; by rewrite HE).
      assert (∀ l, sym (AG false (ag_nodes (sp_g s)) (<[ekey false y y := l]> (ag_edges (sp_g s)))) (AG true (ag_nodes (sp_g t)) (<[ekey true y y := l]> (ag_edges (sp_g t))))) as Hset.
      { intros l. pose proof (set_edge_add (sp_g s) y y l (sy_wf _ _ HR) He) as E1. pose proof (set_edge_add (sp_g t) y y l (sy_wf' _ _ HR) He') as E2.
        rewrite (sy_dir _ _ HR) in E1. rewrite (sy_dir' _ _ HR) in E2. rewrite E1, E2. by apply sym_add_loop. }
      destruct lid as [i|].
      + destruct (sp_els s !! N.to_nat i) as [k|]; [|done]. do 2 eexists. split; [done|]. split; [done|]. split; cbn; [apply Hset|apply H|apply H|done].
      + do 2 eexists. split; [done|]. split; [done|]. split; cbn; [apply Hset|apply H|apply H|done].
  Qed.
  Lemma spec_run_app h h' t :
    spec_run (h ++ h') t = match spec_run h t with
      | SOk (rs, t') => match spec_run h' t' with SOk (rs', t'') => SOk (rs ++ rs', t'') | SPanic => SPanic | SUnspec => SUnspec end
      | SPanic => SPanic | SUnspec => SUnspec end.
  Proof.
    revert t. induction h as [|o h IH]; intros t; cbn [spec_run app]; [by destruct (spec_run h' t) as [[rs u]| |]|].
    destruct (spec_step o t) as [[r t1]| |]; [|done..]. rewrite IH. destruct (spec_run h t1) as [[rs t2]| |]; [|done..].
    by destruct (spec_run h' t2) as [[rs' t3]| |].
  Qed.
  Lemma sym_run h : ∀ s t, symS s t →
    match spec_run h s with
    | SOk (rs, s') => ∃ rs' t', spec_run (h ≫= both_ways) t = SOk (rs', t') ∧ first_answers h rs' = rs ∧ symS s' t'
    | SPanic => spec_run (h ≫= both_ways) t = SPanic
    | SUnspec => True
    end.
  Proof.
    induction h as [|o h IH]; intros s t Hst; [by exists [], t|].
    change ((o :: h) ≫= both_ways) with (both_ways o ++ (h ≫= both_ways)). rewrite spec_run_app. cbn [spec_run].
    pose proof (sym_step s t o Hst) as Ho. unfold sym_res in Ho. destruct (spec_step o s) as [[r s1]| |]; [|by rewrite Ho|done].
    destruct Ho as (rs1 & t1 & -> & Hl & H1). specialize (IH s1 t1 H1). destruct (spec_run h s1) as [[rs s2]| |]; [|by rewrite IH|done].
    destruct IH as (rs' & t2 & -> & Hf & H2). exists ((r :: rs1) ++ rs'), t2. split; [done|]. split; [|done].
    cbn [first_answers]. rewrite <-Hl. change (S (length rs1)) with (length (r :: rs1)). rewrite drop_app. cbn. by rewrite Hf.
  Qed.
  Lemma symS_init nls els : symS (s_init false nls els) (s_init true nls els).
  Proof. split; [apply sym_empty|done..]. Qed.
  Lemma sym_final nls els h rs s rs' t : spec_run h (s_init false nls els) = SOk (rs, s) → spec_run (h ≫= both_ways) (s_init true nls els) = SOk (rs', t) → sym (sp_g s) (sp_g t).
  Proof.
    intros H1 H2. pose proof (sym_run h _ _ (symS_init nls els)) as HR. rewrite H1, H2 in HR. destruct HR as (? & ? & [= _ <-] & _ & H). apply H.
  Qed.
  Lemma strip_both (h : list (gop NL EL)) : strip (h ≫= both_ways) = strip h ≫= both_ways.
  Proof.
    unfold strip. induction h as [|o h IH]; [done|]. change ((o :: h) ≫= both_ways) with (both_ways o ++ (h ≫= both_ways)).
    rewrite filter_app, filter_cons, IH.
    assert (filter (λ o, is_raw o = false) (both_ways o) = if decide (is_raw o = false) then both_ways o else []) as ->.
    { destruct o as [| x y ? | | x y | | x y ? | | | | |]; cbn [both_ways]; try destruct (decide (x = y)); done. }
    destruct (decide (is_raw o = false)); done.
  Qed.
  Lemma sym_panic lt (nls : list NL) (els : list EL) h : NoDup nls → NoDup els →
    gm_run true lt (h ≫= both_ways) (gm_with_label_map nls els) = Panic ↔ gm_run false lt h (gm_with_label_map nls els) = Panic.
  Proof.
    intros Hn He. pose proof (structure false lt nls els h Hn He) as H1. pose proof (structure true lt nls els (h ≫= both_ways) Hn He) as H2.
    rewrite strip_both in H2. pose proof (sym_run (strip h) _ _ (symS_init nls els)) as HR.
    destruct (spec_run (strip h) _) as [[rs s]| |]; [|rewrite HR in H2; by rewrite H1, H2|done].
    destruct HR as (rs' & t & Ht & _). rewrite Ht in H2. destruct H1 as (? & ? & -> & _). destruct H2 as (? & ? & -> & _). done.
  Qed.

  Lemma increasing_ext (l l' : list N) : increasing l → increasing l' → (∀ x, x ∈ l ↔ x ∈ l') → l = l'.
  Proof.
    revert l'. induction l as [|x l IH]; intros [|y l'] H1 H2 Hm; [done|exfalso|exfalso|].
    - apply (elem_of_nil y), Hm. by left.
    - apply (elem_of_nil x), Hm. by left.
    - apply StronglySorted_inv in H1 as [H1 F1], H2 as [H2 F2]. rewrite Forall_forall in F1, F2.
      assert (x = y) as ->.
      { assert (x ∈ y :: l') as [Ex|Hx]%elem_of_cons by (apply Hm; by left); [done|]. assert (y ∈ x :: l) as [Ey|Hy]%elem_of_cons by (apply Hm; by left); [done|].
        specialize (F1 _ Hy). specialize (F2 _ Hx). lia. }
      f_equal. apply IH; [done..|]. intros z. split; intros Hz.
      + assert (z ∈ y :: l') as [->|?]%elem_of_cons by (apply Hm; by right); [|done]. specialize (F1 _ Hz). lia.
      + assert (z ∈ y :: l) as [->|?]%elem_of_cons by (apply Hm; by right); [|done]. specialize (F2 _ Hz). lia.
  Qed.
  Lemma sym_views U D A B : represents U A → answers_missing U A → represents D B → answers_missing D B → sym A B →
    v_max_seen_id D = v_max_seen_id U → v_node_label_map D = v_node_label_map U → v_edge_label_map D = v_edge_label_map U → stands_for D U.
  Proof.
    intros V1 V2 W1 W2 HS Hm Hnl Hel.
    assert (∀ n, a_has_node B n ↔ a_has_node A n) as Hnode by (intros n; unfold a_has_node; by rewrite (sy_nodes _ _ HS)).
    assert (∀ x y, a_has_edge B x y ↔ a_has_edge A x y) as Hedge by (intros x y; unfold a_has_edge; by rewrite (sy_edges _ _ HS)).
    assert (∀ n, v_neighbors D n = v_neighbors U n) as Hnb.
    { intros n. destruct (decide (a_has_node A n)) as [Hn|Hn].
      - destruct (rp_neighbors _ _ V1 n Hn) as (l & -> & Hi & Hl). destruct (rp_neighbors _ _ W1 n (proj2 (Hnode n) Hn)) as (l' & -> & Hi' & Hl').
        f_equal. apply increasing_ext; [done..|]. intros y. by rewrite Hl, Hl'.
      - destruct (am_degree _ _ V2 n Hn) as [_ ->]. by destruct (am_degree _ _ W2 n) as [_ ->]; [rewrite Hnode|]. }
    assert (∀ n, v_in_neighbors D n = v_neighbors U n) as Hin.
    { intros n. destruct (decide (a_has_node A n)) as [Hn|Hn].
      - destruct (rp_neighbors _ _ V1 n Hn) as (l & -> & Hi & Hl). destruct (rp_in_neighbors _ _ W1 (sy_dir' _ _ HS) n (proj2 (Hnode n) Hn)) as (l' & -> & Hi' & Hl').
        f_equal. apply increasing_ext; [done..|]. intros y. rewrite Hl, Hl', Hedge. apply has_edge_sym, HS.
      - destruct (am_degree _ _ V2 n Hn) as [_ ->]. by destruct (am_in_degree _ _ W2 n (sy_dir' _ _ HS)) as [_ ->]; [rewrite Hnode|]. }
    constructor.
    - by rewrite (rp_is_di _ _ V1), (rp_is_di _ _ W1), (sy_dir _ _ HS), (sy_dir' _ _ HS).
    - rewrite (rp_node_count _ _ V1), (rp_node_count _ _ W1). unfold a_num_nodes. by rewrite (sy_nodes _ _ HS).
    - intros n. apply eq_true_iff_eq. by rewrite (rp_has_node _ _ V1), (rp_has_node _ _ W1).
    - intros x y. destruct (decide (a_has_node A x)) as [Hx|Hx].
      + destruct (rp_has_edge _ _ V1 x y Hx) as (r & -> & Hri). destruct (rp_has_edge _ _ W1 x y) as (r' & -> & Hri'); [by apply Hnode|].
        f_equal. apply eq_true_iff_eq. by rewrite Hri, Hri'.
      + rewrite (am_has_edge _ _ V2 x y Hx), (am_has_edge _ _ W2 x y); [done|]. by rewrite Hnode.
    - intros x. destruct (decide (a_has_node A x)) as [Hx|Hx].
      + rewrite (rep_node_label U A x V1 Hx), (rep_node_label D B x W1) by (by apply Hnode). by rewrite (sy_nodes _ _ HS).
      + rewrite (rep_missing_node_label U A x V2 Hx), (rep_missing_node_label D B x W2); [done|by rewrite Hnode].
    - intros x y. destruct (decide (a_has_edge A x y)) as [Hx|Hx].
      + rewrite (rep_edge_label U A x y V1 Hx), (rep_edge_label D B x y W1) by (by apply Hedge). by rewrite (sy_edges _ _ HS).
      + rewrite (rep_missing_edge_label U A x y V2 Hx), (rep_missing_edge_label D B x y W2); [done|by rewrite Hedge].
    - done.
    - intros n. destruct (decide (a_has_node A n)) as [Hn|Hn].
      + rewrite (rp_degree _ _ V1 n Hn), (rp_degree _ _ W1 n (proj2 (Hnode n) Hn)). by rewrite Hnb.
      + destruct (am_degree _ _ V2 n Hn) as [-> _]. by destruct (am_degree _ _ W2 n) as [-> _]; [rewrite Hnode|].
    - done.
    - intros n. destruct (decide (a_has_node A n)) as [Hn|Hn].
      + rewrite (rp_degree _ _ V1 n Hn), (rp_in_degree _ _ W1 (sy_dir' _ _ HS) n (proj2 (Hnode n) Hn)). by rewrite Hin.
      + destruct (am_degree _ _ V2 n Hn) as [-> _]. by destruct (am_in_degree _ _ W2 n (sy_dir' _ _ HS)) as [-> _]; [rewrite Hnode|].
    - destruct (rp_node_indices _ _ V1) as [N1 M1]. destruct (rp_node_indices _ _ W1) as [N2 M2]. apply NoDup_Permutation; [done..|].
      intros n. by rewrite M1, M2.
    - destruct (rp_edge_indices _ _ V1) as (es & Hes & N1 & M1). destruct (rp_edge_indices _ _ W1) as (es' & Hes' & N2 & M2).
      exists es, es'. split; [done|]. split; [done|].
      assert (∀ x y, (x, y) ∈ es ↔ a_has_edge A x y ∧ (x ≤ y)%N) as Mu.
      { intros x y. rewrite M1. split.
        - intros Hx. destruct (rp_wf _ _ V1 x y Hx) as [Ek _]. unfold a_has_edge, a_edge_at. rewrite Ek. split; [done|].
          rewrite (sy_dir _ _ HS) in Ek. unfold ekey in Ek. injection Ek as Ek _. lia.
        - intros [Hx Hle]. unfold a_has_edge, a_edge_at in Hx. rewrite (sy_dir _ _ HS) in Hx. unfold ekey in Hx.
          by rewrite N.min_l, N.max_r in Hx by done. }
      assert (∀ x y, (x, y) ∈ es' ↔ a_has_edge A x y) as Md.
      { intros x y. rewrite M2, <-Hedge. unfold a_has_edge, a_edge_at. by rewrite (sy_dir' _ _ HS). }
      apply NoDup_Permutation; [done| |].
      + apply NoDup_app. split; [done|]. split.
        * intros [x y] Hx ([u v] & [= -> ->] & [Hne Huv]%elem_of_list_filter)%elem_of_list_fmap. cbn in Hne. apply Mu in Hx as [_ ?], Huv as [_ ?]. lia.
        * apply NoDup_fmap_2; [|by apply NoDup_filter]. by intros [? ?] [? ?] [= -> ->].
      + intros [x y]. rewrite Md, elem_of_app, elem_of_list_fmap. split.
        * intros He. destruct (decide (x ≤ y)%N); [left; by apply Mu|]. right. exists (y, x). split; [done|]. apply elem_of_list_filter. cbn.
          split; [lia|]. apply Mu. split; [|lia]. by apply has_edge_sym; [apply HS|].
        * intros [[? _]%Mu|([u v] & [= -> ->] & [_ Hu]%elem_of_list_filter)]; [done|]. apply Mu in Hu as [Hu _]. by apply has_edge_sym; [apply HS|].
    - done.
    - done.
    - done.
  Qed.
  Lemma sym_history lt (nls : list NL) (els : list EL) h rs s : NoDup nls → NoDup els → spec_run h (s_init false nls els) = SOk (rs, s) →
    labels_fit lt (sp_nls s) → labels_fit lt (sp_els s) →
    ∃ g g' rs', gm_run false lt h (gm_with_label_map nls els) = Ok (rs, g) ∧
      gm_run true lt (h ≫= both_ways) (gm_with_label_map nls els) = Ok (rs', g') ∧ first_answers h rs' = rs ∧
      ∀ it it', hash_order g it → hash_order g' it' → stands_for (gm_view true it' g') (gm_view false it g).
  Proof.
    intros Hn He Hr HN HE. pose proof (sym_run h _ _ (symS_init nls els)) as HR. rewrite Hr in HR. destruct HR as (rs' & t & Ht & Hf & HS).
    destruct (refinement false lt nls els h rs s Hn He Hr HN HE) as (g & Hg & HV).
    destruct (refinement true lt nls els (h ≫= both_ways) rs' t Hn He Ht) as (g' & Hg' & HW).
    { by rewrite (yS_nls _ _ HS). } { by rewrite (yS_els _ _ HS). }
    exists g, g', rs'. split; [done|]. split; [done|]. split; [done|]. intros it it' Hit Hit'.
    destruct (HV it Hit) as (V1 & V2 & _ & _ & V4 & V5 & V6). destruct (HW it' Hit') as (W1 & W2 & _ & _ & W4 & W5 & W6).
    apply (sym_views _ _ (sp_g s) (sp_g t)); [done..|apply HS| | |].
    - by rewrite V4, W4, (yS_max _ _ HS).
    - by rewrite V5, W5, (yS_nls _ _ HS).
    - by rewrite V6, W6, (yS_els _ _ HS).
  Qed.

  (** The algorithms. *)
  Lemma sym_traversals idt U D A B (s : N) : represents U A → represents D B → stands_for D U →
    (∀ m, v_max_seen_id U = Ok (Some m) → (m < id_card idt)%N) → v_has_node U s = true →
    (∃ l, ∀ fuel, v_node_count U < fuel → bfs_run idt U fuel (Some s) = Ok l ∧ bfs_run idt D fuel (Some s) = Ok l) ∧
    (∃ l, ∀ fuel, v_node_count U < fuel → dfs_run idt U fuel (Some s) = Ok l ∧ dfs_run idt D fuel (Some s) = Ok l).
  Proof.
    intros HU HD HS Hi Hs%(rp_has_node _ _ HU).
    set (M := GView (v_directed U) (v_is_di U) (v_node_count D) (v_edge_count U) (v_has_node D) (v_has_edge U) (v_get_node U) (v_get_edge U)
      (v_node_indices D) (v_edge_indices U) (v_nodes U) (v_edges U) (v_degree U) (v_neighbors D) (v_in_degree U) (v_in_neighbors U)
      (v_max_seen_id D) (v_node_label_map U) (v_edge_label_map U) : gview NL EL).
    assert (represents M A) as HM.
    { constructor; cbn; try apply HU.
      - rewrite (st_node_count _ _ HS). apply HU.
      - intros n. rewrite (st_has_node _ _ HS). apply HU.
      - destruct (rp_node_indices _ _ HU) as [N1 M1]. pose proof (st_node_indices _ _ HS) as P. split; [by rewrite P|]. intros n. rewrite P. apply M1.
      - intros n Hn. rewrite (st_neighbors _ _ HS). by apply HU.
      - intros n Hn. rewrite (st_neighbors _ _ HS). by apply HU.
      - intros n Hn. rewrite (st_max_seen_id _ _ HS). by apply HU. }
    assert (∀ m, v_max_seen_id M = Ok (Some m) → (m < id_card idt)%N) as Hi' by (cbn; by rewrite (st_max_seen_id _ _ HS)).
    exact (same_order idt idt U M A (Some s) (Some s) s HU HM Hi Hi' (conj eq_refl Hs) (conj eq_refl Hs)).
  Qed.
  Lemma sym_components U D A B : represents U A → represents D B → iterates U → iterates D → stands_for D U →
    ∃ c c', cc_new U = Ok c ∧ cc_new D = Ok c' ∧ cc_get_count c' = cc_get_count c ∧ ∀ a b, connected c' a b ↔ connected c a b.
  Proof.
    intros HU HD IU ID HS. destruct (thm_graph U A HU IU) as (c & Hc & Hcon & Hcnt). destruct (thm_graph D B HD ID) as (c' & Hc' & Hcon' & Hcnt').
    exists c, c'. split; [done|]. split; [done|].
    assert (∀ n, a_has_node B n ↔ a_has_node A n) as Hnode.
    { intros n. by rewrite <-(rp_has_node _ _ HU), <-(rp_has_node _ _ HD), (st_has_node _ _ HS). }
    assert (∀ x y, a_has_edge B x y ↔ a_has_edge A x y) as Hedge.
    { intros x y. assert (∀ (V : gview NL EL) (C : agraph NL EL), represents V C → a_has_edge C x y ↔ a_has_node C x ∧ v_has_edge V x y = Ok true) as Hx.
      { intros V C HV. split.
        - intros E. destruct (wf_edge_nodes C _ _ (rp_wf _ _ HV) E) as [H1 _]. split; [done|]. by apply (rep_has_edge_true V C).
        - intros [H1 E]. by apply (rep_has_edge_true V C) in E. }
      by rewrite (Hx _ _ HU), (Hx _ _ HD), Hnode, (st_has_edge _ _ HS). }
    assert (∀ n, has_any_edge B n ↔ has_any_edge A n) as Hany.
    { intros n. split; intros (m & [E|E]); exists m; [left|right|left|right]; by apply Hedge. }
    assert (∀ a b, rtsc (a_has_edge B) a b ↔ rtsc (a_has_edge A) a b) as Hp.
    { intros a b. split; (apply rtc_subrel; intros x y [E|E]; [left|right]; by apply Hedge). }
    split.
    - symmetry. apply Hcnt'. destruct (proj1 (Hcnt _) eq_refl) as (reps & H1 & H2 & H3 & H4 & H5). exists reps. split_and!; [done|done| | |].
      + intros r Hr. by apply Hany, H3.
      + intros r r' Hr Hr' E%Hp. by apply H4.
      + intros n Hn%Hany. destruct (H5 n Hn) as (r & Hr & E). exists r. split; [done|]. by apply Hp.
    - intros a b. unfold connected. destruct (Hcon a b) as (v & d & Hv & Hvi). destruct (Hcon' a b) as (v' & d' & Hv' & Hvi').
      rewrite Hv, Hv'. rewrite !Hany, Hp in Hvi'. assert (v' = v) as ->. { apply eq_true_iff_eq. by rewrite Hvi, Hvi'. }
      split; intros [? [= -> _]]; by eexists.
  Qed.
End sym.
