(** ConnComp: queries and histories. *)
From Verif Require Import Base BaseFacts Api Spec SpecFacts ViewFacts SpecConn ConnComp ConnCompFacts TraverseProps.
Implicit Types (m : gmap N N) (c : ccomp).

Lemma cinv_get_root es c n : cinv es c → seen es n →
  ∃ k r c', depth (cc_parent c) n k r ∧ cc_get_root n c = Ok (Some r, c') ∧ cinv es c' ∧
    compresses (cc_parent c) (cc_parent c').
Proof.
  intros Hc Hn. destruct (get_root_spec c n) as (k & r & m' & Hd & Hr & Hcm); [apply Hc|by apply Hc|].
  exists k, r, (CC m' (cc_count c)). split_and!; [done..|by apply cinv_compress|done].
Qed.
Lemma cinv_root_seen es c n k r : cinv es c → depth (cc_parent c) n k r → joined es n r.
Proof.
  intros Hc Hd. apply (ci_same _ _ Hc). exists r, k, 0. split; [done|]. by eapply depth_root_root.
Qed.

Lemma is_connected_spec es c a b : cinv es c →
  ∃ v c', cc_is_connected a b c = Ok (v, c') ∧ cinv es c' ∧ (v = true ↔ joined es a b).
Proof.
  intros Hc. unfold cc_is_connected.
  destruct (cc_parent c !! a) as [pa|] eqn:Ha.
  2:{ eexists _, _. split; [done|]. split; [done|]. split; [done|]. intros [Hs _]. apply (ci_dom _ _ Hc) in Hs as [? ?]. congruence. }
  destruct (cc_parent c !! b) as [pb|] eqn:Hb.
  2:{ eexists _, _. split; [done|]. split; [done|]. split; [done|]. intros (_&Hs&_). apply (ci_dom _ _ Hc) in Hs as [? ?]. congruence. }
  destruct (cinv_get_root es c a Hc) as (ka & ra & c1 & Hda & -> & Hc1 & Hcm1). { apply (ci_dom _ _ Hc). by eexists. }
  cbn [rbind].
  destruct (cinv_get_root es c1 b Hc1) as (kb & rb & c2 & Hdb & -> & Hc2 & Hcm2). { apply (ci_dom _ _ Hc). by eexists. }
  cbn [rbind]. eexists _, _. split; [done|]. split; [done|]. rewrite bool_decide_eq_true.
  rewrite <- (ci_same _ _ Hc1). destruct Hcm1 as (_&_&Hcm). destruct (Hcm _ _ _ Hda) as [k' Hda']. split.
  - intros [= <-]. by exists ra, k', kb.
  - intros (r & k1 & k2 & H1 & H2). destruct (depth_fun _ _ _ _ _ _ H1 Hda') as [_ ->]. by destruct (depth_fun _ _ _ _ _ _ H2 Hdb) as [_ ->].
Qed.

Lemma connected_nodes_loop es root n keys : ∀ c acc, cinv es c → (∀ k, k ∈ keys → seen es k) →
  (∃ k, depth (cc_parent c) n k root) →
  ∃ res c', rfold (λ '(result, c) k,
      let* '(rk, c) := cc_get_root k c in
      Ok (if decide (rk = Some root) then result ++ [k] else result, c)) keys (acc, c) = Ok (acc ++ res, c') ∧
    cinv es c' ∧ sublist res keys ∧ ∀ x, x ∈ res ↔ x ∈ keys ∧ joined es n x.
Proof.
  induction keys as [|key keys IH]; intros c acc Hc Hks [kn Hn]; cbn [rfold].
  - exists [], c. rewrite app_nil_r. split_and!; [done..|]. set_solver.
  - destruct (cinv_get_root es c key Hc) as (k & r & c1 & Hd & Hr & Hc1 & Hcm). { apply Hks; set_solver. }
    rewrite Hr. cbn [rbind].
    assert (r = root ↔ joined es n key) as Hiff.
    { rewrite <- (ci_same _ _ Hc). split.
      - intros ->. by exists root, kn, k.
      - intros (r' & k1 & k2 & H1 & H2). destruct (depth_fun _ _ _ _ _ _ H1 Hn) as [_ ->]. by destruct (depth_fun _ _ _ _ _ _ H2 Hd) as [_ ->]. }
    destruct (IH c1 (if decide (Some r = Some root) then acc ++ [key] else acc) Hc1) as (res & c' & Hf & Hc' & Hsub & Hres).
    { intros; apply Hks; set_solver. } { by apply Hcm in Hn. }
    rewrite Hf. destruct (decide (Some r = Some root)) as [[= ->]|Hne].
    + exists (key :: res), c'. rewrite <- (assoc_L (++)). split_and!; [done|done|by constructor|].
      intros x. rewrite !elem_of_cons, Hres. naive_solver.
    + exists res, c'. split_and!; [done|done|by constructor|]. intros x. rewrite elem_of_cons, Hres.
      assert (r ≠ root) as Hne' by congruence. rewrite Hiff in Hne'. naive_solver.
Qed.
Lemma connected_nodes_spec es c keys n : cinv es c → (∀ k, k ∈ keys → seen es k) →
  (¬ seen es n ∧ cc_get_connected_nodes keys n c = Ok (None, c)) ∨
  (seen es n ∧ ∃ l c', cc_get_connected_nodes keys n c = Ok (Some l, c') ∧ cinv es c' ∧
     sublist l keys ∧ ∀ x, x ∈ l ↔ x ∈ keys ∧ joined es n x).
Proof.
  intros Hc Hks. unfold cc_get_connected_nodes. destruct (cc_parent c !! n) as [p|] eqn:Hn.
  - right. assert (seen es n) as Hs by (apply (ci_dom _ _ Hc); by eexists). split; [done|].
    destruct (cinv_get_root es c n Hc Hs) as (k & r & c1 & Hd & -> & Hc1 & Hcm). cbn [rbind].
    destruct (connected_nodes_loop es r n keys c1 [] Hc1 Hks) as (l & c' & Hf & ? & ? & ?). { by apply Hcm in Hd. }
    exists l, c'. rewrite Hf. done.
  - left. split; [|done]. intros [? ?]%(ci_dom _ _ Hc). congruence.
Qed.

Lemma count_components es c : cinv es c → components es (cc_get_count c).
Proof.
  intros Hc. exists (map_to_list (filter (λ kv, kv.1 = kv.2) (cc_parent c))).*1.
  assert (∀ r, r ∈ (map_to_list (filter (λ kv, kv.1 = kv.2) (cc_parent c))).*1 ↔ depth (cc_parent c) r 0 r) as Hel.
  { intros r. rewrite elem_of_list_fmap. split.
    - intros ([k v] & -> & Hkv). apply elem_of_map_to_list, map_filter_lookup_Some in Hkv as [Hkv Heq]. simpl in *. subst. by constructor.
    - intros [_ Hr]%depth_zero. exists (r, r). split; [done|]. apply elem_of_map_to_list, map_filter_lookup_Some. done. }
  split_and!.
  - rewrite fmap_length. unfold cc_get_count. by rewrite (ci_count _ _ Hc).
  - apply NoDup_fst_map_to_list.
  - intros r Hr%Hel. apply (ci_dom _ _ Hc). by eapply depth_dom.
  - intros r r' Hr%Hel Hr'%Hel Hj. apply (ci_same _ _ Hc) in Hj as (r0 & k & k' & H1 & H2).
    destruct (depth_fun _ _ _ _ _ _ H1 Hr) as [_ ->]. by destruct (depth_fun _ _ _ _ _ _ H2 Hr') as [_ ->].
  - intros n Hn. apply (ci_dom _ _ Hc) in Hn. destruct (ci_forest _ _ Hc n Hn) as (k & r & Hd). exists r. split.
    + apply Hel. by eapply depth_root_root.
    + by eapply cinv_root_seen.
Qed.
(** The number of components is unique. *)
Lemma components_unique es k k' : components es k → components es k' → k = k'.
Proof.
  assert (∀ k k', components es k → components es k' → k ≤ k') as Hle.
  { clear k k'. intros k k' (l & <- & Hnd & Hs & Hd & Hc) (l' & <- & Hnd' & Hs' & Hd' & Hc').
    assert (∃ f : N → N, ∀ r, r ∈ l → f r ∈ l' ∧ joined es r (f r)) as [f Hf].
    { clear Hc Hnd Hd. induction l as [|a l IH].
      - exists (λ x, x). set_solver.
      - destruct IH as [f Hf]. { intros; apply Hs; set_solver. }
        destruct (Hc' a) as (b & Hb & Hab). { apply Hs; set_solver. }
        exists (λ x, if decide (x = a) then b else f x). intros r Hr. case_decide; [by subst|]. apply Hf. set_solver. }
    assert (f <$> l ⊆+ l') as Hsub%submseteq_length.
    { apply NoDup_submseteq.
      - apply NoDup_fmap_2_strong; [|done]. intros x y Hx Hy Hxy. destruct (Hf x Hx) as [_ Hjx], (Hf y Hy) as [_ Hjy].
        apply Hd; [done..|]. rewrite Hxy in Hjx. eapply joined_trans; [done|]. by apply joined_sym.
      - intros x (y & -> & Hy)%elem_of_list_fmap. by apply Hf. }
    by rewrite fmap_length in Hsub. }
  intros. apply Nat.le_antisymm; by apply Hle.
Qed.

Lemma run_spec_from h : ∀ es c, cinv es c → roots_seen_from es h →
  ∃ c', cc_run h c = Ok c' ∧ cinv (processed_from es h) c'.
Proof.
  induction h as [|o h IH]; intros es c Hc Hr; [by exists c|].
  unfold cc_run. cbn [rfold]. change (∃ c', (let* c := cc_step o c in cc_run h c) = Ok c' ∧ cinv (processed_from es (o :: h)) c').
  destruct o as [x y|n|a b|keys n|]; simpl in *.
  - destruct (process_spec es c x y Hc) as (c1 & -> & Hc1). cbn [rbind]. by apply IH.
  - destruct Hr as [Hn Hr]. destruct (cinv_get_root es c n Hc Hn) as (k & r & c1 & _ & -> & Hc1 & _). cbn [rbind rmap snd]. by apply IH.
  - destruct (is_connected_spec es c a b Hc) as (v & c1 & -> & Hc1 & _). cbn [rbind rmap snd]. by apply IH.
  - destruct Hr as [Hk Hr]. destruct (connected_nodes_spec es c keys n Hc Hk) as [[_ ->]|(_ & l & c1 & -> & Hc1 & _)]; cbn [rbind rmap snd]; by apply IH.
  - apply IH; [|done]. apply cinv_empty.
Qed.
(** Without the condition on get_root: a run that does not panic. *)
Lemma run_inv_from h : ∀ es c, cinv es c →
  cc_run h c ≠ NoFuel ∧ ∀ c', cc_run h c = Ok c' → cinv (processed_from es h) c'.
Proof.
  induction h as [|o h IH]; intros es c Hc.
  { split; [done|]. by intros c' [= <-]. }
  unfold cc_run. cbn [rfold].
  change ((let* c := cc_step o c in cc_run h c) ≠ NoFuel ∧ ∀ c', (let* c := cc_step o c in cc_run h c) = Ok c' → cinv (processed_from es (o :: h)) c').
  assert (∀ n, (¬ seen es n ∧ cc_get_root n c = Panic) ∨ (∃ o c1, cc_get_root n c = Ok (o, c1) ∧ cinv es c1)) as Hroot.
  { intros n. destruct (cc_parent c !! n) as [p|] eqn:Hn.
    - right. destruct (cinv_get_root es c n Hc) as (k & r & c1 & _ & ? & ? & _); [apply Hc; by eexists|]. eauto.
    - left. split; [|by apply get_root_missing]. intros [? ?]%(ci_dom _ _ Hc). congruence. }
  destruct o as [x y|n|a b|keys n|]; simpl in *.
  - destruct (process_spec es c x y Hc) as (c1 & -> & Hc1). cbn [rbind]. by apply IH.
  - destruct (Hroot n) as [[_ ->]|(? & c1 & -> & Hc1)]; cbn [rbind rmap snd]; [done|]. by apply IH.
  - destruct (is_connected_spec es c a b Hc) as (v & c1 & -> & Hc1 & _). cbn [rbind rmap snd]. by apply IH.
  - unfold cc_get_connected_nodes. destruct (cc_parent c !! n) as [p|] eqn:Hn; cbn [rbind rmap snd]; [|by apply IH].
    destruct (Hroot n) as [[_ ->]|(root & c1 & -> & Hc1)]; cbn [rbind rmap snd]; [done|].
    match goal with |- context [rfold ?f keys ([], c1)] => set (F := f) end.
    assert (rfold F keys ([], c1) = Panic ∨ ∃ p, rfold F keys ([], c1) = Ok p ∧ cinv es p.2) as [->|([l c2] & -> & Hc2)]; [|done|].
    { clear -Hc1. generalize ([] : list N) as acc. revert c1 Hc1. induction keys as [|k keys IH]; intros c1 Hc1 acc; cbn [rfold].
      - right. by eexists.
      - assert (F (acc, c1) k = let* '(rk, c) := cc_get_root k c1 in Ok (if decide (rk = root) then acc ++ [k] else acc, c)) as -> by done.
        destruct (cc_parent c1 !! k) as [p|] eqn:Hk.
        + destruct (cinv_get_root es c1 k Hc1) as (? & r & c2 & _ & -> & Hc2 & _); [apply Hc1; by eexists|].
          cbn [rbind]. by apply IH.
        + rewrite get_root_missing by done. by left. }
    cbn [rbind rmap snd]. by apply IH.
  - apply IH. apply cinv_empty.
Qed.
Lemma run_inv h c : cc_run h cc_empty = Ok c → cinv (processed h) c.
Proof. apply (run_inv_from h [] cc_empty cinv_empty). Qed.

(** ** Theorems *)
Section hist.
  Context (h : list ccop) (c : ccomp) (Hrun : cc_run h cc_empty = Ok c).
  Lemma thm_is_connected a b : ∃ v c', cc_is_connected a b c = Ok (v, c') ∧ (v = true ↔ joined (processed h) a b).
  Proof. destruct (is_connected_spec _ c a b (run_inv h c Hrun)) as (v & c' & ? & _ & ?). eauto. Qed.
  Lemma thm_count : components (processed h) (cc_get_count c).
  Proof. apply count_components, run_inv, Hrun. Qed.
  Lemma thm_nodes keys n : lists_exactly keys (λ k, is_Some (cc_parent c !! k)) →
    match cc_get_connected_nodes keys n c with
    | Ok (None, _) => ¬ seen (processed h) n
    | Ok (Some l, _) => seen (processed h) n ∧ lists_exactly l (joined (processed h) n)
    | _ => False
    end.
  Proof.
    intros [Hnd Hk]. pose proof (run_inv h c Hrun) as Hc.
    assert (∀ k, k ∈ keys ↔ seen (processed h) k) as Hks. { intros k. rewrite Hk. apply Hc. }
    destruct (connected_nodes_spec _ c keys n Hc) as [[? ->]|(? & l & c' & -> & _ & Hsub & Hl)]; [naive_solver|done|].
    split; [done|]. split; [by eapply sublist_NoDup|]. intros x. rewrite Hl, Hks. split; [by intros [_ ?]|].
    intros Hj. split; [|done]. apply Hj.
  Qed.
  Lemma thm_root n : seen (processed h) n →
    ∃ r c', cc_get_root n c = Ok (Some r, c') ∧ joined (processed h) n r ∧
      ∀ n', joined (processed h) n n' ↔ ∃ c'', cc_get_root n' c' = Ok (Some r, c'').
  Proof.
    intros Hn. pose proof (run_inv h c Hrun) as Hc.
    destruct (cinv_get_root _ c n Hc Hn) as (k & r & c' & Hd & Hr & Hc' & Hcm). exists r, c'.
    split; [done|]. split; [by apply (cinv_root_seen _ c n k)|].
    intros n'. destruct Hcm as (_&_&Hcm). destruct (Hcm _ _ _ Hd) as [k' Hd']. split.
    - intros Hj. destruct (cinv_get_root _ c' n' Hc') as (k2 & r2 & c2 & Hd2 & Hr2 & _); [apply Hj|].
      apply (ci_same _ _ Hc') in Hj as (r3 & k3 & k4 & H3 & H4).
      destruct (depth_fun _ _ _ _ _ _ H3 Hd') as [_ ->]. destruct (depth_fun _ _ _ _ _ _ H4 Hd2) as [_ ->]. eauto.
    - intros (c2 & Hr2).
      destruct (cc_parent c' !! n') as [p|] eqn:Hp.
      + destruct (cinv_get_root _ c' n' Hc') as (k2 & r2 & c3 & Hd2 & Hr3 & _); [apply Hc'; by eexists|].
        rewrite Hr2 in Hr3. simplify_eq. apply (ci_same _ _ Hc'). by exists r2, k', k2.
      + rewrite get_root_missing in Hr2; done.
  Qed.
  Lemma thm_root_missing n : ¬ seen (processed h) n → cc_get_root n c = Panic.
  Proof.
    intros Hn. apply get_root_missing. destruct (cc_parent c !! n) eqn:Hp; [|done]. exfalso. apply Hn.
    apply (ci_dom _ _ (run_inv h c Hrun)). by eexists.
  Qed.
End hist.
Lemma thm_no_panic h : cc_run h cc_empty ≠ NoFuel ∧ (roots_seen_from [] h → ∃ c, cc_run h cc_empty = Ok c).
Proof.
  split; [apply (run_inv_from h [] cc_empty cinv_empty)|]. intros Hr.
  destruct (run_spec_from h [] cc_empty cinv_empty Hr) as (c & ? & _). eauto.
Qed.

(** ** On a graph *)
Section graph.
  Context {NL EL : Type} (V : gview NL EL) (A : agraph NL EL) (Hrep : represents V A) (Hiter : iterates V).
  Definition has_any_edge (n : N) : Prop := ∃ n0, a_has_edge A n n0 ∨ a_has_edge A n0 n.

  Lemma edges_pairs : ∃ es, v_edges V = Ok es ∧ v_edge_indices V = Ok es.*1 ∧ ∀ e, e ∈ es.*1 ↔ is_Some (ag_edges A !! e).
  Proof.
    destruct (rp_edge_indices _ _ Hrep) as (l & Hl & [Hnd Hin]).
    rewrite (it_edges _ Hiter), Hl. cbn [rbind].
    assert (∀ e, e ∈ l → ∃ lid, (let* o := v_get_edge V e.1 e.2 in unwrap o) = Ok (e.1, e.2, lid)) as He.
    { intros e He. apply Hin in He. apply wf_stored in He as [He _]; [|apply Hrep].
      destruct (rp_get_edge _ _ Hrep e.1 e.2 He) as (lid & -> & _). by exists lid. }
    assert (∃ es, rmapl (λ e, let* o := v_get_edge V e.1 e.2 in unwrap o) l = Ok es ∧ es.*1 = l) as (es & Hes & Heq).
    { clear Hl Hnd Hin. induction l as [|e l IH]; [by exists []|]. csimpl.
      destruct (He e) as [lid ->]; [set_solver|]. destruct IH as (es & -> & <-); [intros; apply He; set_solver|].
      exists ((e.1, e.2, lid) :: es). split; [done|]. csimpl. by destruct e. }
    exists es. split; [done|]. rewrite Heq. by split.
  Qed.
  Lemma new_spec : ∃ es c, cc_new V = Ok c ∧ cinv es c ∧
    (∀ n, seen es n ↔ has_any_edge n) ∧
    (∀ a b, joined es a b ↔ has_any_edge a ∧ has_any_edge b ∧ rtsc (a_has_edge A) a b).
  Proof.
    destruct edges_pairs as (es & Hes & _ & Hel). unfold cc_new, cc_run_detection. rewrite Hes. cbn [rbind].
    assert (∃ c, rfold (λ c e, cc_process e.1.1 e.1.2 c) es cc_empty = Ok c ∧ cinv es.*1 c) as (c & Hc & Hinv).
    { apply (rfold_ind (λ es c, cinv es.*1 c)); [apply cinv_empty|].
      intros l1 [[x y] lid] l2 s _ Hs. destruct (process_spec _ s x y Hs) as (c' & Hc & Hc').
      exists c'. split; [done|]. rewrite fmap_app. done. }
    exists es.*1, c. split_and!; [done|done| |].
    - assert (∀ x y, a_has_edge A x y → seen es.*1 x ∧ seen es.*1 y) as Hse.
      { intros x y Hxy. unfold a_has_edge, a_edge_at in Hxy. apply Hel in Hxy.
        unfold ekey in Hxy. destruct (ag_dir A); [split; exists (x, y); naive_solver|].
        split; (eexists; split; [exact Hxy|]); simpl; lia. }
      intros n. split.
      + intros ([x y] & He & Hn). apply Hel in He. apply wf_stored in He as [He _]; [|apply Hrep]. simpl in *.
        destruct Hn as [->| ->]; [exists y|exists x]; eauto.
      + intros (m & [He|He]); apply Hse in He as [? ?]; done.
    - assert (∀ n, seen es.*1 n ↔ has_any_edge n) as Hseen.
      { assert (∀ x y, a_has_edge A x y → seen es.*1 x ∧ seen es.*1 y) as Hse.
        { intros x y Hxy. unfold a_has_edge, a_edge_at in Hxy. apply Hel in Hxy.
          unfold ekey in Hxy. destruct (ag_dir A); [split; exists (x, y); naive_solver|].
          split; (eexists; split; [exact Hxy|]); simpl; lia. }
        intros n. split.
        + intros ([x y] & He & Hn). apply Hel in He. apply wf_stored in He as [He _]; [|apply Hrep]. simpl in *.
          destruct Hn as [->| ->]; [exists y|exists x]; eauto.
        + intros (m & [He|He]); apply Hse in He as [? ?]; done. }
      assert (∀ x y, sc (λ x y, (x, y) ∈ es.*1) x y ↔ sc (a_has_edge A) x y) as Hsc.
      { assert (∀ x y, (x, y) ∈ es.*1 → a_has_edge A x y) as H1.
        { intros x y He. apply Hel in He. by apply wf_stored in He as [He _]; [|apply Hrep]. }
        assert (∀ x y, a_has_edge A x y → sc (λ x y, (x, y) ∈ es.*1) x y) as H2.
        { intros x y Hxy. unfold a_has_edge, a_edge_at in Hxy. apply Hel in Hxy. unfold ekey in Hxy.
          destruct (ag_dir A); [by left|]. destruct (decide (x ≤ y)%N).
          - left. by rewrite N.min_l, N.max_r in Hxy by lia.
          - right. by rewrite N.min_r, N.max_l in Hxy by lia. }
        intros x y. split; intros [H|H].
        - left. by apply H1.
        - right. by apply H1.
        - by apply H2.
        - apply H2 in H as [H|H]; [by right|by left]. }
      intros a b. unfold joined. rewrite !Hseen. unfold rtsc.
      split; intros (?&?&H); (split_and!; [done..|]); eapply rtc_subrel; try exact H; intros; by apply Hsc.
  Qed.
  Lemma thm_graph : ∃ c, cc_new V = Ok c ∧
    (∀ a b, ∃ v c', cc_is_connected a b c = Ok (v, c') ∧
       (v = true ↔ has_any_edge a ∧ has_any_edge b ∧ rtsc (a_has_edge A) a b)) ∧
    (∀ k, k = cc_get_count c ↔ ∃ reps, length reps = k ∧ NoDup reps ∧ (∀ r, r ∈ reps → has_any_edge r) ∧
       (∀ r r', r ∈ reps → r' ∈ reps → rtsc (a_has_edge A) r r' → r = r') ∧
       (∀ n, has_any_edge n → ∃ r, r ∈ reps ∧ rtsc (a_has_edge A) n r)).
  Proof.
    destruct new_spec as (es & c & Hc & Hinv & Hs & Hj). exists c. split_and!; [done| |].
    - intros a b. destruct (is_connected_spec es c a b Hinv) as (v & c' & ? & _ & Hv). exists v, c'. by rewrite <- Hj.
    - assert (∀ k, components es k ↔ ∃ reps, length reps = k ∧ NoDup reps ∧ (∀ r, r ∈ reps → has_any_edge r) ∧
       (∀ r r', r ∈ reps → r' ∈ reps → rtsc (a_has_edge A) r r' → r = r') ∧
       (∀ n, has_any_edge n → ∃ r, r ∈ reps ∧ rtsc (a_has_edge A) n r)) as Hk.
      { intros k. unfold components. setoid_rewrite Hs. setoid_rewrite Hj. split.
        - intros (l & ? & ? & H3 & H4 & H5). exists l. split_and!; [done..| |].
          + intros r r' Hr Hr' Hrr. apply H4; eauto.
          + intros n Hn. destruct (H5 n Hn) as (r & ? & _ & _ & ?). eauto.
        - intros (l & ? & ? & H3 & H4 & H5). exists l. split_and!; [done..| |].
          + intros r r' Hr Hr' (_&_&?). by apply H4.
          + intros n Hn. destruct (H5 n Hn) as (r & ? & ?). exists r. eauto. }
      intros k. rewrite <- Hk. split; [intros ->; by apply count_components|].
      intros H. eapply components_unique; [done|by apply count_components].
  Qed.
End graph.

(** ** Witnesses *)
Definition cc_wit : list ccop :=
  [CEdge 1 2; CEdge 3 4; CConnected 1 4; CEdge 2 3; CRoot 1; CNodes [1; 2; 3; 4] 2; CEdge 8 8; CEdge 9 7]%N.
Lemma cc_wit_case : ∃ c, cc_run cc_wit cc_empty = Ok c ∧ roots_seen_from [] cc_wit ∧ cc_get_count c = 3 ∧
  processed cc_wit = [(1, 2); (3, 4); (2, 3); (8, 8); (9, 7)]%N ∧
  (rmap fst (cc_is_connected 1 4 c) = Ok true) ∧ (rmap fst (cc_is_connected 1 8 c) = Ok false).
Proof.
  destruct (res_ok_ex (cc_run cc_wit cc_empty) (λ c, cc_get_count c = 3 ∧
    rmap fst (cc_is_connected 1 4 c) = Ok true ∧ rmap fst (cc_is_connected 1 8 c) = Ok false)) as (c & Hc & H1 & H2 & H3).
  { by vm_compute. }
  exists c. split; [exact Hc|]. split; [|split; [exact H1|split; [reflexivity|split; [exact H2|exact H3]]]]. clear.
  simpl. unfold seen. split; [|split; [|done]].
  - exists (1, 2)%N. set_solver.
  - intros k Hk. rewrite !elem_of_cons in Hk. destruct Hk as [->|[->|[->|[->|Hk%elem_of_nil]]]]; try done.
    + exists (1, 2)%N. set_solver.
    + exists (1, 2)%N. set_solver.
    + exists (3, 4)%N. set_solver.
    + exists (3, 4)%N. set_solver.
Qed.
Lemma cc_wit_graph : ∃ (V : gview N N) A, represents V A ∧ iterates V ∧
  (∃ c, cc_new V = Ok c ∧ cc_get_count c = 1) ∧ a_num_nodes A = 5.
Proof.
  exists (run_view true split_wit), (sp_g (run_spec true split_wit)).
  split; [apply split_wit_represents|]. split.
  - destruct (run_view_all true split_wit) as (_&_&?&_); [by vm_compute; lia|done].
  - split; [|by vm_compute]. apply res_ok_ex. by vm_compute.
Qed.
Lemma cc_wit_nodes : ∃ c, cc_run [CEdge 1 2; CEdge 3 4; CEdge 2 5]%N cc_empty = Ok c ∧
  lists_exactly [5; 3; 1; 4; 2]%N (λ k, is_Some (cc_parent c !! k)) ∧
  rmap fst (cc_get_connected_nodes [5; 3; 1; 4; 2]%N 1%N c) = Ok (Some [5; 1; 2]%N).
Proof.
  destruct (res_ok_ex (cc_run [CEdge 1 2; CEdge 3 4; CEdge 2 5]%N cc_empty) (λ c,
    rmap fst (cc_get_connected_nodes [5; 3; 1; 4; 2]%N 1%N c) = Ok (Some [5; 1; 2]%N))) as (c & Hc & H1).
  { by vm_compute. }
  exists c. split; [exact Hc|]. split; [|exact H1]. split.
  - apply (bool_decide_unpack _). by vm_compute.
  - intros k. rewrite (ci_dom _ _ (run_inv _ _ Hc)). clear. unfold seen, processed. simpl. split.
    + rewrite !elem_of_cons. intros [->|[->|[->|[->|[->|Hk%elem_of_nil]]]]]; [| | | | |done].
      * exists (2, 5)%N. set_solver.
      * exists (3, 4)%N. set_solver.
      * exists (1, 2)%N. set_solver.
      * exists (3, 4)%N. set_solver.
      * exists (1, 2)%N. set_solver.
    + intros (e & He & Hk). set_solver.
Qed.
Lemma cc_wit_seen : (∃ c, cc_run cc_wit cc_empty = Ok c) ∧ seen (processed cc_wit) 9%N ∧ ¬ seen (processed cc_wit) 5%N.
Proof.
  split; [|split].
  - destruct cc_wit_case as (c & Hc & _). by exists c.
  - exists (9, 7)%N. unfold processed. simpl. set_solver.
  - unfold seen, processed. simpl. intros (e & He & Hk). set_solver.
Qed.
