(** into_static: the arrays it builds. *)
From Verif Require Import Base BaseFacts Api Spec SpecFacts SpecStatic SpecSGraph Map GraphMap Static StaticFacts StaticProps.

(** ** Offsets from row lengths *)
Fixpoint psums (a : nat) (ls : list nat) : list nat :=
  a :: match ls with [] => [] | l :: ls => psums (a + l) ls end.
Lemma psums_length a ls : length (psums a ls) = S (length ls).
Proof. revert a. induction ls as [|l ls IH]; intros a; simpl; [done|]. by rewrite IH. Qed.
Lemma psums_lookup a ls i : i ≤ length ls → psums a ls !! i = Some (a + sum_list (take i ls)).
Proof.
  revert a i. induction ls as [|l ls IH]; intros a i Hi; simpl in *.
  - replace i with 0 by lia. simpl. f_equal. lia.
  - destruct i as [|i]; simpl; [f_equal; lia|]. rewrite IH by lia. f_equal. lia.
Qed.
Lemma psums_snoc a ls l : psums a (ls ++ [l]) = psums a ls ++ [a + sum_list ls + l].
Proof.
  revert a. induction ls as [|x ls IH]; intros a; simpl; [do 2 f_equal; lia|]. rewrite IH. simpl. do 3 f_equal. lia.
Qed.
Lemma sum_list_app ls ls' : sum_list (ls ++ ls') = sum_list ls + sum_list ls'.
Proof. induction ls as [|x ls IH]; simpl; [done|]. rewrite IH. lia. Qed.
Lemma sum_list_len {X} (R : list (list X)) : sum_list (length <$> R) = length (mjoin R).
Proof. induction R as [|r R IH]; [done|]. csimpl. by rewrite app_length, IH. Qed.
Lemma mjoin_drop {X} (R : list (list X)) i : drop (sum_list (take i (length <$> R))) (mjoin R) = mjoin (drop i R).
Proof.
  revert i. induction R as [|r R IH]; intros i; [by destruct i|]. destruct i as [|i]; [done|]. csimpl.
  rewrite <- IH, <- drop_drop, drop_app. done.
Qed.
(** Any array with these row lengths. *)
Lemma row_psums {X Y} (R : list (list X)) (R' : list (list Y)) n : length <$> R' = length <$> R →
  row (psums 0 (length <$> R)) (mjoin R') n = default [] (R' !! N.to_nat n).
Proof.
  intros Hlen. unfold row. assert (length R' = length R) as HRR by (by rewrite <- (fmap_length length R'), Hlen, fmap_length).
  destruct (decide (N.to_nat n < length R)) as [Hn|Hn].
  - rewrite !psums_lookup by (rewrite fmap_length; lia). simpl. destruct (lookup_lt_is_Some_2 R' (N.to_nat n)) as [r Hr]; [lia|].
    rewrite Hr. simpl. rewrite <- Hlen.
    rewrite (take_S_r _ _ (length r)) by (by rewrite list_lookup_fmap, Hr).
    rewrite sum_list_app. simpl. rewrite mjoin_drop, (drop_S _ _ _ Hr). csimpl.
    replace (sum_list (take (N.to_nat n) (length <$> R')) + (length r + 0) - sum_list (take (N.to_nat n) (length <$> R'))) with (length r) by lia.
    by rewrite take_app.
  - assert (psums 0 (length <$> R) !! S (N.to_nat n) = None) as ->.
    { apply lookup_ge_None. rewrite psums_length, fmap_length. lia. }
    rewrite (lookup_ge_None_2 R') by lia. by destruct (psums 0 (length <$> R) !! N.to_nat n).
Qed.
Lemma csr_of_rows (R : list (list N)) : (∀ i r, R !! i = Some r → increasing r ∧ ∀ t, t ∈ r → (t < N.of_nat (length R))%N) →
  csr_wf (psums 0 (length <$> R)) (mjoin R) ∧ csr_tight (psums 0 (length <$> R)) (mjoin R) ∧
  csr_nodes (psums 0 (length <$> R)) = N.of_nat (length R).
Proof.
  intros HR. assert (csr_nodes (psums 0 (length <$> R)) = N.of_nat (length R)) as Hn.
  { unfold csr_nodes. rewrite psums_length, fmap_length. f_equal. lia. }
  assert (∀ i, sum_list (take i (length <$> R)) ≤ length (mjoin R)) as Hb.
  { intros i. rewrite <- sum_list_len. rewrite <- (take_drop i (length <$> R)) at 2. rewrite sum_list_app. lia. }
  split; [|split; [|done]].
  - constructor.
    + by destruct R.
    + intros i a b Ha Hb'. pose proof (lookup_lt_Some _ _ _ Hb') as Hi. rewrite psums_length in Hi.
      rewrite psums_lookup in Ha by lia. rewrite psums_lookup in Hb' by lia. injection Ha as <-. injection Hb' as <-.
      destruct (lookup_lt_is_Some_2 (length <$> R) i) as [x Hx]; [lia|]. rewrite (take_S_r _ _ _ Hx), sum_list_app. lia.
    + intros i a Ha. pose proof (lookup_lt_Some _ _ _ Ha) as Hi. rewrite psums_length in Hi. rewrite psums_lookup in Ha by lia.
      injection Ha as <-. apply Hb.
    + intros n. rewrite row_psums by done. destruct (R !! N.to_nat n) eqn:Hr; simpl; [by apply (HR _ _ Hr)|constructor].
    + intros n t. rewrite row_psums, Hn by done. destruct (R !! N.to_nat n) eqn:Hr; simpl; [by apply (HR _ _ Hr)|]. by intros ?%elem_of_nil.
  - split; [by destruct R|]. rewrite last_lookup, psums_length. simpl. rewrite psums_lookup, take_ge by lia. by rewrite sum_list_len.
Qed.

Section loop.
  Context {NL EL : Type} (idt lt : idty) (dir : bool) (g : graphmap NL EL).
  Context (hel hnl : bool).

  Definition orow (i : nat) : list (N * option N) :=
    match g_nodes g !! N.of_nat i with Some nd => bt_iter (nm_nbrs nd) | None => [] end.
  Definition irow (i : nat) : list N :=
    match g_nodes g !! N.of_nat i with Some nd => bs_iter (nm_in nd) | None => [] end.
  Definition nlab (i : nat) : N :=
    match g_nodes g !! N.of_nat i with Some nd => raw_label lt (nm_label nd) | None => id_max lt end.
  Definition out_rows (k : nat) : list (list N) := (λ i, (orow i).*1) <$> seq 0 k.
  Definition lab_rows (k : nat) : list (list N) := (λ i, raw_label lt <$> (orow i).*2) <$> seq 0 k.
  Definition in_rows (k : nat) : list (list N) := irow <$> seq 0 k.
  Definition if_some {X} (b : bool) (x : X) : option X := if b then Some x else None.
  Definition loop_state (k : nat) : isst :=
    ISst (filter (λ p, (N.of_nat k ≤ p.1)%N) (g_nodes g))
      (length (mjoin (out_rows k))) (psums 0 (length <$> out_rows k)) (mjoin (out_rows k))
      (if_some hel (mjoin (lab_rows k))) (if_some hnl (nlab <$> seq 0 k))
      (if_some dir (length (mjoin (in_rows k)))) (if_some dir (psums 0 (length <$> in_rows k))) (if_some dir (mjoin (in_rows k))).

  Lemma seq_snoc k : seq 0 (S k) = seq 0 k ++ [k].
  Proof. by rewrite seq_S. Qed.
  Lemma mjoin_snoc {X} (R : list (list X)) r : mjoin (R ++ [r]) = mjoin R ++ r.
  Proof. induction R as [|x R IH]; csimpl; [by rewrite app_nil_r|]. by rewrite IH, app_assoc. Qed.
  Lemma psums_snoc_rows {X} (R : list (list X)) r :
    psums 0 (length <$> (R ++ [r])) = psums 0 (length <$> R) ++ [length (mjoin (R ++ [r]))].
  Proof.
    rewrite fmap_app. simpl. rewrite psums_snoc. do 2 f_equal. rewrite sum_list_len, mjoin_snoc, app_length. simpl. done.
  Qed.
  Lemma out_rows_S k : out_rows (S k) = out_rows k ++ [(orow k).*1].
  Proof. unfold out_rows. by rewrite seq_snoc, fmap_app. Qed.
  Lemma lab_rows_S k : lab_rows (S k) = lab_rows k ++ [raw_label lt <$> (orow k).*2].
  Proof. unfold lab_rows. by rewrite seq_snoc, fmap_app. Qed.
  Lemma in_rows_S k : in_rows (S k) = in_rows k ++ [irow k].
  Proof. unfold in_rows. by rewrite seq_snoc, fmap_app. Qed.
  Lemma loop_step k : is_step lt (N.of_nat k) (loop_state k) = loop_state (S k).
  Proof.
    unfold is_step, loop_state. cbn [is_map].
    assert (filter (λ p, (N.of_nat k ≤ p.1)%N) (g_nodes g) !! N.of_nat k = g_nodes g !! N.of_nat k) as Hlook.
    { destruct (g_nodes g !! N.of_nat k) as [nd|] eqn:Hnd.
      - apply map_filter_lookup_Some. split; [done|]. simpl. lia.
      - apply map_filter_lookup_None. by left. }
    rewrite Hlook.
    assert (filter (λ p : N * nodemap, (N.of_nat (S k) ≤ p.1)%N) (g_nodes g) =
      match g_nodes g !! N.of_nat k with Some _ => delete (N.of_nat k) (filter (λ p, (N.of_nat k ≤ p.1)%N) (g_nodes g))
      | None => filter (λ p, (N.of_nat k ≤ p.1)%N) (g_nodes g) end) as Hmap.
    { assert (filter (λ p : N * nodemap, (N.of_nat (S k) ≤ p.1)%N) (g_nodes g) = delete (N.of_nat k) (filter (λ p, (N.of_nat k ≤ p.1)%N) (g_nodes g))) as Hd.
      { apply map_eq. intros n. apply option_eq. intros nd. rewrite lookup_delete_Some, !map_filter_lookup_Some. simpl. split.
        - intros [? ?]. split; [lia|]. split; [done|lia].
        - intros (? & ? & ?). split; [done|lia]. }
      destruct (g_nodes g !! N.of_nat k); [done|]. rewrite Hd. apply delete_notin. by rewrite Hlook. }
    rewrite Hmap. rewrite out_rows_S, lab_rows_S, in_rows_S, seq_snoc, !psums_snoc_rows, !mjoin_snoc, fmap_app, !app_length. cbn [fmap list_fmap].
    destruct (g_nodes g !! N.of_nat k) as [nd|] eqn:Hnd; cbn [is_map is_offset is_offsets is_edges is_elabels is_nlabels is_in_offset is_in_offsets is_in_edges].
    - assert (orow k = bt_iter (nm_nbrs nd)) as -> by (unfold orow; by rewrite Hnd).
      assert (irow k = bs_iter (nm_in nd)) as -> by (unfold irow; by rewrite Hnd).
      assert (nlab k = raw_label lt (nm_label nd)) as -> by (unfold nlab; by rewrite Hnd).
      assert (length (bs_iter (nm_in nd)) = size (nm_in nd)) as ->.
      { unfold bs_iter. rewrite merge_sort_Permutation. done. }
      rewrite fmap_length. unfold if_some. destruct hel, hnl, dir; done.
    - assert (orow k = []) as -> by (unfold orow; by rewrite Hnd).
      assert (irow k = []) as -> by (unfold irow; by rewrite Hnd).
      assert (nlab k = id_max lt) as -> by (unfold nlab; by rewrite Hnd). simpl. rewrite !app_nil_r, !Nat.add_0_r.
      unfold if_some. destruct hel, hnl, dir; done.
  Qed.
  Lemma loop_run max fuel k : (max + 1 < id_card idt)%N → N.to_nat max - k < fuel → (N.of_nat k ≤ max + 1)%N →
    is_loop idt lt fuel max (N.of_nat k) (loop_state k) = Ok (loop_state (S (N.to_nat max))).
  Proof.
    intros Hmax. revert k. induction fuel as [|fuel IH]; intros k Hf Hk; [lia|]. cbn [is_loop].
    destruct (decide (N.of_nat k ≤ max)%N) as [Hle|Hgt].
    - rewrite loop_step. assert (id_incr idt (N.of_nat k) = Ok (N.of_nat (S k))) as ->.
      { unfold id_incr. replace (N.of_nat (S k)) with (N.of_nat k + 1)%N by lia.
        destruct idt; [simpl in Hmax; lia|..]; rewrite decide_True; done || lia. }
      cbn [rbind]. destruct (decide (N.of_nat (S k) ≤ max)%N).
      + apply IH; lia.
      + assert (S k = S (N.to_nat max)) as Heq by lia. rewrite <- Heq. destruct fuel; cbn [is_loop]; by rewrite decide_False.
    - by replace (S (N.to_nat max)) with k by lia.
  Qed.
  Lemma loop_start : ISst (g_nodes g) 0 [0] [] (if hel then Some [] else None) (if hnl then Some [] else None)
    (if dir then Some 0 else None) (if dir then Some [0] else None) (if dir then Some [] else None) = loop_state 0.
  Proof.
    unfold loop_state, if_some. simpl. f_equal. apply map_eq. intros n. apply option_eq. intros nd. rewrite map_filter_lookup_Some. simpl.
    split; [|tauto]. intros ?. split; [done|lia].
  Qed.
End loop.

(** ** The result *)
Lemma foldl_max_spec ks k : ∃ x, foldl N.max k ks = x ∧ x ∈ k :: ks ∧ ∀ y, y ∈ k :: ks → (y ≤ x)%N.
Proof.
  revert k. induction ks as [|z ks IH]; intros k; simpl.
  - exists k. split; [done|]. split; [set_solver|]. intros y ->%elem_of_list_singleton. done.
  - destruct (IH (N.max k z)) as (x & -> & Hin & Hle). exists x. split; [done|]. split.
    + destruct (N.max_spec k z) as [[_ Hm]|[_ Hm]]; rewrite Hm in Hin; set_solver.
    + intros y Hy. apply elem_of_cons in Hy as [-> |Hy].
      * transitivity (N.max k z); [lia|]. apply Hle. set_solver.
      * apply elem_of_cons in Hy as [-> |Hy]; [transitivity (N.max k z); [lia|]; apply Hle; set_solver|]. apply Hle. set_solver.
Qed.
Lemma bt_keys_elem {X} (m : gmap N X) n : n ∈ bt_keys m ↔ is_Some (m !! n).
Proof.
  unfold bt_keys, bt_iter. rewrite merge_sort_Permutation, elem_of_list_fmap. split.
  - intros ([k x] & -> & H). apply elem_of_map_to_list in H. by exists x.
  - intros [x H]. exists (n, x). split; [done|]. by apply elem_of_map_to_list.
Qed.
Lemma max_key_spec m : match max_key m with
  | None => m = ∅ | Some x => is_Some (m !! x) ∧ ∀ n, is_Some (m !! n) → (n ≤ x)%N end.
Proof.
  unfold max_key. destruct (bt_keys m) as [|k ks] eqn:Hk.
  - apply map_eq. intros n. rewrite lookup_empty. destruct (m !! n) eqn:Hn; [|done].
    assert (n ∈ bt_keys m) as Hin by (apply bt_keys_elem; eauto). rewrite Hk in Hin. by apply elem_of_nil in Hin.
  - destruct (foldl_max_spec ks k) as (x & -> & Hin & Hle). split.
    + apply bt_keys_elem. by rewrite Hk.
    + intros n Hn. apply Hle. rewrite <- Hk. by apply bt_keys_elem.
Qed.

Section result.
  Context {NL EL : Type} (idt lt : idty) (dir : bool) (g : graphmap NL EL).
  Definition has_el : bool := match g_elm g with [] => false | _ => true end.
  Definition has_nl : bool := match g_nlm g with [] => false | _ => true end.
  Definition static_arrays (M : nat) : sgraph NL EL :=
    SGraph (gm_node_count g) (gm_edge_count g)
      (EV (psums 0 (length <$> out_rows g M)) (mjoin (out_rows g M)) (if_some has_el (mjoin (lab_rows lt g M))))
      (if_some dir (ev_new (psums 0 (length <$> in_rows g M)) (mjoin (in_rows g M))))
      (if_some has_nl (nlab lt g <$> seq 0 M)) (g_nlm g) (g_elm g).

  Lemma out_rows_lookup M i : i < M → out_rows g M !! i = Some (orow g i).*1.
  Proof. intros Hi. unfold out_rows. by rewrite list_lookup_fmap, lookup_seq_lt. Qed.
  Lemma lab_rows_lookup M i : i < M → lab_rows lt g M !! i = Some (raw_label lt <$> (orow g i).*2).
  Proof. intros Hi. unfold lab_rows. by rewrite list_lookup_fmap, lookup_seq_lt. Qed.
  Lemma in_rows_lookup M i : i < M → in_rows g M !! i = Some (irow g i).
  Proof. intros Hi. unfold in_rows. by rewrite list_lookup_fmap, lookup_seq_lt. Qed.
  Lemma out_rows_length M : length (out_rows g M) = M.
  Proof. unfold out_rows. by rewrite fmap_length, seq_length. Qed.
  Lemma in_rows_length M : length (in_rows g M) = M.
  Proof. unfold in_rows. by rewrite fmap_length, seq_length. Qed.
  Lemma lab_rows_lens M : length <$> lab_rows lt g M = length <$> out_rows g M.
  Proof.
    unfold lab_rows, out_rows. rewrite <- !list_fmap_compose. apply list_fmap_ext. intros i x _. simpl. by rewrite !fmap_length.
  Qed.

  Lemma into_static_run max : max_key (g_nodes g) = Some max → (max + 1 < id_card idt)%N →
    gm_into_static idt lt dir g = Ok (static_arrays (S (N.to_nat max))).
  Proof.
    intros Hmax Hc. unfold gm_into_static. rewrite Hmax. cbn [unwrap rbind].
    fold has_el has_nl. rewrite (loop_start lt dir g has_el has_nl).
    assert (id_new idt 0 = N.of_nat 0) as ->. { unfold id_new. apply N.mod_small. lia. }
    rewrite (loop_run idt) by (done || lia). cbn [rbind].
    unfold loop_state. cbn [is_offsets is_edges is_elabels is_in_offsets is_in_edges is_nlabels]. unfold ev_from_raw, static_arrays.
    assert (length (mjoin (lab_rows lt g (S (N.to_nat max)))) = length (mjoin (out_rows g (S (N.to_nat max))))) as Hlen.
    { by rewrite <- !sum_list_len, lab_rows_lens. }
    destruct has_el; cbn [if_some].
    - unfold ev_with_labels. rewrite decide_False by (intros H; by apply H). cbn [rbind]. unfold sg_from_raw, ev_num_nodes, usub, sg_check_in.
      cbn [ev_offsets]. rewrite psums_length, decide_True by lia. cbn [rbind]. destruct dir; done.
    - unfold sg_from_raw, ev_num_nodes, usub, sg_check_in, ev_new. cbn [rbind].
      cbn [ev_offsets]. rewrite psums_length, decide_True by lia. cbn [rbind]. destruct dir; done.
  Qed.
  Lemma into_static_empty : g_nodes g = ∅ → gm_into_static idt lt dir g = Panic.
  Proof. intros He. unfold gm_into_static. by rewrite He. Qed.
  Lemma loop_panic max hel hnl fuel k : idt ≠ TUnit → (max + 1 = id_card idt)%N → N.to_nat max - k < fuel → (N.of_nat k ≤ max)%N →
    is_loop idt lt fuel max (N.of_nat k) (loop_state lt dir g hel hnl k) = Panic.
  Proof.
    intros Hu Hmax. revert k. induction fuel as [|fuel IH]; intros k Hf Hk; [lia|]. cbn [is_loop].
    rewrite decide_True by done. rewrite loop_step. destruct (decide (N.of_nat k = max)) as [<- |Hne].
    - assert (id_incr idt (N.of_nat k) = Panic) as ->; [|done]. unfold id_incr. destruct idt; [done|..]; rewrite decide_False; done || lia.
    - assert (id_incr idt (N.of_nat k) = Ok (N.of_nat (S k))) as ->.
      { unfold id_incr. replace (N.of_nat (S k)) with (N.of_nat k + 1)%N by lia.
        destruct idt; [done|..]; rewrite decide_True; done || lia. }
      cbn [rbind]. apply IH; lia.
  Qed.
  Lemma into_static_panic max : idt ≠ TUnit → max_key (g_nodes g) = Some max → max = id_max idt → gm_into_static idt lt dir g = Panic.
  Proof.
    intros Hu Hmax Hid. unfold gm_into_static. rewrite Hmax. cbn [unwrap rbind].
    fold has_el has_nl. rewrite (loop_start lt dir g has_el has_nl).
    assert (id_card idt ≠ 0)%N as Hz by (by destruct idt). unfold id_max in Hid.
    assert (id_new idt 0 = N.of_nat 0) as ->. { unfold id_new. apply N.mod_small. lia. }
    rewrite loop_panic by (done || lia). done.
  Qed.

  (** ** Read off the arrays what the GraphMap represents *)
  Context (ord : list N) (A : agraph NL EL) (HA : represents (gm_view dir ord g) A).
  Lemma g_node n : is_Some (g_nodes g !! n) ↔ a_has_node A n.
  Proof. rewrite <- (rp_has_node _ _ HA). simpl. unfold gm_has_node. by rewrite bool_decide_eq_true. Qed.
  Lemma bt_iter_elem {X} (m : gmap N X) n x : (n, x) ∈ bt_iter m ↔ m !! n = Some x.
  Proof. unfold bt_iter. rewrite merge_sort_Permutation. apply elem_of_map_to_list. Qed.
  Lemma orow_keys i : increasing (orow g i).*1 ∧ ∀ t, t ∈ (orow g i).*1 ↔ a_has_edge A (N.of_nat i) t.
  Proof.
    unfold orow. destruct (g_nodes g !! N.of_nat i) as [nd|] eqn:Hnd.
    - destruct (rp_neighbors _ _ HA (N.of_nat i)) as (l & Hl & Hs & Hin); [apply g_node; eauto|]. simpl in Hl. unfold gm_neighbors in Hl.
      rewrite Hnd in Hl. injection Hl as <-. done.
    - split; [constructor|]. intros t. split; [by intros ?%elem_of_nil|]. intros He. apply (wf_edge_nodes A _ _ (rp_wf _ _ HA)) in He as [Hn _].
      apply g_node in Hn. rewrite Hnd in Hn. by destruct Hn.
  Qed.
  Lemma orow_label i k t lid : orow g i !! k = Some (t, lid) → denotes (g_elm g) lid = label_of (a_edge_at A (N.of_nat i) t).
  Proof.
    intros Hk. assert (a_has_edge A (N.of_nat i) t) as He.
    { apply orow_keys. apply elem_of_list_fmap. exists (t, lid). split; [done|]. by eapply elem_of_list_lookup_2. }
    apply elem_of_list_lookup_2 in Hk. unfold orow in Hk. destruct (g_nodes g !! N.of_nat i) as [nd|] eqn:Hnd; [|by apply elem_of_nil in Hk].
    apply bt_iter_elem in Hk. destruct (rp_get_edge _ _ HA _ _ He) as (lid' & Hg & Hd). simpl in Hg, Hd. unfold gm_get_edge, gm_has_edge in Hg.
    rewrite Hnd in Hg. unfold nm_has_neighbor in Hg. rewrite Hk in Hg. rewrite bool_decide_true in Hg by eauto. cbn [unwrap rbind] in Hg.
    unfold nm_get_neighbor in Hg. rewrite Hk in Hg. cbn [unwrap rbind] in Hg. injection Hg as ->. done.
  Qed.
  Lemma irow_keys i : ag_dir A = true → increasing (irow g i) ∧ ∀ s, s ∈ irow g i ↔ a_has_edge A s (N.of_nat i).
  Proof.
    intros Hd. unfold irow. destruct (g_nodes g !! N.of_nat i) as [nd|] eqn:Hnd.
    - destruct (rp_in_neighbors _ _ HA Hd (N.of_nat i)) as (l & Hl & Hs & Hin); [apply g_node; eauto|]. simpl in Hl. unfold gm_in_neighbors in Hl.
      rewrite Hnd in Hl. injection Hl as <-. done.
    - split; [constructor|]. intros t. split; [by intros ?%elem_of_nil|]. intros He. apply (wf_edge_nodes A _ _ (rp_wf _ _ HA)) in He as [_ Hn].
      apply g_node in Hn. rewrite Hnd in Hn. by destruct Hn.
  Qed.
  (** The sentinel is not a label. *)
  Lemma sentinel {X} (lm : list X) lid : (N.of_nat (length lm) ≤ id_max lt)%N → denotes lm (static_label lt (raw_label lt lid)) = denotes lm lid.
  Proof.
    intros Hlm. unfold static_label, raw_label. destruct lid as [i|]; [|by destruct (decide _)]. destruct (decide (i = id_max lt)) as [-> |]; [|done].
    simpl. symmetry. apply lookup_ge_None. lia.
  Qed.

  Context (max : N) (Hmax : max_key (g_nodes g) = Some max).
  Local Notation M := (S (N.to_nat max)).
  Lemma below n : a_has_node A n → N.to_nat n < M.
  Proof. intros Hn. apply g_node in Hn. pose proof (max_key_spec (g_nodes g)) as Hm. rewrite Hmax in Hm. destruct Hm as [_ Hle]. apply Hle in Hn. lia. Qed.
  Lemma rows_csr : csr_wf (psums 0 (length <$> out_rows g M)) (mjoin (out_rows g M)) ∧
    csr_tight (psums 0 (length <$> out_rows g M)) (mjoin (out_rows g M)) ∧
    csr_nodes (psums 0 (length <$> out_rows g M)) = N.of_nat M.
  Proof.
    rewrite <- (out_rows_length M) at 6. apply csr_of_rows. intros i r Hi. rewrite out_rows_length.
    pose proof (lookup_lt_Some _ _ _ Hi) as Hlt. rewrite out_rows_length in Hlt. rewrite out_rows_lookup in Hi by done. injection Hi as <-.
    destruct (orow_keys i) as [Hs Hin]. split; [done|]. intros t Ht. apply Hin in Ht. apply (wf_edge_nodes A _ _ (rp_wf _ _ HA)) in Ht as [_ Hn].
    apply below in Hn. lia.
  Qed.
  Lemma rows_in_csr : ag_dir A = true → csr_wf (psums 0 (length <$> in_rows g M)) (mjoin (in_rows g M)) ∧
    csr_nodes (psums 0 (length <$> in_rows g M)) = N.of_nat M.
  Proof.
    intros Hd. destruct (csr_of_rows (in_rows g M)) as (H1 & _ & H2); [|rewrite in_rows_length in H2; done].
    intros i r Hi. rewrite in_rows_length.
    pose proof (lookup_lt_Some _ _ _ Hi) as Hlt. rewrite in_rows_length in Hlt. rewrite in_rows_lookup in Hi by done. injection Hi as <-.
    destruct (irow_keys i Hd) as [Hs Hin]. split; [done|]. intros t Ht. apply Hin in Ht. apply (wf_edge_nodes A _ _ (rp_wf _ _ HA)) in Ht as [Hn _].
    apply below in Hn. lia.
  Qed.
  Lemma orow_out n : M ≤ N.to_nat n → orow g (N.to_nat n) = [].
  Proof.
    intros Hn. unfold orow. rewrite N2Nat.id. destruct (g_nodes g !! n) eqn:Hnd; [|done].
    assert (N.to_nat n < M); [|lia]. apply below, g_node. eauto.
  Qed.
  Lemma irow_out n : M ≤ N.to_nat n → irow g (N.to_nat n) = [].
  Proof.
    intros Hn. unfold irow. rewrite N2Nat.id. destruct (g_nodes g !! n) eqn:Hnd; [|done].
    assert (N.to_nat n < M); [|lia]. apply below, g_node. eauto.
  Qed.
  Lemma out_row_eq n : row (psums 0 (length <$> out_rows g M)) (mjoin (out_rows g M)) n = (orow g (N.to_nat n)).*1.
  Proof.
    rewrite row_psums by done. destruct (decide (N.to_nat n < M)) as [Hn|Hn].
    - by rewrite out_rows_lookup.
    - rewrite lookup_ge_None_2 by (rewrite out_rows_length; lia). by rewrite orow_out by lia.
  Qed.
  Lemma lab_row_eq n : row (psums 0 (length <$> out_rows g M)) (mjoin (lab_rows lt g M)) n = raw_label lt <$> (orow g (N.to_nat n)).*2.
  Proof.
    rewrite row_psums by apply lab_rows_lens. destruct (decide (N.to_nat n < M)) as [Hn|Hn].
    - by rewrite lab_rows_lookup.
    - rewrite lookup_ge_None_2 by (unfold lab_rows; rewrite fmap_length, seq_length; lia). by rewrite orow_out by lia.
  Qed.
  Lemma in_row_eq n : row (psums 0 (length <$> in_rows g M)) (mjoin (in_rows g M)) n = irow g (N.to_nat n).
  Proof.
    rewrite row_psums by done. destruct (decide (N.to_nat n < M)) as [Hn|Hn].
    - by rewrite in_rows_lookup.
    - rewrite lookup_ge_None_2 by (rewrite in_rows_length; lia). by rewrite irow_out by lia.
  Qed.
  Lemma static_edges s t : a_has_edge A s t ↔ t ∈ row (psums 0 (length <$> out_rows g M)) (mjoin (out_rows g M)) s.
  Proof. rewrite out_row_eq. destruct (orow_keys (N.to_nat s)) as [_ ->]. by rewrite N2Nat.id. Qed.
  Lemma static_edge_label s t k : (N.of_nat (length (g_elm g)) ≤ id_max lt)%N →
    row (psums 0 (length <$> out_rows g M)) (mjoin (out_rows g M)) s !! k = Some t →
    match ev_label_vec (sg_evec (static_arrays M)) with
    | None => label_of (a_edge_at A s t) = None
    | Some ls => ∃ i, row (psums 0 (length <$> out_rows g M)) ls s !! k = Some i ∧
                      label_of (a_edge_at A s t) = denotes (g_elm g) (static_label lt i)
    end.
  Proof.
    intros Hlm Hk. rewrite out_row_eq, list_lookup_fmap in Hk. destruct (orow g (N.to_nat s) !! k) as [[t' lid]|] eqn:Ho; [|done].
    simpl in Hk. injection Hk as ->. pose proof (orow_label _ _ _ _ Ho) as Hl. rewrite N2Nat.id in Hl. simpl. unfold has_el.
    destruct (g_elm g) as [|l0 ls0] eqn:Hel; cbn [if_some].
    - rewrite <- Hl. by destruct lid.
    - eexists. split; [by rewrite lab_row_eq, !list_lookup_fmap, Ho|]. simpl snd. rewrite sentinel by done. done.
  Qed.

  Lemma into_static_arrays : (∀ n, a_has_node A n ↔ (n ≤ max)%N) →
    (N.of_nat (length (g_nlm g)) ≤ id_max lt)%N → (N.of_nat (length (g_elm g)) ≤ id_max lt)%N →
    arrays_of lt (static_arrays M) A.
  Proof.
    intros Hdense Hnl Hel. destruct rows_csr as (Hc & Ht & Hn). constructor.
    - apply (rp_wf _ _ HA).
    - done.
    - cbn [sg_num_nodes sg_evec ev_offsets static_arrays]. rewrite Hn. f_equal. pose proof (rp_node_count _ _ HA) as Hcnt. simpl in Hcnt. rewrite Hcnt. apply size_below.
      intros n. rewrite (Hdense n). lia.
    - intros n. cbn [sg_evec ev_offsets static_arrays]. rewrite Hn, Hdense. lia.
    - apply static_edges.
    - intros n Hin. cbn [sg_labels sg_nlm static_arrays]. destruct (rp_get_node _ _ HA n Hin) as (lid & Hg & Hd). simpl in Hg, Hd. unfold gm_get_node in Hg.
      pose proof (below n Hin) as Hb. apply g_node in Hin as [nd Hnd]. rewrite Hnd in Hg. simpl in Hg. injection Hg as _ <-.
      unfold has_nl. destruct (g_nlm g) as [|l0 ls0] eqn:Hl; cbn [if_some].
      + rewrite <- Hd. by destruct (nm_label nd).
      + exists (raw_label lt (nm_label nd)). split; [|by rewrite sentinel].
        rewrite list_lookup_fmap, lookup_seq_lt by done. simpl. unfold nlab. by rewrite N2Nat.id, Hnd.
    - intros s t k. by apply static_edge_label.
    - intros Hd. destruct (rows_in_csr Hd) as [Hic Hin]. cbn [sg_in sg_evec ev_offsets static_arrays]. pose proof (rp_directed _ _ HA) as Hdir. simpl in Hdir.
      rewrite Hdir, Hd. cbn [if_some]. eexists. split; [done|]. cbn [ev_new ev_offsets ev_edges]. split; [done|]. split; [by rewrite Hin, Hn|]. intros s t.
      rewrite in_row_eq. destruct (irow_keys (N.to_nat t) Hd) as [_ ->]. by rewrite N2Nat.id.
  Qed.
End result.
