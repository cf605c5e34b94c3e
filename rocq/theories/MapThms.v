(** Properties of SetMap and VecMap, proofs. *)
From Verif Require Import Base Spec BaseFacts Map MapFacts.

Section thms.
  Context {L : Type} `{EqDecision L}.
  Implicit Types m : list L.

  (** SetMaps obtainable through the public API: new, from_vec or collect,
      followed by any history of add_item, pop_item and clear. *)
  Definition setmap_reachable m : Prop :=
    ∃ start h rs,
      (start = sm_new ∨ (∃ v, start = sm_from_vec v) ∨ (∃ v, sm_from_iter v = Ok start)) ∧
      run_map sm_step start h = Ok (rs, m).
  (** VecMaps obtainable without handing over a vector that has duplicates. *)
  Definition vecmap_reachable m : Prop :=
    ∃ start h rs,
      (start = vm_new ∨ (∃ v, NoDup v ∧ start = vm_with_data v) ∨ (∃ v, vm_from_iter v = Ok start)) ∧
      run_map vm_step start h = Ok (rs, m).

  Lemma vm_from_iter_spec (v : list L) : vm_from_iter v = sm_from_iter v.
  Proof.
    unfold vm_from_iter, sm_from_iter, vm_new, sm_new. generalize (@nil L) as m.
    induction v as [|x v IH]; intros m; cbn [rfold]; [done|].
    rewrite vm_add_item_spec. destruct (sm_add_item m x) as [[i m']| |]; simpl; [|done..]. apply IH.
  Qed.

  Lemma setmap_reachable_NoDup m : setmap_reachable m → NoDup m.
  Proof.
    intros (start & h & rs & Hs & Hr). eapply sm_run_NoDup; [|exact Hr].
    destruct Hs as [->|[[v ->]|[v Hv]]]; [constructor|apply from_vec_NoDup|].
    rewrite from_iter_from_vec in Hv. simplify_eq. apply from_vec_NoDup.
  Qed.
  Lemma vecmap_reachable_NoDup m : vecmap_reachable m → NoDup m.
  Proof.
    intros (start & h & rs & Hs & Hr). rewrite vm_run_spec in Hr. eapply sm_run_NoDup; [|exact Hr].
    destruct Hs as [->|[(v & Hv & ->)|[v Hv]]]; [constructor|done|].
    rewrite vm_from_iter_spec, from_iter_from_vec in Hv. simplify_eq. apply from_vec_NoDup.
  Qed.
  Lemma setmap_reachable_intro m : NoDup m → setmap_reachable m.
  Proof. intros Hm. exists m, [], []. split; [|done]. right. left. exists m. by rewrite from_vec_id. Qed.
  Lemma vecmap_reachable_intro m : NoDup m → vecmap_reachable m.
  Proof. intros Hm. exists m, [], []. split; [|done]. right. left. exists m. by split. Qed.

  Lemma setmap_bijection_lemma m : setmap_reachable m →
    (∀ i, is_Some (sm_get_item m i) ↔ i < sm_len m) ∧
    (∀ x i, sm_find_index m x = Some i ↔ sm_get_item m i = Some x) ∧
    (∀ x, sm_contains m x = true ↔ is_Some (sm_find_index m x)) ∧
    NoDup (sm_items m) ∧ length (sm_items m) = sm_len m ∧
    (∀ i, sm_items m !! i = sm_get_item m i).
  Proof.
    intros Hm%setmap_reachable_NoDup. split_and!; try done.
    - intros i. apply lookup_lt_is_Some.
    - intros x i. by apply get_full_lookup.
    - intros x. unfold sm_contains, is_contains, sm_find_index. rewrite bool_decide_eq_true.
      rewrite <-not_eq_None_Some, get_full_None. split; [by intros ? ?|].
      intros Hx. by destruct (decide (x ∈ m)).
  Qed.
  Lemma setmap_total_lemma m h : ∃ rs m', run_map sm_step m h = Ok (rs, m').
  Proof. apply sm_run_total. Qed.

  Lemma add_item_stable_lemma m x : NoDup m →
    ∃ i m', sm_add_item m x = Ok (i, m') ∧ vm_add_item m x = Ok (i, m') ∧
      (sm_contains m x = true → m' = m ∧ sm_find_index m x = Some i) ∧
      (sm_contains m x = false → i = sm_len m ∧ sm_len m' = S (sm_len m)) ∧
      sm_get_item m' i = Some x ∧ vm_get_item m' i = Some x ∧
      (∀ y j, sm_find_index m y = Some j → sm_find_index m' y = Some j) ∧
      (∀ y j, vm_find_index m y = Some j → vm_find_index m' y = Some j) ∧
      (∀ y, sm_contains m' y = true ↔ y = x ∨ sm_contains m y = true).
  Proof.
    intros Hm. rewrite vm_add_item_spec. destruct (register_snd m x) as (i & Hadd & Hidx & Hlk).
    exists i, (register (Some x) m). split; [done|]. split; [done|].
    assert (∀ y j, is_get_full m y = Some j → is_get_full (register (Some x) m) y = Some j) as Hst.
    { intros y j Hy. destruct (register_prefix (Some x) m) as [k ->]. by apply get_full_app. }
    unfold sm_contains, is_contains, sm_find_index, sm_len, sm_get_item, vm_get_item.
    rewrite <-get_full_index_of in Hidx.
    split_and!; try done.
    - rewrite bool_decide_eq_true. intros Hx. simpl in *. rewrite decide_True in * by done. done.
    - rewrite bool_decide_eq_false. intros Hx. simpl in *. rewrite decide_False in * by done.
      rewrite app_length. simpl. split; [|lia].
      rewrite get_full_snoc in Hidx by done. by simplify_eq.
    - intros y j. rewrite !vm_find_index_spec. apply Hst.
    - intros y. rewrite !bool_decide_eq_true. simpl. case_decide; [naive_solver|].
      rewrite elem_of_app, elem_of_list_singleton. naive_solver.
  Qed.
  Lemma pop_item_lemma m :
    (sm_pop_item m).1 = sm_get_item m (sm_len m - 1) ∧
    sm_len (sm_pop_item m).2 = sm_len m - 1 ∧
    (∀ j, j < sm_len m - 1 → sm_get_item (sm_pop_item m).2 j = sm_get_item m j) ∧
    vm_pop_item m = sm_pop_item m.
  Proof.
    unfold sm_pop_item, sm_get_item, sm_len. simpl. split_and!; try done.
    - rewrite last_lookup. f_equal. lia.
    - rewrite take_length. lia.
    - intros j Hj. by apply lookup_take.
  Qed.

  Lemma set_vec_equiv_lemma (h : list (map_op L)) :
    ∃ rs m m', run_map sm_step sm_new h = Ok (rs, m) ∧ run_map vm_step vm_new h = Ok (rs, m') ∧
      (∀ i, sm_get_item m i = vm_get_item m' i) ∧
      (∀ x, sm_find_index m x = vm_find_index m' x) ∧
      (∀ x, sm_contains m x = vm_contains m' x) ∧
      sm_len m = vm_len m' ∧ sm_items m = vm_items m'.
  Proof.
    destruct (sm_run_total sm_new h) as (rs & m & Hr). exists rs, m, m. split; [done|].
    split; [rewrite vm_run_spec; exact Hr|]. split_and!; try done.
    - intros x. by rewrite vm_find_index_spec.
    - intros x. by rewrite vm_contains_spec.
  Qed.

  Lemma conversions_lemma m :
    (setmap_reachable m →
      (∀ i, vm_get_item (vm_from_setmap m) i = sm_get_item m i) ∧
      (∀ x, vm_find_index (vm_from_setmap m) x = sm_find_index m x) ∧
      sm_from_vecmap (vm_from_setmap m) = m) ∧
    (vecmap_reachable m →
      (∀ i, sm_get_item (sm_from_vecmap m) i = vm_get_item m i) ∧
      (∀ x, sm_find_index (sm_from_vecmap m) x = vm_find_index m x) ∧
      vm_from_setmap (sm_from_vecmap m) = m).
  Proof.
    unfold vm_from_setmap, sm_from_vecmap, vm_with_data, vm_items, sm_items. split.
    - intros Hm%setmap_reachable_NoDup. split; [done|]. split; [|by apply from_vec_id].
      intros x. by rewrite vm_find_index_spec.
    - intros Hm%vecmap_reachable_NoDup. rewrite from_vec_id by done. split; [done|]. split; [|done].
      intros x. by rewrite vm_find_index_spec.
  Qed.
  Lemma from_vec_lemma (v : list L) :
    (∀ x, sm_contains (sm_from_vec v) x = true ↔ x ∈ v) ∧ sm_from_iter v = Ok (sm_from_vec v) ∧
    setmap_reachable (sm_from_vec v).
  Proof.
    split; [|split].
    - intros x. unfold sm_contains, is_contains. rewrite bool_decide_eq_true. apply elem_of_from_vec.
    - apply from_iter_from_vec.
    - apply setmap_reachable_intro, from_vec_NoDup.
  Qed.

  Lemma sm_eq_lemma m m' : setmap_reachable m → setmap_reachable m' →
    sm_eq m m' = true ↔ ∀ x, sm_contains m x = true ↔ sm_contains m' x = true.
  Proof.
    intros Hm%setmap_reachable_NoDup Hm'%setmap_reachable_NoDup.
    unfold sm_eq, sm_contains, is_contains. setoid_rewrite bool_decide_eq_true.
    rewrite andb_true_iff, bool_decide_eq_true, <-Is_true_true, forallb_True, Forall_forall. split.
    - intros [Hlen Hin] x. split.
      + intros Hx. apply Hin in Hx. by rewrite bool_decide_spec in Hx.
      + intros Hx. assert (m ⊆+ m') as Hsub.
        { apply NoDup_submseteq; [done|]. intros y Hy. apply Hin in Hy. by rewrite bool_decide_spec in Hy. }
        apply submseteq_Permutation_length_eq in Hsub; [|lia]. by rewrite Hsub.
    - intros Hiff. split.
      + apply Permutation_length, NoDup_Permutation; done.
      + intros x Hx. apply bool_decide_spec. by apply Hiff.
  Qed.
  Lemma sm_eq_same_order_lemma m m' : sm_hash_feed m = sm_hash_feed m' ↔ ∀ i, sm_get_item m i = sm_get_item m' i.
  Proof. unfold sm_hash_feed, sm_items, sm_get_item. split; [by intros ->|]. apply list_eq. Qed.
  Lemma vm_eq_lemma m m' : vm_eq m m' = true ↔ vm_hash_feed m = vm_hash_feed m'.
  Proof. unfold vm_eq, vm_hash_feed. rewrite bool_decide_eq_true. split; [by intros ->|by intros [= _ ->]]. Qed.
End thms.

Lemma conv_witness :
  ∃ v : list N,
    (∃ x i, vm_get_item (vm_from_vec v) i = Some x ∧ vm_find_index (vm_from_vec v) x ≠ Some i) ∧
    (∃ i, sm_get_item (sm_from_vecmap (vm_from_vec v)) i ≠ vm_get_item (vm_from_vec v) i).
Proof. exists [1; 1; 2]%N. split; [exists 1%N, 1; split; by vm_compute|exists 1; by vm_compute]. Qed.
Lemma sm_eq_hash_witness :
  ∃ m m' : list N, setmap_reachable m ∧ setmap_reachable m' ∧ sm_eq m m' = true ∧
    sm_hash_feed m ≠ sm_hash_feed m' ∧ ∃ i, sm_get_item m i ≠ sm_get_item m' i.
Proof.
  exists [1; 2]%N, [2; 1]%N. split_and!;
    [apply setmap_reachable_intro; repeat constructor; set_solver..|by vm_compute|by vm_compute|exists 0; by vm_compute].
Qed.
