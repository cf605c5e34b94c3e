(** C01-C05: the label maps. *)
From Verif Require Import Base Spec Map MapThms.

(** ** C01 *)
Theorem C01_setmap_bijection {L} `{EqDecision L} (m : list L) :
  setmap_reachable m →
  (∀ i, is_Some (sm_get_item m i) ↔ i < sm_len m) ∧
  (∀ x i, sm_find_index m x = Some i ↔ sm_get_item m i = Some x) ∧
  (∀ x, sm_contains m x = true ↔ is_Some (sm_find_index m x)) ∧
  NoDup (sm_items m) ∧ length (sm_items m) = sm_len m ∧
  (∀ i, sm_items m !! i = sm_get_item m i).
Proof. exact (setmap_bijection_lemma m). Qed.
Print Assumptions C01_setmap_bijection.
Theorem C01_setmap_never_panics {L} `{EqDecision L} (m : list L) (h : list (map_op L)) :
  ∃ rs m', run_map sm_step m h = Ok (rs, m').
Proof. exact (setmap_total_lemma m h). Qed.
Print Assumptions C01_setmap_never_panics.
Example C01_case : @setmap_reachable N _ [7; 5]%N ∧ run_map sm_step sm_new [MAdd 7%N; MAdd 9%N; MPop; MAdd 5%N; MAdd 7%N]
  = Ok ([MIdx 0; MIdx 1; MItem (Some 9%N); MIdx 1; MIdx 0], [7; 5]%N).
Proof.
  split; [|by vm_compute].
  exists sm_new, [MAdd 7%N; MAdd 9%N; MPop; MAdd 5%N], [MIdx 0; MIdx 1; MItem (Some 9%N); MIdx 1].
  split; [by left|by vm_compute].
Qed.

(** ** C02 *)
Theorem C02_add_item_stable {L} `{EqDecision L} (m : list L) (x : L) :
  setmap_reachable m ∨ vecmap_reachable m →
  ∃ i m', sm_add_item m x = Ok (i, m') ∧ vm_add_item m x = Ok (i, m') ∧
    (sm_contains m x = true → m' = m ∧ sm_find_index m x = Some i) ∧
    (sm_contains m x = false → i = sm_len m ∧ sm_len m' = S (sm_len m)) ∧
    sm_get_item m' i = Some x ∧ vm_get_item m' i = Some x ∧
    (∀ y j, sm_find_index m y = Some j → sm_find_index m' y = Some j) ∧
    (∀ y j, vm_find_index m y = Some j → vm_find_index m' y = Some j) ∧
    (∀ y, sm_contains m' y = true ↔ y = x ∨ sm_contains m y = true).
Proof.
  exact (λ Hm, add_item_stable_lemma m x
    (match Hm with or_introl H => setmap_reachable_NoDup m H | or_intror H => vecmap_reachable_NoDup m H end)).
Qed.
Print Assumptions C02_add_item_stable.
Theorem C02_pop_item_last {L} `{EqDecision L} (m : list L) :
  (sm_pop_item m).1 = sm_get_item m (sm_len m - 1) ∧
  sm_len (sm_pop_item m).2 = sm_len m - 1 ∧
  (∀ j, j < sm_len m - 1 → sm_get_item (sm_pop_item m).2 j = sm_get_item m j) ∧
  vm_pop_item m = sm_pop_item m.
Proof. exact (pop_item_lemma m). Qed.
Print Assumptions C02_pop_item_last.
Example C02_case : sm_add_item [7; 5]%N 5%N = Ok (1, [7; 5]%N) ∧ sm_add_item [7; 5]%N 6%N = Ok (2, [7; 5; 6]%N).
Proof. by vm_compute. Qed.

(** ** C03 *)
Theorem C03_setmap_vecmap_equivalent {L} `{EqDecision L} (h : list (map_op L)) :
  ∃ rs m m', run_map sm_step sm_new h = Ok (rs, m) ∧ run_map vm_step vm_new h = Ok (rs, m') ∧
    (∀ i, sm_get_item m i = vm_get_item m' i) ∧
    (∀ x, sm_find_index m x = vm_find_index m' x) ∧
    (∀ x, sm_contains m x = vm_contains m' x) ∧
    sm_len m = vm_len m' ∧ sm_items m = vm_items m'.
Proof. exact (set_vec_equiv_lemma h). Qed.
Print Assumptions C03_setmap_vecmap_equivalent.
Example C03_case : run_map vm_step vm_new [MAdd 7%N; MAdd 9%N; MPop; MAdd 5%N; MAdd 7%N]
  = Ok ([MIdx 0; MIdx 1; MItem (Some 9%N); MIdx 1; MIdx 0], [7; 5]%N).
Proof. by vm_compute. Qed.

(** ** C04. The full claim is false: [VecMap::with_data]/[from] keep duplicates, so
    for such a VecMap find_index is not inverse to get_item and conversion to
    SetMap moves items. It holds for every other map. *)
Theorem C04_conversions_preserve_indices_partial {L} `{EqDecision L} (m : list L) :
  (setmap_reachable m →
    (∀ i, vm_get_item (vm_from_setmap m) i = sm_get_item m i) ∧
    (∀ x, vm_find_index (vm_from_setmap m) x = sm_find_index m x) ∧
    sm_from_vecmap (vm_from_setmap m) = m) ∧
  (vecmap_reachable m →
    (∀ i, sm_get_item (sm_from_vecmap m) i = vm_get_item m i) ∧
    (∀ x, sm_find_index (sm_from_vecmap m) x = vm_find_index m x) ∧
    vm_from_setmap (sm_from_vecmap m) = m).
Proof. exact (conversions_lemma m). Qed.
Print Assumptions C04_conversions_preserve_indices_partial.
Theorem C04_from_vec {L} `{EqDecision L} (v : list L) :
  (∀ x, sm_contains (sm_from_vec v) x = true ↔ x ∈ v) ∧ sm_from_iter v = Ok (sm_from_vec v) ∧
  setmap_reachable (sm_from_vec v).
Proof. exact (from_vec_lemma v). Qed.
Print Assumptions C04_from_vec.
Example C04_case : sm_from_vec [3; 1; 3; 2; 1]%N = [3; 1; 2]%N ∧ vecmap_reachable [3; 1; 2]%N.
Proof. split; [by vm_compute|]. apply vecmap_reachable_intro. repeat constructor; set_solver. Qed.
Theorem C04_conversions_refuted :
  ∃ v : list N,
    (∃ x i, vm_get_item (vm_from_vec v) i = Some x ∧ vm_find_index (vm_from_vec v) x ≠ Some i) ∧
    (∃ i, sm_get_item (sm_from_vecmap (vm_from_vec v)) i ≠ vm_get_item (vm_from_vec v) i).
Proof. exact conv_witness. Qed.
Print Assumptions C04_conversions_refuted.

(** ** C05. Refuted: == ignores the order, Hash does not. What == does mean. *)
Theorem C05_setmap_eq_hash_refuted :
  ∃ m m' : list N, setmap_reachable m ∧ setmap_reachable m' ∧ sm_eq m m' = true ∧
    sm_hash_feed m ≠ sm_hash_feed m' ∧ ∃ i, sm_get_item m i ≠ sm_get_item m' i.
Proof. exact sm_eq_hash_witness. Qed.
Print Assumptions C05_setmap_eq_hash_refuted.
Theorem C05_setmap_eq_same_items {L} `{EqDecision L} (m m' : list L) :
  setmap_reachable m → setmap_reachable m' →
  sm_eq m m' = true ↔ ∀ x, sm_contains m x = true ↔ sm_contains m' x = true.
Proof. exact (sm_eq_lemma m m'). Qed.
Print Assumptions C05_setmap_eq_same_items.
(** What a SetMap feeds to a hasher tells apart any two maps that differ at some index: it is
    finer than ==, which is where Hash breaks its contract. *)
Theorem C05_setmap_hash_items {L} `{EqDecision L} (m m' : list L) :
  sm_hash_feed m = sm_hash_feed m' ↔ ∀ i, sm_get_item m i = sm_get_item m' i.
Proof. exact (sm_eq_same_order_lemma m m'). Qed.
Print Assumptions C05_setmap_hash_items.
Theorem C05_vecmap_eq_hash {L} `{EqDecision L} (m m' : list L) :
  vm_eq m m' = true ↔ vm_hash_feed m = vm_hash_feed m'.
Proof. exact (vm_eq_lemma m m'). Qed.
Print Assumptions C05_vecmap_eq_hash.
Example C05_case : setmap_reachable [3; 1]%N ∧ setmap_reachable [1; 3]%N ∧ sm_eq [3; 1]%N [1; 3]%N = true.
Proof. split_and!; [apply setmap_reachable_intro; repeat constructor; set_solver..|by vm_compute]. Qed.
