(** Concrete cases for the theorems about dump_mmap and StaticGraphMmap. *)
From stdpp Require Import gmap strings.
From Verif Require Import Base BaseFacts Api Bytes Spec SpecFacts SpecStatic Map GraphMap Static StaticFacts Serde SpecSerde SerdeFacts
  IntoStatic Mmap SpecMmap SerdeWit.

(** 0 - 1, undirected, without labels. *)
Definition wit_und : sgraph (list N) (list N) := SGraph 2 1 (EV [0; 1; 2] [1; 0]%N None) None None [] [].
(** 0 - 1 with an edge label. *)
Definition wit_lab : sgraph (list N) (list N) := SGraph 2 1 (EV [0; 1; 2] [1; 0]%N (Some [0; 0]%N)) None (Some [0; 0]%N) [[97]%N] [[98]%N].
Notation w_dump g p F := (sg_dump_mmap TU8 TU8 c_string c_string g p F).
Notation w_open F p := (mm_open TU8 TU8 c_string c_string F p).
Notation w_labels := is_string.
Lemma wit_csr (R : list (list N)) : forallb (λ r, bool_decide (increasing r) && forallb (λ t, bool_decide (t < N.of_nat (length R))%N) r) R = true →
  csr_wf (psums 0 (length <$> R)) (mjoin R).
Proof.
  intros H. apply csr_of_rows. intros i r Hi. rewrite forallb_forall in H. apply elem_of_list_lookup_2, elem_of_list_In in Hi.
  specialize (H r Hi). apply andb_true_iff in H as [H1 H2]. split; [by apply bool_decide_eq_true in H1|].
  intros t Ht. rewrite forallb_forall in H2. specialize (H2 t (proj1 (elem_of_list_In _ _) Ht)). by apply bool_decide_eq_true in H2.
Qed.
Lemma wit_sg_mappable : mappable TU8 TU8 w_labels w_labels true wit_sg.
Proof.
  split; [apply wit_sg_typed| |done| |done|done|done].
  - apply (wit_csr [[1]; [2]; []]%N). by vm_compute.
  - split; [done|]. split; [|done]. apply (wit_csr [[]; [0]; [1]]%N). by vm_compute.
Qed.
Lemma und_csr : csr_wf [0; 1; 2] [1; 0]%N.
Proof. apply (wit_csr [[1]; [0]]%N). by vm_compute. Qed.
Ltac typed_tac := split; cbn [sg_num_nodes sg_num_edges sg_evec sg_in sg_labels sg_nlm sg_elm opt_all wit_und wit_lab];
  try (apply (bool_decide_unpack _); by vm_compute); try done;
  split; apply (bool_decide_unpack _); by vm_compute.
Lemma wit_und_mappable : mappable TU8 TU8 w_labels w_labels false wit_und.
Proof. split; [typed_tac|apply und_csr|done|done|done|done|done]. Qed.
Lemma wit_lab_mappable : mappable TU8 TU8 w_labels w_labels false wit_lab.
Proof. split; [typed_tac|apply und_csr|done|done|done|done|done]. Qed.
Lemma empty_fresh p : fresh_prefix ∅ p.
Proof. apply Forall_forall. intros x _. apply lookup_empty. Qed.
Lemma open_ex {A} (r : res A) (P : A → Prop) `{∀ x, Decision (P x)} : (match r with Ok x => bool_decide (P x) | _ => false end) = true → ∃ x, r = Ok x ∧ P x.
Proof. destruct r as [x| |]; [|done|done]. intros H1%bool_decide_eq_true. by exists x. Qed.

(** ** C37 *)
Lemma wit_stale_in : ∃ m, w_open (w_dump wit_und "g" (w_dump wit_sg "g" ∅)) "g" = Ok m ∧
  v_directed (mm_view TU8 TU8 m) = true ∧ v_directed (sg_view TU8 TU8 false wit_und) = false.
Proof. apply (open_ex _ _). by vm_compute. Qed.
Lemma wit_stale_labels : ∃ m, w_open (w_dump wit_und "g" (w_dump wit_lab "g" ∅)) "g" = Ok m ∧
  v_get_edge (mm_view TU8 TU8 m) 0 1 = Ok (Some (0, 1, Some 0))%N ∧ v_get_edge (sg_view TU8 TU8 false wit_und) 0 1 = Ok (Some (0, 1, None))%N ∧
  v_get_node (mm_view TU8 TU8 m) 0 = Ok (Some (0, Some 0))%N ∧ v_get_node (sg_view TU8 TU8 false wit_und) 0 = Ok (Some (0, None))%N.
Proof. apply (open_ex _ _). by vm_compute. Qed.
(** ** C38 *)
Lemma take_crash F ops k : crash_state F ops (fs_run F (take k ops)).
Proof. exists (take k ops), (drop k ops). split; [by rewrite take_drop|by left]. Qed.
Lemma wit_crash_in : ∃ F' m, crash_state ∅ (sg_dump_ops TU8 TU8 c_string c_string wit_sg "g") F' ∧ w_open F' "g" = Ok m ∧
  v_directed (mm_view TU8 TU8 m) = false ∧ v_edge_count (mm_view TU8 TU8 m) = 1 ∧
  v_directed (sg_view TU8 TU8 true wit_sg) = true ∧ v_edge_count (sg_view TU8 TU8 true wit_sg) = 2.
Proof.
  eexists (fs_run ∅ (take 6 (sg_dump_ops TU8 TU8 c_string c_string wit_sg "g"))).
  destruct (open_ex (w_open (fs_run ∅ (take 6 (sg_dump_ops TU8 TU8 c_string c_string wit_sg "g"))) "g") (λ m,
    v_directed (mm_view TU8 TU8 m) = false ∧ v_edge_count (mm_view TU8 TU8 m) = 1 ∧
    v_directed (sg_view TU8 TU8 true wit_sg) = true ∧ v_edge_count (sg_view TU8 TU8 true wit_sg) = 2)) as (m & H1 & H2); [by vm_compute|].
  exists m. split; [apply take_crash|]. split; [exact H1|exact H2].
Qed.
Lemma wit_crash_aux : ∃ F' b, crash_state ∅ (sg_dump_ops TU8 TU8 c_string c_string wit_sg "g") F' ∧ F' !! "g_aux.bin"%string = Some b ∧ length b = 16.
Proof.
  set (ops := sg_dump_ops TU8 TU8 c_string c_string wit_sg "g").
  set (b := enc (c_aux c_string c_string) (sg_num_nodes wit_sg, (sg_num_edges wit_sg, (sg_nlm wit_sg, sg_elm wit_sg)))).
  exists (fs_run ∅ (take (length ops - 1) ops ++ [FWrite "g_aux.bin" (take 16 b)])), (take 16 b). split; [|by vm_compute].
  exists (take (length ops - 1) ops), [FWrite "g_aux.bin" b]. split; [by vm_compute|]. right.
  exists "g_aux.bin"%string, b, (take 16 b), []. split; [done|]. split; [|done]. eexists. symmetry. apply take_drop.
Qed.
(** ** C62 *)
Lemma wit_prefix : ∃ m m', w_open (w_dump wit_und "g" ∅) "g" = Ok m ∧ w_open (w_dump wit_lab "g_OUT" (w_dump wit_und "g" ∅)) "g" = Ok m' ∧
  v_get_edge (mm_view TU8 TU8 m) 0 1 = Ok (Some (0, 1, None))%N ∧ v_get_edge (mm_view TU8 TU8 m') 0 1 = Ok (Some (0, 1, Some 0))%N.
Proof.
  destruct (open_ex (w_open (w_dump wit_und "g" ∅) "g") (λ m, v_get_edge (mm_view TU8 TU8 m) 0 1 = Ok (Some (0, 1, None))%N)) as (m & H1 & H2); [by vm_compute|].
  destruct (open_ex (w_open (w_dump wit_lab "g_OUT" (w_dump wit_und "g" ∅)) "g") (λ m, v_get_edge (mm_view TU8 TU8 m) 0 1 = Ok (Some (0, 1, Some 0))%N)) as (m' & H3 & H4); [by vm_compute|].
  exists m, m'. exact (conj H1 (conj H3 (conj H2 H4))).
Qed.
(** ** C36 from a graph map. *)
From Verif Require Import TraverseProps GraphMapProps StaticWit.
Definition typed_evec_b (e : evec) : bool := bool_decide (vec_of in_usize (ev_offsets e)) && bool_decide (vec_of (in_type TU8) (ev_edges e)) &&
  bool_decide (opt_all (vec_of (in_type TU8)) (ev_label_vec e)).
Lemma typed_evec_b_ok e : typed_evec_b e = true → typed_evec TU8 TU8 e.
Proof. unfold typed_evec_b. rewrite !andb_true_iff, !bool_decide_eq_true. intros [[H1 H2] H3]. by split. Qed.
Definition typed_b (g : sgraph N N) : bool := bool_decide (in_usize (sg_num_nodes g) ∧ in_usize (sg_num_edges g)) &&
  typed_evec_b (sg_evec g) && match sg_in g with Some e => typed_evec_b e | None => true end &&
  bool_decide (opt_all (vec_of (in_type TU8)) (sg_labels g)) && bool_decide (setmap_of (in_type TU8) (sg_nlm g)) &&
  bool_decide (setmap_of (in_type TU8) (sg_elm g)).
Lemma typed_b_ok g : typed_b g = true → typed_sgraph TU8 TU8 (in_type TU8) (in_type TU8) g.
Proof.
  unfold typed_b. rewrite !andb_true_iff, !bool_decide_eq_true. intros [[[[[H1 H2] H3] H4] H5] H6].
  split; try done; [by apply typed_evec_b_ok|]. destruct (sg_in g); [by apply typed_evec_b_ok|done].
Qed.
Lemma wit_pipeline dir : ∃ (g : graphmap N N) ord A sg, gm_reachable dir TU8 g ∧ represents (gm_view dir ord g) A ∧ a_has_edge A 0 1 ∧
  (∀ n, a_has_node A n → (n < id_max TU8)%N) ∧ (∀ n m, a_has_node A n → (m < n)%N → a_has_node A m) ∧
  (N.of_nat (length (g_nlm g)) ≤ id_max TU8)%N ∧ (N.of_nat (length (g_elm g)) ≤ id_max TU8)%N ∧
  gm_into_static TU8 TU8 dir g = Ok sg ∧ typed_sgraph TU8 TU8 (in_type TU8) (in_type TU8) sg.
Proof.
  assert (fits_u8 dir st_dense) as Hf by (destruct dir; vm_compute; lia).
  destruct (run_view_all dir st_dense Hf) as (H1 & _ & _ & _ & H2 & H3 & H4).
  assert (∀ n, a_has_node (sp_g (run_spec dir st_dense)) n → (n < 4)%N) as Hids by (apply (ids_of _ _); destruct dir; by vm_compute).
  assert (match gm_into_static TU8 TU8 dir (run_gm dir st_dense) with Ok sg => typed_b sg | _ => false end = true) as Hsg by (destruct dir; by vm_compute).
  destruct (gm_into_static TU8 TU8 dir (run_gm dir st_dense)) as [sg| |] eqn:Es; [|done|done].
  exists (run_gm dir st_dense), (map_to_list (g_nodes (run_gm dir st_dense))).*1, (sp_g (run_spec dir st_dense)), sg.
  cbn [v_node_label_map v_edge_label_map run_view gm_view] in H2, H3.
  assert (g_nlm (run_gm dir st_dense) = [7; 8]%N) as Hn by (rewrite H2; destruct dir; by vm_compute).
  assert (g_elm (run_gm dir st_dense) = [5; 6]%N) as He by (rewrite H3; destruct dir; by vm_compute).
  split_and!; [done|done| | | |by rewrite Hn|by rewrite He|exact Es|by apply typed_b_ok].
  - apply (bool_decide_unpack _). destruct dir; by vm_compute.
  - intros n Hn'. apply Hids in Hn'. change (id_max TU8) with 255%N. lia.
  - apply (dense_of _ 4%N Hids). destruct dir; by vm_compute.
Qed.
(** ** C76 *)
Lemma wit_overlays : overlay wit_und wit_lab ≠ wit_und ∧ overlay wit_und wit_sg ≠ wit_und ∧ overlay wit_sg wit_und = wit_sg.
Proof. split; [by vm_compute|]. split; by vm_compute. Qed.
