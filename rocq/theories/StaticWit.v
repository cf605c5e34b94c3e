(** Concrete cases for the theorems about static graphs. *)
From Verif Require Import Base BaseFacts Api Spec SpecFacts ViewFacts SpecStatic Static StaticFacts SpecSGraph StaticProps
  Map GraphMap GraphMapFacts GraphMapRefine GraphMapSim GraphMapThms GraphMapProps TraverseProps IntoStatic StaticMore IntoStaticProps.

(** Nodes 0..3 with and without labels; edges with and without labels; a self-loop. *)
Definition st_dense : list (gop N N) :=
  [OAddNode 1 (Some 7); OAddNode 2 (Some 8); OAddEdge 0 1 (Some 5); OAddEdge 1 2 (Some 6); OAddEdge 3 1 None; OAddEdge 2 2 (Some 5)]%N.
Definition st_gap : list (gop N N) := [OAddNode 4 (Some 7); OAddEdge 0 4 (Some 5); OAddEdge 4 2 None; OAddEdge 9 2 (Some 6)]%N.
Lemma ids_of (s : sstate N N) (P : N → Prop) `{∀ n, Decision (P n)} : forallb (λ n, bool_decide (P n)) (map_to_list (ag_nodes (sp_g s))).*1 = true →
  ∀ n, a_has_node (sp_g s) n → P n.
Proof.
  intros Hf n [l Hl]. rewrite forallb_forall in Hf. specialize (Hf n). apply (bool_decide_eq_true_1 (P n)), Hf, elem_of_list_In, elem_of_list_fmap.
  exists (n, l). split; [done|]. by apply elem_of_map_to_list.
Qed.
Lemma dense_of (s : sstate N N) k : (∀ n, a_has_node (sp_g s) n → (n < k)%N) → forallb (λ n, bool_decide (a_has_node (sp_g s) (N.of_nat n))) (seq 0 (N.to_nat k)) = true →
  ∀ n m, a_has_node (sp_g s) n → (m < n)%N → a_has_node (sp_g s) m.
Proof.
  intros Hk Hf n m Hn Hlt. apply Hk in Hn. rewrite forallb_forall in Hf. specialize (Hf (N.to_nat m)). rewrite N2Nat.id in Hf.
  apply (bool_decide_eq_true_1 _), Hf, elem_of_list_In, elem_of_seq. lia.
Qed.
Lemma st_dense_case dir : ∃ (g : graphmap N N) ord A, gm_reachable dir TU8 g ∧ represents (gm_view dir ord g) A ∧ a_has_node A 0%N ∧
  (∀ n, a_has_node A n → (n < id_max TU8)%N) ∧ (∀ n m, a_has_node A n → (m < n)%N → a_has_node A m) ∧
  (N.of_nat (length (g_nlm g)) ≤ id_max TU8)%N ∧ (N.of_nat (length (g_elm g)) ≤ id_max TU8)%N ∧
  a_num_nodes A = 4 ∧ a_num_edges A = 4 ∧ g_nlm g = [7; 8]%N ∧ g_elm g = [5; 6]%N.
Proof.
  assert (fits_u8 dir st_dense) as Hf by (destruct dir; vm_compute; lia).
  destruct (run_view_all dir st_dense Hf) as (H1 & _ & _ & _ & H2 & H3 & H4).
  assert (∀ n, a_has_node (sp_g (run_spec dir st_dense)) n → (n < 4)%N) as Hids by (apply (ids_of _ _); destruct dir; by vm_compute).
  exists (run_gm dir st_dense), (map_to_list (g_nodes (run_gm dir st_dense))).*1, (sp_g (run_spec dir st_dense)).
  cbn [v_node_label_map v_edge_label_map run_view gm_view] in H2, H3.
  assert (g_nlm (run_gm dir st_dense) = [7; 8]%N) as Hn by (rewrite H2; destruct dir; by vm_compute).
  assert (g_elm (run_gm dir st_dense) = [5; 6]%N) as He by (rewrite H3; destruct dir; by vm_compute).
  split_and!; [done|done| | | |by rewrite Hn|by rewrite He| | |done|done].
  - apply (bool_decide_unpack _). destruct dir; by vm_compute.
  - intros n Hn'. apply Hids in Hn'. change (id_max TU8) with 255%N. lia.
  - apply (dense_of _ 4%N Hids). destruct dir; by vm_compute.
  - destruct dir; by vm_compute.
  - destruct dir; by vm_compute.
Qed.
Lemma st_gap_case dir : ∃ (g : graphmap N N) ord A, gm_reachable dir TU8 g ∧ represents (gm_view dir ord g) A ∧ a_has_node A 9%N ∧ ¬ a_has_node A 1%N ∧
  (∀ n, a_has_node A n → (n < id_max TU8)%N) ∧ (N.of_nat (length (g_elm g)) ≤ id_max TU8)%N ∧ a_num_nodes A = 4 ∧ a_num_edges A = 3 ∧ g_elm g = [5; 6]%N.
Proof.
  assert (fits_u8 dir st_gap) as Hf by (destruct dir; vm_compute; lia).
  destruct (run_view_all dir st_gap Hf) as (H1 & _ & _ & _ & H2 & H3 & H4).
  assert (∀ n, a_has_node (sp_g (run_spec dir st_gap)) n → (n < 10)%N) as Hids by (apply (ids_of _ _); destruct dir; by vm_compute).
  exists (run_gm dir st_gap), (map_to_list (g_nodes (run_gm dir st_gap))).*1, (sp_g (run_spec dir st_gap)).
  cbn [v_node_label_map v_edge_label_map run_view gm_view] in H2, H3.
  assert (g_elm (run_gm dir st_gap) = [5; 6]%N) as He by (rewrite H3; destruct dir; by vm_compute).
  split_and!; [done|done| | | |by rewrite He| | |done].
  - apply (bool_decide_unpack _). destruct dir; by vm_compute.
  - apply (bool_decide_unpack _). destruct dir; by vm_compute.
  - intros n Hn'. apply Hids in Hn'. change (id_max TU8) with 255%N. lia.
  - destruct dir; by vm_compute.
  - destruct dir; by vm_compute.
Qed.
Definition st_max : list (gop N N) := [OAddEdge 255 0 None]%N.
Lemma st_max_case dir : ∃ (g : graphmap N N) ord A, gm_reachable dir TU8 g ∧ represents (gm_view dir ord g) A ∧
  (∀ n, a_has_node A n → (n ≤ id_max TU8)%N) ∧ a_has_node A (id_max TU8).
Proof.
  assert (fits_u8 dir st_max) as Hf by (destruct dir; vm_compute; lia).
  destruct (run_view_all dir st_max Hf) as (H1 & _ & _ & _ & H2 & H3 & H4).
  exists (run_gm dir st_max), (map_to_list (g_nodes (run_gm dir st_max))).*1, (sp_g (run_spec dir st_max)).
  split_and!; [done|done| |].
  - apply (ids_of _ _); destruct dir; by vm_compute.
  - apply (bool_decide_unpack _). destruct dir; by vm_compute.
Qed.
Lemma st_empty_case dir : ∃ (g : graphmap N N) ord A, gm_reachable dir TU8 g ∧ represents (gm_view dir ord g) A ∧ ∀ n, ¬ a_has_node A n.
Proof.
  assert (fits_u8 dir []) as Hf by (destruct dir; vm_compute; lia).
  destruct (run_view_all dir [] Hf) as (H1 & _ & _ & _ & H2 & H3 & H4).
  exists (run_gm dir []), (map_to_list (g_nodes (run_gm dir []))).*1, (sp_g (run_spec dir [])).
  split_and!; [done|done|]. intros n [x Hx]. simpl in Hx. by rewrite lookup_empty in Hx.
Qed.
(** The 256th label of a u8 label type is the sentinel. *)
Lemma st_sentinel dir : ∃ (g : graphmap N N) sg, gm_reachable dir TU8 g ∧ gm_into_static TU8 TU8 dir g = Ok sg ∧
  v_node_label (gm_view dir [0%N] g) 0 = Ok (Some 255%N) ∧ v_node_label (sg_view TU8 TU8 dir sg) 0 = Ok None ∧
  v_edge_label (gm_view dir [0%N] g) 0 0 = Ok (Some 255%N) ∧ v_edge_label (sg_view TU8 TU8 dir sg) 0 0 = Ok None.
Proof.
  set (labels := N.of_nat <$> seq 0 256). set (h := [OAddNode 0 (Some 255); OAddEdge 0 0 (Some 255)]%N : list (gop N N)).
  assert (NoDup labels) as Hnd by (apply NoDup_fmap; [apply _|apply NoDup_seq]).
  assert (match gm_run dir TU8 h (gm_with_label_map labels labels) with
    | Ok (rs, g) => match gm_into_static TU8 TU8 dir g with
      | Ok sg => bool_decide (v_node_label (gm_view dir [0%N] g) 0 = Ok (Some 255%N) ∧ v_node_label (sg_view TU8 TU8 dir sg) 0 = Ok None ∧
          v_edge_label (gm_view dir [0%N] g) 0 0 = Ok (Some 255%N) ∧ v_edge_label (sg_view TU8 TU8 dir sg) 0 0 = Ok None)
      | _ => false end
    | _ => false end = true) as Hc by (destruct dir; by vm_compute).
  destruct (gm_run dir TU8 h (gm_with_label_map labels labels)) as [[rs g]| |] eqn:Hr; [|done..].
  destruct (gm_into_static TU8 TU8 dir g) as [sg| |] eqn:Hs; [|done..]. apply bool_decide_eq_true in Hc.
  exists g, sg. split; [|split; [done|exact Hc]]. exists labels, labels, h, rs. done.
Qed.
(** edges() of an undirected graph shows the wrong label. *)
Definition st_path : list (gop N N) := [OAddEdge 0 1 (Some 5); OAddEdge 1 2 (Some 6)]%N.
Lemma st_edges_bad : ∃ (g : graphmap N N) sg es, gm_reachable false TU8 g ∧ gm_into_static TU8 TU8 false g = Ok sg ∧
  v_edges (sg_view TU8 TU8 false sg) = Ok es ∧ (1, 2, Some 0)%N ∈ es ∧
  v_get_edge (sg_view TU8 TU8 false sg) 1 2 = Ok (Some (1, 2, Some 1))%N ∧ v_edge_label (sg_view TU8 TU8 false sg) 1 2 = Ok (Some 6%N).
Proof.
  assert (fits_u8 false st_path) as Hf by (vm_compute; lia).
  destruct (run_view_all false st_path Hf) as (_ & _ & _ & _ & _ & _ & H4).
  assert (match gm_into_static TU8 TU8 false (run_gm false st_path) with
      | Ok sg => match v_edges (sg_view TU8 TU8 false sg) with
         | Ok es => bool_decide ((1, 2, Some 0)%N ∈ es ∧ v_get_edge (sg_view TU8 TU8 false sg) 1 2 = Ok (Some (1, 2, Some 1))%N ∧ v_edge_label (sg_view TU8 TU8 false sg) 1 2 = Ok (Some 6%N))
         | _ => false end
      | _ => false end = true) as Hc by (by vm_compute).
  destruct (gm_into_static TU8 TU8 false (run_gm false st_path)) as [sg| |] eqn:Hs; [|done..].
  destruct (v_edges (sg_view TU8 TU8 false sg)) as [es| |] eqn:He; [|done..]. apply bool_decide_eq_true in Hc.
  exists (run_gm false st_path), sg, es. split; [exact H4|]. split; [exact Hs|]. split; [exact He|exact Hc].
Qed.
(** Well-formed arrays. *)
Lemma st_csr_case : csr_wf [0; 2; 2; 3; 5] [1; 3; 3; 0; 2]%N ∧ csr_tight [0; 2; 2; 3; 5] [1; 3; 3; 0; 2]%N ∧
  csr_nodes [0; 2; 2; 3; 5] = 4%N.
Proof.
  change [0; 2; 2; 3; 5] with (psums 0 (length <$> [[1; 3]; []; [3]; [0; 2]]%N)).
  change [1; 3; 3; 0; 2]%N with (mjoin [[1; 3]; []; [3]; [0; 2]]%N).
  change 4%N with (N.of_nat (length [[1; 3]; []; [3]; [0; 2]]%N)). apply csr_of_rows. intros i r Hi.
  do 4 (destruct i as [|i]; [injection Hi as <-; split; [repeat constructor|]; intros t Ht; set_unfold in Ht; simpl; lia|]). done.
Qed.
Lemma st_csr_full : csr_wf (replicate 257 0) [] ∧ csr_nodes (replicate 257 0) = id_card TU8.
Proof.
  assert (replicate 257 0 = psums 0 (length <$> replicate 256 (@nil N))) as -> by (by vm_compute).
  assert ([] = mjoin (replicate 256 (@nil N))) as -> by (by vm_compute).
  change (id_card TU8) with (N.of_nat (length (replicate 256 (@nil N)))).
  destruct (csr_of_rows (replicate 256 (@nil N))) as (H1 & _ & H2); [|done]. intros i r Hi. apply lookup_replicate in Hi as [-> _].
  split; [constructor|]. by intros t Ht%elem_of_nil.
Qed.
(** The arrays of a graph without labels, handed to new. *)
Lemma new_arrays {NL EL} lt (sg g : sgraph NL EL) A : arrays_of lt sg A → sg_labels sg = None → ev_label_vec (sg_evec sg) = None →
  sg_new (ag_dir A) (sg_evec sg) (sg_in sg) None None = Ok g → arrays_of lt g A.
Proof.
  intros H Hl Hel Hn. unfold sg_new in Hn. apply rbind_Ok in Hn as (_ & _ & Hn). apply rbind_Ok in Hn as ([a b] & Hc & [= <-]).
  unfold sg_counts in Hc. apply rbind_Ok in Hc as (k & Hk & [= -> _]). constructor; try apply H.
  - cbn [sg_num_nodes sg_evec]. rewrite (num_nodes_ok _ (so_csr _ _ _ H)) in Hk. injection Hk as <-. unfold csr_nodes. lia.
  - intros n Hn. pose proof (so_node_labels _ _ _ H n Hn) as Hx. rewrite Hl in Hx. done.
  - intros s t j Hj. pose proof (so_edge_labels _ _ _ H s t j Hj) as Hx. rewrite Hel in Hx. cbn [sg_evec]. by rewrite Hel.
Qed.
Definition st_loop : list (gop N N) := [OAddEdge 0 1 None; OAddEdge 1 1 None]%N.
Definition st_tri : list (gop N N) := [OAddEdge 0 1 None; OAddEdge 1 2 None; OAddEdge 0 2 None]%N.
Lemma st_new_of dir h k : fits_u8 dir h → (∀ n, a_has_node (sp_g (run_spec dir h)) n → (n < k)%N) → (k ≤ 200)%N → a_has_node (sp_g (run_spec dir h)) 0%N →
  forallb (λ n, bool_decide (a_has_node (sp_g (run_spec dir h)) (N.of_nat n))) (seq 0 (N.to_nat k)) = true →
  sp_nls (run_spec dir h) = [] → sp_els (run_spec dir h) = [] → 
  ∃ e in_e (g : sgraph N N), sg_new dir e in_e None None = Ok g ∧ arrays_of TU8 g (sp_g (run_spec dir h)) ∧ csr_tight (ev_offsets e) (ev_edges e) ∧
    ag_dir (sp_g (run_spec dir h)) = dir ∧ sg_evec g = e.
Proof.
  intros Hf Hids Hk H0 Hd Hnls Hels. destruct (run_view_all dir h Hf) as (H1 & _ & _ & _ & H2 & H3 & H4).
  cbn [v_node_label_map v_edge_label_map run_view gm_view] in H2, H3. rewrite Hnls in H2. rewrite Hels in H3.
  pose proof (rp_directed _ _ H1) as Hdir. simpl in Hdir.
  destruct (max_exists dir (run_gm dir h) _ _ H1 _ H0) as (max & Hmax & Hmn & Hle).
  assert (max < 200)%N as Hm2 by (apply Hids in Hmn; lia).
  assert (arrays_of TU8 (static_arrays TU8 dir (run_gm dir h) (S (N.to_nat max))) (sp_g (run_spec dir h))) as Ha.
  { apply (into_static_arrays TU8 dir (run_gm dir h) _ _ H1 max Hmax); [|by rewrite H2|by rewrite H3]. intros m. split; [apply Hle|]. intros Hm.
    destruct (decide (m = max)) as [-> |]; [done|]. apply (dense_of _ k Hids Hd max); [done|lia]. }
  destruct (rows_csr dir (run_gm dir h) _ _ H1 max Hmax) as (Hcsr & Htight & Hcn).
  set (sg := static_arrays TU8 dir (run_gm dir h) (S (N.to_nat max))) in *.
  assert (∃ g : sgraph N N, sg_new dir (sg_evec sg) (sg_in sg) None None = Ok g) as [g Hg].
  { unfold sg_new, sg_check_in, sg_counts. rewrite (num_nodes_ok _ (so_csr _ _ _ Ha)). cbn [rbind].
    destruct dir; [|by eexists]. unfold sg. cbn [sg_in static_arrays if_some rbind]. by eexists. }
  exists (sg_evec sg), (sg_in sg), g. split; [done|]. split; [|split; [exact Htight|split; [done|by apply new_counts_of in Hg as [? _]]]].
  apply (new_arrays TU8 sg); [done|..].
  - unfold sg. cbn [sg_labels static_arrays]. unfold has_nl. by rewrite H2.
  - unfold sg. cbn [sg_evec ev_label_vec static_arrays]. unfold has_el. by rewrite H3.
  - by rewrite <- Hdir.
Qed.
Lemma st_tri_case dir : ∃ e in_e (g : sgraph N N) A, sg_new dir e in_e None None = Ok g ∧ arrays_of TU8 g A ∧ csr_tight (ev_offsets e) (ev_edges e) ∧
  ag_dir A = dir ∧ a_num_edges A = 3 ∧ a_num_nodes A = 3 ∧ ∀ n, ¬ a_has_edge A n n.
Proof.
  destruct (st_new_of dir st_tri 3%N) as (e & in_e & g & H1 & H2 & H3 & H4 & _); [destruct dir; vm_compute; lia| |done|..].
  { apply (ids_of _ _); destruct dir; by vm_compute. }
  { apply (bool_decide_unpack _). destruct dir; by vm_compute. }
  1-3: destruct dir; by vm_compute.
  exists e, in_e, g, (sp_g (run_spec dir st_tri)). split_and!; try done; [destruct dir; by vm_compute..|].
  intros n He. pose proof (wf_edge_nodes _ _ _ (so_wf _ _ _ H2) He) as [Hn _]. revert n Hn He. 
  apply (ids_of _ (λ n, ¬ a_has_edge (sp_g (run_spec dir st_tri)) n n)). destruct dir; by vm_compute.
Qed.
Lemma st_loop_case : ∃ e in_e (g : sgraph N N) A, sg_new false e in_e None None = Ok g ∧ arrays_of TU8 g A ∧ csr_tight (ev_offsets e) (ev_edges e) ∧
  ag_dir A = false ∧ a_has_edge A 1 1 ∧ a_num_edges A = 2.
Proof.
  destruct (st_new_of false st_loop 2%N) as (e & in_e & g & H1 & H2 & H3 & H4 & _); [vm_compute; lia| |done|..].
  { apply (ids_of _ _); by vm_compute. }
  { apply (bool_decide_unpack _). by vm_compute. }
  1-3: by vm_compute.
  exists e, in_e, g, (sp_g (run_spec false st_loop)). split_and!; try done. apply (bool_decide_unpack _). by vm_compute.
Qed.
