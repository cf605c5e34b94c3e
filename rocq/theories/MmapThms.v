(** Theorems about mapped graphs: same answers, stale files, crashes. *)
From stdpp Require Import gmap strings.
From Verif Require Import Base BaseFacts Api Bytes Spec SpecStatic Map GraphMap Static StaticFacts Serde SpecSerde SerdeFacts Mmap SpecMmap MmapFacts MmapProps.

(** ** Same answers *)
Section answers.
  Context {NL EL : Type} (it lt : idty) (dir : bool).
  Implicit Types g : sgraph NL EL.
  Lemma norm_neighbors e n : ev_neighbors (norm_ev e) n = ev_neighbors e n. Proof. done. Qed.
  Lemma norm_find e s t : ev_find_edge_label_id (norm_ev e) s t = ev_find_edge_label_id e s t.
  Proof. unfold ev_find_edge_label_id. rewrite norm_labels. done. Qed.
  Section csr.
    Context (e : evec) (Hwf : csr_wf (ev_offsets e) (ev_edges e)).
    Lemma mm_has_edge_ok g s t : sg_evec g = e → (s < csr_nodes (ev_offsets e))%N →
      mm_has_edge g s t = Ok (bool_decide (t ∈ row (ev_offsets e) (ev_edges e) s)).
    Proof using Hwf.
      intros Hg Hs. unfold mm_has_edge. rewrite Hg, (neighbors_ok e Hwf s Hs). cbn [rbind].
      destruct (bsearch_spec (row (ev_offsets e) (ev_edges e) s) t (csr_sorted _ _ Hwf s)) as (r & -> & Hr). cbn [rbind]. f_equal.
      destruct r as [i|i]; simpl in Hr; symmetry.
      - apply bool_decide_eq_true. by apply elem_of_list_lookup_2 in Hr.
      - apply bool_decide_eq_false. destruct Hr as [_ Hr]. intros [j Hj]%elem_of_list_lookup_1.
        specialize (Hr j t Hj). destruct Hr as [H1 H2]. destruct (decide (j < i)); [apply H1 in l; lia|].
        assert (t < t)%N; [apply H2; lia|lia].
    Qed.
    Lemma mm_has_edge_panic g s t : sg_evec g = e → ¬ (s < csr_nodes (ev_offsets e))%N → mm_has_edge g s t = Panic.
    Proof using Hwf. intros Hg Hs. unfold mm_has_edge. by rewrite Hg, (neighbors_panic e Hwf s Hs). Qed.
    Lemma degree_length n : ev_degree e n = rmap length (ev_neighbors e n).
    Proof using Hwf.
      destruct (decide (n < csr_nodes (ev_offsets e))%N) as [Hn|Hn].
      - by rewrite (degree_ok e Hwf n Hn), (neighbors_ok e Hwf n Hn).
      - by rewrite (degree_panic e Hwf n Hn), (neighbors_panic e Hwf n Hn).
    Qed.
    Lemma neighbors_some n nb : ev_neighbors e n = Ok nb → (n < csr_nodes (ev_offsets e))%N.
    Proof using Hwf. intros Hn. destruct (decide (n < csr_nodes (ev_offsets e))%N) as [|H]; [done|]. by rewrite (neighbors_panic e Hwf n H) in Hn. Qed.
  End csr.
  Lemma norm_answers PN PE g : mappable it lt PN PE dir g → same_answers (sg_view it lt dir g) (mm_view it lt (norm_sg g)).
  Proof.
    intros [_ Hcsr _ Hin _ _ _].
    assert (mm_directed (norm_sg g) = dir) as Hd.
    { unfold mm_directed, norm_sg. cbn [sg_in]. destruct (sg_in g); simpl; [by destruct Hin as [-> _]|done]. }
    assert (∀ s t nb, ev_neighbors (sg_evec g) s = Ok nb → mm_has_edge (norm_sg g) s t = ev_has_edge (sg_evec g) s t) as Hhe.
    { intros s t nb Hs. apply (neighbors_some _ Hcsr) in Hs. rewrite (has_edge_ok _ Hcsr).
      by rewrite (mm_has_edge_ok (norm_ev (sg_evec g)) Hcsr (norm_sg g) s t eq_refl). }
    assert (∀ s t nb, ev_neighbors (sg_evec g) s = Ok nb → mm_get_edge lt (norm_sg g) s t = sg_get_edge lt g s t) as Hge.
    { intros s t nb Hs. unfold mm_get_edge, sg_get_edge. rewrite (Hhe s t nb Hs).
      cbn [norm_sg sg_evec]. by rewrite norm_find. }
    split; cbn [mm_view sg_view v_directed v_is_di v_node_count v_edge_count v_has_node v_has_edge v_get_node v_get_edge
      v_node_indices v_edge_indices v_nodes v_edges v_degree v_neighbors v_in_degree v_in_neighbors v_max_seen_id
      v_node_label_map v_edge_label_map].
    - done.
    - done.
    - done.
    - done.
    - intros s t nb Hs. by apply (Hhe s t nb).
    - intros s t nb Hs. split; [by apply (Hge s t nb)|]. unfold v_edge_label.
      cbn [mm_view sg_view v_get_edge v_edge_label_map]. by rewrite (Hge s t nb Hs).
    - rewrite Hd. done.
    - rewrite Hd. split; [done|]. unfold sg_edges. cbn [norm_sg sg_evec]. by rewrite norm_labels.
    - intros n. split; [done|]. unfold mm_degree. cbn [norm_sg sg_evec]. by rewrite (degree_length _ Hcsr).
    - intros ->. unfold mm_in_neighbors, sg_in_degree, sg_in_neighbors. cbn [norm_sg sg_in].
      destruct (sg_in g) as [e|]; [|done]. intros n. done.
    - done.
    - done.
  Qed.
End answers.

Section thms.
  Context {NL EL : Type} `{EqDecision NL, EqDecision EL} (it lt : idty) (cn : codec NL) (ce : codec EL).
  Context (PN : NL → Prop) (PE : EL → Prop) (Hcn : faithful cn PN) (Hce : faithful ce PE).
  Implicit Types g : sgraph NL EL.

  Lemma fresh_no_stale F p g : fresh_prefix F p → no_stale F p g.
  Proof using.
    clear Hcn Hce PN PE cn ce. intros Hf f Hin. unfold fresh_prefix in Hf. rewrite Forall_forall in Hf. unfold dump_parts in Hin.
    repeat (apply elem_of_cons in Hin as [Hin|Hin]; [apply (f_equal fst) in Hin; cbn [fst] in Hin; subst f; apply Hf; set_solver|]). by apply elem_of_nil in Hin.
  Qed.
  Lemma roundtrip dir g p F : mappable it lt PN PE dir g → no_stale F p g →
    ∃ m, mm_open it lt cn ce (sg_dump_mmap it lt cn ce g p F) p = Ok m ∧ same_answers (sg_view it lt dir g) (mm_view it lt m).
  Proof using Hcn Hce.
    intros Hg Hst. exists (norm_sg g). split; [by apply (open_dumped it lt cn ce PN PE Hcn Hce dir)|]. by apply (norm_answers it lt dir PN PE).
  Qed.
  (** Without edges the empty file cannot be mapped. *)
  Lemma open_no_edges g p F : ev_edges (sg_evec g) = [] → mm_open it lt cn ce (sg_dump_mmap it lt cn ce g p F) p = Panic.
  Proof using.
    intros He. destruct (dump_lookups_ok it lt cn ce g p F) as [D1 D2 _ _ _ _ _ _]. rewrite He in D2. unfold mm_open, ev_open.
    assert (∀ t f, typed_map t (sg_dump_mmap it lt cn ce g p F) f = Panic ∨ ∃ l, typed_map t (sg_dump_mmap it lt cn ce g p F) f = Ok l) as Hm.
    { intros t f. unfold typed_map, tm_new. destruct (_ !! f) as [b|]; [|by left]. cbn [unwrap rbind].
      destruct (decide (b = [])); [by left|]. destruct (decide (id_size t = 0)); [by left|]. cbn [rbind]. unfold tm_full, raw_parts.
      destruct (decide _); [right; by eexists|by left]. }
    destruct (Hm TUsize (f_offsets (p_out p))) as [->|[l ->]]; [done|]. cbn [rbind].
    rewrite (typed_map_empty it _ _ D2). done.
  Qed.
  (** The mapped graph panics where the static graph answers. *)
  Lemma open_missing_start dir g p F s t : mappable it lt PN PE dir g → no_stale F p g → v_neighbors (sg_view it lt dir g) s = Panic →
    v_has_edge (sg_view it lt dir g) s t = Ok false ∧
    ∃ m, mm_open it lt cn ce (sg_dump_mmap it lt cn ce g p F) p = Ok m ∧ v_has_edge (mm_view it lt m) s t = Panic.
  Proof using Hcn Hce.
    intros Hg Hst Hs. cbn [sg_view v_neighbors v_has_edge] in *. pose proof (mp_csr _ _ _ _ _ _ Hg) as Hcsr.
    assert (¬ (s < csr_nodes (ev_offsets (sg_evec g)))%N) as Hn. { intros Hn. by rewrite (neighbors_ok _ Hcsr s Hn) in Hs. }
    split.
    - rewrite (has_edge_ok _ Hcsr). f_equal. apply bool_decide_eq_false. rewrite row_out; [set_solver|done].
    - exists (norm_sg g). split; [by apply (open_dumped it lt cn ce PN PE Hcn Hce dir)|]. cbn [mm_view v_has_edge].
      by apply (mm_has_edge_panic (norm_ev (sg_evec g)) Hcsr).
  Qed.

  (** ** Dumping twice *)
  Lemma same_parts_no_stale F p g g' : fresh_prefix F p → same_parts g g' → no_stale (sg_dump_mmap it lt cn ce g p F) p g'.
  Proof.
    intros Hf (S1 & S2 & S3 & S4) f Hin. pose proof (fresh_no_stale F p g Hf) as Hst.
    destruct (dump_lookups_ok it lt cn ce g p F) as [D1 D2 D3 D4 D5 D6 D7 D8].
    assert (∀ e, has_edge_labels e = match ev_labels e with [] => false | _ => true end) as Hl.
    { intros e. unfold has_edge_labels, ev_labels. by destruct (ev_label_vec e) as [[|]|]. }
    unfold fresh_prefix in Hf. rewrite Forall_forall in Hf.
    unfold dump_parts in Hin. rewrite <-S1, <-S2, <-S3 in Hin. rewrite Hl in Hin.
    repeat (apply elem_of_cons in Hin as [Hin|Hin]; [pose proof (f_equal snd Hin) as Hb; apply (f_equal fst) in Hin; cbn [fst snd] in Hin, Hb; subst f; try done|]);
      [ | | | | |by apply elem_of_nil in Hin].
    - rewrite <-n_out_labels, D3. destruct (ev_labels (sg_evec g)); [|done]. rewrite n_out_labels. apply Hf. set_solver.
    - rewrite <-n_in_offsets, D4. destruct (sg_in g); [done|]. rewrite n_in_offsets. apply Hf. set_solver.
    - rewrite <-n_in_edges, D5. destruct (sg_in g); [done|]. rewrite n_in_edges. apply Hf. set_solver.
    - rewrite <-n_in_labels, D6. destruct (sg_in g) as [e|], (sg_in g') as [e'|]; [|done| |].
      + rewrite <-S4, Hl in Hb. destruct (ev_labels e); [|done]. rewrite n_in_labels. apply Hf. set_solver.
      + rewrite n_in_labels. apply Hf. set_solver.
      + rewrite n_in_labels. apply Hf. set_solver.
    - rewrite <-n_labels, D7. destruct (sg_labels g); [done|]. rewrite n_labels. apply Hf. set_solver.
  Qed.
  Lemma overwrite dir g g' p F : mappable it lt PN PE dir g' → fresh_prefix F p → same_parts g g' →
    ∃ m, mm_open it lt cn ce (sg_dump_mmap it lt cn ce g' p (sg_dump_mmap it lt cn ce g p F)) p = Ok m ∧
      same_answers (sg_view it lt dir g') (mm_view it lt m).
  Proof using Hcn Hce. intros Hg Hf Hs. apply (roundtrip dir); [done|]. by apply same_parts_no_stale. Qed.

  (** ** Crashes *)
  Definition op_file (o : fsop) : string := match o with FCreate f | FWrite f _ => f end.
  Lemma run_other F ops f : f ∉ op_file <$> ops → fs_run F ops !! f = F !! f.
  Proof.
    revert F. induction ops as [|o ops IH]; intros F Hf; [done|]. rewrite fmap_cons in Hf. apply not_elem_of_cons in Hf as [H1 H2].
    change (fs_run (fs_step F o) ops !! f = F !! f). rewrite IH by done. destruct o; cbn [fs_step op_file] in *; by apply lookup_insert_ne.
  Qed.
  Lemma dump_ops_file f b o : o ∈ dump_ops f b → op_file o = f.
  Proof.
    unfold dump_ops. intros [->|Ho]%elem_of_cons; [done|]. apply elem_of_list_fmap in Ho as (x & -> & _). done.
  Qed.
  Lemma ev_ops_file e p o : o ∈ ev_dump_ops it lt e p → op_file o ∈ [f_offsets p; f_edges p; f_labels p].
  Proof.
    unfold ev_dump_ops. rewrite !elem_of_app. intros [Ho|[Ho|Ho]].
    - apply dump_ops_file in Ho as ->. set_solver.
    - apply dump_ops_file in Ho as ->. set_solver.
    - destruct (ev_labels e); [by apply elem_of_nil in Ho|]. apply dump_ops_file in Ho as ->. set_solver.
  Qed.
  Definition pre_ops g p : list fsop :=
    ev_dump_ops it lt (sg_evec g) (p_out p) ++
    match sg_in g with Some e => ev_dump_ops it lt e (p_in p) | None => [] end ++
    match sg_labels g with Some ls => dump_ops (f_labels p) (typed_bytes lt ls) | None => [] end.
  Lemma ops_split g p : sg_dump_ops it lt cn ce g p = pre_ops g p ++ export_ops (f_aux p) (aux_bytes cn ce g).
  Proof. unfold sg_dump_ops, pre_ops. by rewrite <-!app_assoc. Qed.
  Lemma pre_no_aux g p o : o ∈ pre_ops g p → op_file o ≠ f_aux p.
  Proof.
    unfold pre_ops. rewrite !elem_of_app. intros [Ho|[Ho|Ho]].
    - apply ev_ops_file in Ho. repeat (apply elem_of_cons in Ho as [->|Ho]; [name_ne|]). by apply elem_of_nil in Ho.
    - destruct (sg_in g); [|by apply elem_of_nil in Ho]. apply ev_ops_file in Ho. repeat (apply elem_of_cons in Ho as [->|Ho]; [name_ne|]). by apply elem_of_nil in Ho.
    - destruct (sg_labels g); [|by apply elem_of_nil in Ho]. apply dump_ops_file in Ho as ->. name_ne.
  Qed.
  Lemma no_aux_run F ops p : (∀ o, o ∈ ops → op_file o ≠ f_aux p) → F !! f_aux p = None → fs_run F ops !! f_aux p = None.
  Proof. intros Ho HF. rewrite run_other; [done|]. intros (o & Hf & Hin)%elem_of_list_fmap. by apply (Ho o). Qed.
  (** A crash that left the auxiliary file: everything before it is complete. *)
  Lemma crash_aux F g p F' b : F !! f_aux p = None → crash_state F (sg_dump_ops it lt cn ce g p) F' → F' !! f_aux p = Some b →
    b `prefix_of` aux_bytes cn ce g ∧ F' = <[f_aux p := b]> (fs_run F (pre_ops g p)).
  Proof.
    intros HF (dn & rest & Hops & Hst) Hb. rewrite ops_split in Hops. symmetry in Hops.
    assert (∀ o, o ∈ pre_ops g p → op_file o ≠ f_aux p) as Hpre by apply pre_no_aux.
    assert (∀ F1 : fs, fs_run F1 (export_ops (f_aux p) (aux_bytes cn ce g)) = <[f_aux p := aux_bytes cn ce g]> F1) as Hexp by (intros; apply export_run).
    destruct (app_eq_app _ _ _ _ Hops) as (l & [[-> Hr]|[Hpr Hr]]).
    - (* all of the earlier operations are done *)
      unfold export_ops in Hr. destruct l as [|o1 l]; [|destruct l as [|o2 l]].
      + rewrite app_nil_r in *. cbn [app] in Hr. subst rest. destruct Hst as [->|(f & b1 & b2 & rest' & [=] & _)].
        rewrite no_aux_run in Hb; done.
      + injection Hr as <- <-. destruct Hst as [->|(f & b1 & b2 & rest' & [= <- <- <-] & Hp & ->)].
        * rewrite run_app in *. unfold fs_run at 1 in Hb. cbn [foldl fs_step] in Hb. rewrite lookup_insert in Hb. injection Hb as <-.
          split; [apply prefix_nil|done].
        * rewrite !run_app in *. unfold fs_run at 1 in Hb. unfold fs_run at 1 in Hb. cbn [foldl fs_step] in Hb. rewrite !lookup_insert in Hb.
          cbn [default from_option id app] in Hb. simpl in Hb. injection Hb as <-. split; [done|]. unfold fs_run at 1 2. cbn [foldl fs_step].
          rewrite lookup_insert, insert_insert. done.
      + injection Hr as <- <- Hr. symmetry in Hr. apply app_eq_nil in Hr as [-> ->]. destruct Hst as [->|(f & b1 & b2 & rest' & [=] & _)].
        change (pre_ops g p ++ [FCreate (f_aux p); FWrite (f_aux p) (aux_bytes cn ce g)]) with
          (pre_ops g p ++ export_ops (f_aux p) (aux_bytes cn ce g)) in *.
        rewrite run_app, Hexp in *. rewrite lookup_insert in Hb. injection Hb as <-. done.
    - exfalso. destruct Hst as [->|(f & b1 & b2 & rest' & Hrest & _ & ->)].
      + rewrite no_aux_run in Hb; [done| |done]. intros o Ho. apply Hpre. rewrite Hpr. set_solver.
      + destruct l as [|o l]; [by rewrite Hrest in Hr|]. rewrite Hrest in Hr. injection Hr as <- _.
        rewrite no_aux_run in Hb; [done| |done]. intros o [Ho|Ho]%elem_of_app.
        * apply Hpre. rewrite Hpr. set_solver.
        * apply elem_of_list_singleton in Ho as ->. cbn [op_file]. apply (Hpre (FWrite f b1)). rewrite Hpr. set_solver.
  Qed.
  Lemma no_aux_no_graph F p : fs_exists F (f_aux p) = true → import (c_aux cn ce) (f_aux p) F = None → ∀ m, mm_open it lt cn ce F p ≠ Ok m.
  Proof.
    intros H1 H2 m. unfold mm_open. rewrite H1, H2. destruct (ev_open it lt F (p_out p)); [|done|done]. cbn [rbind].
    destruct (if fs_exists F (f_offsets (p_in p)) then _ else _); [|done|done]. cbn [rbind].
    destruct (if fs_exists F (f_labels p) then _ else _); done.
  Qed.
  Lemma crash_detected dir g p F F' m : mappable it lt PN PE dir g → fresh_prefix F p →
    crash_state F (sg_dump_ops it lt cn ce g p) F' → is_Some (F' !! (p +:+ "_aux.bin")) →
    mm_open it lt cn ce F' p = Ok m → same_answers (sg_view it lt dir g) (mm_view it lt m).
  Proof using Hcn Hce.
    intros Hg Hf Hc [b Hb] Hm. rewrite <-n_aux in Hb.
    assert (F !! f_aux p = None) as HF. { unfold fresh_prefix in Hf. rewrite Forall_forall in Hf. rewrite n_aux. apply Hf. set_solver. }
    destruct (crash_aux F g p F' b HF Hc Hb) as [Hp HF'].
    destruct (decide (b = aux_bytes cn ce g)) as [->|Hne].
    - assert (F' = sg_dump_mmap it lt cn ce g p F) as ->.
      { unfold sg_dump_mmap. rewrite ops_split, run_app, export_run. done. }
      rewrite (open_dumped it lt cn ce PN PE Hcn Hce dir g p F Hg (fresh_no_stale F p g Hf)) in Hm. injection Hm as <-.
      by apply (norm_answers it lt dir PN PE).
    - exfalso. eapply (no_aux_no_graph F' p); [|  |exact Hm].
      + unfold fs_exists. by rewrite Hb.
      + eapply import_cut; [apply (proj2 (SerdeFacts.f_aux cn ce PN PE Hcn Hce))| |exact Hb|exact Hp|exact Hne].
        destruct (mp_typed _ _ _ _ _ _ Hg) as [[? ?] _ _ _ ? ?]. done.
  Qed.
  (** A crash before the first edge is in its file. *)
  Lemma crash_early F p : F !! (p +:+ "_OUT.edges") = None ∨ F !! (p +:+ "_OUT.edges") = Some [] → ∀ m, mm_open it lt cn ce F p ≠ Ok m.
  Proof using.
    intros Hf m. rewrite <-n_out_edges in Hf. unfold mm_open, ev_open. destruct (typed_map TUsize F (f_offsets (p_out p))); [|done|done]. cbn [rbind].
    assert (typed_map it F (f_edges (p_out p)) = Panic) as ->; [|done].
    destruct Hf; [by apply typed_map_missing|by apply typed_map_empty].
  Qed.
End thms.
