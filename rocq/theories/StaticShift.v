(** What edges() of a static graph shows for any direction. *)
From Verif Require Import Base BaseFacts Api Spec SpecFacts ViewFacts SpecStatic Static StaticFacts SpecSGraph StaticProps
  Map GraphMap IntoStatic StaticMore IntoStaticProps TraverseProps GraphMapThms StaticWit.

Lemma lex_lt_irrefl e : ¬ lex_lt e e.
Proof. unfold lex_lt. destruct e; cbn. lia. Qed.
Lemma edges_any {NL EL} it lt dir (g : sgraph NL EL) :
  csr_wf (ev_offsets (sg_evec g)) (ev_edges (sg_evec g)) → (csr_nodes (ev_offsets (sg_evec g)) < id_card it)%N →
  csr_tight (ev_offsets (sg_evec g)) (ev_edges (sg_evec g)) → length (ev_labels (sg_evec g)) = length (ev_edges (sg_evec g)) →
  let V := sg_view it lt dir g in
  ∃ es l all, v_edge_indices V = Ok es ∧ v_edges V = Ok l ∧
    StronglySorted lex_lt all.*1 ∧ (∀ s t, (s, t) ∈ all.*1 ↔ v_has_edge V s t = Ok true) ∧
    (∀ s t lid, (s, t, lid) ∈ all → v_get_edge V s t = Ok (Some (s, t, lid))) ∧
    l = zip es all.*2 ∧ l.*1 = es ∧ length es ≤ length all.
Proof.
  intros Hc Hfit Ht Hlen V.
  destruct (edges_thm it lt true g Hc Hfit) as (es' & all & He' & Ha & Hfst & Hget); [by left|].
  destruct (ei_all_spec it true _ Hc Hfit) as (es1 & Hes1 & Hsort & Hin1).
  destruct (ei_all_spec it dir _ Hc Hfit) as (es & Hes & Hsort2 & Hin).
  change (v_edge_indices (sg_view it lt true g)) with (ei_all it true (sg_evec g)) in He'. rewrite Hes1 in He'. injection He' as ->.
  assert (NoDup es) as Hnd. { clear -Hsort2. induction Hsort2 as [|x l Hs IH Hf]; constructor; [|done]. intros Hx. rewrite Forall_forall in Hf. by apply Hf, lex_lt_irrefl in Hx. }
  assert (length es ≤ length es') as Hle.
  { apply submseteq_length, NoDup_submseteq; [done|]. intros [s t]. rewrite Hin, Hin1. tauto. }
  assert (length all = length es') as Hal by (by rewrite <-Hfst, fmap_length).
  change (v_edges (sg_view it lt true g)) with (sg_edges it lt true g) in Ha. unfold sg_edges, sg_edge_indices in Ha. rewrite Hes1 in Ha. cbn [rbind] in Ha.
  change (v_edges V) with (sg_edges it lt dir g). change (v_edge_indices V) with (ei_all it dir (sg_evec g)). unfold sg_edges, sg_edge_indices. rewrite Hes. cbn [rbind].
  eexists es, _, all. split; [done|]. split; [done|]. split; [by rewrite Hfst|]. split.
  { intros s t. rewrite Hfst, Hin1. cbn [V sg_view v_has_edge]. rewrite (has_edge_ok _ Hc). split.
    - intros [H _]. f_equal. by apply bool_decide_true.
    - intros [= H]. apply bool_decide_eq_true in H. split; [done|by left]. }
  split; [exact Hget|].
  assert (match ev_labels (sg_evec g) with
    | [] => (λ e : N * N, (e, None)) <$> es
    | labels => (λ p, (p.1, static_label lt p.2)) <$> zip es labels
    end = zip es all.*2) as E.
  { injection Ha as Ha. destruct (ev_labels (sg_evec g)) as [|x labels].
    - rewrite <-Ha, <-list_fmap_compose. clear -Hle. revert es' Hle. induction es as [|e es IH]; intros [|e' es'] Hle; [done|done|cbn in Hle; lia|].
      cbn. f_equal. apply IH. cbn in Hle. lia.
    - clear -Ha Hle Hal. set (ls := x :: labels) in *. clearbody ls. clear x labels. subst all. rewrite fmap_length, zip_with_length in Hal.
      revert es' ls Hle Hal. induction es as [|e es IH]; intros [|e' es'] [|x ls] Hle Hal; cbn in *; try done; try lia.
      f_equal. apply IH; lia. }
  rewrite E. split; [done|]. split; [|lia]. apply fst_zip. rewrite fmap_length. lia.
Qed.
Lemma edges_uniform {NL EL} it lt dir (g : sgraph NL EL) i :
  csr_wf (ev_offsets (sg_evec g)) (ev_edges (sg_evec g)) → (csr_nodes (ev_offsets (sg_evec g)) < id_card it)%N →
  csr_tight (ev_offsets (sg_evec g)) (ev_edges (sg_evec g)) → length (ev_labels (sg_evec g)) = length (ev_edges (sg_evec g)) →
  let V := sg_view it lt dir g in
  (∀ s t lid, v_get_edge V s t = Ok (Some (s, t, lid)) → lid = i) →
  ∃ es l, v_edge_indices V = Ok es ∧ v_edges V = Ok l ∧ l.*1 = es ∧
    ∀ s t lid, (s, t, lid) ∈ l → v_get_edge V s t = Ok (Some (s, t, lid)).
Proof.
  intros Hc Hfit Ht Hlen V Hi. destruct (edges_any it lt dir g Hc Hfit Ht Hlen) as (es & l & all & H1 & H2 & H3 & H4 & H5 & H6 & H7 & H8).
  exists es, l. split; [exact H1|]. split; [exact H2|]. split; [exact H7|]. intros s t lid Hin.
  assert (lid = i) as ->.
  { rewrite H6 in Hin. apply elem_of_zip_r in Hin. apply elem_of_list_fmap in Hin as ([[a b] c] & -> & Hc'). by apply (Hi a b), H5. }
  assert ((s, t) ∈ es) as Hes by (rewrite <-H7; apply elem_of_list_fmap; by exists (s, t, i)).
  destruct (ei_all_spec it dir _ Hc Hfit) as (es1 & Hes1 & _ & Hin1).
  assert (ei_all it dir (sg_evec g) = Ok es) as H1' by exact H1. rewrite Hes1 in H1'. injection H1' as ->. apply Hin1 in Hes as [Hr _].
  apply elem_of_list_lookup in Hr as [k Hk]. pose proof (get_edge_row lt g Hc s t k Hk) as Hg.
  destruct (v_get_edge V s t) as [[[[a b] c]|]| |] eqn:E; cbn [V sg_view v_get_edge] in E; rewrite Hg in E; try done.
  injection E as <- <- E. f_equal. f_equal. f_equal. apply (Hi s t). cbn [V sg_view v_get_edge]. rewrite Hg. by rewrite E.
Qed.
(** The path 0 - 1 - 2 with labels 5 and 6: the edge (1, 2) is shown with the label of (1, 0). *)
Definition one_label : sgraph N N := SGraph 3 2 (EV [0; 1; 3; 4] [1; 0; 2; 1]%N (Some [0; 0; 0; 0]%N)) None None [] [5]%N.
Lemma path_csr : csr_wf [0; 1; 3; 4] [1; 0; 2; 1]%N ∧ csr_tight [0; 1; 3; 4] [1; 0; 2; 1]%N ∧ csr_nodes [0; 1; 3; 4] = 3%N.
Proof.
  change [0; 1; 3; 4] with (psums 0 (length <$> [[1]; [0; 2]; [1]]%N)). change [1; 0; 2; 1]%N with (mjoin [[1]; [0; 2]; [1]]%N).
  change 3%N with (N.of_nat (length [[1]; [0; 2]; [1]]%N)). apply csr_of_rows. intros i r Hi.
  do 3 (destruct i as [|i]; [injection Hi as <-; split; [repeat constructor|]; intros t Ht; set_unfold in Ht; simpl; lia|]). done.
Qed.
Lemma one_label_case : let V := sg_view TU8 TU8 false one_label in
  csr_wf (ev_offsets (sg_evec one_label)) (ev_edges (sg_evec one_label)) ∧ (csr_nodes (ev_offsets (sg_evec one_label)) < id_card TU8)%N ∧
  csr_tight (ev_offsets (sg_evec one_label)) (ev_edges (sg_evec one_label)) ∧ length (ev_labels (sg_evec one_label)) = length (ev_edges (sg_evec one_label)) ∧
  (∀ s t lid, v_get_edge V s t = Ok (Some (s, t, lid)) → lid = Some 0%N) ∧
  v_edges V = Ok [(0, 1, Some 0); (1, 2, Some 0)]%N.
Proof.
  destruct path_csr as (C1 & C2 & C3). cbv zeta. split; [exact C1|]. split; [by cbn [one_label sg_evec ev_offsets]; rewrite C3|]. split; [exact C2|]. split; [reflexivity|].
  split; [|vm_compute; reflexivity]. intros s t lid. cbn [sg_view v_get_edge]. intros Hg.
  assert (t ∈ row [0; 1; 3; 4] [1; 0; 2; 1]%N s) as Hr.
  { unfold sg_get_edge in Hg. rewrite (has_edge_ok (sg_evec one_label) C1) in Hg. cbn [rbind] in Hg. by destruct (bool_decide_reflect (t ∈ row (ev_offsets (sg_evec one_label)) (ev_edges (sg_evec one_label)) s)). }
  apply elem_of_list_lookup in Hr as [k Hk]. rewrite (get_edge_row TU8 one_label C1 s t k Hk) in Hg. injection Hg as <-.
  cbn [one_label sg_evec ev_offsets ev_labels ev_label_vec default from_option]. revert Hk. unfold row.
  destruct (N.to_nat s) as [|[|[|[|i]]]]; cbn; try done; destruct k as [|[|k]]; cbn; done.
Qed.
Lemma shift_case : ∃ (g : graphmap N N) sg, gm_reachable false TU8 g ∧ gm_into_static TU8 TU8 false g = Ok sg ∧
  csr_wf (ev_offsets (sg_evec sg)) (ev_edges (sg_evec sg)) ∧ (csr_nodes (ev_offsets (sg_evec sg)) < id_card TU8)%N ∧
  csr_tight (ev_offsets (sg_evec sg)) (ev_edges (sg_evec sg)) ∧ length (ev_labels (sg_evec sg)) = length (ev_edges (sg_evec sg)) ∧
  v_edge_indices (sg_view TU8 TU8 false sg) = Ok [(0, 1); (1, 2)]%N ∧
  v_edges (sg_view TU8 TU8 false sg) = Ok [(0, 1, Some 0); (1, 2, Some 0)]%N ∧
  v_edges (sg_view TU8 TU8 true sg) = Ok [(0, 1, Some 0); (1, 0, Some 0); (1, 2, Some 1); (2, 1, Some 1)]%N.
Proof.
  assert (fits_u8 false st_path) as Hf by (vm_compute; lia).
  destruct (run_view_all false st_path Hf) as (_ & _ & _ & _ & _ & _ & H4).
  exists (run_gm false st_path), (SGraph 3 2 (EV [0; 1; 3; 4] [1; 0; 2; 1]%N (Some [0; 0; 1; 1]%N)) None None [] [5; 6]%N).
  split; [exact H4|]. split; [vm_compute; reflexivity|]. cbn [sg_evec ev_offsets ev_edges].
  destruct path_csr as (C1 & C2 & C3).
  split; [exact C1|]. split; [by rewrite C3|]. split; [exact C2|]. split; [reflexivity|]. split; [vm_compute; reflexivity|].
  split; vm_compute; reflexivity.
Qed.
