(** Facts about edits of a static graph. *)
From Verif Require Import Base BaseFacts Api Map MapFacts Static SpecSGraph StaticEdit.

Section edit.
  Context {NL EL : Type} `{EqDecision NL, EqDecision EL} (it lt : idty) (dir : bool).
  Implicit Types g : sgraph NL EL.
  Local Notation V := (sg_view it lt dir).

  Lemma ss_refl (W : gview NL EL) : same_structure W W.
  Proof. by constructor. Qed.
  Lemma ss_trans (W1 W2 W3 : gview NL EL) : same_structure W1 W2 → same_structure W2 W3 → same_structure W1 W3.
  Proof.
    intros [? ? ? ? ? ? ? ? ? ? ?] [? ? ? ? ? ? ? ? ? ? ?]. constructor; try (intros; etransitivity; eauto; fail).
    - naive_solver congruence.
    - naive_solver congruence.
  Qed.
  Lemma edit_structure o g g' : o ≠ EClear → o ≠ EClearIn → sg_edit o g = Ok g' → same_structure (V g) (V g').
  Proof.
    intros H1 H2. destruct g as [nn ne ev iv ls nlm elm]. destruct o as [m|m|ls'|i l| | | |]; cbn; [..|].
    - destruct (sm_step nlm m) as [[? m']| |]; [|done..]. intros [= <-]. by constructor.
    - destruct (sm_step elm m) as [[? m']| |]; [|done..]. intros [= <-]. by constructor.
    - intros [= <-]. by constructor.
    - destruct ls as [v|]; [|done]. cbn. destruct (decide _); [|done]. intros [= <-]. by constructor.
    - intros [= <-]. by constructor.
    - done.
    - destruct iv as [e|]; [|done]. cbn. intros [= <-]. by constructor.
    - done.
  Qed.
  Lemma edits_structure h g g' : Forall (λ o, o ≠ EClear ∧ o ≠ EClearIn) h → sg_edits h g = Ok g' → same_structure (V g) (V g').
  Proof.
    intros Hh. revert g. unfold sg_edits. induction Hh as [|o h [H1 H2] Hh IH]; intros g; cbn.
    - intros [= <-]. apply ss_refl.
    - destruct (sg_edit o g) as [g1| |] eqn:H3; [|done..]. cbn. intros Hr. eapply ss_trans; [by eapply edit_structure|by apply IH].
  Qed.

  (** Labels are shown through the map. *)
  Lemma map_add {A} `{EqDecision A} (m : list A) (x : A) : sm_step m (MAdd x) = Ok (MIdx (default (length m) (is_get_full m x)), if decide (x ∈ m) then m else m ++ [x]).
  Proof.
    cbn. unfold sm_add_item, is_insert, is_contains. destruct (decide (x ∈ m)) as [Hx|Hx].
    - rewrite bool_decide_eq_true_2 by done. destruct (is_get_full m x) as [i|] eqn:Hi; [done|]. exfalso. by apply get_full_None in Hi.
    - rewrite !bool_decide_eq_false_2 by done. unfold sm_len. rewrite app_length. cbn.
      destruct (is_get_full m x) as [i|] eqn:Hi; [|rewrite usub_ok by lia; cbn; do 3 f_equal; lia]. exfalso. apply get_full_Some in Hi. apply Hx. by eapply elem_of_list_lookup_2.
  Qed.
  Lemma add_lookup {A} `{EqDecision A} (m m' : list A) (x : A) out i : sm_step m (MAdd x) = Ok (out, m') →
    (∀ y, m !! i = Some y → m' !! i = Some y) ∧ (m' !! i ≠ m !! i → x ∉ m ∧ i = length m ∧ m' !! i = Some x).
  Proof.
    rewrite map_add. intros [= _ <-]. destruct (decide (x ∈ m)) as [Hx|Hx]; [done|]. split.
    - intros y Hy. by apply lookup_app_l_Some.
    - intros Hi. destruct (decide (i < length m)) as [Hl|Hl]; [by rewrite lookup_app_l in Hi|].
      rewrite lookup_app_r in Hi |- * by lia. rewrite (lookup_ge_None_2 m) in Hi by lia. split; [done|].
      destruct (i - length m) as [|k] eqn:Hk; [|done]. split; [lia|done].
  Qed.
  Lemma pop_lookup {A} `{EqDecision A} (m m' : list A) (x : A) out i : NoDup m → last m = Some x → sm_step m MPop = Ok (out, m') →
    (m !! i = Some x → m' !! i = None) ∧ (m !! i ≠ Some x → m' !! i = m !! i).
  Proof.
    intros Hn Hx. cbn. intros [= _ <-]. apply last_Some in Hx as [l ->]. rewrite app_length. cbn.
    replace (length l + 1 - 1) with (length l) by lia. rewrite take_app. split.
    - intros Hi. destruct (decide (i < length l)) as [Hl|Hl]; [|by apply lookup_ge_None_2; lia].
      assert (i = length l) as ->; [|lia]. eapply NoDup_lookup; [exact Hn|exact Hi|]. by rewrite list_lookup_middle.
    - intros Hi. destruct (decide (i < length l)) as [Hl|Hl]; [by rewrite lookup_app_l|]. rewrite lookup_app_r in Hi |- * by lia.
      rewrite (lookup_ge_None_2 l) by lia. destruct (i - length l) as [|k]; [by destruct Hi|done].
  Qed.

  (** Editing the map of node labels. *)
  Lemma node_map_rest o g g' : sg_edit (ENodeMap o) g = Ok g' →
    same_edge_labels (V g) (V g') ∧ (∀ n, v_get_node (V g') n = v_get_node (V g) n) ∧ v_nodes (V g') = v_nodes (V g) ∧
    ∃ out, sm_step (sg_nlm g) o = Ok (out, sg_nlm g').
  Proof.
    destruct g as [nn ne ev iv ls nlm elm]. cbn. destruct (sm_step nlm o) as [[out m']| |]; [|done..]. intros [= <-]. split; [done|]. split; [done|]. split; [done|]. by exists out.
  Qed.
  Lemma edge_map_rest o g g' : sg_edit (EEdgeMap o) g = Ok g' →
    same_node_labels (V g) (V g') ∧ (∀ s t, v_get_edge (V g') s t = v_get_edge (V g) s t) ∧ v_edges (V g') = v_edges (V g) ∧
    ∃ out, sm_step (sg_elm g) o = Ok (out, sg_elm g').
  Proof.
    destruct g as [nn ne ev iv ls nlm elm]. cbn. destruct (sm_step elm o) as [[out m']| |]; [|done..]. intros [= <-]. split; [done|]. split; [done|]. split; [done|]. by exists out.
  Qed.
  Lemma add_node_label x g : ∃ g', sg_edit (ENodeMap (MAdd x)) g = Ok g' ∧
    same_edge_labels (V g) (V g') ∧ (∀ n, v_get_node (V g') n = v_get_node (V g) n) ∧ v_nodes (V g') = v_nodes (V g) ∧
    ∀ n, (∀ y, v_node_label (V g) n = Ok (Some y) → v_node_label (V g') n = Ok (Some y)) ∧
      (v_node_label (V g') n ≠ v_node_label (V g) n → x ∉ sg_nlm g ∧ v_node_label (V g') n = Ok (Some x) ∧
        v_get_node (V g) n = Ok (Some (n, Some (N.of_nat (length (sg_nlm g)))))).
  Proof.
    assert (∃ g', sg_edit (ENodeMap (MAdd x)) g = Ok g') as [g' Hg]. { destruct g. cbn [sg_edit]. rewrite map_add. by eexists. }
    exists g'. split; [done|]. destruct (node_map_rest _ g g' Hg) as (H1 & H2 & H3 & out & Hm). split; [done|]. split; [done|]. split; [done|].
    intros n. unfold v_node_label. rewrite H2. change (v_node_label_map (V g')) with (sg_nlm g'). change (v_node_label_map (V g)) with (sg_nlm g).
    destruct (v_get_node (V g) n) as [[[n' [i|]]|]| |] eqn:Hn; cbn [rbind]; try done.
    destruct (add_lookup _ _ _ _ (id_id i) Hm) as [Ha Hb]. split; [intros y [= Hy]; by rewrite (Ha y Hy)|].
    intros Hne. destruct Hb as (Hb1 & Hb2 & Hb3); [congruence|]. split; [done|]. split; [by rewrite Hb3|]. unfold id_id in Hb2. rewrite <-Hb2, N2Nat.id.
    cbn in Hn. unfold sg_get_node in Hn. destruct (negb _); [done|]. destruct (sg_labels g) as [v|]; [|done]. destruct (v !! id_id n); [|done]. cbn in Hn. by injection Hn as -> _.
  Qed.
  Lemma pop_node_label x g : NoDup (sg_nlm g) → last (sg_nlm g) = Some x → ∃ g', sg_edit (ENodeMap MPop) g = Ok g' ∧
    same_edge_labels (V g) (V g') ∧ (∀ n, v_get_node (V g') n = v_get_node (V g) n) ∧ v_nodes (V g') = v_nodes (V g) ∧
    ∀ n, (v_node_label (V g) n = Ok (Some x) → v_node_label (V g') n = Ok None) ∧
      (v_node_label (V g) n ≠ Ok (Some x) → v_node_label (V g') n = v_node_label (V g) n).
  Proof.
    intros Hnd Hx. assert (∃ g', sg_edit (ENodeMap MPop) g = Ok g') as [g' Hg]. { destruct g. by eexists. }
    exists g'. split; [done|]. destruct (node_map_rest _ g g' Hg) as (H1 & H2 & H3 & out & Hm). split; [done|]. split; [done|]. split; [done|].
    intros n. unfold v_node_label. rewrite H2. change (v_node_label_map (V g')) with (sg_nlm g'). change (v_node_label_map (V g)) with (sg_nlm g).
    destruct (v_get_node (V g) n) as [[[n' [i|]]|]| |]; cbn [rbind]; try done.
    destruct (pop_lookup _ _ _ _ (id_id i) Hnd Hx Hm) as [Ha Hb]. split; [intros [= Hy]; by rewrite Ha|]. intros Hne. rewrite Hb; [done|congruence].
  Qed.
  Lemma add_edge_label x g : ∃ g', sg_edit (EEdgeMap (MAdd x)) g = Ok g' ∧
    same_node_labels (V g) (V g') ∧ (∀ s t, v_get_edge (V g') s t = v_get_edge (V g) s t) ∧ v_edges (V g') = v_edges (V g) ∧
    ∀ s t, (∀ y, v_edge_label (V g) s t = Ok (Some y) → v_edge_label (V g') s t = Ok (Some y)) ∧
      (v_edge_label (V g') s t ≠ v_edge_label (V g) s t → x ∉ sg_elm g ∧ v_edge_label (V g') s t = Ok (Some x) ∧
        v_get_edge (V g) s t = Ok (Some (s, t, Some (N.of_nat (length (sg_elm g)))))).
  Proof.
    assert (∃ g', sg_edit (EEdgeMap (MAdd x)) g = Ok g') as [g' Hg]. { destruct g. cbn [sg_edit]. rewrite map_add. by eexists. }
    exists g'. split; [done|]. destruct (edge_map_rest _ g g' Hg) as (H1 & H2 & H3 & out & Hm). split; [done|]. split; [done|]. split; [done|].
    intros s t. unfold v_edge_label. rewrite H2. change (v_edge_label_map (V g')) with (sg_elm g'). change (v_edge_label_map (V g)) with (sg_elm g).
    destruct (v_get_edge (V g) s t) as [[[[s' t'] [i|]]|]| |] eqn:Hn; cbn [rbind]; try done.
    destruct (add_lookup _ _ _ _ (id_id i) Hm) as [Ha Hb]. split; [intros y [= Hy]; by rewrite (Ha y Hy)|].
    intros Hne. destruct Hb as (Hb1 & Hb2 & Hb3); [congruence|]. split; [done|]. split; [by rewrite Hb3|]. unfold id_id in Hb2. rewrite <-Hb2, N2Nat.id.
    cbn in Hn. unfold sg_get_edge in Hn. destruct (ev_has_edge (sg_evec g) s t) as [b| |]; [|done..]. cbn in Hn. destruct b; [|done]. cbn in Hn.
    destruct (ev_find_edge_label_id (sg_evec g) s t) as [l| |]; [|done..]. cbn in Hn. by injection Hn as -> -> _.
  Qed.
  Lemma pop_edge_label x g : NoDup (sg_elm g) → last (sg_elm g) = Some x → ∃ g', sg_edit (EEdgeMap MPop) g = Ok g' ∧
    same_node_labels (V g) (V g') ∧ (∀ s t, v_get_edge (V g') s t = v_get_edge (V g) s t) ∧ v_edges (V g') = v_edges (V g) ∧
    ∀ s t, (v_edge_label (V g) s t = Ok (Some x) → v_edge_label (V g') s t = Ok None) ∧
      (v_edge_label (V g) s t ≠ Ok (Some x) → v_edge_label (V g') s t = v_edge_label (V g) s t).
  Proof.
    intros Hnd Hx. assert (∃ g', sg_edit (EEdgeMap MPop) g = Ok g') as [g' Hg]. { destruct g. by eexists. }
    exists g'. split; [done|]. destruct (edge_map_rest _ g g' Hg) as (H1 & H2 & H3 & out & Hm). split; [done|]. split; [done|]. split; [done|].
    intros s t. unfold v_edge_label. rewrite H2. change (v_edge_label_map (V g')) with (sg_elm g'). change (v_edge_label_map (V g)) with (sg_elm g).
    destruct (v_get_edge (V g) s t) as [[[[s' t'] [i|]]|]| |]; cbn [rbind]; try done.
    destruct (pop_lookup _ _ _ _ (id_id i) Hnd Hx Hm) as [Ha Hb]. split; [intros [= Hy]; by rewrite Ha|]. intros Hne. rewrite Hb; [done|congruence].
  Qed.
  (** Writing one node's label id. *)
  Lemma set_label g i l v : sg_labels g = Some v → sg_edit (ELabel i l) g = Panic ∧ length v ≤ i ∨
    i < length v ∧ ∃ g', sg_edit (ELabel i l) g = Ok g' ∧ same_edge_labels (V g) (V g') ∧ v_node_label_map (V g') = v_node_label_map (V g) ∧
      (∀ n, n ≠ N.of_nat i → v_get_node (V g') n = v_get_node (V g) n ∧ v_node_label (V g') n = v_node_label (V g) n) ∧
      (v_has_node (V g) (N.of_nat i) = true → v_get_node (V g') (N.of_nat i) = Ok (Some (N.of_nat i, if decide (l = id_max lt) then None else Some l)) ∧
        v_node_label (V g') (N.of_nat i) = Ok (if decide (l = id_max lt) then None else sg_nlm g !! N.to_nat l)).
  Proof.
    intros Hv. destruct g as [nn ne ev iv ls nlm elm]. cbn in Hv. subst ls. cbn [sg_edit unwrap rbind]. destruct (decide (i < length v)) as [Hi|Hi]; [right|left; split; [done|lia]].
    split; [done|]. eexists. split; [done|]. split; [done|]. split; [done|].
    assert (∀ n, n ≠ N.of_nat i → sg_get_node lt (SGraph nn ne ev iv (Some (<[i:=l]> v)) nlm elm) n = sg_get_node lt (SGraph nn ne ev iv (Some v) nlm elm) n) as Hne.
    { intros n Hn. unfold sg_get_node, sg_has_node. cbn. destruct (negb _); [done|]. rewrite list_lookup_insert_ne; [done|]. unfold id_id. lia. }
    split.
    - intros n Hn. split; [by apply Hne|]. unfold v_node_label. cbn. by rewrite Hne.
    - intros Hh. cbn in Hh. unfold v_node_label. cbn. assert (sg_get_node lt (SGraph nn ne ev iv (Some (<[i:=l]> v)) nlm elm) (N.of_nat i) = Ok (Some (N.of_nat i, static_label lt l))) as ->.
      { unfold sg_get_node, sg_has_node in *. cbn in *. rewrite Hh. cbn. unfold id_id. rewrite Nat2N.id, list_lookup_insert by done. done. }
      unfold static_label. cbn. split; [done|]. by destruct (decide (l = id_max lt)).
  Qed.
  (** Clearing the edges leaves the counts and nodes and makes every other query panic. *)
  Lemma cleared g : ∃ g', sg_edit EClear g = Ok g' ∧ v_node_count (V g') = v_node_count (V g) ∧ v_edge_count (V g') = v_edge_count (V g) ∧
    (∀ n, v_has_node (V g') n = v_has_node (V g) n) ∧ same_node_labels (V g) (V g') ∧
    (∀ n, v_in_neighbors (V g') n = v_in_neighbors (V g) n) ∧
    (∀ n, v_neighbors (V g') n = Panic ∧ v_degree (V g') n = Panic) ∧ (∀ s t, v_has_edge (V g') s t = Panic ∧ v_get_edge (V g') s t = Panic) ∧
    v_edge_indices (V g') = Panic ∧ v_edges (V g') = Panic.
  Proof. destruct g as [nn ne ev iv ls nlm elm]. eexists. split; [done|]. by split_and!. Qed.
  (** remove_labels on the edge vector, and on the vector of in-edges; replacing the vector of node labels. *)
  Lemma unlabelled g : ∃ g', sg_edit EUnlabel g = Ok g' ∧ same_structure (V g) (V g') ∧ same_node_labels (V g) (V g') ∧
    v_edge_label_map (V g') = v_edge_label_map (V g) ∧
    (∀ s t b, v_has_edge (V g) s t = Ok b → v_get_edge (V g') s t = Ok (if (b : bool) then Some (s, t, None) else None) ∧ v_edge_label (V g') s t = Ok None) ∧
    (∀ es, v_edge_indices (V g) = Ok es → v_edges (V g') = Ok ((λ e, (e, None)) <$> es)) ∧
    sg_labels g' = sg_labels g ∧ sg_in g' = sg_in g ∧ ev_offsets (sg_evec g') = ev_offsets (sg_evec g) ∧ ev_edges (sg_evec g') = ev_edges (sg_evec g) ∧
    ev_label_vec (sg_evec g') = None.
  Proof.
    destruct g as [nn ne ev iv ls nlm elm]. eexists. split; [done|]. split; [by constructor|]. split; [done|]. split; [done|].
    split; [|split; [|done]].
    - intros s t b Hb. change (ev_has_edge (ev_remove_labels ev) s t = Ok b) in Hb.
      assert (v_get_edge (V (SGraph nn ne (ev_remove_labels ev) iv ls nlm elm)) s t = Ok (if b then Some (s, t, None) else None)) as Hg.
      { change (sg_get_edge lt (SGraph nn ne (ev_remove_labels ev) iv ls nlm elm) s t = Ok (if b then Some (s, t, None) else None)).
        unfold sg_get_edge. cbn [sg_evec]. rewrite Hb. cbn [rbind]. by destruct b. }
      split; [exact Hg|].
      change (sg_get_edge lt (SGraph nn ne (ev_remove_labels ev) iv ls nlm elm) s t = Ok (if b then Some (s, t, None) else None)) in Hg.
      unfold v_edge_label. cbn. rewrite Hg. cbn. by destruct b.
    - intros es He. change (ei_all it dir (ev_remove_labels ev) = Ok es) in He. cbn. unfold sg_edges, sg_edge_indices. cbn [sg_evec]. by rewrite He.
  Qed.
  Lemma unlabelled_in g : (sg_in g = None → sg_edit EUnlabelIn g = Panic) ∧
    ∀ e, sg_in g = Some e → ∃ g', sg_edit EUnlabelIn g = Ok g' ∧ same_structure (V g) (V g') ∧ same_node_labels (V g) (V g') ∧ same_edge_labels (V g) (V g') ∧
      sg_evec g' = sg_evec g ∧ sg_labels g' = sg_labels g ∧
      ∃ e', sg_in g' = Some e' ∧ ev_offsets e' = ev_offsets e ∧ ev_edges e' = ev_edges e ∧ ev_label_vec e' = None.
  Proof.
    destruct g as [nn ne ev iv ls nlm elm]. split; cbn [sg_in].
    - by intros ->.
    - intros e ->. eexists. split; [done|]. split; [by constructor|]. split; [done|]. split; [done|]. split; [done|]. split; [done|]. by eexists.
  Qed.
  Lemma replaced_labels ls g : ∃ g', sg_edit (ELabels ls) g = Ok g' ∧ same_structure (V g) (V g') ∧ same_edge_labels (V g) (V g') ∧
    v_node_label_map (V g') = v_node_label_map (V g) ∧ sg_evec g' = sg_evec g ∧ sg_in g' = sg_in g ∧
    ∀ n, v_get_node (V g') n = (if v_has_node (V g) n then
        match ls with
        | None => Ok (Some (n, None))
        | Some v => match v !! N.to_nat n with Some l => Ok (Some (n, if decide (l = id_max lt) then None else Some l)) | None => Panic end
        end else Ok None) ∧
      (v_has_node (V g) n = true → v_node_label (V g') n =
        match ls with
        | None => Ok None
        | Some v => match v !! N.to_nat n with
                    | Some l => Ok (if decide (l = id_max lt) then None else v_node_label_map (V g) !! N.to_nat l) | None => Panic end
        end).
  Proof.
    destruct g as [nn ne ev iv ls0 nlm elm]. eexists. split; [done|]. split; [by constructor|]. split; [done|]. split; [done|]. split; [done|]. split; [done|].
    intros n. unfold v_node_label. cbn [sg_view v_get_node v_has_node v_node_label_map].
    unfold sg_get_node, sg_has_node, id_id. cbn [sg_num_nodes sg_labels sg_nlm].
    destruct (bool_decide _) eqn:Hb; cbn.
    - split.
      + destruct ls as [v|]; [|done]. destruct (v !! N.to_nat n) as [l|]; [|done]. cbn. unfold static_label. by destruct (decide _).
      + intros _. destruct ls as [v|]; [|done]. destruct (v !! N.to_nat n) as [l|]; [|done]. cbn. unfold static_label. by destruct (decide _).
    - split; done.
  Qed.
End edit.
Lemma cleared_arrays {NL EL} `{EqDecision NL, EqDecision EL} (g g' : sgraph NL EL) : sg_edit EClear g = Ok g' → let e := sg_evec g in let e' := sg_evec g' in
  ev_offsets e' = [] ∧ ev_edges e' = [] ∧ (ev_label_vec e' = None ↔ ev_label_vec e = None) ∧ (∀ ls, ev_label_vec e' = Some ls → ls = []) ∧ sg_in g' = sg_in g.
Proof.
  destruct g as [nn ne e iv ls nlm elm]. cbn. intros [= <-]. cbn. destruct (ev_label_vec e); cbn; split_and!; try done. by intros ? [= <-].
Qed.
Lemma cleared_in_arrays {NL EL} `{EqDecision NL, EqDecision EL} (g g' : sgraph NL EL) e : sg_in g = Some e → sg_edit EClearIn g = Ok g' → sg_evec g' = sg_evec g ∧
  ∃ e', sg_in g' = Some e' ∧ ev_offsets e' = [] ∧ ev_edges e' = [] ∧ (ev_label_vec e' = None ↔ ev_label_vec e = None) ∧ (∀ ls, ev_label_vec e' = Some ls → ls = []).
Proof.
  destruct g as [nn ne ev iv ls nlm elm]. cbn. intros ->. cbn. intros [= <-]. cbn. split; [done|]. eexists. split; [done|]. cbn.
  destruct (ev_label_vec e); cbn; split_and!; try done. by intros ? [= <-].
Qed.
