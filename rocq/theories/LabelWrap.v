(** Histories that register more labels than the label id type can number. *)
From Verif Require Import Base Api Spec BaseFacts SpecFacts Map MapFacts GraphMap GraphMapFacts
  GraphMapRefine GraphMapQueries GraphMapSim SpecLabelWrap.

Definition wlab {X} (lt : idty) (ls : list X) (lid : option N) (l : option X) : Prop :=
  match lid, l with
  | None, None => True
  | Some i, Some x => ∃ j, ls !! j = Some x ∧ i = id_new lt j
  | _, _ => False
  end.

Section lab.
  Context {X : Type} `{EqDecision X} (lt : idty).
  Implicit Types ls : list X.
  Lemma index_of_lookup ls x i : NoDup ls → index_of x ls = Some i ↔ ls !! i = Some x.
  Proof. rewrite <-get_full_index_of. apply get_full_lookup. Qed.
  Lemma wlab_mono ls ls' i x : ls `prefix_of` ls' → wlab lt ls i x → wlab lt ls' i x.
  Proof.
    intros Hp. destruct i as [i|], x as [x|]; simpl; try done. intros (j & Hj & ->). exists j. split; [|done].
    by eapply prefix_lookup.
  Qed.
  Lemma wlab_new ls i x : True → ls !! i = Some x → wlab lt ls (Some (id_new lt i)) (Some x).
  Proof. intros _ Hi. simpl. by exists i. Qed.
  Lemma wlab_denotes ls lid l : NoDup ls → wlab lt ls lid l → denotes ls lid = shown lt ls l.
  Proof.
    intros Hnd. destruct lid as [i|], l as [x|]; simpl; try done. intros (j & Hj & ->).
    by rewrite (proj2 (index_of_lookup _ _ _ Hnd) Hj).
  Qed.
  Lemma wlab_known ls lid x : wlab lt ls lid (Some x) → x ∈ ls.
  Proof. destruct lid as [i|]; simpl; [|done]. intros (j & Hj & _). by eapply elem_of_list_lookup_2. Qed.
  Lemma id_new_le i : N.to_nat (id_new lt i) ≤ i.
  Proof.
    unfold id_new. pose proof (N.mod_le (N.of_nat i) (id_card lt)).
    assert (id_card lt ≠ 0)%N by (by destruct lt). lia.
  Qed.
  Lemma shown_mono ls ls' x : ls `prefix_of` ls' → NoDup ls' → x ∈ ls → shown lt ls' (Some x) = shown lt ls (Some x).
  Proof.
    intros Hp Hnd [i Hi]%elem_of_list_lookup_1. pose proof (prefix_lookup _ _ _ _ Hi Hp) as Hi'.
    assert (NoDup ls) as Hnd0. { destruct Hp as [k ->]. by apply NoDup_app in Hnd as [? _]. }
    simpl. rewrite (proj2 (index_of_lookup _ _ _ Hnd) Hi'), (proj2 (index_of_lookup _ _ _ Hnd0) Hi).
    destruct Hp as [k ->]. apply lookup_app_l. pose proof (id_new_le i). unfold id_new in *.
    apply lookup_lt_Some in Hi. lia.
  Qed.
  (** Which labels are shown right: exactly the first ones. *)
  Lemma shown_right ls x i : NoDup ls → ls !! i = Some x →
    (shown lt ls (Some x) = Some x ↔ (N.of_nat i < id_card lt)%N) ∧ is_Some (shown lt ls (Some x)).
  Proof.
    intros Hnd Hi. simpl. rewrite (proj2 (index_of_lookup _ _ _ Hnd) Hi).
    assert (id_card lt ≠ 0)%N as Hc by (by destruct lt).
    split.
    - split.
      + intros Hs. pose proof (NoDup_lookup _ _ _ _ Hnd Hs Hi) as Hij.
        pose proof (N.mod_lt (N.of_nat i) (id_card lt) Hc). lia.
      + intros Hlt. rewrite N.mod_small by done. by rewrite Nat2N.id.
    - apply lookup_lt_is_Some. pose proof (id_new_le i). unfold id_new in *. apply lookup_lt_Some in Hi. lia.
  Qed.
End lab.

Section wrap.
  Context {NL EL : Type} `{EqDecision NL, EqDecision EL} (dir : bool) (lt : idty).
  Notation wrel := (rel dir (@wlab NL lt) (@wlab EL lt)).
  Implicit Types (g : graphmap NL EL) (s : sstate NL EL) (A : agraph NL EL).

  Definition known_out (nls : list NL) (els : list EL) (r : gout NL EL) : Prop :=
    match r with
    | RNode (Some (_, Some x)) => x ∈ nls
    | REdge (Some (_, Some x)) => x ∈ els
    | _ => True
    end.
  Lemma out_shown_mono nls els nls' els' r : nls `prefix_of` nls' → els `prefix_of` els' → NoDup nls' → NoDup els' →
    known_out nls els r → out_shown lt nls' els' r = out_shown lt nls els r.
  Proof.
    intros Hn He Hnd Hed Hk. destruct r as [b|[[n [x|]]|]|[[e [x|]]|]|o|]; try done; cbn -[shown] in *.
    - by rewrite (shown_mono lt nls nls').
    - by rewrite (shown_mono lt els els').
  Qed.

  Lemma out_ok_shown nls els r r' : NoDup nls → NoDup els → out_ok lt (@wlab NL lt) (@wlab EL lt) nls els r r' →
    r' = out_shown lt nls els r ∧ known_out nls els r.
  Proof.
    intros Hn He H.
    destruct r as [b|o|o|o|], r' as [b'|o'|o'|o'|]; cbn -[shown] in H; try done; try (by destruct o as [[? ?]|]);
      try (by destruct o as [[[? ?] ?]|]).
    - by subst.
    - destruct o as [[n l]|], o' as [[n' l']|]; try done. destruct H as (-> & lid & -> & Hl). split.
      + cbn -[shown]. do 3 f_equal. rewrite <-(wlab_denotes lt nls lid l) by done. by destruct lid.
      + simpl. destruct l; [|done]. by eapply wlab_known.
    - destruct o as [[[x y] l]|], o' as [[[x' y'] l']|]; try done.
      destruct H as (-> & -> & lid & -> & Hl). split.
      + cbn -[shown]. do 3 f_equal. rewrite <-(wlab_denotes lt els lid l) by done. by destruct lid.
      + simpl. destruct l; [|done]. by eapply wlab_known.
    - subst. split; [|done]. simpl. f_equal. destruct o as [i|]; simpl; [|done]. unfold id_new. by rewrite N2Nat.id.
  Qed.

  Lemma wrap_step o g s : wrel g s → raw_fits lt o →
    match spec_step o s with
    | SOk (r, s') => ∃ g', gm_step dir lt o g = Ok (out_shown lt (sp_nls s') (sp_els s') r, g') ∧ wrel g' s' ∧
        known_out (sp_nls s') (sp_els s') r
    | SPanic => gm_step dir lt o g = Panic
    | SUnspec => True
    end.
  Proof.
    intros H Hf. destruct (is_raw o) eqn:Hraw.
    - pose proof (r_nls _ _ _ _ _ H) as Hnls. pose proof (r_els _ _ _ _ _ H) as Hels.
      assert (ag_dir (sp_g s) = dir) as Hdir by apply (r_abs _ _ _ _ _ H).
      assert (∀ X (ls : list X) i x, (i < id_card lt)%N → ls !! N.to_nat i = Some x → wlab lt ls (Some i) (Some x)) as Hlab.
      { intros X ls i x Hi Hx. exists (N.to_nat i). split; [done|]. unfold id_new. rewrite N2Nat.id. by rewrite N.mod_small. }
      destruct o as [| | | | | | | | |n lid|x y lid]; try done; simpl.
      + destruct (ag_nodes (sp_g s) !! n) as [l0|] eqn:Hn.
        * destruct lid as [i|].
          -- destruct (sp_nls s !! N.to_nat i) as [l|] eqn:Hl; [|done].
             destruct (rel_set_node dir (@wlab NL lt) (@wlab EL lt) g s n (Some i) (Some l) H) as (g' & -> & H');
               [by exists l0|apply Hlab; [done|by rewrite Hnls]|]. by exists g'.
          -- destruct (rel_set_node dir (@wlab NL lt) (@wlab EL lt) g s n None None H) as (g' & -> & H'); [by exists l0|done|].
             by exists g'.
        * unfold gm_set_node_label_id.
          rewrite (proj2 (abs_node_None _ _ _ _ _ n (r_abs _ _ _ _ _ H)) Hn). by exists g.
      + destruct (a_edge_at (sp_g s) x y) as [l0|] eqn:Hn.
        * destruct (negb _ && _) eqn:Hb; [done|].
          assert (dir = true ∨ x = y) as Hd.
          { rewrite Hdir in Hb. apply andb_false_iff in Hb as [Hb|Hb].
            - left. by destruct dir.
            - right. apply bool_decide_eq_false in Hb. destruct (decide (x = y)); done. }
          destruct lid as [i|].
          -- destruct (sp_els s !! N.to_nat i) as [l|] eqn:Hl; [|done].
             destruct (rel_set_edge dir (@wlab NL lt) (@wlab EL lt) g s x y (Some i) (Some l) H) as (g' & -> & H');
               [by exists l0|apply Hlab; [done|by rewrite Hels]|done|]. by exists g'.
          -- destruct (rel_set_edge dir (@wlab NL lt) (@wlab EL lt) g s x y None None H) as (g' & -> & H'); [by exists l0|done|done|].
             by exists g'.
        * unfold gm_set_edge_label_id. rewrite (rel_has_edge dir _ _ g s x y H). rewrite Hn.
          rewrite bool_decide_false by (by intros [? ?]). by exists g.
    - pose proof (sim_step_plain dir lt (@wlab NL lt) (@wlab EL lt) (λ _, True) (λ _, True)
        (λ _, I) (λ _, I) (wlab_new lt) (wlab_new lt) (wlab_mono lt) (wlab_mono lt) (λ _ _ _ _, I) o g s Hraw H) as Hs.
      destruct (spec_step o s) as [[r s']| |]; [|done..].
      destruct Hs as (r' & g' & Hg & H' & Hr); [done..|].
      destruct (out_ok_shown _ _ _ _ (r_nd_nls _ _ _ _ _ H') (r_nd_els _ _ _ _ _ H') Hr) as [-> Hk]. by exists g'.
  Qed.

  Lemma wrap_run h g s : wrel g s → Forall (raw_fits lt) h →
    match spec_run h s with
    | SOk (rs, s') => ∃ g', gm_run dir lt h g = Ok (out_shown lt (sp_nls s') (sp_els s') <$> rs, g') ∧ wrel g' s'
    | SPanic => gm_run dir lt h g = Panic
    | SUnspec => True
    end.
  Proof.
    revert g s. induction h as [|o h IH]; intros g s H Hf; [by exists g|].
    apply Forall_cons in Hf as [Ho Hf]. pose proof (wrap_step o g s H Ho) as Hs. cbn [spec_run gm_run].
    destruct (spec_step o s) as [[r s1]| |]; [|by rewrite Hs|done].
    destruct Hs as (g1 & -> & H1 & Hk). cbn [rbind]. specialize (IH g1 s1 H1 Hf).
    destruct (spec_run h s1) as [[rs s']| |] eqn:Hr; [|by rewrite IH|done].
    destruct IH as (g' & -> & H'). exists g'. split; [|done]. cbn [rmap rbind]. csimpl. do 3 f_equal.
    pose proof (spec_run_prefix _ _ _ _ Hr) as [? ?]. symmetry.
    apply out_shown_mono; [done..|apply H'|apply H'|done].
  Qed.

  Lemma shown_abs nls els m A : NoDup nls → NoDup els → abs_rel dir (wlab lt nls) (wlab lt els) m A →
    abs_rel dir (λ lid l, denotes nls lid = l) (λ lid l, denotes els lid = l) m (a_shown lt nls els A).
  Proof.
    intros Hn He Ha.
    assert (∀ x y, a_has_edge (a_shown lt nls els A) x y ↔ a_has_edge A x y) as Hedge.
    { intros x y. unfold a_has_edge, a_edge_at. cbn [a_shown ag_edges ag_dir]. by rewrite lookup_fmap, fmap_is_Some. }
    assert (∀ n, a_has_node (a_shown lt nls els A) n ↔ a_has_node A n) as Hnode.
    { intros n. unfold a_has_node. cbn [a_shown ag_nodes]. by rewrite lookup_fmap, fmap_is_Some. }
    split.
    - apply Ha.
    - intros x y Hxy. rewrite !Hnode. apply (ar_wf _ _ _ _ _ Ha). cbn [a_shown ag_edges] in Hxy.
      by rewrite lookup_fmap, fmap_is_Some in Hxy.
    - intros k. cbn [a_shown ag_nodes]. rewrite lookup_fmap. pose proof (ar_node _ _ _ _ _ Ha k) as Hf.
      inversion Hf as [n l [Hid Hl]|]; simpl; constructor. split; [done|]. by apply wlab_denotes.
    - intros x y. pose proof (ar_edge _ _ _ _ _ Ha x y) as Hf. unfold a_edge_at in *. cbn [a_shown ag_edges ag_dir].
      rewrite lookup_fmap. inversion Hf as [lid l Hl|]; simpl; constructor. by apply wlab_denotes.
    - intros t n Ht. pose proof (ar_in _ _ _ _ _ Ha t n Ht) as Hin. destruct dir; [|done]. intros x. by rewrite Hedge.
  Qed.

  Lemma wrapped nls els h : NoDup nls → NoDup els → Forall (raw_fits lt) h →
    match spec_run h (s_init dir nls els) with
    | SOk (rs, s) =>
        ∃ g, gm_run dir lt h (gm_with_label_map nls els) = Ok (out_shown lt (sp_nls s) (sp_els s) <$> rs, g) ∧
        ∀ it, hash_order g it →
          let V := gm_view dir it g in
          represents V (a_shown lt (sp_nls s) (sp_els s) (sp_g s)) ∧ answers_missing V (sp_g s) ∧ iterates V ∧
          v_edge_count V = sp_count s ∧ v_max_seen_id V = Ok (sp_max s) ∧
          v_node_label_map V = sp_nls s ∧ v_edge_label_map V = sp_els s
    | SPanic => gm_run dir lt h (gm_with_label_map nls els) = Panic
    | SUnspec => True
    end.
  Proof.
    intros Hn He Hf. pose proof (wrap_run h _ _ (rel_init dir (@wlab NL lt) (@wlab EL lt) nls els Hn He) Hf) as Hr.
    destruct (spec_run _ _) as [[rs s]| |]; [|done..]. destruct Hr as (g & Hg & H). exists g. split; [done|].
    intros it Hit. destruct H as [Ha Hc Hm Hnl Hel Hnd Hed Hge Hb]. cbn zeta. split_and!; try done.
    - rewrite Hnl, Hel in Ha.
      refine (view_represents dir _ _ g _ it (sp_nls s) (sp_els s) (shown_abs _ _ _ _ Hnd Hed Ha) _ _ _ Hit Hnl Hel); [done|done|].
      intros n Hn'. destruct (Hb n) as (k & Hk & ?).
      { unfold a_has_node in *. cbn [a_shown ag_nodes] in Hn'. by rewrite lookup_fmap, fmap_is_Some in Hn'. }
      exists k. by rewrite Hm.
    - by eapply view_answers_missing.
    - by eapply view_iterates.
    - simpl. unfold gm_max_seen_id. by rewrite Hm.
  Qed.
End wrap.

Lemma shown_which {X} `{EqDecision X} (lt : idty) (ls : list X) x i : NoDup ls → ls !! i = Some x →
  (shown lt ls (Some x) = Some x ↔ (N.of_nat i < id_card lt)%N) ∧
  ∃ j y, shown lt ls (Some x) = Some y ∧ ls !! j = Some y ∧ (N.of_nat j < id_card lt)%N.
Proof.
  intros Hnd Hi. destruct (shown_right lt ls x i Hnd Hi) as [Hr [y Hy]]. split; [done|].
  pose proof Hy as Hy'. simpl in Hy'. rewrite (proj2 (index_of_lookup _ _ _ Hnd) Hi) in Hy'.
  do 2 eexists. split; [done|]. split; [exact Hy'|]. rewrite N2Nat.id. apply N.mod_lt. by destruct lt.
Qed.

Lemma wrap_witness :
  let h : list (gop N N) := ((λ i, OAddNode (N.of_nat i) (Some (N.of_nat i))) <$> seq 0 257) ++
             [OAddEdge 0 256 (Some 7); OAddNodeLabel (Some 256); ORemoveNode 256; OSetNodeLabelId 3 (Some 255)]%N in
  Forall (raw_fits TU8) h ∧
  ∃ rs s, spec_run h (s_init false [] []) = SOk (rs, s) ∧
    drop 257 rs = [RBool true; RLabelId (Some 256); RNode (Some (256, Some 256)); RBool true]%N ∧
    drop 257 (out_shown TU8 (sp_nls s) (sp_els s) <$> rs) = [RBool true; RLabelId (Some 0); RNode (Some (256, Some 0)); RBool true]%N ∧
    ag_nodes (a_shown TU8 (sp_nls s) (sp_els s) (sp_g s)) !! 3%N = Some (Some 255%N).
Proof.
  intros h. split.
  { apply Forall_app. split; [|repeat constructor; vm_compute; done].
    apply Forall_fmap, Forall_true. intros i. exact I. }
  assert (match spec_run h (s_init false [] []) with
    | SOk (rs, s) =>
        (drop 257 rs, drop 257 (out_shown TU8 (sp_nls s) (sp_els s) <$> rs),
         ag_nodes (a_shown TU8 (sp_nls s) (sp_els s) (sp_g s)) !! 3%N) =
        ([RBool true; RLabelId (Some 256); RNode (Some (256, Some 256)); RBool true],
         [RBool true; RLabelId (Some 0); RNode (Some (256, Some 0)); RBool true], Some (Some 255))%N
    | _ => False
    end) as Hw by (vm_compute; done).
  clearbody h. destruct (spec_run h _) as [[rs s]| |]; [|done..]. injection Hw as H1 H2 H3. exists rs, s. done.
Qed.
