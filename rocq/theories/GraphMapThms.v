(** The two instances of the simulation: with labels, and without. *)
From Verif Require Import Base Api Spec BaseFacts SpecFacts Map MapFacts GraphMap GraphMapFacts
  GraphMapRefine GraphMapQueries GraphMapSim.

Section labels.
  Context {NL EL : Type} `{EqDecision NL, EqDecision EL} (dir : bool) (lt : idty).
  Notation lrel := (rel dir (@lab_rel NL) (@lab_rel EL)).
  Implicit Types (g : graphmap NL EL) (s : sstate NL EL).

  Lemma lab_new {X} (ls : list X) i x :
    labels_fit lt ls → ls !! i = Some x → lab_rel ls (Some (id_new lt i)) (Some x).
  Proof.
    intros Hf Hi. simpl. pose proof (lookup_lt_Some _ _ _ Hi). unfold labels_fit in Hf.
    pose proof (id_new_id lt i) as Hid. unfold id_id in Hid. rewrite Hid; [done|lia].
  Qed.
  Lemma lab_mono {X} (ls ls' : list X) i x : ls `prefix_of` ls' → lab_rel ls i x → lab_rel ls' i x.
  Proof.
    intros Hp. destruct i as [i|], x as [x|]; simpl; try done. intros Hi. by eapply prefix_lookup.
  Qed.
  Lemma lab_denotes {X} (ls : list X) lid l : lab_rel ls lid l → denotes ls lid = l.
  Proof. destruct lid, l; simpl; done. Qed.
  Lemma lab_lookup {X} (ls : list X) lid l : lab_rel ls lid l → lookup_label ls lid = l.
  Proof. destruct lid, l; simpl; done. Qed.
  Lemma fit_anti {X} (ls ls' : list X) : ls `prefix_of` ls' → labels_fit lt ls' → labels_fit lt ls.
  Proof. intros Hp%prefix_length. unfold labels_fit. lia. Qed.

  (** RLabelId results are small enough. *)
  Lemma index_of_lt {X} `{EqDecision X} (x : X) ls i : index_of x ls = Some i → i < length ls.
  Proof. intros Hi. rewrite <-get_full_index_of in Hi. apply get_full_Some in Hi. by eapply lookup_lt_Some. Qed.
  Definition small_out (r : gout NL EL) : Prop :=
    match r with RLabelId (Some i) => (i < id_card lt)%N | _ => True end.
  Lemma spec_step_small o s r s' : spec_step o s = SOk (r, s') →
    labels_fit lt (sp_nls s') → labels_fit lt (sp_els s') → small_out r.
  Proof.
    intros Ho HN HE. unfold labels_fit in *.
    destruct o as [n l|x y l|n|x y|n l|x y l|l|l| |n lid|x y lid]; simpl in Ho; repeat case_match; simplify_eq; try done.
    - destruct l as [x|]; [|done]. cbn [mbind option_bind] in *. destruct (index_of x _) as [i|] eqn:Hi; [|done].
      apply index_of_lt in Hi. cbn in *. lia.
    - destruct l as [x|]; [|done]. cbn [mbind option_bind] in *. destruct (index_of x _) as [i|] eqn:Hi; [|done].
      apply index_of_lt in Hi. cbn in *. lia.
  Qed.
  Lemma spec_run_small h s rs s' : spec_run h s = SOk (rs, s') →
    labels_fit lt (sp_nls s') → labels_fit lt (sp_els s') → Forall small_out rs.
  Proof.
    revert s rs. induction h as [|o h IH]; intros s rs Hh HN HE; simpl in Hh; [by simplify_eq|].
    destruct (spec_step o s) as [[r s2]| |] eqn:Ho; [|done..].
    destruct (spec_run h s2) as [[rs2 s3]| |] eqn:Hh2; [|done..]. simplify_eq.
    pose proof (spec_run_prefix _ _ _ _ Hh2) as [? ?]. constructor; [|by eapply IH].
    eapply spec_step_small; [done|by eapply fit_anti..].
  Qed.

  Lemma label_sim h g s rs s' :
    lrel g s → spec_run h s = SOk (rs, s') → labels_fit lt (sp_nls s') → labels_fit lt (sp_els s') →
    ∃ g', gm_run dir lt h g = Ok (rs, g') ∧ lrel g' s'.
  Proof.
    intros H Hr HN HE.
    pose proof (sim_run dir lt (@lab_rel NL) (@lab_rel EL) (labels_fit lt) (labels_fit lt)) as Hsim.
    specialize (Hsim (λ _, I) (λ _, I) lab_new lab_new lab_mono lab_mono).
    specialize (Hsim (λ _ _ _ H, H) (λ _ _ _ H, H) fit_anti fit_anti h g s H).
    rewrite Hr in Hsim. destruct Hsim as (rs' & g' & Hg & H' & Hout); [done..|].
    exists g'. split; [|done]. rewrite Hg. do 2 f_equal.
    pose proof (spec_run_small h s rs s' Hr HN HE) as Hsm. clear -Hout Hsm.
    induction Hout as [|r r' rs rs' (nls & els & HN & HE & Hr) Hrs IH]; [done|].
    apply Forall_cons in Hsm as [Hr0 Hsm]. f_equal; [|by apply IH]. clear -Hr0 Hr HN HE.
    destruct r as [b|o|o|o|], r' as [b'|o'|o'|o'|]; simpl in Hr; try done; try (by destruct o as [[? ?]|]);
      try (by destruct o as [[[? ?] ?]|]).
    - by subst.
    - destruct o as [[n l]|], o' as [[n' l']|]; try done.
      destruct Hr as (-> & lid & -> & Hl). by rewrite (lab_lookup _ _ _ Hl).
    - destruct o as [[[x y] l]|], o' as [[[x' y'] l']|]; try done.
      destruct Hr as (-> & -> & lid & -> & Hl). by rewrite (lab_lookup _ _ _ Hl).
    - subst o'. destruct o as [i|]; [|done]. simpl in *. rewrite id_new_small by lia. by rewrite N2Nat.id.
  Qed.

  Lemma lrel_view g s it : lrel g s → hash_order g it →
    represents (gm_view dir it g) (sp_g s) ∧ answers_missing (gm_view dir it g) (sp_g s) ∧
    iterates (gm_view dir it g) ∧ v_edge_count (gm_view dir it g) = sp_count s ∧
    v_max_seen_id (gm_view dir it g) = Ok (sp_max s) ∧
    v_node_label_map (gm_view dir it g) = sp_nls s ∧ v_edge_label_map (gm_view dir it g) = sp_els s.
  Proof.
    intros H Hit. destruct H as [Ha Hc Hm Hn He Hnd Hed Hge Hb]. split_and!; try done.
    - eapply view_represents; [exact Ha|by intros; apply lab_denotes..| |done|done|done].
      intros n Hn'. destruct (Hb n Hn') as (k & Hk & ?). exists k. by rewrite Hm.
    - by eapply view_answers_missing.
    - by eapply view_iterates.
    - simpl. unfold gm_max_seen_id. by rewrite Hm.
  Qed.
End labels.

Section skel.
  Context {NL EL : Type} `{EqDecision NL, EqDecision EL} (dir : bool) (lt : idty).
  Notation PNt := (λ (_ : list NL) (_ : option N) (_ : option NL), True).
  Notation PEt := (λ (_ : list EL) (_ : option N) (_ : option EL), True).
  Notation skrel := (rel dir PNt PEt).
  Implicit Types (g : graphmap NL EL) (s : sstate NL EL).

  Lemma sstate_eta s : SState (sp_g s) (sp_count s) (sp_max s) (sp_nls s) (sp_els s) = s.
  Proof. by destruct s. Qed.

  Lemma skel_set_node g s n lid : skrel g s → skrel (gm_set_node_label_id n lid g).2 s.
  Proof.
    intros H. destruct (ag_nodes (sp_g s) !! n) as [l|] eqn:Hn.
    - destruct (rel_set_node dir PNt PEt g s n lid l H) as (g' & -> & H'); [by exists l|done|]. simpl.
      assert (a_add_node n l (sp_g s) = sp_g s) as HA.
      { unfold a_add_node. rewrite insert_id by done. by destruct (sp_g s). }
      rewrite HA, sstate_eta in H'. done.
    - unfold gm_set_node_label_id.
      by rewrite (proj2 (abs_node_None _ _ _ _ _ n (r_abs _ _ _ _ _ H)) Hn).
  Qed.
  Lemma skel_set_edge g s x y lid : skrel g s →
    ∃ b g', gm_set_edge_label_id x y lid g = Ok (b, g') ∧ skrel g' s.
  Proof.
    intros H. unfold gm_set_edge_label_id. rewrite (rel_has_edge dir PNt PEt g s x y H).
    pose proof (r_abs _ _ _ _ _ H) as Ha.
    case_bool_decide as He; [|by eauto].
    pose proof (proj2 (abs_adj _ _ _ _ _ x y Ha) He) as Hadj. unfold adj in Hadj.
    destruct (g_nodes g !! x) as [n|] eqn:Hn; [|by destruct Hadj]. destruct Hadj as [l Hl].
    cbn [unwrap rbind]. unfold nm_set_neighbor_label. rewrite Hl. do 2 eexists. split; [done|].
    destruct H as [_ Hc Hm Hnl Hel Hnd Hed Hge Hb]. split; try done. simpl.
    apply (abs_reshape dir _ _ (g_nodes g) _ (sp_g s)); [done|done|apply Ha|done|..].
    - intros k. destruct (decide (k = x)) as [->|Hne].
      + rewrite lookup_insert, Hn. by constructor.
      + rewrite lookup_insert_ne by done. destruct (g_nodes g !! k); by constructor.
    - intros a b. pose proof (ar_edge _ _ _ _ _ Ha a b) as Hf. unfold adj in *.
      destruct (decide (a = x)) as [->|Hne].
      + rewrite lookup_insert. simpl. rewrite Hn in Hf. destruct (decide (b = y)) as [->|Hby].
        * rewrite lookup_insert. rewrite Hl in Hf. inversion Hf. by constructor.
        * by rewrite lookup_insert_ne.
      + by rewrite lookup_insert_ne.
    - intros t n' Ht. destruct (decide (t = x)) as [->|Hne].
      + rewrite lookup_insert in Ht. simplify_eq. simpl. exact (ar_in _ _ _ _ _ Ha x n Hn).
      + rewrite lookup_insert_ne in Ht by done. exact (ar_in _ _ _ _ _ Ha t n' Ht).
  Qed.

  Lemma sk_step o g s : skrel g s → is_raw o = false →
    match spec_step o s with
    | SOk (r, s') => ∃ r' g', gm_step dir lt o g = Ok (r', g') ∧ skrel g' s' ∧ out_unlabelled r' = out_unlabelled r
    | SPanic => gm_step dir lt o g = Panic
    | SUnspec => False
    end.
  Proof.
    intros H Hraw.
    pose proof (sim_step dir lt PNt PEt (λ _, True) (λ _, True)) as Hsim.
    do 9 (specialize (Hsim ltac:(done))). specialize (Hsim o g s H).
    destruct (spec_step o s) as [[r s']| |] eqn:Ho.
    - destruct Hsim as (r' & g' & Hg & H' & Hr); [done..|]. do 2 eexists. split; [done|]. split; [done|].
      destruct r as [b|on|oe|oi|], r' as [b'|on'|oe'|oi'|]; simpl in Hr; try done; try (by destruct on as [[? ?]|]);
        try (by destruct oe as [[[? ?] ?]|]).
      + by subst.
      + destruct on as [[n l]|], on' as [[n' l']|]; try done. destruct Hr as (-> & _). done.
      + destruct oe as [[[x y] l]|], oe' as [[[x' y'] l']|]; try done. destruct Hr as (-> & -> & _). done.
    - done.
    - destruct o; simpl in Ho, Hraw; repeat case_match; simplify_eq; done.
  Qed.

  Lemma skel_run h g s : skrel g s →
    match spec_run (strip h) s with
    | SOk (rs, s') => ∃ rs' g', gm_run dir lt h g = Ok (rs', g') ∧ skrel g' s' ∧
        out_unlabelled <$> kept_outs h rs' = out_unlabelled <$> rs
    | SPanic => gm_run dir lt h g = Panic
    | SUnspec => False
    end.
  Proof.
    revert g s. induction h as [|o h IH]; intros g s H.
    { simpl. by eauto. }
    unfold strip in *. destruct (is_raw o) eqn:Hraw.
    - rewrite filter_cons_False by (by rewrite Hraw).
      assert (∃ r g1, gm_step dir lt o g = Ok (r, g1) ∧ skrel g1 s) as (r & g1 & Hs & H1).
      { destruct o as [| | | | | | | | |n lid|x y lid]; try done; simpl.
        - do 2 eexists. split; [done|]. by apply skel_set_node.
        - destruct (skel_set_edge g s x y lid H) as (b & g' & -> & H'). by eauto. }
      specialize (IH g1 s H1). cbn [gm_run]. rewrite Hs. cbn [rbind].
      destruct (spec_run _ s) as [[rs s']| |]; [|by rewrite IH|done].
      destruct IH as (rs' & g' & -> & H' & Hr). do 2 eexists. split; [done|]. split; [done|].
      rewrite <-Hr. unfold kept_outs. cbn [zip_with fst snd]. by rewrite filter_cons_False by (simpl; by rewrite Hraw).
    - rewrite filter_cons_True by done. cbn [spec_run]. pose proof (sk_step o g s H Hraw) as Hs.
      destruct (spec_step o s) as [[r s1]| |]; [|cbn [gm_run]; by rewrite Hs|done].
      destruct Hs as (r' & g1 & Hs & H1 & Hr1). specialize (IH g1 s1 H1). cbn [gm_run]. rewrite Hs. cbn [rbind].
      destruct (spec_run _ s1) as [[rs s']| |]; [|by rewrite IH|done].
      destruct IH as (rs' & g' & -> & H' & Hr). do 2 eexists. split; [done|]. split; [done|].
      unfold kept_outs in *. cbn [zip_with fst snd]. rewrite filter_cons_True by done. csimpl. by rewrite Hr1, Hr.
  Qed.

  Lemma unlabelled_wf (A : agraph NL EL) : ag_wf A → ag_wf (a_unlabelled A).
  Proof.
    intros Hwf x y Hxy. simpl in *. rewrite lookup_fmap, fmap_is_Some in Hxy.
    destruct (Hwf x y Hxy) as (? & ? & ?). split; [done|].
    unfold a_has_node. simpl. by rewrite !lookup_fmap, !fmap_is_Some.
  Qed.
  Lemma unlabelled_has_node (A : agraph NL EL) n : a_has_node (a_unlabelled A) n ↔ a_has_node A n.
  Proof. unfold a_has_node. simpl. by rewrite lookup_fmap, fmap_is_Some. Qed.
  Lemma unlabelled_has_edge (A : agraph NL EL) x y : a_has_edge (a_unlabelled A) x y ↔ a_has_edge A x y.
  Proof. unfold a_has_edge, a_edge_at. simpl. by rewrite lookup_fmap, fmap_is_Some. Qed.

  Lemma skrel_view g s it : skrel g s → hash_order g it →
    represents (v_unlabelled (gm_view dir it g)) (a_unlabelled (sp_g s)) ∧
    answers_missing (gm_view dir it g) (sp_g s) ∧
    iterates (gm_view dir it g) ∧ v_edge_count (gm_view dir it g) = sp_count s ∧
    v_max_seen_id (gm_view dir it g) = Ok (sp_max s) ∧
    v_node_label_map (gm_view dir it g) = sp_nls s ∧ v_edge_label_map (gm_view dir it g) = sp_els s.
  Proof.
    intros H Hit. destruct H as [Ha Hc Hm Hn He Hnd Hed Hge Hb]. split_and!; try done.
    - assert (abs_rel dir (λ _ l, l = None) (λ _ l, l = None) (g_nodes g) (a_unlabelled (sp_g s))) as Ha'.
      { split; [apply Ha|apply unlabelled_wf, Ha|..].
        - intros k. simpl. rewrite lookup_fmap. pose proof (ar_node _ _ _ _ _ Ha k) as Hf.
          inversion Hf as [? ? [? ?]|]; simpl; constructor; done.
        - intros x y. pose proof (ar_edge _ _ _ _ _ Ha x y) as Hf. unfold a_edge_at in *. simpl.
          rewrite lookup_fmap. inversion Hf; simpl; constructor; done.
        - intros t n Ht. pose proof (ar_in _ _ _ _ _ Ha t n Ht) as Hin. destruct dir; [|done].
          intros x. by rewrite unlabelled_has_edge. }
      pose proof (view_represents dir _ _ (GraphMap (g_nodes g) (g_nedges g) [] [] (g_max g)) _ it [] [] Ha') as Hv.
      assert (represents (gm_view dir it (GraphMap (g_nodes g) (g_nedges g) [] [] (g_max g))) (a_unlabelled (sp_g s))) as Hrep.
      { apply Hv; try done.
        - intros lid l ->. by destruct lid.
        - intros lid l ->. by destruct lid.
        - intros n Hn'. destruct (Hb n (proj1 (unlabelled_has_node _ _) Hn')) as (k & Hk & ?). exists k. simpl. by rewrite Hm. }
      clear -Hrep. destruct Hrep. by split.
    - by eapply view_answers_missing.
    - by eapply view_iterates.
    - simpl. unfold gm_max_seen_id. by rewrite Hm.
  Qed.
End skel.
