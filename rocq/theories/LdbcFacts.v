(** LDBC import: the invariant. *)
From Coq Require Import Ascii.
From stdpp Require Import gmap strings.
From Verif Require Import Base BaseFacts Api Spec SpecFacts SpecOps Map GraphMap GraphMapFacts GraphMapRefine GraphMapSim GraphMapThms
  ViewFacts GraphOpsFacts GraphOpsProps Csv Ldbc SpecLdbc.

Definition key (e : entity) : string := (e.1 +:+ e.2)%string.
Section labels.
  Lemma entity_label_snoc_node fs e l e' : entity_label (fs ++ [FNode e l]) e' = if decide (e = e') then l else entity_label fs e'.
  Proof.
    unfold entity_label. rewrite omap_app. cbn. case_decide; [by rewrite last_snoc|]. by rewrite app_nil_r.
  Qed.
  Lemma entity_label_snoc_edge fs s t l e : entity_label (fs ++ [FEdge s t l]) e = entity_label fs e.
  Proof. unfold entity_label. rewrite omap_app. cbn. by rewrite app_nil_r. Qed.
  Lemma entity_label_new fs e : e ∉ entities fs → entity_label fs e = e.1.
  Proof.
    intros He. unfold entity_label. induction fs as [|f fs IH]; [done|]. unfold entities in He. csimpl in He. rewrite not_elem_of_app in He. destruct He as [H1 H2].
    destruct f as [e' l|s t l]; cbn [omap list_omap]; [|by apply IH]. rewrite decide_False; [by apply IH|]. intros ->. apply H1. set_solver.
  Qed.
  Lemma relation_label_snoc_node dir fs e l s t : relation_label dir (fs ++ [FNode e l]) s t = relation_label dir fs s t.
  Proof. unfold relation_label. rewrite omap_app. cbn. by rewrite app_nil_r. Qed.
  Lemma relation_label_snoc_edge dir fs s' t' l s t : relation_label dir (fs ++ [FEdge s' t' l]) s t =
    if decide ((s', t') = (s, t) ∨ dir = false ∧ (s', t') = (t, s)) then Some l else relation_label dir fs s t.
  Proof. unfold relation_label. rewrite omap_app. cbn. case_decide; [by rewrite last_snoc|]. by rewrite app_nil_r. Qed.
  Lemma relation_label_new dir fs s t : s ∉ entities fs ∨ t ∉ entities fs → relation_label dir fs s t = None.
  Proof.
    intros He. unfold relation_label. induction fs as [|f fs IH]; [done|]. unfold entities in He. csimpl in He. rewrite !not_elem_of_app in He.
    cbn [omap list_omap]. destruct f as [e' l|s' t' l]; cbn [joins]; [apply IH; unfold entities; tauto|].
    rewrite decide_False; [apply IH; unfold entities; tauto|]. cbn in He. set_solver.
  Qed.
  Lemma entities_snoc fs f : entities (fs ++ [f]) = entities fs ++ names f.
  Proof. unfold entities. rewrite bind_app. csimpl. by rewrite app_nil_r. Qed.
End labels.

Section run.
  Context (dir : bool) (it : idty) (nls els : list string) (U : list entity).
  Context (HN : labels_fit it nls) (HE : labels_fit it els).
  Context (HU : ∀ e e', e ∈ U → e' ∈ U → key e = key e' → e = e').
  Notation lrel := (rel (NL:=string) (EL:=string) dir lab_rel lab_rel).
  Notation graph := (graphmap string string).
  Notation state := (graph * gmap string N)%type.

  Record inv (fs : list fact) (seen : list entity) (st : state) (s : sstate string string) : Prop := {
    i_rel : lrel st.1 s;
    i_within : within s nls els;
    i_wf : ag_wf (sp_g s);
    i_dir : ag_dir (sp_g s) = dir;
    i_seen : NoDup seen;
    i_sub : entities fs ⊆ seen;
    i_U : seen ⊆ U;
    i_nodes : ∀ n, a_has_node (sp_g s) n ↔ (n < N.of_nat (length seen))%N;
    i_label : ∀ i e, seen !! i = Some e → ag_nodes (sp_g s) !! N.of_nat i = Some (Some (entity_label fs e));
    i_edges : ∀ i j x y, seen !! i = Some x → seen !! j = Some y →
      a_edge_at (sp_g s) (N.of_nat i) (N.of_nat j) = Some <$> relation_label dir fs x y;
    i_max : sp_max s = match seen with [] => None | _ => Some (N.of_nat (length seen - 1)) end;
    i_count : sp_count s = length (relations fs);
    i_map : ∀ i e, seen !! i = Some e → st.2 !! key e = Some (N.of_nat i);
    i_keys : ∀ k n, st.2 !! k = Some n → ∃ i e, n = N.of_nat i ∧ seen !! i = Some e ∧ k = key e;
  }.
  Lemma inv_init : inv [] [] (gm_new, ∅) (s_init dir [] []).
  Proof using All.
    split; try done.
    - by apply (rel_init dir _ _ [] []); constructor.
    - unfold within. simpl. split_and!; [constructor|constructor|set_solver|set_solver].
    - apply wf_empty.
    - constructor.
    - set_solver.
    - intros n. unfold a_has_node. cbn [sp_g s_init a_empty ag_nodes length]. rewrite lookup_empty. split; [by intros []|lia].
  Qed.
  Lemma edge_at_new_node (A : agraph string string) n l x y : ag_wf A → ¬ a_has_node A n → (x = n ∨ y = n) → a_edge_at (a_add_node n l A) x y = None.
  Proof using All.
    clear. intros Hwf Hn Hxy. change (a_edge_at A x y = None). apply eq_None_not_Some. intros He.
    apply (wf_edge_nodes A x y Hwf) in He as [H1 H2]. destruct Hxy as [->| ->]; done.
  Qed.
  (** One call. *)
  Lemma inv_step1 g s o r s' : lrel g s → spec_step o s = SOk (r, s') → within s' nls els →
    ∃ g', gm_step dir it o g = Ok (r, g') ∧ lrel g' s'.
  Proof using All.
    intros Hr Ho Hw. destruct (within_fit it s' nls els Hw HN HE) as [H1 H2].
    destruct (label_sim dir it [o] g s [r] s') as (g' & Hg & H'); [done|cbn [spec_run]; by rewrite Ho|done|done|].
    exists g'. split; [|done]. cbn [gm_run] in Hg. destruct (gm_step dir it o g) as [[r' g2]| |]; simplify_eq/=; done.
  Qed.
  Lemma within_node s n l : within s nls els → l ∈ nls → within (s_add_node n (Some l) s) nls els.
  Proof using All.
    intros (H1 & H2 & H3 & H4) Hl. destruct (register_within (Some l) (sp_nls s) nls H1 H3) as [? ?]; [by intros ? [= <-]|]. done.
  Qed.
  Lemma within_edge s x y l : within s nls els → l ∈ els → within (s_add_edge x y (Some l) s) nls els.
  Proof using All.
    intros (H1 & H2 & H3 & H4) Hl. destruct (register_within (Some l) (sp_els s) els H2 H4) as [? ?]; [by intros ? [= <-]|]. done.
  Qed.
  Lemma run_add_node g s n l : lrel g s → within s nls els → l ∈ nls →
    ∃ g', rmap snd (gm_add_node it n (Some l) g) = Ok g' ∧ lrel g' (s_add_node n (Some l) s).
  Proof using All.
    intros Hr Hw Hl. destruct (inv_step1 g s (OAddNode n (Some l)) _ _ Hr eq_refl (within_node s n l Hw Hl)) as (g' & Hg & H').
    exists g'. split; [|done]. cbn [gm_step] in Hg. destruct (gm_add_node it n (Some l) g) as [[b g2]| |]; cbn [rbind rmap] in *; by simplify_eq/=.
  Qed.
  Lemma run_add_edge g s x y l : lrel g s → within s nls els → l ∈ els →
    ∃ g', rmap snd (gm_add_edge dir it x y (Some l) g) = Ok g' ∧ lrel g' (s_add_edge x y (Some l) s).
  Proof using All.
    intros Hr Hw Hl. destruct (inv_step1 g s (OAddEdge x y (Some l)) _ _ Hr eq_refl (within_edge s x y l Hw Hl)) as (g' & Hg & H').
    exists g'. split; [|done]. cbn [gm_step] in Hg. destruct (gm_add_edge dir it x y (Some l) g) as [[b g2]| |]; cbn [rbind rmap] in *; by simplify_eq/=.
  Qed.

  (** The id of a new entity. *)
  Lemma next_id_ok fs seen st s : inv fs seen st s → (N.of_nat (length seen) < id_card it)%N → next_id it st.1 = Ok (N.of_nat (length seen)).
  Proof using All.
    intros H Hc. unfold next_id, gm_max_seen_id. rewrite (r_max _ _ _ _ _ (i_rel _ _ _ _ H)), (i_max _ _ _ _ H).
    destruct seen as [|e seen]; [done|]. cbn [length] in *. unfold id_incr.
    destruct it; [cbn in Hc; lia|..]; (rewrite decide_True by lia; f_equal; lia).
  Qed.
  Lemma next_id_overflow fs seen st s : inv fs seen st s → N.of_nat (length seen) = id_card it → it ≠ TUnit → next_id it st.1 = Panic.
  Proof using All.
    intros H Hc Hit. unfold next_id, gm_max_seen_id. rewrite (r_max _ _ _ _ _ (i_rel _ _ _ _ H)), (i_max _ _ _ _ H).
    destruct seen as [|e seen]; [by destruct it|]. cbn [length] in *. unfold id_incr.
    destruct it; [done|..]; (rewrite decide_False by lia; done).
  Qed.
  Lemma map_found fs seen st s i e : inv fs seen st s → seen !! i = Some e → st.2 !! key e = Some (N.of_nat i).
  Proof using All. intros H. apply (i_map _ _ _ _ H). Qed.
  Lemma map_missing fs seen st s e : inv fs seen st s → e ∈ U → e ∉ seen → st.2 !! key e = None.
  Proof using All.
    intros H He Hn. apply eq_None_not_Some. intros [n Hk]. destruct (i_keys _ _ _ _ H _ _ Hk) as (i & e' & -> & Hs & Hk').
    apply Hn. rewrite (HU e e'); [by eapply elem_of_list_lookup_2|done| |done]. apply (i_U _ _ _ _ H). by eapply elem_of_list_lookup_2.
  Qed.
  (** A new node with the label of its entity. *)
  Lemma inv_new fs fs' seen st s e l g' : inv fs seen st s → e ∈ U → e ∉ seen → l ∈ nls → lrel g' (s_add_node (N.of_nat (length seen)) (Some l) s) →
    entities fs' ⊆ seen ++ [e] → entity_label fs' e = l → (∀ e', e' ∈ seen → entity_label fs' e' = entity_label fs e') →
    (∀ x y, relation_label dir fs' x y = relation_label dir fs x y) → relations fs' = relations fs →
    inv fs' (seen ++ [e]) (g', <[key e := N.of_nat (length seen)]> st.2) (s_add_node (N.of_nat (length seen)) (Some l) s).
  Proof using All.
    intros H He Hn Hl Hrel Hsub Hle Hls Hr Hrs. pose proof (i_nodes _ _ _ _ H) as Hnodes.
    assert (¬ a_has_node (sp_g s) (N.of_nat (length seen))) as Hnew by (rewrite Hnodes; lia).
    split; cbn [fst snd].
    - done.
    - by apply within_node; [apply H|].
    - apply wf_add_node, H.
    - apply H.
    - apply NoDup_app. split; [apply H|]. split; [|apply NoDup_singleton]. set_solver.
    - done.
    - pose proof (i_U _ _ _ _ H). set_solver.
    - intros n. unfold a_has_node. cbn. rewrite app_length. cbn [length]. destruct (decide (n = N.of_nat (length seen))) as [->|Hne].
      + rewrite lookup_insert. split; [lia|by eexists].
      + rewrite lookup_insert_ne by done. fold (a_has_node (sp_g s) n). rewrite Hnodes. lia.
    - intros i x Hi. apply lookup_app_Some in Hi as [Hi|[Hge Hi]].
      + cbn. rewrite lookup_insert_ne; [|apply lookup_lt_Some in Hi; lia]. rewrite Hls by (by eapply elem_of_list_lookup_2). by apply (i_label _ _ _ _ H).
      + apply list_lookup_singleton_Some in Hi as [Hi <-]. cbn. replace i with (length seen) by lia. by rewrite lookup_insert, Hle.
    - intros i j x y Hi Hj. rewrite Hr. apply lookup_app_Some in Hi as [Hi|[Hge Hi]].
      + apply lookup_app_Some in Hj as [Hj|[Hge Hj]]; [by apply (i_edges _ _ _ _ H)|]. apply list_lookup_singleton_Some in Hj as [Hj <-].
        rewrite relation_label_new by (right; intros ?; apply Hn, (i_sub _ _ _ _ H); done). apply edge_at_new_node; [apply H|done|right; lia].
      + apply list_lookup_singleton_Some in Hi as [Hi <-].
        rewrite relation_label_new by (left; intros ?; apply Hn, (i_sub _ _ _ _ H); done). apply edge_at_new_node; [apply H|done|left; lia].
    - cbn. unfold max_new. unfold a_has_node in Hnew. destruct (ag_nodes (sp_g s) !! _); [destruct Hnew; by eexists|]. rewrite (i_max _ _ _ _ H).
      assert (∃ a b, seen ++ [e] = a :: b) as (a & b & Hab) by (destruct seen; by eexists _, _). rewrite Hab. rewrite <-Hab, app_length. cbn [length].
      replace (length seen + 1 - 1) with (length seen) by lia. destruct seen as [|c seen]; [done|]. cbn [omax length]. unfold omax. f_equal. lia.
    - cbn. rewrite (i_count _ _ _ _ H). by rewrite Hrs.
    - intros i x Hi. destruct (decide (key x = key e)) as [Hk|Hk].
      + rewrite Hk, lookup_insert. f_equal. f_equal. apply lookup_app_Some in Hi as [Hi|[Hge Hi]].
        * destruct Hn. rewrite <-(HU x e); [by eapply elem_of_list_lookup_2| |done|done]. apply (i_U _ _ _ _ H). by eapply elem_of_list_lookup_2.
        * apply list_lookup_singleton_Some in Hi as [Hi <-]. lia.
      + rewrite lookup_insert_ne by done. apply lookup_app_Some in Hi as [Hi|[Hge Hi]]; [by apply (i_map _ _ _ _ H)|].
        apply list_lookup_singleton_Some in Hi as [Hi <-]. done.
    - intros k n Hk. destruct (decide (k = key e)) as [->|Hne].
      + rewrite lookup_insert in Hk. injection Hk as <-. exists (length seen), e. split; [done|]. split; [|done]. by rewrite lookup_app_r, Nat.sub_diag by lia.
      + rewrite lookup_insert_ne in Hk by done. destruct (i_keys _ _ _ _ H _ _ Hk) as (i & x & -> & Hi & ->). exists i, x.
        split; [done|]. split; [|done]. by apply lookup_app_l_Some.
  Qed.
  (** The label of an old node changes. *)
  Lemma inv_relabel fs seen st s i e l g' : inv fs seen st s → seen !! i = Some e → l ∈ nls → lrel g' (s_add_node (N.of_nat i) (Some l) s) →
    inv (fs ++ [FNode e l]) seen (g', st.2) (s_add_node (N.of_nat i) (Some l) s).
  Proof using All.
    intros H Hi Hl Hrel. pose proof (i_label _ _ _ _ H i e Hi) as Hlab. split; cbn [fst snd]; try apply H.
    - done.
    - by apply within_node; [apply H|].
    - apply wf_add_node, H.
    - rewrite entities_snoc. pose proof (i_sub _ _ _ _ H). apply elem_of_list_lookup_2 in Hi. set_solver.
    - intros n. unfold a_has_node. cbn. destruct (decide (n = N.of_nat i)) as [->|Hne].
      + rewrite lookup_insert. split; [|by eexists]. intros _. apply lookup_lt_Some in Hi. lia.
      + rewrite lookup_insert_ne by done. apply (i_nodes _ _ _ _ H).
    - intros j x Hj. cbn. rewrite entity_label_snoc_node. destruct (decide (e = x)) as [->|Hne].
      + assert (j = i) as -> by (eapply (NoDup_lookup seen); [apply (i_seen _ _ _ _ H)|exact Hj|exact Hi]). by rewrite lookup_insert.
      + rewrite lookup_insert_ne; [by apply (i_label _ _ _ _ H)|]. intros Heq. apply Nat2N.inj in Heq. subst j. congruence.
    - intros a b x y Ha Hb. rewrite relation_label_snoc_node. by apply (i_edges _ _ _ _ H).
    - cbn. unfold max_new. rewrite Hlab. apply H.
    - cbn. rewrite (i_count _ _ _ _ H). unfold relations. by rewrite omap_app, app_nil_r.
  Qed.
  (** An edge between seen entities. *)
  Lemma inv_edge fs seen st s i j x y l g' : inv fs seen st s → seen !! i = Some x → seen !! j = Some y → l ∈ els →
    lrel g' (s_add_edge (N.of_nat i) (N.of_nat j) (Some l) s) →
    inv (fs ++ [FEdge x y l]) seen (g', st.2) (s_add_edge (N.of_nat i) (N.of_nat j) (Some l) s).
  Proof using All.
    intros H Hi Hj Hl Hrel.
    assert (a_has_node (sp_g s) (N.of_nat i)) as H1 by (apply (i_nodes _ _ _ _ H); apply lookup_lt_Some in Hi; lia).
    assert (a_has_node (sp_g s) (N.of_nat j)) as H2 by (apply (i_nodes _ _ _ _ H); apply lookup_lt_Some in Hj; lia).
    assert (a_add_edge (N.of_nat i) (N.of_nat j) (Some l) (sp_g s) = AG dir (ag_nodes (sp_g s))
        (<[ekey dir (N.of_nat i) (N.of_nat j) := Some l]> (ag_edges (sp_g s)))) as Hadd.
    { unfold a_add_edge. rewrite (touch_present (N.of_nat i)), (touch_present (N.of_nat j)) by done. by rewrite (i_dir _ _ _ _ H). }
    split; cbn [fst snd]; try apply H.
    - done.
    - by apply within_edge; [apply H|].
    - apply wf_add_edge, H.
    - unfold s_add_edge; cbn [sp_g]. rewrite Hadd. done.
    - rewrite entities_snoc. pose proof (i_sub _ _ _ _ H). apply elem_of_list_lookup_2 in Hi. apply elem_of_list_lookup_2 in Hj. set_solver.
    - intros n. unfold s_add_edge; cbn [sp_g]. rewrite Hadd. apply (i_nodes _ _ _ _ H).
    - intros k e Hk. unfold s_add_edge; cbn [sp_g]. rewrite Hadd, entity_label_snoc_edge. by apply (i_label _ _ _ _ H).
    - intros a b x' y' Ha Hb. unfold s_add_edge; cbn [sp_g]. rewrite Hadd. unfold a_edge_at. cbn [ag_dir ag_edges]. rewrite relation_label_snoc_edge.
      pose proof (i_edges _ _ _ _ H a b x' y' Ha Hb) as Hold. unfold a_edge_at in Hold. rewrite (i_dir _ _ _ _ H) in Hold.
      assert (∀ p q u v, seen !! p = Some u → seen !! q = Some v → (N.of_nat p = N.of_nat q ↔ u = v)) as Hinj.
      { intros p q u v Hp Hq. split; [intros ->%Nat2N.inj; congruence|]. intros ->. f_equal. eapply (NoDup_lookup seen); [apply (i_seen _ _ _ _ H)|exact Hp|exact Hq]. }
      destruct (decide (ekey dir (N.of_nat i) (N.of_nat j) = ekey dir (N.of_nat a) (N.of_nat b))) as [Hk|Hk].
      + rewrite <-Hk, lookup_insert, decide_True; [done|]. apply ekey_eq in Hk as [[E1 E2]|(? & E1 & E2)].
        * left. apply (Hinj i a x x' Hi Ha) in E1. apply (Hinj j b y y' Hj Hb) in E2. congruence.
        * right. split; [done|]. apply (Hinj i b x y' Hi Hb) in E1. apply (Hinj j a y x' Hj Ha) in E2. congruence.
      + rewrite lookup_insert_ne, decide_False; [done| |done]. intros Heq. apply Hk. apply ekey_eq.
        destruct Heq as [[= <- <-]|(? & [= <- <-])]; [left|right; split; [done|]].
        * split; [by apply (Hinj i a x x)|by apply (Hinj j b y y)].
        * split; [by apply (Hinj i b x x)|by apply (Hinj j a y y)].
    - unfold s_add_edge, max_new; cbn [sp_max]. rewrite (touch_present (N.of_nat i)) by done. unfold a_has_node in *.
      destruct H1 as [? H1], H2 as [? H2]. rewrite H1, H2. apply H.
    - cbn. rewrite (i_count _ _ _ _ H). unfold relations. rewrite omap_app, app_length. cbn. lia.
  Qed.
End run.
