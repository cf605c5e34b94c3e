From Verif Require Import Base BaseFacts Api Spec SpecFacts SpecReorder GraphMap Reorder ReorderMain GraphMapFacts GraphMapRefine GraphMapThms ViewFacts GraphMapProps SpecConn ConnComp SpecIso IsoProps.

Lemma filter_fmap_length_gen {X} (g : X → X) (P Q : X → Prop) `{∀ x, Decision (P x), ∀ x, Decision (Q x)} l : (∀ p, p ∈ l → Q (g p) ↔ P p) →
  length (filter Q (g <$> l)) = length (filter P l).
Proof.
  intros Hg. induction l as [|p l IH]; [done|]. rewrite fmap_cons, !filter_cons. pose proof (Hg p (elem_of_list_here _ _)) as Hp.
  destruct (decide (Q (g p))) as [HQ|HQ], (decide (P p)) as [HP|HP]; try tauto; cbn; rewrite IH; try done; intros q Hq; apply Hg; by right.
Qed.
Section hist.
  Context {NL EL : Type} `{EqDecision NL, EqDecision EL} (f : N → N) {Hinj : Inj (=) (=) f}.
  Implicit Types (A B : agraph NL EL) (s t : sstate NL EL).

  Record ren A B : Prop := {
    rr_dir : ag_dir B = ag_dir A;
    rr_wf : ag_wf A;
    rr_wf' : ag_wf B;
    rr_nodes : ∀ x, ag_nodes B !! f x = ag_nodes A !! x;
    rr_only : ∀ y, a_has_node B y → ∃ x, y = f x;
    rr_edges : ∀ x y, a_edge_at B (f x) (f y) = a_edge_at A x y;
  }.
  Lemma ren_renames A B : ren A B → renames f A B.
  Proof using Hinj.
    intros H. constructor; [apply H|apply H| | |].
    - intros x y _ _. apply Hinj.
    - intros y l. split.
      + intros Hl. destruct (rr_only _ _ H y) as [x ->]; [by eexists|]. exists x. rewrite (rr_nodes _ _ H) in Hl. done.
      + intros (x & Hx & <-). by rewrite (rr_nodes _ _ H).
    - intros x y _ _. apply H.
  Qed.
  Lemma ren_ekey d x y u v : ekey d (f x) (f y) = ekey d (f u) (f v) ↔ ekey d x y = ekey d u v.
  Proof using Hinj. rewrite !ekey_eq. split; intros [[E1 E2]|(Hd & E1 & E2)]; try apply Hinj in E1; try apply Hinj in E2; subst; auto. Qed.
  Lemma ren_empty d : ren (a_empty d) (a_empty d).
  Proof. split; [done|apply wf_empty|apply wf_empty|done| |done]. intros y [? Hy]. done. Qed.
  Lemma ren_add_node A B n l : ren A B → ren (a_add_node n l A) (a_add_node (f n) l B).
  Proof using Hinj.
    intros H. split; [apply H|by apply wf_add_node, H|by apply wf_add_node, H| | |].
    - intros x. cbn. destruct (decide (x = n)) as [->|Hne]; [by rewrite !lookup_insert|].
      rewrite !lookup_insert_ne; [apply H|done|]. intros E. by apply Hinj in E.
    - intros y [-> | Hy]%add_node_has_node; [by exists n|]. by apply (rr_only _ _ H).
    - intros x y. rewrite !add_node_edge_at. apply H.
  Qed.
  Lemma ren_touch A B n : ren A B → ren (a_touch n A) (a_touch (f n) B).
  Proof using Hinj. intros H. unfold a_touch. rewrite (rr_nodes _ _ H). destruct (ag_nodes A !! n); [done|]. by apply ren_add_node. Qed.
  Lemma ren_add_edge A B x y l : ren A B → ren (a_add_edge x y l A) (a_add_edge (f x) (f y) l B).
  Proof using Hinj.
    intros H. pose proof (ren_touch _ _ y (ren_touch _ _ x H)) as H2. split.
    - rewrite !add_edge_dir. apply H.
    - by apply wf_add_edge, H.
    - by apply wf_add_edge, H.
    - intros u. rewrite !add_edge_nodes. apply H2.
    - intros u Hu. apply (rr_only _ _ H2). by unfold a_has_node in *; rewrite add_edge_nodes in Hu.
    - intros u v. rewrite !add_edge_edge_at, (rr_dir _ _ H), (rr_edges _ _ H).
      destruct (decide (ekey (ag_dir A) x y = ekey (ag_dir A) u v)) as [E|E].
      + by rewrite decide_True by (by apply ren_ekey).
      + by rewrite decide_False by (by rewrite ren_ekey).
  Qed.
  Lemma ren_remove_edge A B x y : ren A B → ren (a_remove_edge x y A) (a_remove_edge (f x) (f y) B).
  Proof using Hinj.
    intros H. split; [apply H|by apply wf_remove_edge, H|by apply wf_remove_edge, H|apply H|apply H|].
    intros u v. rewrite !remove_edge_edge_at, (rr_dir _ _ H), (rr_edges _ _ H).
    destruct (decide (ekey (ag_dir A) x y = ekey (ag_dir A) u v)) as [E|E].
    - by rewrite decide_True by (by apply ren_ekey).
    - by rewrite decide_False by (by rewrite ren_ekey).
  Qed.
  Lemma ren_remove_node A B n : ren A B → ren (a_remove_node n A) (a_remove_node (f n) B).
  Proof using Hinj.
    intros H. split; [apply H|by apply wf_remove_node, H|by apply wf_remove_node, H| | |].
    - intros x. cbn. destruct (decide (x = n)) as [->|Hne]; [by rewrite !lookup_delete|].
      rewrite !lookup_delete_ne; [apply H|done|]. intros E. by apply Hinj in E.
    - intros y [_ Hy]%remove_node_has_node. by apply (rr_only _ _ H).
    - intros u v. rewrite !remove_node_edge_at, (rr_edges _ _ H).
      destruct (decide (u = n ∨ v = n)) as [E|E].
      + rewrite decide_True; [done|]. by destruct E as [-> | ->]; [left|right].
      + rewrite decide_False; [done|]. intros [E1|E1]; apply Hinj in E1; auto.
  Qed.
  Lemma ren_set_edge A B x y l : ren A B → a_has_edge A x y →
    ren (AG (ag_dir A) (ag_nodes A) (<[ekey (ag_dir A) x y := l]> (ag_edges A))) (AG (ag_dir B) (ag_nodes B) (<[ekey (ag_dir B) (f x) (f y) := l]> (ag_edges B))).
  Proof using Hinj.
    intros H He. destruct (wf_edge_nodes A _ _ (rr_wf _ _ H) He) as [Hx Hy].
    assert (a_has_node B (f x) ∧ a_has_node B (f y)) as [Hx' Hy'] by (unfold a_has_node; by rewrite !(rr_nodes _ _ H)).
    pose proof (ren_add_edge A B x y l H) as HR. unfold a_add_edge in HR.
    rewrite (touch_present x A Hx), (touch_present y A Hy), (touch_present (f x) B Hx'), (touch_present (f y) B Hy') in HR. exact HR.
  Qed.
  Lemma ren_num_edges A B : ren A B → a_num_edges B = a_num_edges A.
  Proof using Hinj.
    intros H. unfold a_num_edges. change (length (map_to_list (ag_edges B)) = length (map_to_list (ag_edges A))).
    by rewrite (ren_edges_list f A B (rr_wf _ _ H) (ren_renames _ _ H)), fmap_length.
  Qed.
  Lemma ren_incident A B n : ren A B → size (a_incident (f n) B) = size (a_incident n A).
  Proof using Hinj.
    intros H. pose proof (remove_node_num_edges n A). pose proof (remove_node_num_edges (f n) B).
    pose proof (ren_num_edges _ _ H). pose proof (ren_num_edges _ _ (ren_remove_node _ _ n H)). lia.
  Qed.

  Record renS s t : Prop := {
    rS_g : ren (sp_g s) (sp_g t);
    rS_count : sp_count t = sp_count s;
    rS_nls : sp_nls t = sp_nls s;
    rS_els : sp_els t = sp_els s;
  }.
  Definition ren_res s t (o : gop NL EL) : Prop :=
    match spec_step o s with
    | SOk (r, s') => ∃ t', spec_step (ren_op f o) t = SOk (ren_out f r, t') ∧ renS s' t'
    | SPanic => spec_step (ren_op f o) t = SPanic
    | SUnspec => spec_step (ren_op f o) t = SUnspec
    end.
  Lemma ren_step s t o : renS s t → ren_res s t o.
  Proof using Hinj.
    intros H. pose proof (rS_g _ _ H) as HR. unfold ren_res.
    destruct o as [n l|x y l|n|x y|n l|x y l|l|l| |n lid|x y lid]; cbn [spec_step ren_op].
    - eexists. split; [by rewrite (rr_nodes _ _ HR)|]. split; cbn; [by apply ren_add_node|apply H|by rewrite (rS_nls _ _ H)|apply H].
    - eexists. split; [by rewrite (rr_edges _ _ HR)|]. split; cbn; [by apply ren_add_edge|by rewrite (rS_count _ _ H)|apply H|by rewrite (rS_els _ _ H)].
    - rewrite (rr_nodes _ _ HR). destruct (ag_nodes (sp_g s) !! n) as [l|]; [|by exists t].
      destruct (decide (a_has_edge (sp_g s) n n)) as [E|E].
      + rewrite decide_True; [done|]. unfold a_has_edge. by rewrite (rr_edges _ _ HR).
      + rewrite decide_False by (unfold a_has_edge; by rewrite (rr_edges _ _ HR)). eexists. split; [done|].
        split; cbn; [by apply ren_remove_node|by rewrite (rS_count _ _ H), (ren_incident _ _ _ HR)|apply H|apply H].
    - rewrite (rr_edges _ _ HR). destruct (a_edge_at (sp_g s) x y) as [l|]; [|by exists t].
      eexists. split; [done|]. split; cbn; [by apply ren_remove_edge|by rewrite (rS_count _ _ H)|apply H|apply H].
    - rewrite (rr_nodes _ _ HR). destruct (ag_nodes (sp_g s) !! n); [|by exists t]. eexists. split; [done|].
      split; cbn; [by apply ren_add_node|apply H|by rewrite (rS_nls _ _ H)|apply H].
    - rewrite (rr_edges _ _ HR). destruct (a_edge_at (sp_g s) x y) as [l'|]; [|by exists t]. eexists. split; [done|].
      split; cbn; [by apply ren_add_edge|by rewrite (rS_count _ _ H)|apply H|by rewrite (rS_els _ _ H)].
    - eexists. split; [by rewrite (rS_nls _ _ H)|]. split; cbn; [done|apply H|done|apply H].
    - eexists. split; [by rewrite (rS_els _ _ H)|]. split; cbn; [done|apply H|apply H|done].
    - eexists. split; [done|]. split; cbn; [done|by apply ren_num_edges|apply H|apply H].
    - rewrite (rr_nodes _ _ HR). destruct (ag_nodes (sp_g s) !! n); [|by exists t]. rewrite (rS_nls _ _ H).
      destruct lid as [i|].
      + destruct (sp_nls s !! N.to_nat i) as [k|]; [|done]. eexists. split; [done|]. split; cbn; [by apply ren_add_node|apply H|done|apply H].
      + eexists. split; [done|]. split; cbn; [by apply ren_add_node|apply H|done|apply H].
    - rewrite (rr_edges _ _ HR). destruct (a_edge_at (sp_g s) x y) as [l'|] eqn:El; [|by exists t]. rewrite (rS_els _ _ H).
      assert (a_has_edge (sp_g s) x y) as He by (by exists l').
      assert (negb (ag_dir (sp_g t)) && bool_decide (f x ≠ f y) = negb (ag_dir (sp_g s)) && bool_decide (x ≠ y)) as ->.
      { rewrite (rr_dir _ _ HR). f_equal. apply bool_decide_ext. split; [by intros E ->|]. intros E E'. by apply E, Hinj. }
      destruct (negb (ag_dir (sp_g s)) && bool_decide (x ≠ y)); [done|].
      destruct lid as [i|].
      + destruct (sp_els s !! N.to_nat i) as [k|]; [|done]. eexists. split; [done|]. split; cbn; [by apply ren_set_edge|apply H|apply H|done].
      + eexists. split; [done|]. split; cbn; [by apply ren_set_edge|apply H|apply H|done].
  Qed.
  Lemma ren_run h : ∀ s t, renS s t →
    match spec_run h s with
    | SOk (rs, s') => ∃ t', spec_run (ren_op f <$> h) t = SOk (ren_out f <$> rs, t') ∧ renS s' t'
    | SPanic => spec_run (ren_op f <$> h) t = SPanic
    | SUnspec => spec_run (ren_op f <$> h) t = SUnspec
    end.
  Proof using Hinj.
    induction h as [|o h IH]; intros s t Hst; [by exists t|]. rewrite fmap_cons. cbn [spec_run].
    pose proof (ren_step s t o Hst) as Ho. unfold ren_res in Ho. destruct (spec_step o s) as [[r s1]| |]; [|by rewrite Ho..].
    destruct Ho as (t1 & -> & H1). specialize (IH s1 t1 H1). destruct (spec_run h s1) as [[rs s2]| |]; [|by rewrite IH..].
    destruct IH as (t2 & -> & H2). by exists t2.
  Qed.
  Lemma renS_init d nls els : renS (s_init d nls els) (s_init d nls els).
  Proof. split; [apply ren_empty|done..]. Qed.
  Lemma strip_ren (h : list (gop NL EL)) : strip (ren_op f <$> h) = ren_op f <$> strip h.
  Proof.
    unfold strip. induction h as [|o h IH]; [done|]. rewrite fmap_cons, !filter_cons. rewrite IH. by destruct o.
  Qed.
  Lemma hist_panic d lt (nls : list NL) (els : list EL) h : NoDup nls → NoDup els →
    gm_run d lt (ren_op f <$> h) (gm_with_label_map nls els) = Panic ↔ gm_run d lt h (gm_with_label_map nls els) = Panic.
  Proof using Hinj.
    intros Hn He. pose proof (structure d lt nls els h Hn He) as H1. pose proof (structure d lt nls els (ren_op f <$> h) Hn He) as H2.
    rewrite strip_ren in H2. pose proof (ren_run (strip h) _ _ (renS_init d nls els)) as HR.
    destruct (spec_run (strip h) _) as [[rs s]| |]; [|rewrite HR in H2; by rewrite H1, H2|done].
    destruct HR as (t & Ht & _). rewrite Ht in H2. destruct H1 as (? & ? & -> & _). destruct H2 as (? & ? & -> & _). done.
  Qed.
  Lemma hist_same d lt (nls : list NL) (els : list EL) h rs s : NoDup nls → NoDup els → spec_run h (s_init d nls els) = SOk (rs, s) →
    labels_fit lt (sp_nls s) → labels_fit lt (sp_els s) →
    ∃ g g', gm_run d lt h (gm_with_label_map nls els) = Ok (rs, g) ∧
      gm_run d lt (ren_op f <$> h) (gm_with_label_map nls els) = Ok (ren_out f <$> rs, g') ∧
      ∀ it it', hash_order g it → hash_order g' it' → same_answers_at f (gm_view d it g) (gm_view d it' g') ∧ same_shape f (gm_view d it g) (gm_view d it' g').
  Proof using Hinj.
    intros Hn He Hr HN HE. pose proof (ren_run h _ _ (renS_init d nls els)) as HR. rewrite Hr in HR. destruct HR as (t & Ht & HS).
    destruct (refinement d lt nls els h rs s Hn He Hr HN HE) as (g & Hg & HV).
    destruct (refinement d lt nls els (ren_op f <$> h) (ren_out f <$> rs) t Hn He Ht) as (g' & Hg' & HW).
    { by rewrite (rS_nls _ _ HS). } { by rewrite (rS_els _ _ HS). }
    exists g, g'. split; [done|]. split; [done|]. intros it it' Hit Hit'.
    destruct (HV it Hit) as (V1 & V2 & V3 & V4 & _ & V5 & V6). destruct (HW it' Hit') as (W1 & W2 & W3 & W4 & _ & W5 & W6).
    set (V := gm_view d it g) in *. set (W := gm_view d it' g') in *. pose proof (rS_g _ _ HS) as HG.
    assert (∀ x, a_has_node (sp_g t) (f x) ↔ a_has_node (sp_g s) x) as Hnode by (intros x; unfold a_has_node; by rewrite (rr_nodes _ _ HG)).
    assert (∀ x y, a_has_edge (sp_g t) (f x) (f y) ↔ a_has_edge (sp_g s) x y) as Hedge by (intros x y; unfold a_has_edge; by rewrite (rr_edges _ _ HG)).
    split.
    - split.
      + intros x. apply eq_true_iff_eq. by rewrite (rp_has_node _ _ V1), (rp_has_node _ _ W1).
      + intros y Hy%(rp_has_node _ _ W1). by apply (rr_only _ _ HG).
      + intros x y. destruct (decide (a_has_node (sp_g s) x)) as [Hx|Hx].
        * destruct (rp_has_edge _ _ V1 x y Hx) as (r & -> & Hri). destruct (rp_has_edge _ _ W1 (f x) (f y)) as (r' & -> & Hri'); [by apply Hnode|].
          f_equal. apply eq_true_iff_eq. by rewrite Hri, Hri'.
        * rewrite (am_has_edge _ _ V2 x y Hx), (am_has_edge _ _ W2 (f x) (f y)); [done|]. by rewrite Hnode.
      + intros x. destruct (decide (a_has_node (sp_g s) x)) as [Hx|Hx].
        * rewrite (rep_node_label V (sp_g s) x V1 Hx), (rep_node_label W (sp_g t) (f x) W1) by (by apply Hnode). by rewrite (rr_nodes _ _ HG).
        * unfold v_node_label. rewrite (am_get_node _ _ V2 x Hx), (am_get_node _ _ W2 (f x)); [done|]. by rewrite Hnode.
      + intros x y. destruct (decide (a_has_edge (sp_g s) x y)) as [Hx|Hx].
        * rewrite (rep_edge_label V (sp_g s) x y V1 Hx), (rep_edge_label W (sp_g t) (f x) (f y) W1) by (by apply Hedge). by rewrite (rr_edges _ _ HG).
        * rewrite (rep_missing_edge_label V (sp_g s) x y V2 Hx), (rep_missing_edge_label W (sp_g t) (f x) (f y) W2); [done|by rewrite Hedge].
      + by rewrite V4, W4, (rS_count _ _ HS).
      + by rewrite V5, W5, (rS_nls _ _ HS).
      + by rewrite V6, W6, (rS_els _ _ HS).
    - eapply shape; [done..|]. by apply ren_renames.
  Qed.
End hist.

Section reorder.
  Context {NL EL : Type} `{EqDecision NL, EqDecision EL} (dir : bool) (idt lt : idty).
  (** reorder_id renames: every answer that does not name ids stays. *)
  Lemma reorder_shape (nls : list NL) (els : list EL) h rs s :
    NoDup nls → NoDup els → spec_run h (s_init dir nls els) = SOk (rs, s) →
    labels_fit lt (sp_nls s) → labels_fit lt (sp_els s) →
    (∀ x, a_has_node (sp_g s) x → (x < id_card idt)%N) →
    ∃ g : graphmap NL EL, gm_run dir lt h (gm_with_label_map nls els) = Ok (rs, g) ∧
    ∀ it no eo fn fnl fel, hash_order g it →
      counter_order (node_label_ids g it) no → counter_order (edge_label_ids dir g it) eo →
      ∃ R g' f, gm_reorder_id dir idt lt it no eo fn fnl fel g = Ok R ∧ rr_graph R = Some g' ∧
        (∀ x, a_has_node (sp_g s) x → rr_find_new_node_id idt R x = Ok (f x)) ∧
        ∀ it', hash_order g' it' → same_shape f (gm_view dir it g) (gm_view dir it' g').
  Proof.
    intros Hn He Hs HN HE Hid. destruct (reorder_main dir idt lt nls els h rs s Hn He Hs HN HE Hid) as (g & Hg & HR).
    exists g. split; [done|]. intros it no eo fn fnl fel Hit Hno Heo.
    destruct (HR it no eo fn fnl fel Hit Hno Heo) as (R & g' & f & B & H1 & H2 & H3 & H4 & _ & H5). exists R, g', f.
    split; [done|]. split; [done|]. split; [done|]. intros it' Hit'. destruct (H5 it' Hit') as (W1 & _ & W2 & _).
    destruct (refinement dir lt nls els h rs s Hn He Hs HN HE) as (g0 & Hg0 & HV). rewrite Hg in Hg0. injection Hg0 as <-.
    destruct (HV it Hit) as (V1 & _ & V3 & _). by apply (shape f _ _ (sp_g s) B).
  Qed.
End reorder.
