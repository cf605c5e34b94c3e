(** Which graphs can be mapped; independence of prefixes. *)
From stdpp Require Import gmap strings.
From Verif Require Import Base BaseFacts Api Bytes Spec SpecFacts SpecStatic Map GraphMap Static StaticFacts Serde SpecSerde SerdeFacts
  IntoStatic IntoStaticProps Mmap SpecMmap MmapFacts MmapProps MmapThms.

(** into_static of a graph with an edge can be mapped. *)
Section into_static.
  Context {NL EL : Type} (it lt : idty) (dir : bool) (g : graphmap NL EL) (ord : list N) (A : agraph NL EL).
  Context (HA : represents (gm_view dir ord g) A).
  Lemma into_static_mappable PN PE s t sg : a_has_edge A s t → (∀ n, a_has_node A n → (n < id_max it)%N) →
    (lt = TUnit → g_nlm g = [] ∧ g_elm g = []) → gm_into_static it lt dir g = Ok sg → typed_sgraph it lt PN PE sg →
    mappable it lt PN PE dir sg.
  Proof using HA.
    intros He Hids Hlt Hsg Ht. pose proof (wf_edge_nodes A _ _ (rp_wf _ _ HA) He) as [Hs Hn].
    destruct (max_exists dir g ord A HA s Hs) as (max & Hmax & Hm & Hle).
    rewrite (into_static_run it lt dir g max Hmax) in Hsg by (by apply (ids_below it A max)). injection Hsg as <-.
    destruct (rows_csr dir g ord A HA max Hmax) as (Hcsr & _ & _).
    pose proof (proj1 (static_edges dir g ord A HA max Hmax s t) He) as Hrow.
    assert (∀ offs (l : list N) n x, x ∈ row offs l n → l ≠ []) as Hne.
    { intros offs l n x Hx ->. unfold row in Hx. destruct (offs !! _); [|by apply elem_of_nil in Hx].
      destruct (offs !! _); [|by apply elem_of_nil in Hx]. rewrite drop_nil, take_nil in Hx. by apply elem_of_nil in Hx. }
    split; [exact Ht|exact Hcsr| | | | |].
    - cbn [sg_evec ev_edges static_arrays]. by eapply Hne.
    - cbn [sg_in static_arrays]. destruct dir eqn:Hd; cbn [if_some]; [|done]. split; [done|].
      assert (ag_dir A = true) as HdA by (by rewrite <-(rp_directed _ _ HA)).
      destruct (rows_in_csr true g ord A HA max Hmax HdA) as [Hic _]. split; [exact Hic|]. cbn [ev_new ev_edges].
      apply (Hne (psums 0 (length <$> in_rows g (S (N.to_nat max)))) _ t s). rewrite (in_row_eq true g ord A HA max Hmax).
      destruct (irow_keys true g ord A HA (N.to_nat t) HdA) as [_ ->]. by rewrite N2Nat.id.
    - cbn [sg_labels static_arrays]. destruct (has_nl g); cbn [if_some seq]; [|done]. rewrite fmap_cons. done.
    - intros ->. specialize (Hids s Hs). change (id_max TUnit) with 0%N in Hids. lia.
    - intros E. destruct (Hlt E) as [E1 E2]. cbn [sg_labels sg_evec ev_label_vec sg_in static_arrays]. unfold has_nl, has_el. rewrite E1, E2. cbn [if_some].
      split_and!; [done|done|]. destruct dir; done.
  Qed.
End into_static.

(** ** Independent prefixes *)
Lemma str_split p a p' b : p +:+ a = p' +:+ b →
  (∃ c, p' = p +:+ c ∧ a = c +:+ b) ∨ (∃ c, p = p' +:+ c ∧ b = c +:+ a).
Proof.
  revert p'. induction p as [|x p IH]; intros p' H.
  - left. exists p'. split; [done|]. exact H.
  - destruct p' as [|y p'].
    + right. exists (String x p). split; [done|]. symmetry. exact H.
    + injection H as -> H. destruct (IH p' H) as [(c & -> & ->)|(c & -> & ->)]; [left|right]; exists c; done.
Qed.
Definition suffixes : list string :=
  ["_OUT.offsets"; "_OUT.edges"; "_OUT.labels"; "_IN.offsets"; "_IN.edges"; "_IN.labels"; ".labels"; "_aux.bin"]%string.
(** [c ++ b = a] decided: the possible [c]. *)
Fixpoint cut_suffix (a b : string) : list string :=
  (if String.eqb a b then [EmptyString] else []) ++
  match a with EmptyString => [] | String x a => String x <$> cut_suffix a b end.
Lemma cut_suffix_spec c b : c ∈ cut_suffix (c +:+ b) b.
Proof.
  induction c as [|x c IH].
  - change ("" +:+ b) with b. destruct b; cbn [cut_suffix]; rewrite String.eqb_refl; cbn [app]; apply elem_of_list_here.
  - change (String x c +:+ b) with (String x (c +:+ b)). cbn [cut_suffix]. apply elem_of_app. right. apply elem_of_list_fmap. by exists c.
Qed.
Lemma all_cuts a b c : a ∈ suffixes → b ∈ suffixes → c ∈ cut_suffix a b → c ∈ [""; "_OUT"; "_IN"]%string.
Proof.
  assert (forallb (λ a, forallb (λ b, forallb (λ c, bool_decide (c ∈ [""; "_OUT"; "_IN"]%string)) (cut_suffix a b)) suffixes) suffixes = true)
    as H by (by vm_compute).
  intros Ha Hb Hc. rewrite forallb_forall in H. specialize (H a (proj1 (elem_of_list_In _ _) Ha)).
  rewrite forallb_forall in H. specialize (H b (proj1 (elem_of_list_In _ _) Hb)).
  rewrite forallb_forall in H. specialize (H c (proj1 (elem_of_list_In _ _) Hc)). by apply bool_decide_eq_true in H.
Qed.
Lemma all_names_suffix p f : f ∈ all_names p ↔ ∃ a, a ∈ suffixes ∧ f = p +:+ a.
Proof.
  unfold all_names, suffixes. names. split.
  - intros Hf. repeat (apply elem_of_cons in Hf as [->|Hf]; [eexists; split; [|done]; set_solver|]). by apply elem_of_nil in Hf.
  - intros (a & Ha & ->). repeat (apply elem_of_cons in Ha as [->|Ha]; [set_solver|]). by apply elem_of_nil in Ha.
Qed.
Lemma apart_names p p' f : apart p p' → f ∈ all_names p → f ∉ all_names p'.
Proof.
  intros (H0 & H1 & H2 & H3 & H4). rewrite !all_names_suffix. intros (a & Ha & ->) (b & Hb & E).
  destruct (str_split p a p' b E) as [(c & -> & ->)|(c & -> & ->)].
  - pose proof (all_cuts _ _ c Ha Hb (cut_suffix_spec c b)) as Hc.
    apply elem_of_cons in Hc as [->|Hc]; [apply H0; clear; induction p as [|x p IH]; [done|]; change (String x p = String x (p +:+ "")); by f_equal|].
    apply elem_of_cons in Hc as [->|Hc]; [done|]. apply elem_of_list_singleton in Hc as ->. done.
  - pose proof (all_cuts _ _ c Hb Ha (cut_suffix_spec c a)) as Hc.
    apply elem_of_cons in Hc as [->|Hc]; [apply H0; clear; induction p' as [|x p IH]; [done|]; change (String x (p +:+ "") = String x p); by f_equal|].
    apply elem_of_cons in Hc as [->|Hc]; [done|]. apply elem_of_list_singleton in Hc as ->. done.
Qed.
Section frame.
  Context {NL EL : Type} `{EqDecision NL, EqDecision EL} (it lt : idty) (cn : codec NL) (ce : codec EL).
  Lemma typed_map_frame t (F F' : fs) f : F !! f = F' !! f → typed_map t F f = typed_map t F' f.
  Proof. intros Hf. unfold typed_map, tm_new. by rewrite Hf. Qed.
  Lemma ev_open_frame F F' p : F !! f_offsets p = F' !! f_offsets p → F !! f_edges p = F' !! f_edges p → F !! f_labels p = F' !! f_labels p →
    ev_open it lt F p = ev_open it lt F' p.
  Proof.
    intros H1 H2 H3. unfold ev_open, fs_exists. rewrite (typed_map_frame _ _ _ _ H1), (typed_map_frame _ _ _ _ H2), (typed_map_frame _ _ _ _ H3).
    by rewrite H3.
  Qed.
  Lemma mm_open_frame F F' p : (∀ f, f ∈ all_names p → F !! f = F' !! f) → mm_open it lt cn ce F p = mm_open it lt cn ce F' p.
  Proof.
    intros Hf. unfold all_names in Hf. unfold mm_open, fs_exists, import.
    rewrite (ev_open_frame F F' (p_out p)) by (apply Hf; set_solver).
    rewrite (ev_open_frame F F' (p_in p)) by (apply Hf; set_solver).
    rewrite (typed_map_frame lt F F' (f_labels p)) by (apply Hf; set_solver).
    rewrite (Hf (f_offsets (p_in p))), (Hf (f_labels p)), (Hf (f_aux p)) by set_solver. done.
  Qed.
  Lemma apart_open {NL' EL'} `{EqDecision NL', EqDecision EL'} it' lt' (cn' : codec NL') (ce' : codec EL') (g : sgraph NL' EL') p p' F : apart p p' →
    mm_open it lt cn ce (sg_dump_mmap it' lt' cn' ce' g p' F) p = mm_open it lt cn ce F p.
  Proof. intros Hp. apply mm_open_frame. intros f Hf. apply dump_other. by eapply apart_names. Qed.
End frame.

(** ** has_edge *)
From Verif Require Import GraphMapFacts GraphMapRefine GraphMapMore.
Lemma gm_has_edge_missing {NL EL} `{EqDecision NL, EqDecision EL} (dir : bool) (lt : idty) (g : graphmap NL EL) ord s t :
  gm_reachable dir lt g → ∃ b, v_has_edge (gm_view dir ord g) s t = Ok b ∧
    (v_has_node (gm_view dir ord g) s = false ∨ v_has_node (gm_view dir ord g) t = false → b = false).
Proof.
  intros Hr. destruct (reach_skrel dir lt g Hr) as [st Hst]. cbn [gm_view v_has_edge v_has_node]. eexists. split; [done|].
  rewrite (rel_has_edge _ _ _ _ _ _ _ Hst), !(rel_has_node _ _ _ _ _ _ Hst), !bool_decide_eq_false. intros Hm He.
  destruct (wf_edge_nodes _ s t (ar_wf _ _ _ _ _ (r_abs _ _ _ _ _ Hst)) He) as [H1 H2]. destruct Hm as [Hm|Hm]; by apply Hm.
Qed.
Lemma sg_has_edge_missing {NL EL} (it lt : idty) (dir : bool) (g : sgraph NL EL) s t : csr_wf (ev_offsets (sg_evec g)) (ev_edges (sg_evec g)) →
  ∃ b, v_has_edge (sg_view it lt dir g) s t = Ok b ∧
    (v_neighbors (sg_view it lt dir g) s = Panic ∨ v_neighbors (sg_view it lt dir g) t = Panic → b = false).
Proof.
  intros Hc. cbn [sg_view v_has_edge v_neighbors]. rewrite (has_edge_ok _ Hc). eexists. split; [done|]. intros Hn. apply bool_decide_eq_false. intros Hin.
  assert (∀ n, ev_neighbors (sg_evec g) n = Panic → ¬ (n < csr_nodes (ev_offsets (sg_evec g)))%N) as Hp.
  { intros n Hp Hlt. by rewrite (neighbors_ok _ Hc n Hlt) in Hp. }
  destruct Hn as [Hn|Hn]; apply Hp in Hn.
  - rewrite row_out in Hin by done. by apply elem_of_nil in Hin.
  - apply Hn. by apply (csr_targets _ _ Hc s).
Qed.

(** ** The mapped graph shows the graph *)
Lemma same_answers_represents {NL EL} (V W : gview NL EL) A : same_answers V W → represents V A → represents W A.
Proof.
  intros S R. assert (∀ s, a_has_node A s → ∃ nb, v_neighbors V s = Ok nb) as Hnb.
  { intros s Hs. destruct (rp_neighbors _ _ R s Hs) as (l & Hl & _). by exists l. }
  split.
  - apply R.
  - rewrite (proj1 (sa_directed _ _ S)). apply R.
  - rewrite (proj2 (sa_directed _ _ S)). apply R.
  - rewrite (proj1 (sa_counts _ _ S)). apply R.
  - intros n. rewrite (sa_has_node _ _ S). apply R.
  - intros n Hn. rewrite (proj1 (sa_get_node _ _ S n)), (proj1 (sa_label_maps _ _ S)). by apply R.
  - intros s t Hs. destruct (Hnb s Hs) as [nb Hnb']. rewrite (sa_has_edge _ _ S s t nb Hnb'). by apply R.
  - intros s t He. destruct (wf_edge_nodes A _ _ (rp_wf _ _ R) He) as [Hs _]. destruct (Hnb s Hs) as [nb Hnb'].
    rewrite (proj1 (sa_get_edge _ _ S s t nb Hnb')), (proj2 (sa_label_maps _ _ S)). by apply R.
  - rewrite (proj1 (sa_indices _ _ S)). apply R.
  - rewrite (proj2 (sa_indices _ _ S)). apply R.
  - intros n Hn. destruct (sa_neighbors _ _ S n) as [-> ->]. by apply R.
  - intros n Hn. destruct (sa_neighbors _ _ S n) as [-> _]. by apply R.
  - intros Hd n Hn. rewrite <-(rp_directed _ _ R) in Hd. destruct (sa_in_neighbors _ _ S Hd n) as [-> ->]. apply R; [|done]. by rewrite <-(rp_directed _ _ R).
  - intros Hd n Hn. rewrite <-(rp_directed _ _ R) in Hd. destruct (sa_in_neighbors _ _ S Hd n) as [-> _]. apply R; [|done]. by rewrite <-(rp_directed _ _ R).
  - intros n Hn. rewrite (sa_max_seen _ _ S). by apply R.
Qed.
Lemma mm_has_edge_present {NL EL} (it lt : idty) (m : sgraph NL EL) s t nb :
  csr_wf (ev_offsets (sg_evec m)) (ev_edges (sg_evec m)) → v_neighbors (mm_view it lt m) s = Ok nb →
  ∃ b, v_has_edge (mm_view it lt m) s t = Ok b ∧ (b = true ↔ t ∈ nb).
Proof.
  intros Hc Hs. cbn [mm_view v_neighbors v_has_edge] in *. pose proof (neighbors_some _ Hc s nb Hs) as Hlt.
  rewrite (neighbors_ok _ Hc s Hlt) in Hs. injection Hs as <-. rewrite (mm_has_edge_ok _ Hc m s t eq_refl Hlt). eexists. split; [done|].
  apply bool_decide_eq_true.
Qed.
Lemma mm_has_edge_absent {NL EL} (it lt : idty) (m : sgraph NL EL) s t :
  csr_wf (ev_offsets (sg_evec m)) (ev_edges (sg_evec m)) → v_neighbors (mm_view it lt m) s = Panic →
  v_has_edge (mm_view it lt m) s t = Panic ∧ v_get_edge (mm_view it lt m) s t = Panic.
Proof. intros Hc Hs. cbn [mm_view v_neighbors v_has_edge v_get_edge] in *. unfold mm_get_edge, mm_has_edge. by rewrite Hs. Qed.
Section pipeline.
  Context {NL EL : Type} `{EqDecision NL, EqDecision EL} (it lt : idty) (cn : codec NL) (ce : codec EL).
  Context (PN : NL → Prop) (PE : EL → Prop) (Hcn : faithful cn PN) (Hce : faithful ce PE).
  Lemma pipeline dir (g : graphmap NL EL) ord A s t p F : represents (gm_view dir ord g) A → a_has_edge A s t →
    (∀ n, a_has_node A n → (n < id_max it)%N) → (∀ n m, a_has_node A n → (m < n)%N → a_has_node A m) →
    (N.of_nat (length (g_nlm g)) ≤ id_max lt)%N → (N.of_nat (length (g_elm g)) ≤ id_max lt)%N →
    fresh_prefix F p →
    ∃ sg, gm_into_static it lt dir g = Ok sg ∧ (typed_sgraph it lt PN PE sg →
      ∃ m, mm_open it lt cn ce (sg_dump_mmap it lt cn ce sg p F) p = Ok m ∧ represents (mm_view it lt m) A ∧
        v_edge_count (mm_view it lt m) = v_edge_count (gm_view dir ord g)).
  Proof using Hcn Hce.
    intros HA He Hids Hdense Hnl Hel Hf. destruct (wf_edge_nodes A _ _ (rp_wf _ _ HA) He) as [Hs _].
    destruct (into_static_dense it lt dir g ord A HA s Hs Hids Hdense Hnl Hel) as (sg & Hsg & _ & HW & _ & Hcnt & _).
    exists sg. split; [done|]. intros Ht.
    assert (mappable it lt PN PE dir sg) as Hm.
    { apply (into_static_mappable it lt dir g ord A HA PN PE s t sg); try done.
      intros ->. change (id_max TUnit) with 0%N in *. split; apply nil_length_inv; lia. }
    destruct (roundtrip it lt cn ce PN PE Hcn Hce dir sg p F Hm (fresh_no_stale F p sg Hf)) as (m & Hm' & Hsa).
    exists m. split; [done|]. split; [by eapply same_answers_represents|]. rewrite (proj2 (sa_counts _ _ Hsa)). done.
  Qed.
End pipeline.
