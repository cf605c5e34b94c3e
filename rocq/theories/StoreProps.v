(** A directory that holds many dumps. *)
From stdpp Require Import gmap strings.
From Verif Require Import Base BaseFacts Api Bytes Spec SpecFacts SpecStatic Map GraphMap Static StaticFacts Serde SpecSerde SerdeFacts
  IntoStatic Mmap SpecMmap MmapFacts MmapProps MmapThms MmapMore MmapCrash SpecLive LiveThms SpecStore.

Section latest.
  Context {G A : Type} (f : G → option A).
  Lemma latest_snoc gs g : latest f (gs ++ [g]) = or_old (f g) (latest f gs).
  Proof using. unfold latest. rewrite omap_app. cbn [omap list_omap]. destruct (f g) as [x|]; [by rewrite last_snoc|by rewrite app_nil_r]. Qed.
  Lemma latest_in gs x : latest f gs = Some x → ∃ g, g ∈ gs ∧ f g = Some x.
  Proof using. intros H%last_Some_elem_of. by apply elem_of_list_omap in H. Qed.
  Lemma latest_last gs g : last gs = Some g → (∀ g', g' ∈ gs → f g = None → f g' = None) → latest f gs = f g.
  Proof using.
    intros Hl Hn. apply last_Some in Hl as [l ->]. rewrite latest_snoc. destruct (f g) as [x|] eqn:E; [done|]. cbn [or_old].
    destruct (latest f l) as [x|] eqn:El; [|done]. apply latest_in in El as (g' & Hg' & Hx). rewrite (Hn g') in Hx; [done|set_solver|done].
  Qed.
End latest.

Lemma part_flags a b c d :
  let L := [("_OUT.offsets", true); ("_OUT.edges", true); ("_OUT.labels", a); ("_IN.offsets", b); ("_IN.edges", b); ("_IN.labels", c); (".labels", d);
    ("_aux.bin", true)]%string in
  (("_OUT.labels"%string, true) ∈ L ↔ a = true) ∧ (("_IN.offsets"%string, true) ∈ L ↔ b = true) ∧ (("_IN.labels"%string, true) ∈ L ↔ c = true) ∧
  ((".labels"%string, true) ∈ L ↔ d = true).
Proof. cbn zeta. destruct a, b, c, d; apply (bool_decide_unpack _); by vm_compute. Qed.
Section store.
  Context {NL EL : Type} `{EqDecision NL, EqDecision EL} (it lt : idty) (cn : codec NL) (ce : codec EL).
  Implicit Types g M : sgraph NL EL.
  (** The files of [p] are those of the graphs [gs]. *)
  Record holds (F : fs) (p : string) (gs : list (sgraph NL EL)) : Prop := {
    h_out_offsets : F !! f_offsets (p_out p) = (λ g, usize_bytes (ev_offsets (sg_evec g))) <$> last gs;
    h_out_edges : F !! f_edges (p_out p) = (λ g, typed_bytes it (ev_edges (sg_evec g))) <$> last gs;
    h_out_labels : F !! f_labels (p_out p) = typed_bytes lt <$> latest edge_labels_of gs;
    h_in_offsets : F !! f_offsets (p_in p) = (λ e, usize_bytes (ev_offsets e)) <$> latest sg_in gs;
    h_in_edges : F !! f_edges (p_in p) = (λ e, typed_bytes it (ev_edges e)) <$> latest sg_in gs;
    h_in_labels : F !! f_labels (p_in p) = typed_bytes lt <$> latest in_labels_of gs;
    h_labels : F !! f_labels p = typed_bytes lt <$> latest sg_labels gs;
    h_aux : F !! f_aux p = aux_bytes cn ce <$> last gs;
  }.
  Lemma holds_fresh F p : fresh_prefix F p → holds F p [].
  Proof using.
    intros Hf. unfold fresh_prefix in Hf. rewrite Forall_forall in Hf.
    assert (∀ f, f ∈ all_names p → F !! f = None) as Hn.
    { intros f. rewrite <-prefix_files_names. unfold prefix_files. intros Hin.
      repeat (apply elem_of_cons in Hin as [->|Hin]; [apply Hf; set_solver|]). by apply elem_of_nil in Hin. }
    unfold all_names in Hn. split; (etrans; [apply Hn; set_solver|done]).
  Qed.
  Lemma holds_frame F F' p gs : (∀ f, f ∈ all_names p → F !! f = F' !! f) → holds F p gs → holds F' p gs.
  Proof using. unfold all_names. intros Hf [H1 H2 H3 H4 H5 H6 H7 H8]. split; (rewrite <-Hf; [done|set_solver]). Qed.
  Lemma holds_agree F F' p gs : holds F p gs → holds F' p gs → ∀ f, f ∈ all_names p → F !! f = F' !! f.
  Proof using.
    unfold all_names. intros [H1 H2 H3 H4 H5 H6 H7 H8] [K1 K2 K3 K4 K5 K6 K7 K8] f Hin.
    repeat (apply elem_of_cons in Hin as [->|Hin]; [congruence|]). by apply elem_of_nil in Hin.
  Qed.
  Lemma holds_dump F p gs g : holds F p gs → holds (sg_dump_mmap it lt cn ce g p F) p (gs ++ [g]).
  Proof using.
    intros [H1 H2 H3 H4 H5 H6 H7 H8]. destruct (dump_lookups_ok it lt cn ce g p F) as [D1 D2 D3 D4 D5 D6 D7 D8].
    split; rewrite ?last_snoc, ?latest_snoc.
    - by rewrite D1.
    - by rewrite D2.
    - rewrite D3, H3, non_empty_file, or_old_fmap. done.
    - rewrite D4, H4. by destruct (sg_in g).
    - rewrite D5, H5. by destruct (sg_in g).
    - rewrite D6, H6. change (in_labels_of g) with (sg_in g ≫= λ e, non_empty (ev_labels e)). destruct (sg_in g) as [e|]; [|done]. cbn [mbind option_bind].
      rewrite non_empty_file, or_old_fmap. done.
    - rewrite D7, H7. by destruct (sg_labels g).
    - by rewrite D8.
  Qed.
  Lemma step_file F o p gs : op_target o ∉ prefix_files p → holds F p gs → holds (fs_step F o) p gs.
  Proof using.
    rewrite prefix_files_names. intros Ho. apply holds_frame. intros f Hf. assert (op_target o ≠ f) as Hne by (intros E; apply Ho; by rewrite E).
    destruct o as [k|k b]; cbn [fs_step op_target] in *; by rewrite lookup_insert_ne.
  Qed.
  Lemma store_holds PN PE p h F : fresh_prefix F p → uses_well it lt PN PE p h →
    holds (store_run it lt cn ce F h) p (dumps p h) ∧ Forall (λ g, ∃ dir, mappable it lt PN PE dir g) (dumps p h).
  Proof using.
    intros Hf. induction h as [|o h IH] using rev_ind; intros Hw; [split; [by apply holds_fresh|apply Forall_nil_2]|].
    destruct IH as [IH IHm]. { intros o' Ho'. apply Hw. set_solver. }
    assert (match o with SDump p' g => (p' = p ∧ ∃ dir, mappable it lt PN PE dir g) ∨ apart p p' | SFile o => op_target o ∉ prefix_files p end) as Ho.
    { apply (Hw o). set_solver. }
    unfold store_run, dumps. rewrite foldl_app, omap_app. cbn [foldl omap list_omap]. fold (store_run it lt cn ce F h). fold (dumps p h).
    destruct o as [p' g|o]; cbn [store_step].
    - destruct Ho as [[-> Hm]|Ha].
      + rewrite decide_True by done. split; [by apply holds_dump|]. apply Forall_app. split; [done|]. by apply Forall_singleton.
      + rewrite decide_False by (intros ->; by destruct Ha). rewrite app_nil_r. split; [|done]. revert IH. apply holds_frame. intros f Hin.
        symmetry. apply dump_other. by eapply apart_names.
    - rewrite app_nil_r. split; [|done]. by apply step_file.
  Qed.

  Context (PN : NL → Prop) (PE : EL → Prop).
  Lemma typed_non_empty l : opt_all (vec_of (in_type lt)) l → opt_all (vec_of (in_type lt)) (non_empty (default [] l)).
  Proof using. destruct l as [[|x l]|]; done. Qed.
  Lemma pieced_mappable gs M : Forall (λ g, ∃ dir, mappable it lt PN PE dir g) gs → pieced gs = Some M →
    mappable it lt PN PE (bool_decide (is_Some (sg_in M))) M ∧ norm_sg M = M.
  Proof using.
    unfold pieced. intros Hgs HM. rewrite Forall_forall in Hgs. destruct (last gs) as [g|] eqn:El; [|done]. injection HM as <-.
    destruct (Hgs g (last_Some_elem_of _ _ El)) as [dir [Ht Hcsr He Hin Hl Hit Hlt]]. destruct Ht as [Hc Hte Hti Htl Hn Hel].
    assert (opt_all (vec_of (in_type lt)) (latest edge_labels_of gs) ∧ (lt = TUnit → latest edge_labels_of gs = None) ∧ latest edge_labels_of gs ≠ Some []) as (Le1 & Le2 & Le3).
    { destruct (latest edge_labels_of gs) as [x|] eqn:E; [|done]. apply latest_in in E as (g' & Hg' & Ex). destruct (Hgs g' Hg') as [d' Hm].
      pose proof (typed_non_empty _ (te_labels _ _ _ (ts_evec _ _ _ _ _ (mp_typed _ _ _ _ _ _ Hm)))) as Hx. unfold edge_labels_of, ev_labels in Ex.
      rewrite Ex in Hx. split; [done|]. split; [|intros [= ->]; by destruct (default [] (ev_label_vec (sg_evec g')))].
      intros E. destruct (mp_label_id _ _ _ _ _ _ Hm E) as (_ & X & _). by rewrite X in Ex. }
    assert (opt_all (vec_of (in_type lt)) (latest in_labels_of gs) ∧ (lt = TUnit → latest in_labels_of gs = None) ∧ latest in_labels_of gs ≠ Some []) as (Li1 & Li2 & Li3).
    { destruct (latest in_labels_of gs) as [x|] eqn:E; [|done]. apply latest_in in E as (g' & Hg' & Ex). destruct (Hgs g' Hg') as [d' Hm].
      unfold in_labels_of in Ex. pose proof (ts_in _ _ _ _ _ (mp_typed _ _ _ _ _ _ Hm)) as Hx. pose proof (mp_label_id _ _ _ _ _ _ Hm) as Hu.
      destruct (sg_in g') as [e|]; [|done]. cbn [mbind option_bind opt_all] in *. apply te_labels, typed_non_empty in Hx. unfold ev_labels in Ex.
      rewrite Ex in Hx. split; [done|]. split; [|intros [= ->]; by destruct (default [] (ev_label_vec e))].
      intros E. destruct (Hu E) as (_ & _ & X). by rewrite X in Ex. }
    assert (opt_all (vec_of (in_type lt)) (latest sg_labels gs) ∧ (lt = TUnit → latest sg_labels gs = None) ∧ latest sg_labels gs ≠ Some []) as (Ln1 & Ln2 & Ln3).
    { destruct (latest sg_labels gs) as [x|] eqn:E; [|done]. apply latest_in in E as (g' & Hg' & Ex). destruct (Hgs g' Hg') as [d' Hm].
      pose proof (ts_labels _ _ _ _ _ (mp_typed _ _ _ _ _ _ Hm)) as Hx. pose proof (mp_labels _ _ _ _ _ _ Hm) as Hl'.
      rewrite Ex in Hx, Hl'. split; [done|]. split; [|done]. intros E. destruct (mp_label_id _ _ _ _ _ _ Hm E) as (X & _ & _). by rewrite X in Ex. }
    assert (match latest sg_in gs with Some e => typed_evec it lt e ∧ csr_wf (ev_offsets e) (ev_edges e) ∧ ev_edges e ≠ [] | None => True end) as Lin.
    { destruct (latest sg_in gs) as [e|] eqn:E; [|done]. apply latest_in in E as (g' & Hg' & Ex). destruct (Hgs g' Hg') as [d' Hm].
      pose proof (ts_in _ _ _ _ _ (mp_typed _ _ _ _ _ _ Hm)) as Hx. pose proof (mp_in _ _ _ _ _ _ Hm) as Hi. rewrite Ex in Hx, Hi. by destruct Hi as (_ & ? & ?). }
    assert (∀ l : option (list N), l ≠ Some [] → match default [] l with [] => None | ls => Some ls end = l) as Hnorm.
    { intros [[|]|]; done. }
    split.
    - split; cbn [sg_in sg_labels sg_evec sg_num_nodes sg_num_edges sg_nlm sg_elm ev_offsets ev_edges ev_label_vec]; try done.
      + split; cbn [sg_in sg_labels sg_evec sg_num_nodes sg_num_edges sg_nlm sg_elm]; try done.
        * destruct Hte. by split.
        * destruct (latest sg_in gs) as [e|]; [|done]. destruct Lin as [[] _]. by split.
      + destruct (latest sg_in gs) as [e|]; cbn [fmap option_fmap option_map].
        * destruct Lin as (_ & X & Y). split; [|by split]. by apply bool_decide_eq_true_2.
        * apply bool_decide_eq_false_2. by intros [? [=]].
      + intros E. split; [by apply Ln2|]. split; [by apply Le2|]. destruct (latest sg_in gs); [|done]. cbn. by apply Li2.
    - unfold norm_sg, norm_ev, ev_labels. cbn [sg_in sg_labels sg_evec sg_num_nodes sg_num_edges sg_nlm sg_elm ev_offsets ev_edges ev_label_vec].
      rewrite (Hnorm _ Le3). f_equal. destruct (latest sg_in gs) as [e|]; [|done]. cbn. by rewrite (Hnorm _ Li3).
  Qed.
  Lemma holds_pieced F p gs M : Forall (λ g, ∃ dir, mappable it lt PN PE dir g) gs → holds F p gs → pieced gs = Some M → holds F p [M].
  Proof using.
    intros Hgs Hh HM. destruct (pieced_mappable gs M Hgs HM) as [_ Hnm]. destruct Hh as [H1 H2 H3 H4 H5 H6 H7 H8].
    unfold pieced in HM. destruct (last gs) as [g|] eqn:El; [|done].
    assert (latest edge_labels_of [M] = ev_label_vec (sg_evec M) ∧ latest in_labels_of [M] = (sg_in M ≫= ev_label_vec)) as [X Y].
    { rewrite <-Hnm at 2 4. unfold latest. cbn [omap list_omap]. unfold edge_labels_of, in_labels_of, norm_sg, norm_ev. cbn [sg_evec sg_in ev_label_vec].
      split; [by destruct (ev_labels (sg_evec M))|]. destruct (sg_in M) as [e|]; [|done]. cbn. by destruct (ev_labels e). }
    split; rewrite ?X, ?Y; clear X Y Hnm; injection HM as <-; cbn [sg_evec sg_in sg_labels ev_label_vec last fmap option_fmap option_map].
    - exact H1.
    - exact H2.
    - exact H3.
    - rewrite H4. unfold latest at 2. cbn [omap list_omap sg_in]. by destruct (latest sg_in gs).
    - rewrite H5. unfold latest at 2. cbn [omap list_omap sg_in]. by destruct (latest sg_in gs).
    - rewrite H6. destruct (latest sg_in gs) as [e|] eqn:E; [done|]. cbn [fmap option_fmap option_map mbind option_bind].
      destruct (latest in_labels_of gs) as [x|] eqn:Ex; [|done]. apply latest_in in Ex as (g' & Hg' & Ex).
      exfalso. unfold in_labels_of in Ex. destruct (sg_in g') as [e|] eqn:Ein; [|done]. unfold latest in E. apply last_None in E.
      assert (e ∈ omap sg_in gs) as He by (apply elem_of_list_omap; by exists g'). rewrite E in He. by apply elem_of_nil in He.
    - rewrite H7. unfold latest at 2. cbn [omap list_omap sg_labels]. by destruct (latest sg_labels gs).
    - exact H8.
  Qed.
  Context (Hcn : faithful cn PN) (Hce : faithful ce PE).
  Lemma store_open p h F : fresh_prefix F p → uses_well it lt PN PE p h →
    mm_open it lt cn ce (store_run it lt cn ce F h) p = match pieced (dumps p h) with Some M => Ok M | None => Panic end.
  Proof using Hcn Hce.
    intros Hf Hw. destruct (store_holds PN PE p h F Hf Hw) as [Hh Hm]. destruct (pieced (dumps p h)) as [M|] eqn:EM.
    - destruct (pieced_mappable _ M Hm EM) as [Hmp Hn]. apply (holds_pieced _ _ _ M Hm) in Hh; [|done].
      assert (fresh_prefix ∅ p) as Hfe. { apply Forall_forall. intros x _. apply lookup_empty. }
      etrans; [apply mm_open_frame; intros f Hin; apply (holds_agree _ _ _ _ Hh (holds_dump ∅ p [] M (holds_fresh _ _ Hfe)) f Hin)|].
      rewrite <-Hn at 2. eapply open_dumped; [done|done|exact Hmp|]. intros f _. apply lookup_empty.
    - unfold pieced in EM. destruct (last (dumps p h)) as [g|] eqn:El; [done|]. destruct Hh as [H1 _ _ _ _ _ _ _]. rewrite El in H1.
      unfold mm_open, ev_open, typed_map, tm_new. by rewrite H1.
  Qed.
  Lemma parts_within g g' : no_more_parts g g' → (edge_labels_of g' = None → edge_labels_of g = None) ∧ (sg_in g' = None → sg_in g = None) ∧
    (in_labels_of g' = None → in_labels_of g = None) ∧ (sg_labels g' = None → sg_labels g = None).
  Proof using.
    intros Hp. pose proof (λ f, Hp ""%string f) as Hq. clear Hp. unfold dump_parts in Hq. change ("" +:+ ?x)%string with x in Hq.
    destruct (part_flags (has_edge_labels (sg_evec g)) (bool_decide (is_Some (sg_in g))) (match sg_in g with Some e => has_edge_labels e | None => false end)
      (bool_decide (is_Some (sg_labels g)))) as (A1 & A2 & A3 & A4).
    destruct (part_flags (has_edge_labels (sg_evec g')) (bool_decide (is_Some (sg_in g'))) (match sg_in g' with Some e => has_edge_labels e | None => false end)
      (bool_decide (is_Some (sg_labels g')))) as (B1 & B2 & B3 & B4).
    pose proof (λ H, proj1 B1 (Hq _ (proj2 A1 H))) as P1. pose proof (λ H, proj1 B2 (Hq _ (proj2 A2 H))) as P2.
    pose proof (λ H, proj1 B3 (Hq _ (proj2 A3 H))) as P3. pose proof (λ H, proj1 B4 (Hq _ (proj2 A4 H))) as P4.
    clear Hq A1 A2 A3 A4 B1 B2 B3 B4.
    assert (∀ e, has_edge_labels e = true ↔ non_empty (ev_labels e) ≠ None) as Hne.
    { intros e. unfold has_edge_labels, ev_labels. by destruct (ev_label_vec e) as [[|]|]. }
    repeat split.
    - unfold edge_labels_of. intros E. destruct (non_empty (ev_labels (sg_evec g))) eqn:E'; [|done]. exfalso.
      apply (proj1 (Hne (sg_evec g'))); [|done]. apply P1, Hne. by rewrite E'.
    - intros E. destruct (sg_in g); [|done]. rewrite E in P2. specialize (P2 eq_refl). apply bool_decide_eq_true in P2 as [? P2]. done.
    - unfold in_labels_of. intros E. destruct (sg_in g) as [e|]; [|done]. cbn [mbind option_bind]. destruct (non_empty (ev_labels e)) eqn:E2; [|done].
      exfalso. specialize (P3 (proj2 (Hne e) ltac:(by rewrite E2))). destruct (sg_in g') as [e'|]; [|done]. by apply Hne in P3.
    - intros E. destruct (sg_labels g); [|done]. rewrite E in P4. specialize (P4 eq_refl). apply bool_decide_eq_true in P4 as [? P4]. done.
  Qed.
  Lemma pieced_last gs g : last gs = Some g → (∀ g', g' ∈ gs → no_more_parts g' g) → pieced gs = Some (norm_sg g).
  Proof using.
    intros Hl Hp. unfold pieced. rewrite Hl.
    rewrite (latest_last edge_labels_of gs g Hl) by (intros g' Hg'; apply (parts_within g' g (Hp g' Hg'))).
    rewrite (latest_last in_labels_of gs g Hl) by (intros g' Hg'; apply (parts_within g' g (Hp g' Hg'))).
    rewrite (latest_last sg_in gs g Hl) by (intros g' Hg'; apply (parts_within g' g (Hp g' Hg'))).
    rewrite (latest_last sg_labels gs g Hl) by (intros g' Hg'; apply (parts_within g' g (Hp g' Hg'))).
    unfold norm_sg, edge_labels_of, in_labels_of, norm_ev. destruct (ev_labels (sg_evec g)), (sg_in g) as [e|]; cbn; try destruct (ev_labels e); done.
  Qed.
  Lemma store_last p h F g dir : fresh_prefix F p → uses_well it lt PN PE p h → last (dumps p h) = Some g → mappable it lt PN PE dir g →
    (∀ g', g' ∈ dumps p h → no_more_parts g' g) →
    ∃ m, mm_open it lt cn ce (store_run it lt cn ce F h) p = Ok m ∧ same_answers (sg_view it lt dir g) (mm_view it lt m).
  Proof using Hcn Hce.
    intros Hf Hw Hl Hg Hp. exists (norm_sg g). split; [|by apply (norm_answers it lt dir PN PE)].
    by rewrite (store_open p h F Hf Hw), (pieced_last _ g Hl Hp).
  Qed.
  Lemma store_two h h' F F' p : fresh_prefix F p → fresh_prefix F' p → uses_well it lt PN PE p h → uses_well it lt PN PE p h' →
    dumps p h = dumps p h' →
    mm_open it lt cn ce (store_run it lt cn ce F h) p = mm_open it lt cn ce (store_run it lt cn ce F' h') p.
  Proof using Hcn Hce. intros H1 H2 H3 H4 E. by rewrite !store_open, E. Qed.
End store.

Section files.
  Context {NL EL : Type} `{EqDecision NL, EqDecision EL} (it lt : idty) (cn : codec NL) (ce : codec EL).
  Implicit Types g : sgraph NL EL.
  (** A later dump with all the parts leaves no trace of an earlier one. *)
  Lemma dump_dump g g' p F : no_more_parts g g' →
    sg_dump_mmap it lt cn ce g' p (sg_dump_mmap it lt cn ce g p F) = sg_dump_mmap it lt cn ce g' p F.
  Proof using.
    intros (P1 & P2 & P3 & P4)%parts_within. apply map_eq. intros f. destruct (decide (f ∈ all_names p)) as [Hin|Hn].
    2:{ by rewrite !dump_other. }
    destruct (dump_lookups_ok it lt cn ce g p F) as [D1 D2 D3 D4 D5 D6 D7 D8].
    destruct (dump_lookups_ok it lt cn ce g' p (sg_dump_mmap it lt cn ce g p F)) as [E1 E2 E3 E4 E5 E6 E7 E8].
    destruct (dump_lookups_ok it lt cn ce g' p F) as [G1 G2 G3 G4 G5 G6 G7 G8].
    unfold edge_labels_of, in_labels_of in *.
    unfold all_names in Hin. repeat (apply elem_of_cons in Hin as [->|Hin]); [..|by apply elem_of_nil in Hin].
    - congruence.
    - congruence.
    - rewrite E3, G3, D3. destruct (ev_labels (sg_evec g')); [|done]. destruct (ev_labels (sg_evec g)); [done|]. by specialize (P1 eq_refl).
    - rewrite E4, G4, D4. destruct (sg_in g'); [done|]. by rewrite P2.
    - rewrite E5, G5, D5. destruct (sg_in g'); [done|]. by rewrite P2.
    - rewrite E6, G6, D6. destruct (sg_in g') as [e'|]; [|by rewrite P2]. destruct (ev_labels e') eqn:X; [|done].
      destruct (sg_in g) as [e|]; [|done]. destruct (ev_labels e) eqn:Y; [done|]. cbn [mbind option_bind] in P3. rewrite X, Y in P3. by specialize (P3 eq_refl).
    - rewrite E7, G7, D7. destruct (sg_labels g'); [done|]. by rewrite P4.
    - congruence.
  Qed.
  Lemma dump_swap {NL' EL'} `{EqDecision NL', EqDecision EL'} it' lt' (cn' : codec NL') (ce' : codec EL') g (g' : sgraph NL' EL') p p' F : apart p p' →
    sg_dump_mmap it lt cn ce g p (sg_dump_mmap it' lt' cn' ce' g' p' F) = sg_dump_mmap it' lt' cn' ce' g' p' (sg_dump_mmap it lt cn ce g p F).
  Proof using.
    intros Ha. rewrite !sg_dump_run. 
    assert (∀ f, f ∈ (sg_files it lt cn ce g p).*1 → f ∉ (sg_files it' lt' cn' ce' g' p').*1) as Hd.
    { intros f H1 H2. eapply (apart_names p p' f Ha).
      - eapply elem_of_submseteq; [exact H1|]. apply sublist_submseteq, files_sub.
      - eapply elem_of_submseteq; [exact H2|]. apply sublist_submseteq, files_sub. }
    revert Hd. generalize (sg_files it lt cn ce g p) as a. generalize (sg_files it' lt' cn' ce' g' p') as b. clear. intros b a Hd.
    apply map_eq. intros f. destruct (decide (f ∈ a.*1)) as [Hin|Hn].
    - rewrite (put_other _ b) by (by apply Hd). revert Hin. clear Hd. revert F. 
      assert (∀ X Y, X !! f = Y !! f ∨ f ∈ a.*1 → put_files X a !! f = put_files Y a !! f) as H.
      { induction a as [|[k x] a IH]; intros X Y [E|E]; [done|by apply elem_of_nil in E|..].
        - cbn [put_files foldl fst snd]. apply IH. left. destruct (decide (k = f)) as [->|]; by rewrite ?lookup_insert, ?lookup_insert_ne.
        - cbn [fmap list_fmap fst] in E. cbn [put_files foldl fst snd]. apply IH. apply elem_of_cons in E as [->|E]; [left; by rewrite !lookup_insert|by right]. }
      intros F Hin. apply H. by right.
    - rewrite (put_other _ a) by done.
      assert (∀ X Y, X !! f = Y !! f → put_files X b !! f = put_files Y b !! f) as H.
      { clear. induction b as [|[k x] b IH]; intros X Y E; [done|]. cbn [put_files foldl fst snd]. apply IH.
        destruct (decide (k = f)) as [->|]; by rewrite ?lookup_insert, ?lookup_insert_ne. }
      apply H. symmetry. by apply put_other.
  Qed.
End files.
