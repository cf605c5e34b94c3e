(** dump_mmap followed by StaticGraphMmap::new. *)
From stdpp Require Import gmap strings.
From Verif Require Import Base BaseFacts Api Bytes Spec SpecStatic Map GraphMap Static StaticFacts Serde SpecSerde SerdeFacts Mmap SpecMmap MmapFacts.

(** ** File names *)
Lemma str_assoc a b c : (a +:+ b) +:+ c = a +:+ (b +:+ c).
Proof. induction a as [|x a IH]; [done|]. change (String x ((a +:+ b) +:+ c) = String x (a +:+ (b +:+ c))). by rewrite IH. Qed.
Lemma str_inj p a b : p +:+ a = p +:+ b → a = b.
Proof. induction p as [|x p IH]; [done|]. intros [= H]. by apply IH. Qed.
Lemma n_out_offsets p : f_offsets (p_out p) = p +:+ "_OUT.offsets". Proof. apply str_assoc. Qed.
Lemma n_out_edges p : f_edges (p_out p) = p +:+ "_OUT.edges". Proof. apply str_assoc. Qed.
Lemma n_out_labels p : f_labels (p_out p) = p +:+ "_OUT.labels". Proof. apply str_assoc. Qed.
Lemma n_in_offsets p : f_offsets (p_in p) = p +:+ "_IN.offsets". Proof. apply str_assoc. Qed.
Lemma n_in_edges p : f_edges (p_in p) = p +:+ "_IN.edges". Proof. apply str_assoc. Qed.
Lemma n_in_labels p : f_labels (p_in p) = p +:+ "_IN.labels". Proof. apply str_assoc. Qed.
Lemma n_labels p : f_labels p = p +:+ ".labels". Proof. done. Qed.
Lemma n_aux p : f_aux p = p +:+ "_aux.bin". Proof. done. Qed.
Ltac names := rewrite ?n_out_offsets, ?n_out_edges, ?n_out_labels, ?n_in_offsets, ?n_in_edges, ?n_in_labels, ?n_labels, ?n_aux.
Ltac name_ne := names; let E := fresh in intros E; apply str_inj in E; discriminate E.

(** ** The files of a dump *)
Section files.
  Context {NL EL : Type} `{EqDecision NL, EqDecision EL} (it lt : idty) (cn : codec NL) (ce : codec EL).
  (** Name and contents, in the order of writing. *)
  Definition ev_files (e : evec) (p : string) : list (string * list N) :=
    [(f_offsets p, usize_bytes (ev_offsets e)); (f_edges p, typed_bytes it (ev_edges e))] ++
    match ev_labels e with [] => [] | ls => [(f_labels p, typed_bytes lt ls)] end.
  Definition aux_bytes (g : sgraph NL EL) : list N :=
    enc (c_aux cn ce) (sg_num_nodes g, (sg_num_edges g, (sg_nlm g, sg_elm g))).
  Definition sg_files (g : sgraph NL EL) (p : string) : list (string * list N) :=
    ev_files (sg_evec g) (p_out p) ++ match sg_in g with Some e => ev_files e (p_in p) | None => [] end ++
    match sg_labels g with Some ls => [(f_labels p, typed_bytes lt ls)] | None => [] end ++ [(f_aux p, aux_bytes g)].
  Definition put_files (F : fs) (l : list (string * list N)) : fs := foldl (λ F p, <[p.1 := p.2]> F) F l.
  Lemma put_app F a b : put_files F (a ++ b) = put_files (put_files F a) b.
  Proof. apply foldl_app. Qed.
  Lemma ev_dump_run F e p : fs_run F (ev_dump_ops it lt e p) = put_files F (ev_files e p).
  Proof.
    unfold ev_dump_ops, ev_files. rewrite !run_app, !dump_run. destruct (ev_labels e); [done|]. by rewrite dump_run.
  Qed.
  Lemma sg_dump_run F g p : sg_dump_mmap it lt cn ce g p F = put_files F (sg_files g p).
  Proof.
    unfold sg_dump_mmap, sg_dump_ops, sg_files. rewrite !run_app, !put_app, ev_dump_run, export_run.
    destruct (sg_in g) as [e|]; [rewrite ev_dump_run|]; (destruct (sg_labels g) as [ls|]; [rewrite dump_run|]); done.
  Qed.
  Lemma put_other F l f : f ∉ l.*1 → put_files F l !! f = F !! f.
  Proof.
    revert F. induction l as [|[k b] l IH]; intros F Hf; [done|]. cbn [fmap list_fmap fst] in Hf. apply not_elem_of_cons in Hf as [H1 H2].
    cbn [put_files foldl fst snd]. etrans; [by apply IH|]. by apply lookup_insert_ne.
  Qed.
  Lemma put_here F l f b : NoDup l.*1 → (f, b) ∈ l → put_files F l !! f = Some b.
  Proof.
    revert F. induction l as [|[k b'] l IH]; intros F Hn Hf; [by apply elem_of_nil in Hf|]. cbn [fmap list_fmap fst] in Hn.
    apply NoDup_cons in Hn as [H1 H2]. cbn [put_files foldl fst snd]. apply elem_of_cons in Hf as [[= -> ->]|Hf].
    - etrans; [by apply put_other|]. apply lookup_insert.
    - by apply IH.
  Qed.
  Definition all_names (p : string) : list string :=
    [f_offsets (p_out p); f_edges (p_out p); f_labels (p_out p); f_offsets (p_in p); f_edges (p_in p); f_labels (p_in p); f_labels p; f_aux p].
  Lemma all_names_NoDup p : NoDup (all_names p).
  Proof.
    unfold all_names. repeat (apply NoDup_cons; split; [rewrite ?elem_of_cons, elem_of_nil; intros HH; repeat destruct HH as [HH|HH]; try done; revert HH; name_ne|]).
    apply NoDup_nil_2.
  Qed.
  Lemma files_sub g p : sublist (sg_files g p).*1 (all_names p).
  Proof.
    unfold sg_files, all_names, ev_files. destruct (ev_labels (sg_evec g)), (sg_in g) as [e|], (sg_labels g); try destruct (ev_labels e);
      cbn [app fmap list_fmap fst]; repeat (apply sublist_skip || apply sublist_cons || apply sublist_nil_l || reflexivity).
  Qed.
  Lemma NoDup_sublist {A} (l k : list A) : sublist l k → NoDup k → NoDup l.
  Proof.
    induction 1 as [|x l k Hs IH|x l k Hs IH]; [done| |].
    - intros [H1 H2]%NoDup_cons. apply NoDup_cons. split; [|by apply IH]. intros Hx. apply H1.
      eapply elem_of_submseteq; [exact Hx|]. by apply sublist_submseteq.
    - intros [H1 H2]%NoDup_cons. by apply IH.
  Qed.
  Lemma files_NoDup g p : NoDup (sg_files g p).*1.
  Proof. eapply NoDup_sublist; [apply files_sub|apply all_names_NoDup]. Qed.
End files.

Ltac not_file := cbn [app fmap list_fmap fst]; rewrite ?elem_of_cons, elem_of_nil;
  let HH := fresh in intros HH; repeat destruct HH as [HH|HH]; try done; revert HH; name_ne.
Section lookups.
  Context {NL EL : Type} `{EqDecision NL, EqDecision EL} (it lt : idty) (cn : codec NL) (ce : codec EL).
  Context (g : sgraph NL EL) (p : string) (F : fs).
  Notation F' := (sg_dump_mmap it lt cn ce g p F).
  Lemma dumped f b : (f, b) ∈ sg_files it lt cn ce g p → F' !! f = Some b.
  Proof. intros Hf. rewrite sg_dump_run. apply put_here; [apply files_NoDup|done]. Qed.
  Lemma undumped f : f ∉ (sg_files it lt cn ce g p).*1 → F' !! f = F !! f.
  Proof. intros Hf. rewrite sg_dump_run. by apply put_other. Qed.
  Record dump_lookups : Prop := {
    dl_out_offsets : F' !! f_offsets (p_out p) = Some (usize_bytes (ev_offsets (sg_evec g)));
    dl_out_edges : F' !! f_edges (p_out p) = Some (typed_bytes it (ev_edges (sg_evec g)));
    dl_out_labels : F' !! f_labels (p_out p) = match ev_labels (sg_evec g) with [] => F !! f_labels (p_out p) | ls => Some (typed_bytes lt ls) end;
    dl_in_offsets : F' !! f_offsets (p_in p) = match sg_in g with Some e => Some (usize_bytes (ev_offsets e)) | None => F !! f_offsets (p_in p) end;
    dl_in_edges : F' !! f_edges (p_in p) = match sg_in g with Some e => Some (typed_bytes it (ev_edges e)) | None => F !! f_edges (p_in p) end;
    dl_in_labels : F' !! f_labels (p_in p) =
      match sg_in g with
      | Some e => match ev_labels e with [] => F !! f_labels (p_in p) | ls => Some (typed_bytes lt ls) end
      | None => F !! f_labels (p_in p)
      end;
    dl_labels : F' !! f_labels p = match sg_labels g with Some ls => Some (typed_bytes lt ls) | None => F !! f_labels p end;
    dl_aux : F' !! f_aux p = Some (aux_bytes cn ce g);
  }.
  Lemma dump_lookups_ok : dump_lookups.
  Proof.
    split.
    1,2: apply dumped; unfold sg_files, ev_files; set_solver.
    - destruct (ev_labels (sg_evec g)) as [|x ls] eqn:E.
      + apply undumped. unfold sg_files, ev_files. rewrite E. destruct (sg_in g) as [e|], (sg_labels g); try destruct (ev_labels e); not_file.
      + apply dumped. unfold sg_files, ev_files. rewrite E. set_solver.
    - destruct (sg_in g) as [e|] eqn:E.
      + apply dumped. unfold sg_files, ev_files. rewrite E. set_solver.
      + apply undumped. unfold sg_files, ev_files. rewrite E. destruct (ev_labels (sg_evec g)), (sg_labels g); not_file.
    - destruct (sg_in g) as [e|] eqn:E.
      + apply dumped. unfold sg_files, ev_files. rewrite E. set_solver.
      + apply undumped. unfold sg_files, ev_files. rewrite E. destruct (ev_labels (sg_evec g)), (sg_labels g); not_file.
    - destruct (sg_in g) as [e|] eqn:E.
      + destruct (ev_labels e) as [|x ls] eqn:El.
        * apply undumped. unfold sg_files, ev_files. rewrite E, El. destruct (ev_labels (sg_evec g)), (sg_labels g); not_file.
        * apply dumped. unfold sg_files, ev_files. rewrite E, El. set_solver.
      + apply undumped. unfold sg_files, ev_files. rewrite E. destruct (ev_labels (sg_evec g)), (sg_labels g); not_file.
    - destruct (sg_labels g) as [ls|] eqn:E.
      + apply dumped. unfold sg_files. rewrite E. set_solver.
      + apply undumped. unfold sg_files, ev_files. rewrite E. destruct (ev_labels (sg_evec g)), (sg_in g) as [e|]; try destruct (ev_labels e); not_file.
    - apply dumped. unfold sg_files. set_solver.
  Qed.
  (** An unrelated file is left alone. *)
  Lemma dump_other f : f ∉ all_names p → F' !! f = F !! f.
  Proof.
    intros Hf. apply undumped. intros Hin. apply Hf. eapply elem_of_submseteq; [exact Hin|]. apply sublist_submseteq, files_sub.
  Qed.
End lookups.

(** ** Opening *)
(** An empty label array is not dumped. *)
Definition norm_ev (e : evec) : evec :=
  EV (ev_offsets e) (ev_edges e) (match ev_labels e with [] => None | ls => Some ls end).
Definition norm_sg {NL EL} (g : sgraph NL EL) : sgraph NL EL :=
  SGraph (sg_num_nodes g) (sg_num_edges g) (norm_ev (sg_evec g)) (norm_ev <$> sg_in g) (sg_labels g) (sg_nlm g) (sg_elm g).
Lemma norm_labels e : ev_labels (norm_ev e) = ev_labels e.
Proof. unfold norm_ev, ev_labels at 1. cbn [ev_label_vec]. by destruct (ev_labels e). Qed.
Lemma ev_open_ok it lt F p e : it ≠ TUnit → (lt = TUnit → ev_label_vec e = None) → typed_evec it lt e →
  ev_offsets e ≠ [] → ev_edges e ≠ [] →
  F !! f_offsets p = Some (usize_bytes (ev_offsets e)) → F !! f_edges p = Some (typed_bytes it (ev_edges e)) →
  F !! f_labels p = match ev_labels e with [] => None | ls => Some (typed_bytes lt ls) end →
  ev_open it lt F p = Ok (norm_ev e).
Proof.
  intros Hit Hlt [Ho He Hl] Hno Hne H1 H2 H3. unfold ev_open.
  rewrite (usize_map_ok _ _ _ Hno (proj2 Ho) H1). cbn [rbind]. rewrite (typed_map_ok it _ _ _ Hit Hne (proj2 He) H2). cbn [rbind].
  assert (N.to_nat <$> (N.of_nat <$> ev_offsets e) = ev_offsets e) as ->.
  { rewrite <-list_fmap_compose. rewrite <-(list_fmap_id (ev_offsets e)) at 2. apply list_fmap_ext. intros _ x _. simpl. apply Nat2N.id. }
  unfold fs_exists, norm_ev. rewrite H3. destruct (ev_labels e) as [|x ls] eqn:E; [done|].
  unfold ev_labels in E. destruct (ev_label_vec e) as [ls'|]; [|done]. cbn [default from_option id] in E. simpl in E. subst ls'.
  assert (lt ≠ TUnit) as Hlu. { intros ->. by specialize (Hlt eq_refl). }
  by rewrite (typed_map_ok lt _ _ (x :: ls) Hlu ltac:(done) (proj2 Hl) H3).
Qed.
Section open.
  Context {NL EL : Type} `{EqDecision NL, EqDecision EL} (it lt : idty) (cn : codec NL) (ce : codec EL).
  Context (PN : NL → Prop) (PE : EL → Prop) (Hcn : faithful cn PN) (Hce : faithful ce PE).
  Lemma open_dumped dir g p F : mappable it lt PN PE dir g → no_stale F p g →
    mm_open it lt cn ce (sg_dump_mmap it lt cn ce g p F) p = Ok (norm_sg g).
  Proof using Hcn Hce.
    intros [Ht Hcsr He Hin Hl Hit Hlt] Hst. destruct (dump_lookups_ok it lt cn ce g p F) as [D1 D2 D3 D4 D5 D6 D7 D8].
    assert (∀ f, (f, false) ∈ dump_parts g p → F !! f = None) as Hs by exact Hst. unfold dump_parts in Hs.
    destruct Ht as [[Hc1 Hc2] Hte Hti Htl Hn Hel]. unfold mm_open.
    rewrite (ev_open_ok it lt _ (p_out p) (sg_evec g)); [|done|intros E; by apply Hlt|done|apply (csr_nonempty _ _ Hcsr)|done|done|done|].
    2:{ rewrite D3. destruct (ev_labels (sg_evec g)) eqn:E; [|done]. rewrite n_out_labels. apply Hs.
        assert (has_edge_labels (sg_evec g) = false) as ->. { unfold has_edge_labels. unfold ev_labels in E. by destruct (ev_label_vec (sg_evec g)) as [[|]|]. }
        set_solver. }
    cbn [rbind].
    assert (fs_exists (sg_dump_mmap it lt cn ce g p F) (f_offsets (p_in p)) = match sg_in g with Some _ => true | None => false end) as ->.
    { unfold fs_exists. rewrite D4. destruct (sg_in g) eqn:E; [done|]. rewrite n_in_offsets, Hs; [done|]. set_solver. }
    assert ((if match sg_in g with Some _ => true | None => false end
       then let* e := ev_open it lt (sg_dump_mmap it lt cn ce g p F) (p_in p) in Ok (Some e) else Ok None) = Ok (norm_ev <$> sg_in g)) as ->.
    { destruct (sg_in g) as [e|] eqn:E; [|done]. destruct Hin as (_ & Hce' & Hee).
      rewrite (ev_open_ok it lt _ (p_in p) e); [done|done|intros E'; by apply Hlt|done|apply (csr_nonempty _ _ Hce')|done|done|done|].
      rewrite D6. destruct (ev_labels e) eqn:E'; [|done]. rewrite n_in_labels. apply Hs.
      assert (has_edge_labels e = false) as ->. { unfold has_edge_labels. unfold ev_labels in E'. by destruct (ev_label_vec e) as [[|]|]. }
      set_solver. }
    cbn [rbind].
    assert (fs_exists (sg_dump_mmap it lt cn ce g p F) (f_labels p) = match sg_labels g with Some _ => true | None => false end) as ->.
    { unfold fs_exists. rewrite D7. destruct (sg_labels g) eqn:E; [done|]. rewrite n_labels, Hs; [done|].
      rewrite (bool_decide_eq_false_2 (is_Some (@None (list N)))) by (intros [? [=]]). set_solver. }
    assert ((if match sg_labels g with Some _ => true | None => false end
       then let* l := typed_map lt (sg_dump_mmap it lt cn ce g p F) (f_labels p) in Ok (Some l) else Ok None) = Ok (sg_labels g)) as ->.
    { destruct (sg_labels g) as [ls|] eqn:E; [|done].
      rewrite (typed_map_ok lt _ _ ls); [done| |intros ->; done|apply (proj2 Htl)|by rewrite D7].
      intros E'. by destruct (Hlt E') as [? _]. }
    cbn [rbind]. assert (fs_exists (sg_dump_mmap it lt cn ce g p F) (f_aux p) = true) as ->. { unfold fs_exists. by rewrite D8. }
    assert (import (c_aux cn ce) (f_aux p) (sg_dump_mmap it lt cn ce g p F) = Some (sg_num_nodes g, (sg_num_edges g, (sg_nlm g, sg_elm g)))) as ->.
    { unfold import. rewrite D8. cbn [mbind option_bind]. unfold aux_bytes. pose proof (proj1 (SerdeFacts.f_aux cn ce PN PE Hcn Hce)) as Hr.
      specialize (Hr (sg_num_nodes g, (sg_num_edges g, (sg_nlm g, sg_elm g))) []). rewrite app_nil_r in Hr. by rewrite Hr. }
    done.
  Qed.
End open.
