(** Dumps on machines of any byte order and word size. *)
From stdpp Require Import gmap strings.
From Verif Require Import Base BaseFacts Api Bytes Spec SpecStatic Map GraphMap Static StaticFacts Serde SpecSerde SerdeFacts Mmap SpecMmap MmapFacts MmapProps MmapThms
  Platform SpecPlatform.

Lemma word_length M k x : length (word_bytes M k x) = k.
Proof. unfold word_bytes. destruct (m_big M); rewrite ?reverse_length; apply le_bytes_length. Qed.
Lemma word_roundtrip M k x : (x < 256 ^ N.of_nat k)%N → word_value M (word_bytes M k x) = x.
Proof. intros Hx. unfold word_value, word_bytes. destruct (m_big M); rewrite ?reverse_involutive; by apply le_value_bytes. Qed.
Lemma bytes_on_length M t l : length (bytes_on M t l) = length l * size_on M t.
Proof. induction l as [|x l IH]; [done|]. unfold bytes_on in *. rewrite bind_cons, app_length, IH, word_length. simpl. lia. Qed.
Lemma items_on_map M M' t l r : items_on M' (size_on M t) (length l) (bytes_on M t l ++ r) = (λ x, word_value M' (word_bytes M (size_on M t) x)) <$> l.
Proof.
  induction l as [|x l IH]; [done|]. cbn [length items_on]. unfold bytes_on in *. rewrite bind_cons, <-app_assoc, fmap_cons.
  rewrite take_app_alt, drop_app_alt by (by rewrite word_length). by rewrite IH.
Qed.
(** Reading what was written with words of the same size. *)
Lemma map_on_read M M' t F f l : size_on M' t = size_on M t → size_on M t ≠ 0 → l ≠ [] → F !! f = Some (bytes_on M t l) →
  map_on M' t F f = Ok ((λ x, word_value M' (word_bytes M (size_on M t) x)) <$> l).
Proof.
  intros Hs H0 Hl HF. unfold map_on. rewrite HF, Hs. cbn [unwrap rbind]. rewrite decide_False, decide_False by done || (
    intros E; apply (f_equal length) in E; rewrite bytes_on_length in E; destruct l; [done|]; cbn [length] in E; nia).
  f_equal. rewrite bytes_on_length, Nat.div_mul by done. rewrite <-(app_nil_r (bytes_on M t l)). apply items_on_map.
Qed.

(** ** x86-64 *)
Lemma x86_size t : size_on x86_64 t = id_size t.
Proof. by destruct t. Qed.
Lemma x86_bytes t l : bytes_on x86_64 t l = typed_bytes t l.
Proof. unfold bytes_on, typed_bytes. by rewrite x86_size. Qed.
Lemma x86_items k c b : items_on x86_64 k c b = raw_items k c b.
Proof. revert b. induction c as [|c IH]; intros b; [done|]. cbn [items_on raw_items]. by rewrite IH. Qed.
Lemma x86_map t F f : map_on x86_64 t F f = typed_map t F f.
Proof.
  unfold map_on, typed_map, tm_new. destruct (F !! f) as [b|]; [|done]. cbn [unwrap rbind]. rewrite x86_size.
  destruct (decide (b = [])); [done|]. destruct (decide (id_size t = 0)) as [|H0]; [done|]. cbn [rbind]. unfold tm_full, raw_parts. cbn [tm_map tm_len tm_type_len].
  rewrite decide_True; [by rewrite x86_items|]. pose proof (Nat.mul_div_le (length b) (id_size t) H0). lia.
Qed.
Lemma x86_ev_open it lt F p : ev_open_on x86_64 it lt F p = ev_open it lt F p.
Proof. unfold ev_open_on, ev_open. by rewrite !x86_map. Qed.
Lemma x86_dump {NL EL} `{EqDecision NL, EqDecision EL} it lt (cn : codec NL) (ce : codec EL) g p F : sg_dump_on x86_64 it lt cn ce g p F = sg_dump_mmap it lt cn ce g p F.
Proof.
  unfold sg_dump_on, sg_dump_mmap, sg_dump_ops. assert (∀ e q, ev_dump_on x86_64 it lt e q = ev_dump_ops it lt e q) as He.
  { intros e q. unfold ev_dump_on, ev_dump_ops, usize_bytes. rewrite !x86_bytes. destruct (ev_labels e); [done|]. by rewrite x86_bytes. }
  rewrite He. destruct (sg_in g); rewrite ?He; (destruct (sg_labels g); rewrite ?x86_bytes; done).
Qed.
(** Counts read from a file of 64-bit numbers fit. *)
Lemma le_value_bound b : Forall (λ x, x < 256)%N b → (le_value b < 256 ^ N.of_nat (length b))%N.
Proof.
  induction 1 as [|x b Hx Hb IH]; [done|]. change (le_value (x :: b)) with (x + 256 * le_value b)%N. cbn [length].
  replace (N.of_nat (S (length b))) with (N.succ (N.of_nat (length b))) by lia. rewrite N.pow_succ_r'. lia.
Qed.
Lemma usize_dec b n r : Forall (λ x, x < 256)%N b → dec c_usize b = Some (n, r) → (N.of_nat n < 256 ^ N.of_nat 8)%N ∧ Forall (λ x, x < 256)%N r.
Proof.
  intros Hb. unfold c_usize. cbn [dec]. unfold c_uint. cbn [dec]. destruct (decide (length b < 8)) as [|Hl]; [done|]. cbn [mbind option_bind].
  intros E. injection E as <- <-. split; [|by apply Forall_drop]. rewrite N2Nat.id.
  replace 8 with (length (take 8 b)) at 2 by (rewrite take_length; lia). apply le_value_bound. by apply Forall_take.
Qed.
Lemma x86_open {NL EL} `{EqDecision NL, EqDecision EL} it lt (cn : codec NL) (ce : codec EL) F p : (∀ f b, F !! f = Some b → Forall (λ x, x < 256)%N b) →
  mm_open_on x86_64 it lt cn ce F p = mm_open it lt cn ce F p.
Proof.
  intros HF. unfold mm_open_on, mm_open. rewrite !x86_ev_open, x86_map.
  assert (aux_on x86_64 cn ce F p = import (c_aux cn ce) (f_aux p) F) as ->; [|done]. unfold aux_on, import.
  destruct (F !! f_aux p) as [b|] eqn:E; [|done]. apply HF in E. cbn [mbind option_bind]. destruct (dec (c_aux cn ce) b) as [[a r]|] eqn:Ed; [|done]. cbn [fmap option_fmap option_map mbind option_bind fst].
  rewrite decide_True; [done|]. revert Ed. unfold c_aux. cbn [dec c_pair].
  destruct (dec c_usize b) as [[n r1]|] eqn:E1; [|done]. cbn [mbind option_bind]. apply usize_dec in E1 as [H1 Hr1]; [|done].
  destruct (dec c_usize r1) as [[n' r2]|] eqn:E2; [|done]. cbn [mbind option_bind]. apply usize_dec in E2 as [H2 Hr2]; [|done].
  destruct (dec (c_setmap cn) r2) as [[x r3]|]; [|done]. cbn [mbind option_bind]. destruct (dec (c_setmap ce) r3) as [[y r4]|]; [|done]. cbn [mbind option_bind].
  intros [= <- <-]. cbn [fst snd]. split; [exact H1|exact H2].
Qed.

(** ** A dump of one machine opened on another one *)
Section lookups.
  Context {NL EL : Type} `{EqDecision NL, EqDecision EL} (M : machine) (it lt : idty) (cn : codec NL) (ce : codec EL) (g : sgraph NL EL) (p : string) (F : fs).
  Definition ev_files_on (e : evec) (q : string) : list (string * list N) :=
    [(f_offsets q, bytes_on M TUsize (N.of_nat <$> ev_offsets e)); (f_edges q, bytes_on M it (ev_edges e))] ++
    match ev_labels e with [] => [] | ls => [(f_labels q, bytes_on M lt ls)] end.
  Definition files_on : list (string * list N) :=
    ev_files_on (sg_evec g) (p_out p) ++ match sg_in g with Some e => ev_files_on e (p_in p) | None => [] end ++
    match sg_labels g with Some ls => [(f_labels p, bytes_on M lt ls)] | None => [] end ++ [(f_aux p, aux_bytes cn ce g)].
  Notation F' := (sg_dump_on M it lt cn ce g p F).
  Lemma ev_dump_on_run G e q : fs_run G (ev_dump_on M it lt e q) = put_files G (ev_files_on e q).
  Proof. unfold ev_dump_on, ev_files_on. rewrite !run_app, !dump_run. destruct (ev_labels e); [done|]. by rewrite dump_run. Qed.
  Lemma dump_on_run : F' = put_files F files_on.
  Proof.
    unfold sg_dump_on, files_on. rewrite !run_app, !put_app, ev_dump_on_run, export_run.
    destruct (sg_in g) as [e|]; [rewrite ev_dump_on_run|]; (destruct (sg_labels g) as [ls|]; [rewrite dump_run|]); done.
  Qed.
  Lemma files_on_NoDup : NoDup files_on.*1.
  Proof.
    eapply NoDup_sublist; [|exact (all_names_NoDup p)].
    unfold files_on, all_names, ev_files_on. destruct (ev_labels (sg_evec g)), (sg_in g) as [e|], (sg_labels g); try destruct (ev_labels e);
      cbn [app fmap list_fmap fst]; repeat (apply sublist_skip || apply sublist_cons || apply sublist_nil_l || reflexivity).
  Qed.
  Lemma dumped_on f b : (f, b) ∈ files_on → F' !! f = Some b.
  Proof. intros Hf. rewrite dump_on_run. apply put_here; [apply files_on_NoDup|done]. Qed.
  Lemma undumped_on f : f ∉ files_on.*1 → F' !! f = F !! f.
  Proof. intros Hf. rewrite dump_on_run. by apply put_other. Qed.
  Record lookups_on : Prop := {
    lo_out_offsets : F' !! f_offsets (p_out p) = Some (bytes_on M TUsize (N.of_nat <$> ev_offsets (sg_evec g)));
    lo_out_edges : F' !! f_edges (p_out p) = Some (bytes_on M it (ev_edges (sg_evec g)));
    lo_out_labels : F' !! f_labels (p_out p) = match ev_labels (sg_evec g) with [] => F !! f_labels (p_out p) | ls => Some (bytes_on M lt ls) end;
    lo_in_offsets : F' !! f_offsets (p_in p) = match sg_in g with Some e => Some (bytes_on M TUsize (N.of_nat <$> ev_offsets e)) | None => F !! f_offsets (p_in p) end;
    lo_in_edges : F' !! f_edges (p_in p) = match sg_in g with Some e => Some (bytes_on M it (ev_edges e)) | None => F !! f_edges (p_in p) end;
    lo_in_labels : F' !! f_labels (p_in p) =
      match sg_in g with
      | Some e => match ev_labels e with [] => F !! f_labels (p_in p) | ls => Some (bytes_on M lt ls) end
      | None => F !! f_labels (p_in p)
      end;
    lo_labels : F' !! f_labels p = match sg_labels g with Some ls => Some (bytes_on M lt ls) | None => F !! f_labels p end;
    lo_aux : F' !! f_aux p = Some (aux_bytes cn ce g);
  }.
  Lemma lookups_on_ok : lookups_on.
  Proof.
    split.
    1,2: apply dumped_on; unfold files_on, ev_files_on; set_solver.
    - destruct (ev_labels (sg_evec g)) as [|x ls] eqn:E.
      + apply undumped_on. unfold files_on, ev_files_on. rewrite E. destruct (sg_in g) as [e|], (sg_labels g); try destruct (ev_labels e); not_file.
      + apply dumped_on. unfold files_on, ev_files_on. rewrite E. set_solver.
    - destruct (sg_in g) as [e|] eqn:E.
      + apply dumped_on. unfold files_on, ev_files_on. rewrite E. set_solver.
      + apply undumped_on. unfold files_on, ev_files_on. rewrite E. destruct (ev_labels (sg_evec g)), (sg_labels g); not_file.
    - destruct (sg_in g) as [e|] eqn:E.
      + apply dumped_on. unfold files_on, ev_files_on. rewrite E. set_solver.
      + apply undumped_on. unfold files_on, ev_files_on. rewrite E. destruct (ev_labels (sg_evec g)), (sg_labels g); not_file.
    - destruct (sg_in g) as [e|] eqn:E.
      + destruct (ev_labels e) as [|x ls] eqn:El.
        * apply undumped_on. unfold files_on, ev_files_on. rewrite E, El. destruct (ev_labels (sg_evec g)), (sg_labels g); not_file.
        * apply dumped_on. unfold files_on, ev_files_on. rewrite E, El. set_solver.
      + apply undumped_on. unfold files_on, ev_files_on. rewrite E. destruct (ev_labels (sg_evec g)), (sg_labels g); not_file.
    - destruct (sg_labels g) as [ls|] eqn:E.
      + apply dumped_on. unfold files_on. rewrite E. set_solver.
      + apply undumped_on. unfold files_on, ev_files_on. rewrite E. destruct (ev_labels (sg_evec g)), (sg_in g) as [e|]; try destruct (ev_labels e); not_file.
    - apply dumped_on. unfold files_on. set_solver.
  Qed.
End lookups.

Section open.
  Context {NL EL : Type} `{EqDecision NL, EqDecision EL} (M M' : machine) (it lt : idty) (cn : codec NL) (ce : codec EL).
  Context (PN : NL → Prop) (PE : EL → Prop) (Hcn : faithful cn PN) (Hce : faithful ce PE).
  Context (R : idty → list N → list N).
  (** How an array written on [M] is read on [M']. *)
  Definition reads (t : idty) (l : list N) : Prop := ∀ F f, F !! f = Some (bytes_on M t l) → map_on M' t F f = Ok (R t l).
  Lemma ev_open_reread F q e : reads TUsize (N.of_nat <$> ev_offsets e) → reads it (ev_edges e) → (ev_labels e ≠ [] → reads lt (ev_labels e)) →
    F !! f_offsets q = Some (bytes_on M TUsize (N.of_nat <$> ev_offsets e)) → F !! f_edges q = Some (bytes_on M it (ev_edges e)) →
    F !! f_labels q = match ev_labels e with [] => None | ls => Some (bytes_on M lt ls) end →
    ev_open_on M' it lt F q = Ok (reread_ev R it lt e).
  Proof using.
    intros R1 R2 R3 H1 H2 H3. unfold ev_open_on. rewrite (R1 _ _ H1). cbn [rbind]. rewrite (R2 _ _ H2). cbn [rbind].
    unfold fs_exists, reread_ev. rewrite H3. destruct (ev_labels e) as [|x ls]; [done|]. rewrite (R3 ltac:(done) _ _ H3). done.
  Qed.
  Lemma open_reread dir g p F : mappable it lt PN PE dir g → no_stale F p g →
    (∀ t l, (t, l) ∈ arrays it lt g → l ≠ [] → reads t l) →
    (N.of_nat (sg_num_nodes g) < 256 ^ N.of_nat (m_usize M'))%N → (N.of_nat (sg_num_edges g) < 256 ^ N.of_nat (m_usize M'))%N →
    mm_open_on M' it lt cn ce (sg_dump_on M it lt cn ce g p F) p = Ok (reread R it lt g).
  Proof using Hcn Hce.
    intros [Ht Hcsr He Hin Hl Hit Hlt] Hst HR Hn1 Hn2. destruct (lookups_on_ok M it lt cn ce g p F) as [D1 D2 D3 D4 D5 D6 D7 D8].
    assert (∀ f, (f, false) ∈ dump_parts g p → F !! f = None) as Hs by exact Hst. unfold dump_parts in Hs.
    destruct Ht as [[Hc1 Hc2] Hte Hti Htl Hn Hel]. unfold mm_open_on.
    assert (∀ e, ev_offsets e ≠ [] → N.of_nat <$> ev_offsets e ≠ []) as Hof. { intros e H1 H2. by apply fmap_nil_inv in H2. }
    rewrite (ev_open_reread _ (p_out p) (sg_evec g)); [| | | |done|done|].
    2:{ apply HR; [unfold arrays, ev_arrays; set_solver|]. apply Hof, (csr_nonempty _ _ Hcsr). }
    2:{ apply HR; [unfold arrays, ev_arrays; set_solver|done]. }
    2:{ intros Hne. apply HR; [unfold arrays, ev_arrays; set_solver|done]. }
    2:{ rewrite D3. destruct (ev_labels (sg_evec g)) eqn:E; [|done]. rewrite n_out_labels. apply Hs.
        assert (has_edge_labels (sg_evec g) = false) as ->. { unfold has_edge_labels. unfold ev_labels in E. by destruct (ev_label_vec (sg_evec g)) as [[|]|]. }
        set_solver. }
    cbn [rbind].
    assert (fs_exists (sg_dump_on M it lt cn ce g p F) (f_offsets (p_in p)) = match sg_in g with Some _ => true | None => false end) as ->.
    { unfold fs_exists. rewrite D4. destruct (sg_in g) eqn:E; [done|]. rewrite n_in_offsets, Hs; [done|]. set_solver. }
    assert ((if match sg_in g with Some _ => true | None => false end
       then let* e := ev_open_on M' it lt (sg_dump_on M it lt cn ce g p F) (p_in p) in Ok (Some e) else Ok None) = Ok (reread_ev R it lt <$> sg_in g)) as ->.
    { destruct (sg_in g) as [e|] eqn:E; [|done]. destruct Hin as (_ & Hce' & Hee).
      rewrite (ev_open_reread _ (p_in p) e); [done| | | |done|done|].
      - apply HR; [unfold arrays, ev_arrays; rewrite E; set_solver|]. apply Hof, (csr_nonempty _ _ Hce').
      - apply HR; [unfold arrays, ev_arrays; rewrite E; set_solver|done].
      - intros Hne. apply HR; [unfold arrays, ev_arrays; rewrite E; set_solver|done].
      - rewrite D6. destruct (ev_labels e) eqn:E'; [|done]. rewrite n_in_labels. apply Hs.
        assert (has_edge_labels e = false) as ->. { unfold has_edge_labels. unfold ev_labels in E'. by destruct (ev_label_vec e) as [[|]|]. }
        set_solver. }
    cbn [rbind].
    assert (fs_exists (sg_dump_on M it lt cn ce g p F) (f_labels p) = match sg_labels g with Some _ => true | None => false end) as ->.
    { unfold fs_exists. rewrite D7. destruct (sg_labels g) eqn:E; [done|]. rewrite n_labels, Hs; [done|].
      rewrite (bool_decide_eq_false_2 (is_Some (@None (list N)))) by (intros [? [=]]). set_solver. }
    assert ((if match sg_labels g with Some _ => true | None => false end
       then let* l := map_on M' lt (sg_dump_on M it lt cn ce g p F) (f_labels p) in Ok (Some l) else Ok None) = Ok (R lt <$> sg_labels g)) as ->.
    { destruct (sg_labels g) as [ls|] eqn:E; [|done]. assert (reads lt ls) as Hrd. { apply HR; [unfold arrays; rewrite E; set_solver|intros ->; done]. }
      rewrite (Hrd _ _ D7). done. }
    cbn [rbind]. assert (fs_exists (sg_dump_on M it lt cn ce g p F) (f_aux p) = true) as ->. { unfold fs_exists. by rewrite D8. }
    assert (aux_on M' cn ce (sg_dump_on M it lt cn ce g p F) p = Some (sg_num_nodes g, (sg_num_edges g, (sg_nlm g, sg_elm g)))) as ->.
    { unfold aux_on, import. rewrite D8. cbn [mbind option_bind]. unfold aux_bytes. pose proof (proj1 (SerdeFacts.f_aux cn ce PN PE Hcn Hce)) as Hr.
      specialize (Hr (sg_num_nodes g, (sg_num_edges g, (sg_nlm g, sg_elm g))) []). rewrite app_nil_r in Hr. rewrite Hr; [|done].
      cbn [fmap option_fmap option_map fst snd mbind option_bind]. by rewrite decide_True. }
    done.
  Qed.
End open.
