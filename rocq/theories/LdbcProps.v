(** LDBC import: facts, files, directories. *)
From Coq Require Import Ascii.
From stdpp Require Import gmap strings.
From Verif Require Import Base BaseFacts Api Spec SpecFacts SpecOps Map GraphMap GraphMapFacts GraphMapRefine GraphMapSim GraphMapThms
  ViewFacts GraphOpsFacts GraphOpsProps Csv CsvFacts Ldbc SpecLdbc LdbcFacts.

(** The entities in order of their first mention. *)
Definition touch (seen : list entity) (e : entity) : list entity := if decide (e ∈ seen) then seen else seen ++ [e].
Definition firsts (seen : list entity) (es : list entity) : list entity := foldl touch seen es.
Lemma touch_elem seen e x : x ∈ touch seen e ↔ x ∈ seen ∨ x = e.
Proof. unfold touch. case_decide; [|by rewrite elem_of_app, elem_of_list_singleton]. naive_solver. Qed.
Lemma touch_nodup seen e : NoDup seen → NoDup (touch seen e).
Proof.
  intros Hn. unfold touch. case_decide; [done|]. apply NoDup_app. split; [done|]. split; [|apply NoDup_singleton]. set_solver.
Qed.
Lemma touch_length seen e : length seen ≤ length (touch seen e).
Proof. unfold touch. case_decide; [done|]. rewrite app_length. lia. Qed.
Lemma firsts_elem seen es x : x ∈ firsts seen es ↔ x ∈ seen ∨ x ∈ es.
Proof.
  revert seen. induction es as [|e es IH]; intros seen; cbn; [rewrite elem_of_nil; naive_solver|]. rewrite IH, touch_elem, elem_of_cons. naive_solver.
Qed.
Lemma firsts_nodup seen es : NoDup seen → NoDup (firsts seen es).
Proof. revert seen. induction es as [|e es IH]; intros seen Hs; [done|]. by apply IH, touch_nodup. Qed.
Lemma firsts_length seen es : length seen ≤ length (firsts seen es).
Proof. revert seen. induction es as [|e es IH]; intros seen; [done|]. cbn. etransitivity; [|apply IH]. apply touch_length. Qed.
Lemma firsts_distinct es : length (firsts [] es) = length (remove_dups es).
Proof.
  apply Permutation_length, NoDup_Permutation; [apply firsts_nodup; constructor|apply NoDup_remove_dups|].
  intros x. rewrite firsts_elem, elem_of_remove_dups, elem_of_nil. naive_solver.
Qed.

Section facts.
  Context (dir : bool) (it : idty).
  Notation graph := (graphmap string string).
  Notation state := (graph * gmap string N)%type.
  Definition fact_step (f : fact) (st : state) : res state :=
    match f with
    | FNode e l =>
        let '(g, m) := st in
        let* '(id, m) := match m !! key e with
                         | Some id => Ok (id, m)
                         | None => let* id := next_id it g in Ok (id, <[key e := id]> m)
                         end in
        let* g := rmap snd (gm_add_node it id (Some l) g) in
        Ok (g, m)
    | FEdge s t l =>
        let* '(x, st) := entry_or_add it (key s) s.1 st in
        let* '(y, st) := entry_or_add it (key t) t.1 st in
        let '(g, m) := st in
        let* g := rmap snd (gm_add_edge dir it x y (Some l) g) in
        Ok (g, m)
    end.
  Lemma add_node_fact nd r f st : node_fact nd r = Some f → ldbc_add_node it nd r st = fact_step f st.
  Proof.
    unfold node_fact, ldbc_add_node, field. destruct (r !! ln_id nd) as [i|]; [|done]. destruct (r !! ln_label nd) as [l|]; [|done].
    intros [= <-]. destruct st as [g m]. cbn [unwrap rbind fact_step]. unfold key. cbn [fst snd]. done.
  Qed.
  Lemma add_edge_fact rl r f st : edge_fact rl r = Some f → ldbc_add_edge dir it rl r st = fact_step f st.
  Proof.
    unfold edge_fact, ldbc_add_edge, field. destruct (r !! lr_start_id rl) as [i|]; [|done]. destruct (r !! lr_target_id rl) as [j|]; [|done].
    by intros [= <-].
  Qed.
  (** A directory is the sequence of its facts. *)
  Lemma rfold_app {A B} (f : A → B → res A) l1 l2 a : rfold f (l1 ++ l2) a = let* a := rfold f l1 a in rfold f l2 a.
  Proof. revert a. induction l1 as [|b l1 IH]; intros a; [done|]. cbn. destruct (f a b); [|done|done]. apply IH. Qed.
  Definition run_facts (fs : list fact) (st : state) : res state := rfold (λ st f, fact_step f st) fs st.
  Lemma run_facts_app fs1 fs2 st : run_facts (fs1 ++ fs2) st = let* st := run_facts fs1 st in run_facts fs2 st.
  Proof. apply rfold_app. Qed.
  Lemma each_record_facts (f : row → state → res state) (fact_of : row → option fact) t fs st :
    (∀ r x st, fact_of r = Some x → f r st = fact_step x st) → table_facts fact_of t = Some fs →
    each_record f t (Some st) = rmap Some (run_facts fs st).
  Proof.
    intros Hf. unfold table_facts, each_record. destruct t as [|h t]; [by intros [= <-]|]. cbn [records]. rewrite read_rows_known.
    revert fs st. induction t as [|r t IH]; intros fs st; [by intros [= <-]|]. cbn [mapM]. destruct (decide _) as [Hl|Hl]; [|done].
    destruct (fact_of r) as [x|] eqn:Hx; [|done]. cbn [mbind option_bind]. destruct (mapM _ t) as [fs'|] eqn:Ht; [|done]. intros [= <-].
    cbn [fmap list_fmap rfold orb]. rewrite bool_decide_eq_true_2, (Hf r x st Hx) by done. unfold run_facts. cbn [rfold].
    destruct (fact_step x st) as [st'| |]; [|done|done]. cbn [rmap rbind]. by apply IH.
  Qed.
  Lemma each_file_facts matches (f : row → state → res state) (fact_of : row → option fact) files fs st :
    (∀ r x st, fact_of r = Some x → f r st = fact_step x st) → files_facts matches fact_of files = Some fs →
    each_file matches f files (Some st) = rmap Some (run_facts fs st).
  Proof.
    intros Hf. unfold files_facts, each_file. revert fs st. induction files as [|p files IH]; intros fs st; [by intros [= <-]|].
    cbn [mapM]. destruct (matches p.1) eqn:Hm.
    - destruct (table_facts fact_of p.2) as [fs1|] eqn:H1; [|done]. cbn [mbind option_bind]. destruct (mapM _ files) as [fs2|]; [|done].
      intros [= <-]. cbn [rfold]. rewrite Hm, (each_record_facts f fact_of _ fs1) by done. rewrite run_facts_app.
      destruct (run_facts fs1 st) as [st'| |]; [|done|done]. cbn [rmap rbind]. by apply IH.
    - cbn [mbind option_bind]. destruct (mapM _ files) as [fs2|]; [|done]. intros [= <-]. cbn [rfold]. rewrite Hm. cbn [rbind]. by apply IH.
  Qed.
  Lemma each_type_facts {T} (matches : T → string → bool) (f : T → row → state → res state) (fact_of : T → row → option fact) ts files fss st :
    (∀ x r y st, fact_of x r = Some y → f x r st = fact_step y st) →
    mapM (λ x, files_facts (matches x) (fact_of x) files) ts = Some fss →
    rfold (λ st x, each_file (matches x) (f x) files st) ts (Some st) = rmap Some (run_facts (mjoin fss) st).
  Proof.
    intros Hf. revert fss st. induction ts as [|x ts IH]; intros fss st; [by intros [= <-]|]. cbn [mapM].
    destruct (files_facts _ _ _) as [fs1|] eqn:H1; [|done]. cbn [mbind option_bind]. destruct (mapM _ ts) as [fs2|]; [|done]. intros [= <-].
    cbn [rfold]. rewrite (each_file_facts _ _ (fact_of x) _ fs1) by (done || apply Hf). change (mjoin (fs1 :: fs2)) with (fs1 ++ mjoin fs2). rewrite run_facts_app.
    destruct (run_facts fs1 st) as [st'| |]; [|done|done]. cbn [rmap rbind]. by apply IH.
  Qed.
  Lemma from_path_facts S files fs : directory_facts S files = Some fs →
    from_path dir it S files = rmap (λ st, Some st.1) (run_facts fs (gm_new, ∅)).
  Proof.
    unfold directory_facts, from_path. destruct (mapM _ (sc_nodes S)) as [ns|] eqn:Hn; [|done]. cbn [mbind option_bind].
    destruct (mapM _ (sc_relations S)) as [es|] eqn:He; [|done]. intros [= <-].
    rewrite (each_type_facts ln_match (ldbc_add_node it) node_fact _ _ ns) by (done || intros *; apply add_node_fact).
    rewrite run_facts_app. destruct (run_facts (mjoin ns) _) as [st| |]; [|done|done]. cbn [rmap rbind].
    rewrite (each_type_facts lr_match (ldbc_add_edge dir it) edge_fact _ _ es) by (done || intros *; apply add_edge_fact).
    by destruct (run_facts (mjoin es) st).
  Qed.

  (** ** The run *)
  Context (nls els : list string) (U : list entity) (HN : labels_fit it nls) (HE : labels_fit it els).
  Context (HU : ∀ e e', e ∈ U → e' ∈ U → key e = key e' → e = e').
  Notation inv := (inv dir nls els U).
  Lemma entry_ok fs seen st s e : inv fs seen st s → e ∈ U → e.1 ∈ nls → (N.of_nat (length (touch seen e)) ≤ id_card it)%N →
    ∃ i st' s', entry_or_add it (key e) e.1 st = Ok (N.of_nat i, st') ∧ touch seen e !! i = Some e ∧ inv fs (touch seen e) st' s'.
  Proof.
    intros H He Hl Hc. destruct st as [g m]. unfold entry_or_add, touch in *. destruct (decide (e ∈ seen)) as [Hin|Hin].
    - apply elem_of_list_lookup in Hin as [i Hi]. exists i, (g, m), s. pose proof (map_found dir it nls els U HN HE HU _ _ _ _ _ _ H Hi) as Hm. cbn [snd] in Hm. by rewrite Hm.
    - pose proof (map_missing dir it nls els U HN HE HU _ _ _ _ _ H He Hin) as Hm. cbn [snd] in Hm. rewrite Hm.
      rewrite app_length in Hc. cbn [length] in Hc.
      pose proof (next_id_ok dir it nls els U HN HE HU _ _ _ _ H ltac:(lia)) as Hnx. cbn [fst] in Hnx. rewrite Hnx. cbn [rbind].
      destruct (run_add_node dir it nls els U HN HE HU g s (N.of_nat (length seen)) e.1 (i_rel _ _ _ _ _ _ _ _ H) (i_within _ _ _ _ _ _ _ _ H) Hl) as (g' & -> & Hr).
      cbn [rbind]. eexists (length seen), _, _. split; [done|]. split; [by rewrite lookup_app_r, Nat.sub_diag by lia|].
      apply (inv_new dir it nls els U HN HE HU fs fs seen (g, m) s e e.1 g'); try done.
      + pose proof (i_sub _ _ _ _ _ _ _ _ H). set_solver.
      + apply entity_label_new. intros ?. apply Hin. by apply (i_sub _ _ _ _ _ _ _ _ H).
  Qed.
  Lemma entry_panic fs seen st s e : inv fs seen st s → e ∈ U → it ≠ TUnit → (N.of_nat (length seen) ≤ id_card it)%N →
    ¬ (N.of_nat (length (touch seen e)) ≤ id_card it)%N → entry_or_add it (key e) e.1 st = Panic.
  Proof.
    intros H He Hit Hc Hn. destruct st as [g m]. unfold entry_or_add, touch in *. destruct (decide (e ∈ seen)) as [Hin|Hin]; [done|].
    pose proof (map_missing dir it nls els U HN HE HU _ _ _ _ _ H He Hin) as Hm. cbn [snd] in Hm. rewrite Hm. rewrite app_length in Hn. cbn [length] in Hn.
    pose proof (next_id_overflow dir it nls els U HN HE HU _ _ _ _ H ltac:(lia) Hit) as Hnx. cbn [fst] in Hnx. by rewrite Hnx.
  Qed.
  Definition labelled (f : fact) : Prop :=
    match f with FNode e l => l ∈ nls | FEdge s t l => s.1 ∈ nls ∧ t.1 ∈ nls ∧ l ∈ els end.
  Lemma step_ok fs seen st s f : inv fs seen st s → names f ⊆ U → labelled f → (N.of_nat (length (firsts seen (names f))) ≤ id_card it)%N →
    ∃ st' s', fact_step f st = Ok st' ∧ inv (fs ++ [f]) (firsts seen (names f)) st' s'.
  Proof.
    intros H Hsub Hlab Hc. destruct f as [e l|x y l]; cbn [names firsts foldl labelled] in *.
    - assert (e ∈ U) as He by set_solver. destruct st as [g m]. unfold touch in *. cbn [fact_step]. destruct (decide (e ∈ seen)) as [Hin|Hin].
      + apply elem_of_list_lookup in Hin as [i Hi]. pose proof (map_found dir it nls els U HN HE HU _ _ _ _ _ _ H Hi) as Hm. cbn [snd] in Hm. rewrite Hm. cbn [rbind].
        destruct (run_add_node dir it nls els U HN HE HU g s (N.of_nat i) l (i_rel _ _ _ _ _ _ _ _ H) (i_within _ _ _ _ _ _ _ _ H) Hlab) as (g' & -> & Hr).
        eexists _, _. split; [done|]. by apply (inv_relabel dir it nls els U HN HE HU fs seen (g, m) s i e l g').
      + pose proof (map_missing dir it nls els U HN HE HU _ _ _ _ _ H He Hin) as Hm. cbn [snd] in Hm. rewrite Hm.
        rewrite app_length in Hc. cbn [length] in Hc.
        pose proof (next_id_ok dir it nls els U HN HE HU _ _ _ _ H ltac:(lia)) as Hnx. cbn [fst] in Hnx. rewrite Hnx. cbn [rbind].
        destruct (run_add_node dir it nls els U HN HE HU g s (N.of_nat (length seen)) l (i_rel _ _ _ _ _ _ _ _ H) (i_within _ _ _ _ _ _ _ _ H) Hlab) as (g' & -> & Hr).
        eexists _, _. split; [done|]. apply (inv_new dir it nls els U HN HE HU fs _ seen (g, m) s e l g'); try done.
        * rewrite entities_snoc. pose proof (i_sub _ _ _ _ _ _ _ _ H). set_solver.
        * by rewrite entity_label_snoc_node, decide_True.
        * intros e' He'. rewrite entity_label_snoc_node, decide_False; [done|]. congruence.
        * intros x y. apply relation_label_snoc_node.
        * unfold relations. by rewrite omap_app, app_nil_r.
    - destruct Hlab as (Hx & Hy & Hl). cbn [fact_step].
      destruct (entry_ok fs seen st s x H) as (i & st1 & s1 & -> & Hi & H1); [set_solver|done|pose proof (touch_length (touch seen x) y); lia|]. cbn [rbind].
      destruct (entry_ok fs _ st1 s1 y H1) as (j & [g2 m2] & s2 & -> & Hj & H2); [set_solver|done|done|]. cbn [rbind].
      assert (touch (touch seen x) y !! i = Some x) as Hi2.
      { unfold touch at 1. case_decide; [done|]. by apply lookup_app_l_Some. }
      destruct (run_add_edge dir it nls els U HN HE HU g2 s2 (N.of_nat i) (N.of_nat j) l (i_rel _ _ _ _ _ _ _ _ H2) (i_within _ _ _ _ _ _ _ _ H2) Hl) as (g' & -> & Hr).
      eexists _, _. split; [done|]. by apply (inv_edge dir it nls els U HN HE HU fs _ (g2, m2) s2 i j x y l g').
  Qed.
  Lemma step_panic fs seen st s f : inv fs seen st s → names f ⊆ U → labelled f → it ≠ TUnit → (N.of_nat (length seen) ≤ id_card it)%N →
    ¬ (N.of_nat (length (firsts seen (names f))) ≤ id_card it)%N → fact_step f st = Panic.
  Proof.
    intros H Hsub Hlab Hit Hc Hn. destruct f as [e l|x y l]; cbn [names firsts foldl labelled] in *.
    - assert (e ∈ U) as He by set_solver. destruct st as [g m]. unfold touch in *. cbn [fact_step]. destruct (decide (e ∈ seen)) as [Hin|Hin]; [done|].
      pose proof (map_missing dir it nls els U HN HE HU _ _ _ _ _ H He Hin) as Hm. cbn [snd] in Hm. rewrite Hm. rewrite app_length in Hn. cbn [length] in Hn.
      pose proof (next_id_overflow dir it nls els U HN HE HU _ _ _ _ H ltac:(lia) Hit) as Hnx. cbn [fst] in Hnx. by rewrite Hnx.
    - destruct Hlab as (Hx & Hy & Hl). cbn [fact_step]. destruct (decide (N.of_nat (length (touch seen x)) ≤ id_card it)%N) as [Hd|Hd].
      + destruct (entry_ok fs seen st s x H) as (i & st1 & s1 & -> & Hi & H1); [set_solver|done|done|]. cbn [rbind].
        rewrite (entry_panic fs _ st1 s1 y H1); [done|set_solver|done..].
      + rewrite (entry_panic fs seen st s x H); [done|set_solver|done..].
  Qed.
  Lemma firsts_app seen l1 l2 : firsts seen (l1 ++ l2) = firsts (firsts seen l1) l2.
  Proof. apply foldl_app. Qed.
  Lemma entities_cons f fs : entities (f :: fs) = names f ++ entities fs.
  Proof. done. Qed.
  Lemma run_ok fs' fs seen st s : inv fs seen st s → entities fs' ⊆ U → Forall labelled fs' →
    (N.of_nat (length (firsts seen (entities fs'))) ≤ id_card it)%N →
    ∃ st' s', run_facts fs' st = Ok st' ∧ inv (fs ++ fs') (firsts seen (entities fs')) st' s'.
  Proof.
    revert fs seen st s. induction fs' as [|f fs' IH]; intros fs seen st s H Hsub Hlab Hc.
    - exists st, s. by rewrite app_nil_r.
    - apply Forall_cons in Hlab as [Hl Hlab]. rewrite entities_cons, firsts_app in *.
      destruct (step_ok fs seen st s f H) as (st1 & s1 & Hs1 & H1); [set_solver|done|pose proof (firsts_length (firsts seen (names f)) (entities fs')); lia|].
      destruct (IH (fs ++ [f]) _ st1 s1 H1) as (st2 & s2 & Hs2 & H2); [set_solver|done|done|]. exists st2, s2.
      unfold run_facts. cbn [rfold]. rewrite Hs1. cbn [rbind]. split; [done|]. by rewrite <-(assoc_L (++)) in H2.
  Qed.
  Lemma run_panic fs' fs seen st s : inv fs seen st s → entities fs' ⊆ U → Forall labelled fs' → it ≠ TUnit →
    (N.of_nat (length seen) ≤ id_card it)%N → ¬ (N.of_nat (length (firsts seen (entities fs'))) ≤ id_card it)%N → run_facts fs' st = Panic.
  Proof.
    revert fs seen st s. induction fs' as [|f fs' IH]; intros fs seen st s H Hsub Hlab Hit Hc Hn; [done|].
    apply Forall_cons in Hlab as [Hl Hlab]. rewrite entities_cons, firsts_app in *. unfold run_facts. cbn [rfold].
    destruct (decide (N.of_nat (length (firsts seen (names f))) ≤ id_card it)%N) as [Hd|Hd].
    - destruct (step_ok fs seen st s f H) as (st1 & s1 & -> & H1); [set_solver|done|done|]. cbn [rbind].
      apply (IH _ _ st1 s1 H1); [set_solver|done..].
    - rewrite (step_panic fs seen st s f H); [done|set_solver|done..].
  Qed.
End facts.
