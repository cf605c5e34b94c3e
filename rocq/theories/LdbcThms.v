(** LDBC import: the theorems. *)
From Coq Require Import Ascii.
From stdpp Require Import gmap strings.
From Verif Require Import Base BaseFacts Api Spec SpecFacts SpecOps Map GraphMap GraphMapFacts GraphMapRefine GraphMapSim GraphMapThms
  ViewFacts GraphOpsFacts GraphOpsProps Csv CsvFacts Ldbc SpecLdbc LdbcFacts LdbcProps.

Lemma facts_labelled fs nls els : node_labels fs ⊆ nls → edge_labels fs ⊆ els → Forall (labelled nls els) fs.
Proof.
  intros Hn He. apply Forall_forall. intros f Hf.
  assert (∀ l, l ∈ node_labels [f] → l ∈ nls) as H1.
  { intros l Hl. apply Hn. unfold node_labels in *. apply elem_of_list_bind. exists f. split; [|done]. csimpl in Hl. by rewrite app_nil_r in Hl. }
  assert (∀ l, l ∈ edge_labels [f] → l ∈ els) as H2.
  { intros l Hl. apply He. unfold edge_labels in *. apply elem_of_list_omap. exists f. split; [done|].
    apply elem_of_list_omap in Hl as (f' & Hf' & Hl). apply elem_of_list_singleton in Hf'. by subst. }
  unfold node_labels, edge_labels in *. destruct f as [e l|s t l]; csimpl in *; cbn in *.
  - apply H1. set_solver.
  - split_and!; [apply H1|apply H1|apply H2]; set_solver.
Qed.
Section thms.
  Context (dir : bool) (it : idty).
  Lemma import_ok S files fs nls els : directory_facts S files = Some fs → unambiguous fs →
    (N.of_nat (length (remove_dups (entities fs))) ≤ id_card it)%N →
    node_labels fs ⊆ nls → edge_labels fs ⊆ els → labels_fit it nls → labels_fit it els →
    ∃ g seen A, from_path dir it S files = Ok (Some g) ∧ import_of dir fs seen A ∧ ag_wf A ∧
      ∀ o, hash_order g o → let V := gm_view dir o g in
        represents V A ∧ answers_missing V A ∧ iterates V ∧ v_edge_count V = length (relations fs).
  Proof.
    intros Hd Hu Hc Hn He HN HE.
    destruct (run_ok dir it nls els (entities fs) HN HE Hu fs [] [] (gm_new, ∅) (s_init dir [] [])) as ([g m] & s & Hr & H).
    { by apply (inv_init dir it). } { done. } { by apply facts_labelled. } { by rewrite firsts_distinct. }
    rewrite app_nil_l in H. exists g, (firsts [] (entities fs)), (sp_g s). split; [by rewrite (from_path_facts dir it S files fs), Hr|]. split.
    - split; [apply H|apply H| |apply H|apply H|apply H]. intros e. rewrite firsts_elem, elem_of_nil. naive_solver.
    - split; [apply H|]. intros o Ho. destruct (lrel_view dir g s o (i_rel _ _ _ _ _ _ _ _ H) Ho) as (H1 & H2 & H3 & H4 & _). rewrite <-(i_count _ _ _ _ _ _ _ _ H). done.
  Qed.
  Lemma import_overflow S files fs nls els : directory_facts S files = Some fs → unambiguous fs → it ≠ TUnit →
    (id_card it < N.of_nat (length (remove_dups (entities fs))))%N →
    node_labels fs ⊆ nls → edge_labels fs ⊆ els → labels_fit it nls → labels_fit it els → from_path dir it S files = Panic.
  Proof.
    intros Hd Hu Hit Hc Hn He HN HE. rewrite (from_path_facts dir it S files fs) by done.
    rewrite (run_panic dir it nls els (entities fs) HN HE Hu fs [] [] (gm_new, ∅) (s_init dir [] [])); [done|..].
    { by apply (inv_init dir it). } { done. } { by apply facts_labelled. } { done. } { cbn. lia. } { rewrite firsts_distinct. lia. }
  Qed.

  (** ** The number of edges *)
  Lemma nodup_length {X} `{EqDecision X} (l : list X) : length (remove_dups l) = length l ↔ NoDup l.
  Proof.
    split.
    - induction l as [|x l IH]; [constructor|]. cbn. assert (length (remove_dups l) ≤ length l) as Hle.
      { clear. induction l as [|x l IH]; [done|]. cbn. case_decide; cbn; lia. }
      case_decide; cbn; intros Hl; [lia|]. constructor; [done|]. apply IH. lia.
    - intros Hn. apply Permutation_length, NoDup_Permutation; [apply NoDup_remove_dups|done|]. intros x. apply elem_of_remove_dups.
  Qed.
  Lemma not_nodup {X} `{EqDecision X} (l : list X) : ¬ NoDup l ↔ ∃ i j x, i < j ∧ l !! i = Some x ∧ l !! j = Some x.
  Proof.
    split.
    - intros Hn. induction l as [|x l IH]; [destruct Hn; constructor|]. destruct (decide (x ∈ l)) as [Hx|Hx].
      + apply elem_of_list_lookup in Hx as [j Hj]. exists 0, (S j), x. split; [lia|done].
      + destruct IH as (i & j & y & Hij & Hi & Hj); [intros Hl; apply Hn; by constructor|]. exists (S i), (S j), y. split; [lia|done].
    - intros (i & j & x & Hij & Hi & Hj) Hn. assert (i = j); [|lia]. by eapply NoDup_lookup.
  Qed.
  Lemma import_edges fs seen A : import_of dir fs seen A → ag_wf A →
    ∃ ks : list (N * N), length ks = length (relations fs) ∧ a_num_edges A = length (remove_dups ks) ∧
      (¬ NoDup ks ↔ repeated dir (relations fs)).
  Proof.
    intros [Hd Hnd He Hn Hl Hr] Hwf.
    assert (∃ f : entity → N, ∀ e, e ∈ entities fs → ∃ i, seen !! i = Some e ∧ f e = N.of_nat i) as [f Hf].
    { exists (λ e, N.of_nat (default 0 (fst <$> list_find (λ x, x = e) seen))). intros e Hin. apply He in Hin.
      destruct (list_find_elem_of (λ x, x = e) seen e Hin eq_refl) as [[i y] Hi]. exists i. rewrite Hi. cbn.
      apply list_find_Some in Hi as (Hi & -> & _). done. }
    assert (∀ s t, (s, t) ∈ relations fs → s ∈ entities fs ∧ t ∈ entities fs) as Hre.
    { intros s t Hin. unfold relations in Hin. apply elem_of_list_omap in Hin as ([e l|s' t' l] & Hin & [= -> ->]).
      unfold entities. split; apply elem_of_list_bind; eexists; (split; [|exact Hin]); cbn; set_solver. }
    assert (∀ e e', e ∈ entities fs → e' ∈ entities fs → (f e = f e' ↔ e = e')) as Hinj.
    { intros e e' H1 H2. split; [|by intros ->]. destruct (Hf e H1) as (i & Hi & ->), (Hf e' H2) as (j & Hj & ->). intros ->%Nat2N.inj. congruence. }
    assert (∀ k, is_Some (ag_edges A !! k) ↔ ∃ p, p ∈ relations fs ∧ ekey dir (f p.1) (f p.2) = k) as Hk.
    { intros [x y]. split.
      - intros Hs. destruct (Hwf x y Hs) as (Hkey & Hx & Hy). apply Hn in Hx. apply Hn in Hy. rewrite Hd in Hkey.
        destruct (lookup_lt_is_Some_2 seen (N.to_nat x)) as [s Hsx]; [lia|]. destruct (lookup_lt_is_Some_2 seen (N.to_nat y)) as [t Hty]; [lia|].
        specialize (Hr _ _ _ _ Hsx Hty). rewrite !N2Nat.id in Hr. unfold a_edge_at in Hr. rewrite Hd, Hkey in Hr. rewrite Hr in Hs.
        destruct (relation_label dir fs s t) as [l|] eqn:Hlab; [|by destruct Hs]. unfold relation_label in Hlab.
        apply last_Some_elem_of, elem_of_list_omap in Hlab as ([e l'|s' t' l'] & Hin & Hj); [done|]. cbn in Hj.
        destruct (decide _) as [Hcase|]; [|done].
        assert ((s', t') ∈ relations fs) as Hrel by (unfold relations; apply elem_of_list_omap; by exists (FEdge s' t' l')).
        exists (s', t'). split; [done|]. cbn [fst snd]. rewrite <-Hkey. apply ekey_eq.
        destruct (Hre s' t' Hrel) as [Hs' Ht']. destruct (Hf s' Hs') as (i & Hi & ->), (Hf t' Ht') as (j & Hj' & ->).
        destruct Hcase as [[= -> ->]|(-> & [= -> ->])]; [left|right; split; [done|]].
        + assert (i = N.to_nat x) as -> by (by eapply (NoDup_lookup seen)). assert (j = N.to_nat y) as -> by (by eapply (NoDup_lookup seen)). by rewrite !N2Nat.id.
        + assert (i = N.to_nat y) as -> by (by eapply (NoDup_lookup seen)). assert (j = N.to_nat x) as -> by (by eapply (NoDup_lookup seen)). by rewrite !N2Nat.id.
      - intros ([s t] & Hin & <-). cbn [fst snd]. destruct (Hre s t Hin) as [Hs Ht]. destruct (Hf s Hs) as (i & Hi & ->), (Hf t Ht) as (j & Hj & ->).
        specialize (Hr _ _ _ _ Hi Hj). unfold a_edge_at in Hr. rewrite Hd in Hr. rewrite Hr. unfold relation_label.
        unfold relations in Hin. apply elem_of_list_omap in Hin as ([e l|s' t' l] & Hin & [= -> ->]).
        assert (l ∈ omap (joins dir s t) fs) as Hl'.
        { apply elem_of_list_omap. exists (FEdge s t l). split; [done|]. cbn. by rewrite decide_True by (by left). }
        destruct (last (omap (joins dir s t) fs)) eqn:E; [by eexists|]. apply last_None in E. rewrite E in Hl'. by apply elem_of_nil in Hl'. }
    exists ((λ p : entity * entity, ekey dir (f p.1) (f p.2)) <$> relations fs). split; [apply fmap_length|]. split.
    - symmetry. apply lists_exactly_length. split; [apply NoDup_remove_dups|]. intros k. rewrite elem_of_remove_dups, elem_of_list_fmap, Hk.
      split; intros (p & H1 & H2); exists p; by split.
    - rewrite not_nodup. unfold repeated. split.
      + intros (i & j & k & Hij & Hi & Hj). apply list_lookup_fmap_Some in Hi as (p & Hi & Hp). apply list_lookup_fmap_Some in Hj as (q & Hj & Hq).
        exists i, j, p, q. split; [done|]. split; [done|]. split; [done|]. destruct p as [s t], q as [s' t']. cbn [fst snd] in *. subst k.
        destruct (Hre s t) as [H1 H2]; [by eapply elem_of_list_lookup_2|]. destruct (Hre s' t') as [H3 H4]; [by eapply elem_of_list_lookup_2|].
        apply ekey_eq in Hq as [[E1 E2]|(-> & E1 & E2)]; [left|right; split; [done|]]; apply Hinj in E1; try done; apply Hinj in E2; try done; congruence.
      + intros (i & j & [s t] & [s' t'] & Hij & Hi & Hj & Hpq). exists i, j, (ekey dir (f s) (f t)). split; [done|].
        rewrite !list_lookup_fmap, Hi, Hj. cbn [fmap option_fmap option_map fst snd] in *. split; [done|]. f_equal. apply ekey_eq.
        destruct Hpq as [[= -> ->]|(-> & [= -> ->])]; [by left|by right].
  Qed.
  Lemma import_count fs seen A : import_of dir fs seen A → ag_wf A →
    a_num_edges A ≤ length (relations fs) ∧ (a_num_edges A = length (relations fs) ↔ ¬ repeated dir (relations fs)).
  Proof.
    intros Hi Hwf. destruct (import_edges fs seen A Hi Hwf) as (ks & Hl & Hn & Hr). rewrite Hn, <-Hl. split.
    - clear. induction ks as [|x l IH]; [done|]. cbn. case_decide; cbn; lia.
    - rewrite nodup_length, <-Hr. split; [tauto|]. intros H. destruct (decide (NoDup ks)); [done|tauto].
  Qed.
End thms.

(** ** Malformed directories *)
Section malformed.
  Context (dir : bool) (it : idty).
  Notation state := (graphmap string string * gmap string N)%type.
  Lemma rfold_none {B} (f : option state → B → res (option state)) l st : (∀ b, f None b = Ok None) → rfold f l None = Ok (Some st) → False.
  Proof. intros Hf. induction l as [|b l IH]; [done|]. cbn. rewrite Hf. apply IH. Qed.
  Lemma each_record_none f t : each_record f t None = Ok None.
  Proof. unfold each_record. induction (records t) as [|r l IH]; [done|]. apply IH. Qed.
  Lemma each_file_none m f files : each_file m f files None = Ok None.
  Proof. unfold each_file. induction files as [|p l IH]; [done|]. cbn. destruct (m p.1); [rewrite each_record_none|]; apply IH. Qed.
  Lemma add_node_field nd r st st' : ldbc_add_node it nd r st = Ok st' → is_Some (node_fact nd r).
  Proof.
    unfold ldbc_add_node, node_fact, field. destruct st as [g m]. destruct (r !! ln_id nd) as [i|]; [|done]. cbn.
    destruct (match m !! _ with Some _ => _ | None => _ end) as [[id m']| |]; [|done|done]. cbn. by destruct (r !! ln_label nd).
  Qed.
  Lemma add_edge_field rl r st st' : ldbc_add_edge dir it rl r st = Ok st' → is_Some (edge_fact rl r).
  Proof.
    unfold ldbc_add_edge, edge_fact, field. destruct (r !! lr_start_id rl) as [i|]; [|done]. cbn. by destruct (r !! lr_target_id rl).
  Qed.
  Lemma each_record_total (f : row → state → res state) fact_of t st st' : (∀ r st st', f r st = Ok st' → is_Some (fact_of r)) →
    each_record f t (Some st) = Ok (Some st') → is_Some (table_facts fact_of t).
  Proof.
    intros Hf. unfold each_record, table_facts. destruct t as [|h t]; [by eexists|]. cbn [records]. rewrite read_rows_known.
    revert st. induction t as [|r t IH]; intros st; [by eexists|]. cbn [fmap list_fmap rfold mapM orb]. destruct (decide (length r = length h)) as [Hl|Hl].
    - rewrite bool_decide_eq_true_2 by done. destruct (f r st) as [st1| |] eqn:E; [|done|done]. cbn [rmap rbind]. intros H.
      destruct (Hf _ _ _ E) as [x ->]. destruct (IH _ H) as [xs ->]. by eexists.
    - rewrite bool_decide_eq_false_2 by done. cbn [rbind]. intros H. by apply rfold_none in H.
  Qed.
  Lemma each_file_total m (f : row → state → res state) fact_of files st st' : (∀ r st st', f r st = Ok st' → is_Some (fact_of r)) →
    each_file m f files (Some st) = Ok (Some st') → is_Some (files_facts m fact_of files).
  Proof.
    intros Hf. unfold each_file, files_facts. rewrite fmap_is_Some. revert st. induction files as [|[n t] files IH]; intros st; [by eexists|].
    cbn [rfold mapM fst snd]. destruct (m n).
    - destruct (each_record f t (Some st)) as [[st1|]| |] eqn:E; [| |done|done]; cbn [rbind]; intros H.
      + destruct (each_record_total _ _ _ _ _ Hf E) as [x ->]. destruct (IH _ H) as [xs ->]. by eexists.
      + exfalso. eapply rfold_none; [|exact H]. intros [n' t']. cbn. destruct (m n'); [apply each_record_none|done].
    - cbn [rbind]. intros H. destruct (IH _ H) as [xs ->]. by eexists.
  Qed.
  Lemma each_total {X} (m : X → string → bool) (f : X → row → state → res state) fact_of files l st st' : (∀ x r st st', f x r st = Ok st' → is_Some (fact_of x r)) →
    rfold (λ st x, each_file (m x) (f x) files st) l (Some st) = Ok (Some st') → is_Some (mapM (λ x, files_facts (m x) (fact_of x) files) l).
  Proof.
    intros Hf. revert st. induction l as [|x l IH]; intros st; [by eexists|]. cbn [rfold mapM].
    destruct (each_file _ _ _ (Some st)) as [[st1|]| |] eqn:E; [| |done|done]; cbn [rbind]; intros H.
    - destruct (each_file_total _ _ _ _ _ _ (Hf x) E) as [y ->]. destruct (IH _ H) as [ys ->]. by eexists.
    - exfalso. eapply rfold_none; [|exact H]. intros y. apply each_file_none.
  Qed.
  Lemma import_malformed S files g : directory_facts S files = None → from_path dir it S files ≠ Ok (Some g).
  Proof.
    intros Hd H. unfold from_path in H. destruct (rfold _ (sc_nodes S) _) as [[st|]| |] eqn:E1; [| |done|done]; cbn [rbind] in H.
    - destruct (rfold _ (sc_relations S) _) as [[st'|]| |] eqn:E2; [|done|done|done].
      unfold directory_facts in Hd. destruct (each_total _ _ node_fact _ _ _ _ add_node_field E1) as [ns Hn]. rewrite Hn in Hd. cbn in Hd.
      destruct (each_total _ _ edge_fact _ _ _ _ add_edge_field E2) as [es He]. rewrite He in Hd. done.
    - destruct (rfold _ (sc_relations S) _) as [[st'|]| |] eqn:E2; [|done|done|done].
      eapply rfold_none; [|exact E2]. intros x. apply each_file_none.
  Qed.
End malformed.

(** ** Types and ids *)
Definition types (S : scheme) : list string := (ln_name <$> sc_nodes S) ++ (lr_start <$> sc_relations S) ++ (lr_target <$> sc_relations S).
Lemma files_facts_elem m fact_of files fs f : files_facts m fact_of files = Some fs → f ∈ fs → ∃ r, fact_of r = Some f.
Proof.
  unfold files_facts. intros (fss & Hm & ->)%fmap_Some Hf. apply elem_of_list_join in Hf as (l & Hf & Hl).
  apply mapM_Some in Hm. apply elem_of_list_lookup in Hl as [i Hi]. eapply Forall2_lookup_r in Hm as ([n t] & _ & Ht); [|exact Hi]. cbn in Ht.
  destruct (m n); [|injection Ht as <-; by apply elem_of_nil in Hf]. destruct t as [|h t]; [injection Ht as <-; by apply elem_of_nil in Hf|]. cbn in Ht.
  apply mapM_Some in Ht. apply elem_of_list_lookup in Hf as [j Hj]. eapply Forall2_lookup_r in Ht as (r & _ & Hr); [|exact Hj]. cbn in Hr.
  destruct (decide _); [|done]. by exists r.
Qed.
Lemma entity_type S files fs e : directory_facts S files = Some fs → e ∈ entities fs → e.1 ∈ types S.
Proof.
  unfold directory_facts, types. intros Hd He. apply bind_Some in Hd as (ns & Hn & Hd). apply bind_Some in Hd as (es & Hes & [= <-]).
  apply elem_of_list_bind in He as (f & Hf & Hin). rewrite !elem_of_app, !elem_of_list_fmap. apply elem_of_app in Hin as [Hin|Hin];
    apply elem_of_list_join in Hin as (l & Hin & Hl); apply elem_of_list_lookup in Hl as [i Hi].
  - apply mapM_Some in Hn. eapply Forall2_lookup_r in Hn as (nd & Hnd & Hff); [|exact Hi]. cbn in Hff.
    destruct (files_facts_elem _ _ _ _ _ Hff Hin) as [r Hr]. unfold node_fact in Hr. destruct (r !! ln_id nd); [|done]. cbn in Hr. destruct (r !! ln_label nd); [|done]. injection Hr as <-.
    apply elem_of_list_singleton in Hf as ->. left. exists nd. split; [done|]. by eapply elem_of_list_lookup_2.
  - apply mapM_Some in Hes. eapply Forall2_lookup_r in Hes as (rl & Hrl & Hff); [|exact Hi]. cbn in Hff.
    destruct (files_facts_elem _ _ _ _ _ Hff Hin) as [r Hr]. unfold edge_fact in Hr. destruct (r !! lr_start_id rl); [|done]. cbn in Hr. destruct (r !! lr_target_id rl); [|done]. injection Hr as <-.
    apply elem_of_list_lookup_2 in Hrl. cbn in Hf. apply elem_of_cons in Hf as [->|Hf]; [right; left; by exists rl|]. apply elem_of_list_singleton in Hf as ->. right; right; by exists rl.
Qed.
Fixpoint no_digit (s : string) : bool :=
  match s with EmptyString => true | String c s => negb (is_digit_or_underscore c) && no_digit s end.
Lemma digit_split s s' c c' x x' : no_digit s → no_digit s' → is_digit_or_underscore c → is_digit_or_underscore c' →
  (s +:+ String c x)%string = (s' +:+ String c' x')%string → s = s'.
Proof.
  revert s'. induction s as [|d s IH]; intros [|d' s'] H1 H2 Hc Hc'; cbn in *; intros E.
  - done.
  - injection E as -> _. apply andb_prop_elim in H2 as [H2 _]. by apply negb_prop_elim in H2.
  - injection E as -> _. apply andb_prop_elim in H1 as [H1 _]. by apply negb_prop_elim in H1.
  - injection E as -> E. apply andb_prop_elim in H1 as [_ H1]. apply andb_prop_elim in H2 as [_ H2]. f_equal. by apply IH.
Qed.
Lemma append_inj s a b : (s +:+ a)%string = (s +:+ b)%string → a = b.
Proof. induction s as [|c s IH]; [done|]. cbn. intros [= E]. by apply IH. Qed.
Lemma numeric_unambiguous S files fs : Forall no_digit (types S) → directory_facts S files = Some fs →
  (∀ e, e ∈ entities fs → numeric e.2) → unambiguous fs.
Proof.
  intros Hty Hd Hn [t i] [t' i'] He He' Heq. cbn [fst snd] in Heq. rewrite Forall_forall in Hty.
  pose proof (Hty _ (entity_type _ _ _ _ Hd He)) as H1. pose proof (Hty _ (entity_type _ _ _ _ Hd He')) as H2.
  destruct (Hn _ He) as (c & x & Hi & Hc). destruct (Hn _ He') as (c' & x' & Hi' & Hc'). cbn [fst snd] in *. subst i i'.
  assert (∀ c, (48 ≤ N_of_ascii c ≤ 57)%N → is_digit_or_underscore c) as Hdig.
  { intros d Hd'. unfold is_digit_or_underscore. rewrite bool_decide_eq_true_2 by done. done. }
  assert (t = t') as <- by (eapply digit_split; [..|exact Heq]; auto). apply append_inj in Heq. by rewrite Heq.
Qed.
Lemma scheme_types : Forall no_digit (types scheme_init).
Proof. apply Forall_forall. intros s Hs. assert (forallb no_digit (types scheme_init) = true) as H by by vm_compute.
  rewrite forallb_forall in H. apply Is_true_true, H. by apply elem_of_list_In. Qed.

(** ** Relations that the scheme lists twice *)
Lemma listed_twice rls1 rl rls2 rls3 nds files fs name t dir :
  directory_facts (Scheme nds (rls1 ++ rl :: rls2 ++ rl :: rls3)) files = Some fs → (name, t) ∈ files → lr_match rl name → 1 < length t →
  repeated dir (relations fs).
Proof.
  unfold directory_facts. cbn [sc_nodes sc_relations]. intros Hd Hin Hm Ht. apply bind_Some in Hd as (ns & Hn & Hd). apply bind_Some in Hd as (es & Hes & [= <-]).
  set (F := λ rl, files_facts (lr_match rl) (edge_fact rl) files) in *.
  apply mapM_Some in Hes. apply Forall2_app_inv_l in Hes as (e1 & e' & _ & Hes & ->). apply Forall2_cons_inv_l in Hes as (x & e'' & Hx & Hes & ->).
  apply Forall2_app_inv_l in Hes as (e2 & e' & _ & Hes & ->). apply Forall2_cons_inv_l in Hes as (y & e3 & Hy & Hes & ->).
  assert (y = x) as -> by congruence. clear Hy Hes.
  assert (∃ p l, relations x = p :: l) as (p & l & Hp).
  { assert (∀ f, f ∈ x → ∃ s t l, f = FEdge s t l) as Hall.
    { intros f Hf. destruct (files_facts_elem _ _ _ _ _ Hx Hf) as [r Hr]. unfold edge_fact in Hr. destruct (r !! lr_start_id rl); [|done]. cbn in Hr. destruct (r !! lr_target_id rl); [|done]. injection Hr as <-. by eexists _, _, _. }
    destruct x as [|f x]; [|destruct (Hall f) as (s & t' & lb & ->); [by left|]; by eexists _, _]. exfalso.
    unfold F, files_facts in Hx. apply fmap_Some in Hx as (fss & Hm' & Hx). apply mapM_Some in Hm'. apply elem_of_list_lookup in Hin as [i Hi].
    eapply Forall2_lookup_l in Hm' as (z & Hz & Ht'); [|exact Hi]. cbn beta iota zeta delta [fst snd] in Ht'. destruct (lr_match rl name); [|done].
    destruct t as [|h [|r t]]; cbn in Ht; [lia|lia|]. cbn in Ht'. destruct (decide (length r = length h)); [|done]. destruct (edge_fact rl r) as [f|]; [|done]. cbn in Ht'.
    destruct (mapM _ t) as [zs|]; [|done]. injection Ht' as <-. assert (f ∈ mjoin fss) as Hf; [|rewrite <-Hx in Hf; by apply elem_of_nil in Hf].
    apply elem_of_list_join. exists (f :: zs). split; [left|]. by eapply elem_of_list_lookup_2. }
  assert (∀ a b, relations (a ++ b) = relations a ++ relations b) as Happ by (intros a b; unfold relations; apply omap_app).
  assert (∀ a b : list (list fact), mjoin (a ++ b) = mjoin a ++ mjoin b) as Hj by (intros a b; induction a as [|z a IHa]; [done|]; change (mjoin ((z :: a) ++ b)) with (z ++ mjoin (a ++ b)); rewrite IHa; by rewrite (assoc (++))).
  rewrite Happ, Hj, Happ. change (mjoin (x :: ?l)) with (x ++ mjoin l). cbn [mjoin list_join]. rewrite Happ, Hp. 
  set (A := relations (mjoin ns)). set (B := relations (mjoin e1)). rewrite (Hj e2). rewrite Happ. 
  replace (mjoin (x :: e3)) with (x ++ mjoin e3) by done. rewrite Happ, Hp. set (C := relations (mjoin e2)). set (D := relations (mjoin e3)).
  exists (length (A ++ B)), (length (A ++ B ++ (p :: l) ++ C)), p, p. split; [rewrite !app_length; cbn; lia|]. split_and!; [| |by left].
  - rewrite (assoc (++)). rewrite lookup_app_r by done. by rewrite Nat.sub_diag.
  - replace (A ++ B ++ (p :: l) ++ C ++ (p :: l) ++ D) with ((A ++ B ++ (p :: l) ++ C) ++ (p :: l) ++ D) by (by rewrite <-!app_assoc).
    rewrite lookup_app_r by done. by rewrite Nat.sub_diag.
Qed.
Lemma scheme_twice files fs name t dir rl : rl = LRel "forum" "post" "containerOf" 0 1 "forum_containerOf_post_" ∨ rl = LRel "forum" "person" "hasModerator" 0 1 "forum_hasModerator_person_" →
  directory_facts scheme_init files = Some fs → (name, t) ∈ files → lr_match rl name → 1 < length t → repeated dir (relations fs).
Proof.
  intros [->| ->] Hd Hin Hm Ht.
  - exact (listed_twice (take 5 (sc_relations scheme_init)) _ [] (drop 7 (sc_relations scheme_init)) (sc_nodes scheme_init) files fs name t dir Hd Hin Hm Ht).
  - exact (listed_twice (take 8 (sc_relations scheme_init)) _ [] (drop 10 (sc_relations scheme_init)) (sc_nodes scheme_init) files fs name t dir Hd Hin Hm Ht).
Qed.

(** ** File names *)
Lemma strip_literal_spec lit s s' : strip_literal lit s = Some s' ↔ s = (lit +:+ s')%string.
Proof.
  revert s. induction lit as [|c lit IH]; intros s; cbn; [split; [by intros [= ->]|by intros ->]|]. destruct s as [|d s]; [done|].
  case_decide as E; [subst|]; rewrite ?IH; split; [by intros ->|by intros [= ->]|done|by intros [= ->]].
Qed.
Lemma dot_csv_spec s : dot_csv s ↔ ∃ c rest, s = (String c ("csv" +:+ rest))%string ∧ c ≠ "010"%char.
Proof.
  split.
  - intros H. unfold dot_csv in H. repeat (match type of H with Is_true (match ?x with _ => _ end) => destruct x; try done end).
    eexists _, _. split; [done|]. intros ->. done.
  - intros (c & rest & -> & Hc). cbn. by rewrite bool_decide_eq_false_2.
Qed.
Lemma digit_or_underscore_spec c : is_digit_or_underscore c ↔ (48 ≤ N_of_ascii c ≤ 57)%N ∨ c = "_"%char.
Proof.
  unfold is_digit_or_underscore. rewrite orb_True, !bool_decide_spec. apply or_iff_compat_l. split; [|by intros ->].
  intros H. rewrite <-(ascii_N_embedding c), H. done.
Qed.
Lemma star_csv_spec s : star_csv s ↔ csv_ending s.
Proof.
  unfold csv_ending. transitivity (∃ ds s', s = (ds +:+ s')%string ∧ digits_underscores ds ∧ dot_csv s').
  2: { split; [intros (ds & s' & -> & H & (c & rest & -> & Hc)%dot_csv_spec); by exists ds, c, rest|].
       intros (ds & c & rest & -> & H & Hc). exists ds, (String c ("csv" +:+ rest)). split_and!; [done..|]. apply dot_csv_spec. by exists c, rest. }
  induction s as [|c s IH]; cbn [star_csv].
  - split; [done|]. intros ([|??] & [|??] & Heq & _ & Hd); done.
  - rewrite orb_True, andb_True, IH, digit_or_underscore_spec. split.
    + intros [H|(Hc & ds & s' & -> & Hds & Hs)]; [by exists "", (String c s)|]. exists (String c ds), s'. done.
    + intros ([|d ds] & s' & Heq & Hds & Hs); [change (String c s = s') in Heq; subst; by left|]. change (String c s = String d (ds +:+ s')) in Heq; injection Heq as -> ->. destruct Hds. right. split; [done|]. by exists ds, s'.
Qed.
Lemma match_here_spec lit s : match_here lit s ↔ node_file lit s.
Proof.
  unfold match_here, node_file. destruct (strip_literal lit s) as [s'|] eqn:E.
  - apply strip_literal_spec in E as ->. rewrite star_csv_spec. split; [by exists s'|]. intros (x & Hx%append_inj & H). by rewrite Hx.
  - split; [done|]. intros (x & Hx & _). apply strip_literal_spec in Hx. congruence.
Qed.
Lemma match_anywhere_spec lit s : match_anywhere lit s ↔ relation_file lit s.
Proof.
  unfold relation_file. induction s as [|c s IH]; cbn [match_anywhere]; rewrite orb_True, match_here_spec; unfold node_file.
  - split; [intros [(x & Hx & H)|[]]; by exists "", x|]. intros ([|??] & x & Hx & H); [|done]. left. by exists x.
  - rewrite IH. split.
    + intros [(x & Hx & H)|(b & x & -> & H)]; [by exists "", x|by exists (String c b), x].
    + intros ([|d b] & x & Hx & H); [left; by exists x|]. cbn in Hx. injection Hx as -> ->. right. by exists b, x.
Qed.
