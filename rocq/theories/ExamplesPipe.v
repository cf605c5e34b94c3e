(** csv_to_static (examples/csv_to_static.rs l.84-136) with its input files as text, and both converters one after the other. *)
From Coq Require Import Ascii.
From stdpp Require Import gmap strings.
From Verif Require Import Base BaseFacts Api Spec SpecFacts SpecOps SpecStatic SpecSGraph Map GraphMap GraphMapRefine GraphMapQueries GraphMapSim GraphMapThms ViewFacts Static
  SpecReorder Reorder Bytes SpecSerde Serde GraphOps GraphOpsFacts GraphOpsProps Csv SpecCsv SpecCsvRows CsvFacts CsvProps CsvRead SpecExamples Examples ExamplesFacts
  GraphMapFacts Pipeline CsvText CsvTextProps CsvTextGraph Paths ExamplesText.

(** The separator is the option's (reader.rs l.75-99), a comma without it (reader.rs l.60-72). A bad
    separator panics before a file is read. *)
Definition csv_to_static_text (a : cs_args) (ord no eo : list N) (C : textfs) (F : fs) : res fs :=
  let* sep := match ca_separator a with Some s => csv_separator s | None => Ok ","%char end in
  csv_to_static a ord no eo (read_table sep <$> C) F.

(** A graph described by its own records. *)
Section copy.
  Context {NL EL : Type} (V : gview NL EL) (A A' : agraph NL EL) (es : list (N * N)) (HV : represents V A) (Hes : v_edge_indices V = Ok es).
  Context (Hb : built_from (ag_dir A) ((λ n, (n, nlab A n)) <$> v_node_indices V) ((λ e, (e.1, e.2, elab A e)) <$> es) A').
  Lemma copy_edges_list : lists_exactly es (λ e, is_Some (ag_edges A !! e)).
  Proof using HV Hes. destruct (rp_edge_indices _ _ HV) as (es' & Hes' & Hl). rewrite Hes in Hes'. by injection Hes' as <-. Qed.
  Lemma copy_has_node n : a_has_node A' n ↔ a_has_node A n.
  Proof using HV Hes Hb.
    rewrite (bf_nodes _ _ _ _ Hb). destruct copy_edges_list as [_ Hl]. split.
    - intros [[l Hin]|(x & y & l & Hin & Hn)].
      + apply elem_of_list_fmap in Hin as (m & [= -> _] & Hm). by apply (rp_node_indices _ _ HV).
      + apply elem_of_list_fmap in Hin as ([x' y'] & [= -> -> _] & Hin). apply Hl in Hin. apply (rp_wf _ _ HV) in Hin as (_ & Hx & Hy). by destruct Hn as [-> | ->].
    - intros Hn. left. exists (nlab A n). apply elem_of_list_fmap. exists n. split; [done|]. by apply (rp_node_indices _ _ HV).
  Qed.
  Lemma copy_nodes n : ag_nodes A' !! n = ag_nodes A !! n.
  Proof using HV Hes Hb.
    destruct (ag_nodes A !! n) as [l|] eqn:E.
    - assert (n ∈ v_node_indices V) as Hin by (apply (rp_node_indices _ _ HV); by exists l). destruct (rp_node_indices _ _ HV) as [Hnd _].
      apply elem_of_list_split in Hin as (l1 & l2 & Hs).
      rewrite (bf_node_label _ _ _ _ Hb ((λ n, (n, nlab A n)) <$> l1) n (nlab A n) ((λ n, (n, nlab A n)) <$> l2)).
      + unfold nlab. by rewrite E.
      + by rewrite Hs, fmap_app.
      + intros l' Hin. apply elem_of_list_fmap in Hin as (m & [= <- _] & Hm). rewrite Hs in Hnd. apply NoDup_app in Hnd as (_ & _ & Hnd).
        by apply NoDup_cons in Hnd as [Hnd _].
    - destruct (ag_nodes A' !! n) as [l|] eqn:E'; [|done]. assert (a_has_node A n) as [l' Hl'] by (apply copy_has_node; by exists l). congruence.
  Qed.
  Lemma copy_edge x y : a_edge_at A' x y = a_edge_at A x y.
  Proof using HV Hes Hb.
    destruct copy_edges_list as [Hnd Hl]. pose proof (bf_dir _ _ _ _ Hb) as Hd.
    destruct (a_edge_at A x y) as [l|] eqn:E.
    - destruct (ekey (ag_dir A) x y) as [p q] eqn:Hk. unfold a_edge_at in E. rewrite Hk in E.
      assert ((p, q) ∈ es) as Hin by (apply Hl; by exists l). assert (ekey (ag_dir A) p q = (p, q)) as Hpq by (apply (rp_wf _ _ HV); by exists l).
      apply elem_of_list_split in Hin as (l1 & l2 & Hs).
      assert (a_edge_at A' p q = Some (elab A (p, q))) as Hat.
      { apply (bf_edge_label _ _ _ _ Hb ((λ e, (e.1, e.2, elab A e)) <$> l1) p q (elab A (p, q)) ((λ e, (e.1, e.2, elab A e)) <$> l2)).
        - by rewrite Hs, fmap_app.
        - intros x' y' l' Hin. apply elem_of_list_fmap in Hin as ([x2 y2] & [= -> -> _] & Hin).
          assert ((x2, y2) ∈ es) as Hin' by (rewrite Hs; apply elem_of_app; right; by right). apply Hl in Hin'. apply (rp_wf _ _ HV) in Hin' as [-> _]. rewrite Hpq.
          intros [= -> ->]. rewrite Hs in Hnd. apply NoDup_app in Hnd as (_ & _ & Hnd). by apply NoDup_cons in Hnd as [Hnd _]. }
      unfold a_edge_at in *. rewrite Hd in *. rewrite Hk. rewrite Hpq in Hat. rewrite Hat. unfold elab, a_edge_at. cbn. rewrite Hpq, E. done.
    - destruct (a_edge_at A' x y) as [l|] eqn:E'; [|done]. assert (a_has_edge A' x y) as He by (by exists l).
      apply (bf_edges _ _ _ _ Hb) in He as (x' & y' & l' & Hin & Hk). apply elem_of_list_fmap in Hin as ([x2 y2] & [= -> -> _] & Hin).
      apply Hl in Hin as Hs. apply (rp_wf _ _ HV) in Hs as Hw. destruct Hw as [Hw _]. unfold a_edge_at in E. rewrite <-Hk, Hw in E. rewrite E in Hs. by destruct Hs.
  Qed.
  Lemma copy_renames f B : renames f A' B → renames f A B.
  Proof using HV Hes Hb.
    intros [H1 H2 H3 H4 H5]. split; [|done|..].
    - rewrite H1. exact (bf_dir _ _ _ _ Hb).
    - intros x y Hx Hy. apply H3; by apply copy_has_node.
    - intros y l. rewrite H4. split; intros (x & Hx & Hf); exists x; (split; [|done]); [by rewrite <-copy_nodes|by rewrite copy_nodes].
    - intros s t Hs Ht. rewrite <-copy_edge. apply H5; by apply copy_has_node.
  Qed.
  Lemma copy_size : a_num_nodes A' = a_num_nodes A.
  Proof using HV Hes Hb. unfold a_num_nodes. f_equal. apply map_eq. exact copy_nodes. Qed.
  Lemma copy_prefix f : onto_prefix f A' → onto_prefix f A.
  Proof using HV Hes Hb.
    assert (ag_nodes A' = ag_nodes A) as He by (apply map_eq; exact copy_nodes).
    intros [H1 H2]. rewrite He in H1, H2. split.
    - intros x Hx. apply H1. by apply copy_has_node.
    - intros y Hy. destruct (H2 y Hy) as (x & Hx & Hf). exists x. by rewrite <-copy_has_node.
  Qed.
End copy.

Section pipe.
  Context (a : cs_args) (V : gview string string) (A : agraph string string) (nls els : list string) (pn pe : string) (sep : ascii).
  Context (Hpn : ca_nodes a = Some pn) (Hpe : ca_edges a = pe) (Hh : ca_headers a = true) (Hdir : ca_directed a = ag_dir A) (Hp : pn ≠ pe).
  Context (Hsep : (match ca_separator a with Some s => csv_separator s | None => Ok ","%char end) = Ok sep) (Hlf : sep ≠ c_lf).
  Context (HV : represents V A) (Hids : ∀ n, a_has_node A n → in_type TU32 n) (Hu : uses_labels A nls els).
  Context (Hne1 : Forall (λ l, l ≠ ""%string) nls) (Hne2 : Forall (λ l, l ≠ ""%string) els).
  Context (HN : (N.of_nat (length nls) ≤ id_max TU32)%N) (HE : (N.of_nat (length els) ≤ id_max TU32)%N).
  Context (HPN : Forall text_fits nls) (HPE : Forall text_fits els) (Hc : in_usize (a_num_edges A)).
  Context (Hnz : a_num_nodes A ≠ 0) (Hmax : (N.of_nat (a_num_nodes A) ≤ id_max TU32)%N).
  Context (Hre : ca_reorder a = true ∨ ∀ n m, a_has_node A n → (m < n)%N → a_has_node A m).
  Notation dir := (ca_directed a).
  Notation out := (default "graph.static"%string (ca_out a)).

  Lemma pipe_view C : ∃ C' g', text_write TU32 t_string t_string V pn pe sep C = Ok C' ∧ (∀ p, p ≠ pn → p ≠ pe → C' !! p = C !! p) ∧
    text_read dir TU32 TU32 t_string t_string (Reader (Some pn) pe true (ca_flexible a)) sep C' gm_new = Ok (g', true) ∧
    ∀ ord no eo F, hash_order g' ord → counter_order (node_label_ids g' ord) no → counter_order (edge_label_ids dir g' ord) eo →
      ∃ F' sg f B, csv_to_static_text a ord no eo C' F = Ok F' ∧ (∀ p, p ≠ out → F' !! p = F !! p) ∧
        import (c_sgraph TU32 TU32 c_text c_text) out F' = Some sg ∧
        renames f A B ∧ (if ca_reorder a then onto_prefix f A else ∀ x, f x = x) ∧
        represents (sg_view TU32 TU32 dir sg) B ∧ answers_missing (sg_view TU32 TU32 dir sg) B ∧ v_edge_count (sg_view TU32 TU32 dir sg) = a_num_edges A.
  Proof using All.
    assert (∀ l : list string, Forall (λ l, l ≠ ""%string) l → Forall (readable t_string) l) as Hrd.
    { intros l Hl. eapply Forall_impl; [exact Hl|]. intros x Hx. by split. }
    assert (∀ l : list string, (N.of_nat (length l) ≤ id_max TU32)%N → labels_fit TU32 l) as Hfit.
    { intros l Hl. unfold labels_fit. change (id_card TU32) with 4294967296%N. change (id_max TU32) with 4294967295%N in Hl. lia. }
    destruct (rp_edge_indices _ _ HV) as (ix & Hix & Hl).
    destruct (csv_roundtrip TU32 TU32 t_string t_string V A nls els pn pe (ca_flexible a) (read_table sep <$> C) HV Hp Hids Hu (Hrd _ Hne1) (Hrd _ Hne2) (Hfit _ HN) (Hfit _ HE))
      as (C0 & g' & Hw & _ & Hr & _).
    pose proof (text_write_csv TU32 t_string t_string sep V pn pe C Hlf) as Ht. rewrite Hw in Ht.
    destruct (text_write TU32 t_string t_string V pn pe sep C) as [C'| |] eqn:HC; [|done..]. cbn in Ht. injection Ht as Ht.
    exists C', g'. split; [done|]. split; [intros p; by eapply text_write_other|].
    assert (text_read dir TU32 TU32 t_string t_string (Reader (Some pn) pe true (ca_flexible a)) sep C' gm_new = Ok (g', true)) as Hread.
    { unfold text_read. rewrite Hdir. etransitivity; [|exact Hr]. f_equal. exact Ht. }
    split; [done|]. rewrite (write_ok TU32 t_string t_string V A ix pn pe (read_table sep <$> C) HV Hix) in Hw. injection Hw as Hw.
    set (ns := (λ n, (n, nlab A n)) <$> v_node_indices V). set (es := (λ e, (e.1, e.2, elab A e)) <$> ix).
    assert (csv_node_iter TU32 t_string (Reader (ca_nodes a) (ca_edges a) (ca_headers a) (ca_flexible a)) (read_table sep <$> C') = Some ns) as Hns.
    { rewrite Hpn, Hpe, Hh, Ht, <-Hw. unfold csv_node_iter. cbn [rd_nodes rd_headers rd_flexible]. rewrite lookup_insert_ne, lookup_insert by done. cbn [mbind option_bind].
      by rewrite (written_nodes TU32 t_string V A HV Hids nls els Hu (Hrd _ Hne1)). }
    assert (csv_edge_iter TU32 t_string (Reader (ca_nodes a) (ca_edges a) (ca_headers a) (ca_flexible a)) (read_table sep <$> C') = Some es) as Hes.
    { rewrite Hpn, Hpe, Hh, Ht, <-Hw. unfold csv_edge_iter. cbn [rd_edges rd_headers rd_flexible]. rewrite lookup_insert. cbn [mbind option_bind].
      by rewrite (written_edges TU32 t_string V A HV Hids nls els Hu (Hrd _ Hne2)). }
    assert (∃ n, a_has_node A n) as [n Hn].
    { destruct (map_choose (ag_nodes A)) as (n & l & Hl'); [intros H0; apply Hnz; unfold a_num_nodes; by rewrite H0, map_size_empty|]. by exists n, l. }
    assert (length ix = a_num_edges A) as Hlen.
    { destruct Hl as [Hnd Hl]. unfold a_num_edges. rewrite <-(size_dom (D := gset (N * N)) (ag_edges A)), <-(size_list_to_set (C := gset (N * N)) ix Hnd). f_equal. apply leibniz_equiv. intros e.
      rewrite elem_of_list_to_set, Hl, elem_of_dom. done. }
    destruct (cs_main a (read_table sep <$> C') ns es nls els Hns Hes) as (A' & Hb & Hall); [| | |exact HN|exact HE|exact HPN|exact HPE| | |].
    - intros s Hs. rewrite Hs in Hsep. by exists sep.
    - intros m l Hin. apply elem_of_list_fmap in Hin as (m' & [= -> Hl'] & Hm). symmetry in Hl'. by apply (nlab_uses V A HV nls els m').
    - intros e l Hin. apply elem_of_list_fmap in Hin as (e' & [= -> Hl'] & Hm). symmetry in Hl'. by apply (elab_uses V A HV nls els ix e').
    - unfold es. by rewrite fmap_length, Hlen.
    - left. intros H0. apply fmap_nil_inv in H0. apply (rp_node_indices _ _ HV) in Hn. rewrite H0 in Hn. by apply elem_of_nil in Hn.
    - rewrite Hdir in Hb. destruct Hall as (g2 & Hg2 & Hall).
      + by rewrite (copy_size V A A' ix HV Hix Hb).
      + destruct Hre as [?|Hc']; [by left|right]. intros x y Hx Hy. apply (copy_has_node V A A' ix HV Hix Hb). apply (copy_has_node V A A' ix HV Hix Hb) in Hx. by eapply Hc'.
      + rewrite Hpn, Hpe, Hh in Hg2. unfold text_read in Hread. rewrite Hread in Hg2. injection Hg2 as <-.
        intros ord no eo F Ho Hno Heo. destruct (Hall ord no eo F Ho Hno Heo) as (F' & sg & f & B & H1 & H2 & H3 & H4 & H5 & H6 & H7 & H8).
        exists F', sg, f, B. split; [unfold csv_to_static_text; by rewrite Hsep|]. split; [done|]. split; [done|]. split; [by apply (copy_renames V A A' ix HV Hix Hb)|].
        split; [destruct (ca_reorder a); [by apply (copy_prefix V A A' ix HV Hix Hb)|done]|]. split; [done|]. split; [done|]. rewrite H8. unfold es. by rewrite fmap_length.
  Qed.
End pipe.

(** static_to_csv, then csv_to_static on its files. *)
Section both.
  Context (h : list (gop string string)) (nls els : list string) (rs : list (gout string string)) (s : sstate string string) (Hn : NoDup nls) (He : NoDup els).
  Context (Hs : spec_run h (s_init false nls els) = SOk (rs, s)).
  Context (HN : (N.of_nat (length (sp_nls s)) ≤ id_max TU32)%N) (HE : (N.of_nat (length (sp_els s)) ≤ id_max TU32)%N) (Hid : Forall (in_type TU32) (h ≫= inserted)).
  Context (HPN : Forall text_fits (sp_nls s)) (HPE : Forall text_fits (sp_els s)) (Hne1 : Forall (λ l, l ≠ ""%string) (sp_nls s)) (Hne2 : Forall (λ l, l ≠ ""%string) (sp_els s)).
  Context (Hnz : a_num_nodes (sp_g s) ≠ 0) (Hmax : (N.of_nat (a_num_nodes (sp_g s)) ≤ id_max TU32)%N) (Hc : in_usize (sp_count s)) (Hc' : in_usize (a_num_edges (sp_g s))).

  Lemma both_ways : ∃ g : graphmap string string, gm_run false TU32 h (gm_with_label_map nls els) = Ok (rs, g) ∧
    ∀ in_file out_dir ord ord' F C a, hash_order g ord → hash_order g ord' →
      let nodes := path_join out_dir "nodes.csv" in let edges := path_join out_dir "edges.csv" in let out := default "graph.static"%string (ca_out a) in
      ca_nodes a = Some nodes → ca_edges a = edges → ca_headers a = true → ca_directed a = false → ca_separator a = None ∨ ca_separator a = Some "comma"%string →
      ca_reorder a = true ∨ (∀ n m, a_has_node (sp_g s) n → (m < n)%N → a_has_node (sp_g s) m) →
      ∃ C' g', static_to_csv_text in_file out_dir ord (export in_file (enc (c_graphmap TU32 TU32 c_text c_text ord') g) F) C = Ok C' ∧
        (∀ p, p ≠ nodes → p ≠ edges → C' !! p = C !! p) ∧
        text_read false TU32 TU32 t_string t_string (Reader (Some nodes) edges true (ca_flexible a)) "," C' gm_new = Ok (g', true) ∧
        ∀ ord1 no eo F1, hash_order g' ord1 → counter_order (node_label_ids g' ord1) no → counter_order (edge_label_ids false g' ord1) eo →
          ∃ F' sg f B, csv_to_static_text a ord1 no eo C' F1 = Ok F' ∧ (∀ p, p ≠ out → F' !! p = F1 !! p) ∧
            import (c_sgraph TU32 TU32 c_text c_text) out F' = Some sg ∧
            renames f (sp_g s) B ∧ (if ca_reorder a then onto_prefix f (sp_g s) else ∀ x, f x = x) ∧
            represents (sg_view TU32 TU32 false sg) B ∧ answers_missing (sg_view TU32 TU32 false sg) B ∧ v_edge_count (sg_view TU32 TU32 false sg) = a_num_edges (sp_g s).
  Proof using All.
    assert (∀ l : list string, (N.of_nat (length l) ≤ id_max TU32)%N → labels_fit TU32 l) as Hfit.
    { intros l Hl. unfold labels_fit. change (id_card TU32) with 4294967296%N. change (id_max TU32) with 4294967295%N in Hl. lia. }
    assert (∀ n : nat, (N.of_nat n ≤ id_max TU32)%N → in_usize n) as Hus.
    { intros n H. unfold in_usize. change (id_max TU32) with 4294967295%N in H. change (id_card TUsize) with 18446744073709551616%N. lia. }
    assert (vec_of text_fits (sp_nls s)) as Hvn by (split; [by apply Hus|done]). assert (vec_of text_fits (sp_els s)) as Hve by (split; [by apply Hus|done]).
    destruct (history_export false TU32 TU32 c_text c_text text_fits text_fits f_text f_text nls els h rs s) as (g & Hg & Himp); try done; [by apply Hfit|by apply Hfit|by apply Hus|].
    exists g. split; [done|]. intros in_file out_dir ord ord' F C a Ho Ho' nodes edges out Ha1 Ha2 Ha3 Ha4 Ha5 Ha6.
    destruct (label_sim false TU32 h (gm_with_label_map nls els) (s_init false nls els) rs s) as (g1 & Hg1 & H); [by apply rel_init|done|by apply Hfit|by apply Hfit|].
    rewrite Hg in Hg1. injection Hg1 as <-. destruct (lrel_view false g s ord H Ho) as (HA & _).
    assert (ag_dir (sp_g s) = false) as Hd by (exact (ar_dir _ _ _ _ _ (r_abs _ _ _ _ _ H))).
    destruct (pipe_view a (gm_view false ord g) (sp_g s) (sp_nls s) (sp_els s) nodes edges ","%char Ha1 Ha2 Ha3 (eq_trans Ha4 (eq_sym Hd)) (csv_paths out_dir)
      ltac:(by destruct Ha5 as [-> | ->]) ltac:(done) HA ltac:(by apply (history_ids h nls els rs s Hn He Hid g Hg H)) ltac:(by eapply lrel_uses) Hne1 Hne2 HN HE HPN HPE Hc' Hnz Hmax Ha6 C)
      as (C' & g' & H1 & H2 & H3 & H4).
    rewrite Ha4 in H3, H4. exists C', g'. split; [|by split_and!]. unfold static_to_csv_text. rewrite Himp by done. exact H1.
  Qed.
End both.

(** Text files in general (cs_main). *)
Lemma pipe_files (a : cs_args) (sep : ascii) (C : textfs) ns es nls els :
  let R := Reader (ca_nodes a) (ca_edges a) (ca_headers a) (ca_flexible a) in let dir := ca_directed a in let out := default "graph.static"%string (ca_out a) in
  (match ca_separator a with Some s => csv_separator s | None => Ok ","%char end) = Ok sep →
  text_node_iter TU32 t_string R sep C = Some ns → text_edge_iter TU32 t_string R sep C = Some es →
  (∀ n l, (n, Some l) ∈ ns → l ∈ nls) → (∀ x y l, (x, y, Some l) ∈ es → l ∈ els) →
  (N.of_nat (length nls) ≤ id_max TU32)%N → (N.of_nat (length els) ≤ id_max TU32)%N →
  Forall text_fits nls → Forall text_fits els → in_usize (length es) → ns ≠ [] ∨ es ≠ [] →
  ∃ A, built_from dir ns es A ∧ ((N.of_nat (a_num_nodes A) ≤ id_max TU32)%N →
    (ca_reorder a = true ∨ ∀ n m, a_has_node A n → (m < n)%N → a_has_node A m) →
    ∃ g, text_read dir TU32 TU32 t_string t_string R sep C gm_new = Ok (g, true) ∧
      ∀ ord no eo F, hash_order g ord → counter_order (node_label_ids g ord) no → counter_order (edge_label_ids dir g ord) eo →
        ∃ F' sg f B, csv_to_static_text a ord no eo C F = Ok F' ∧ (∀ p, p ≠ out → F' !! p = F !! p) ∧
          import (c_sgraph TU32 TU32 c_text c_text) out F' = Some sg ∧
          renames f A B ∧ (if ca_reorder a then onto_prefix f A else ∀ x, f x = x) ∧
          represents (sg_view TU32 TU32 dir sg) B ∧ answers_missing (sg_view TU32 TU32 dir sg) B ∧
          v_edge_count (sg_view TU32 TU32 dir sg) = length es).
Proof.
  intros R dir out Hsep Hns Hes Hn He HN HE HPN HPE Hus Hne. unfold csv_to_static_text. rewrite Hsep. cbn [rbind].
  refine (cs_main a (read_table sep <$> C) ns es nls els Hns Hes _ Hn (λ '(x, y), He x y) HN HE HPN HPE Hus Hne).
  intros s Hs. rewrite Hs in Hsep. by exists sep.
Qed.
