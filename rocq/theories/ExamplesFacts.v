(** csv_to_static, static_to_csv, remove_labels, static_to_mmap, stats. *)
From Coq Require Import Ascii.
From stdpp Require Import gmap strings.
From Verif Require Import Base BaseFacts Api Bytes Spec SpecFacts SpecOps SpecStatic SpecSGraph Map MapFacts GraphMap GraphMapFacts
  GraphMapRefine GraphMapQueries GraphMapSim GraphMapThms GraphMapMore ViewFacts Static StaticFacts StaticProps IntoStatic StaticMore IntoStaticProps
  SpecReorder Reorder ReorderFacts ReorderProps ReorderThms ReorderMain Serde SpecSerde SerdeFacts Mmap SpecMmap MmapFacts MmapProps MmapThms MmapMore
  Gen GraphOpsFacts Csv SpecCsv CsvFacts CsvProps CsvRead SpecCsvRows CsvRows Pipeline Ldbc SpecExamples Examples Paths PathProps.

(** ** Strings *)
Lemma ascii_length s : length (list_ascii_of_string s) = String.length s.
Proof. induction s as [|c s IH]; cbn; [done|]. by rewrite IH. Qed.
Lemma f_text : faithful c_text text_fits.
Proof.
  apply (f_iso c_string is_string).
  - exact f_string.
  - intros s Hs. split; [exact Hs|].
    rewrite <-(string_of_list_ascii_of_string s) at 2. f_equal. rewrite <-list_fmap_compose.
    rewrite <-(list_fmap_id (list_ascii_of_string s)) at 2. apply list_fmap_ext. intros i c _. apply ascii_N_embedding.
Qed.

(** ** Rows carry ids of the id type *)
Lemma readings_forall {B} (means : row → B → Prop) (P : B → Prop) rows items :
  readings means rows items → (∀ r x, means r x → P x) → Forall P items.
Proof. intros H HP. induction H; [constructor|constructor; [by eapply HP|done]|done]. Qed.
Section ids.
  Context {X : Type} (it : idty) (tl : text X).
  Lemma node_iter_typed R F ns : csv_node_iter it tl R F = Some ns → Forall (λ p, in_type it p.1) ns.
  Proof.
    intros Hns. destruct (rd_nodes R) as [p|] eqn:Hp; [|unfold csv_node_iter in Hns; rewrite Hp in Hns; by injection Hns as <-].
    destruct (F !! p) as [t|] eqn:HF; [|unfold csv_node_iter in Hns; rewrite Hp, HF in Hns; done].
    destruct (rd_headers R) eqn:Hh.
    - destruct t as [|h rows].
      + unfold csv_node_iter in Hns. rewrite Hp, HF, Hh in Hns. by injection Hns as <-.
      + destruct (node_iter_readings it tl R p F h rows Hp Hh HF) as (ns' & Hns' & Hr). rewrite Hns in Hns'. injection Hns' as <-.
        apply (readings_forall _ _ _ _ Hr). intros r x (_ & _ & _ & (f & _ & _ & Hid) & _). done.
    - destruct (node_iter_bare it tl R p F t Hp Hh HF) as (ns' & Hns' & Hr). rewrite Hns in Hns'. injection Hns' as <-.
      apply (readings_forall _ _ _ _ Hr). intros r x (_ & (f & _ & _ & Hid) & _). done.
  Qed.
  Lemma edge_iter_typed R F es : csv_edge_iter it tl R F = Some es → Forall (λ e, in_type it e.1.1 ∧ in_type it e.1.2) es.
  Proof.
    intros Hes. destruct (F !! rd_edges R) as [t|] eqn:HF; [|unfold csv_edge_iter in Hes; rewrite HF in Hes; done].
    destruct (rd_headers R) eqn:Hh.
    - destruct t as [|h rows].
      + unfold csv_edge_iter in Hes. rewrite HF, Hh in Hes. by injection Hes as <-.
      + destruct (edge_iter_readings it tl R F h rows Hh HF) as (es' & Hes' & Hr). rewrite Hes in Hes'. injection Hes' as <-.
        apply (readings_forall _ _ _ _ Hr). intros r x (_ & _ & _ & (f & _ & _ & Hid) & (f' & _ & _ & Hid') & _). done.
    - destruct (edge_iter_bare it tl R F t Hh HF) as (es' & Hes' & Hr). rewrite Hes in Hes'. injection Hes' as <-.
      apply (readings_forall _ _ _ _ Hr). intros r x (_ & (f & _ & _ & Hid) & (f' & _ & _ & Hid') & _). done.
  Qed.
End ids.

(** ** csv_to_static *)
Lemma present_spec a : cs_present a "is_directed" = ca_directed a ∧ cs_present a "has_headers" = ca_headers a ∧
  cs_present a "is_flexible" = ca_flexible a ∧ cs_present a "reorder_node_id" = ca_reorder a ∧ cs_present a "reorder_label_id" = false.
Proof. unfold cs_present. by destruct a as [? ? ? ? [] [] [] [] []]. Qed.

Lemma renames_id {NL EL} (A : agraph NL EL) : ag_wf A → renames id A A.
Proof.
  intros HA. split; [done|done|done| |done]. intros y l. split; [intros H; by exists y|intros (x & H & <-); done].
Qed.
Lemma u32_square n : (N.of_nat n ≤ id_max TU32)%N → in_usize (S n * n).
Proof.
  unfold in_usize. rewrite Nat2N.inj_mul, Nat2N.inj_succ. change (id_max TU32) with 4294967295%N. change (id_card TUsize) with 18446744073709551616%N.
  intros H. apply N.le_lt_trans with (4294967296 * 4294967295)%N; [|done]. apply N.mul_le_mono; lia.
Qed.
Section cs.
  Context (a : cs_args) (C : csvfs) (ns : list (N * option string)) (es : list (N * N * option string)) (nls els : list string).
  Notation dir := (ca_directed a).
  Notation RD := (Reader (ca_nodes a) (ca_edges a) (ca_headers a) (ca_flexible a)).
  Notation out := (default "graph.static"%string (ca_out a)).
  Context (Hns : csv_node_iter TU32 t_string RD C = Some ns) (Hes : csv_edge_iter TU32 t_string RD C = Some es).
  Context (Hsep : ∀ s, ca_separator a = Some s → ∃ c, csv_separator s = Ok c).
  Context (Hn : ∀ n l, (n, Some l) ∈ ns → l ∈ nls) (He : ∀ e l, (e, Some l) ∈ es → l ∈ els).
  Context (HN : (N.of_nat (length nls) ≤ id_max TU32)%N) (HE : (N.of_nat (length els) ≤ id_max TU32)%N).
  Context (HPN : Forall text_fits nls) (HPE : Forall text_fits els) (Hce : in_usize (length es)).

  Lemma run_read g : csv_read dir TU32 TU32 t_string t_string RD C gm_new = g →
    read_from_csv dir TU32 TU32 t_string t_string (ca_nodes a) (ca_edges a) (ca_separator a) (ca_headers a) (ca_flexible a) C gm_new = g.
  Proof using Hsep.
    intros Hg. unfold read_from_csv. destruct (ca_separator a) as [s|]; [|done]. destruct (Hsep s eq_refl) as [c Hc]. by rewrite Hc.
  Qed.
  Lemma cs_main : ns ≠ [] ∨ es ≠ [] →
    ∃ A, built_from dir ns es A ∧ ((N.of_nat (a_num_nodes A) ≤ id_max TU32)%N →
      (ca_reorder a = true ∨ ∀ n m, a_has_node A n → (m < n)%N → a_has_node A m) →
      ∃ g, csv_read dir TU32 TU32 t_string t_string RD C gm_new = Ok (g, true) ∧
        ∀ ord no eo F, hash_order g ord → counter_order (node_label_ids g ord) no → counter_order (edge_label_ids dir g ord) eo →
          ∃ F' sg f B, csv_to_static a ord no eo C F = Ok F' ∧ (∀ p, p ≠ out → F' !! p = F !! p) ∧
            import (c_sgraph TU32 TU32 c_text c_text) out F' = Some sg ∧
            renames f A B ∧ (if ca_reorder a then onto_prefix f A else ∀ x, f x = x) ∧
            represents (sg_view TU32 TU32 dir sg) B ∧ answers_missing (sg_view TU32 TU32 dir sg) B ∧
            v_edge_count (sg_view TU32 TU32 dir sg) = length es).
  Proof using All.
    intros Hne. destruct (adds_run dir nls els ns es Hn He) as (rs & s & Hr & Hw & Hb & Hc).
    exists (sp_g s). split; [done|]. intros Hids Hd.
    destruct Hw as (Hwn & Hwe & Hsn & Hse).
    assert (length (sp_nls s) ≤ length nls) as Hln by (by apply subset_length).
    assert (length (sp_els s) ≤ length els) as Hle by (by apply subset_length).
    assert (∃ n, a_has_node (sp_g s) n) as [n Hnode].
    { destruct Hne as [Hne|Hne].
      - destruct ns as [|[n l] ns']; [done|]. exists n. apply (bf_nodes _ _ _ _ Hb). left. exists l. left.
      - destruct es as [|[[x y] l] es']; [done|]. exists x. apply (bf_nodes _ _ _ _ Hb). right. exists x, y, l. split; [left|by left]. }
    assert (∀ x, a_has_node (sp_g s) x → in_type TU32 x) as Htyped.
    { pose proof (proj1 (Forall_forall _ _) (node_iter_typed _ _ _ _ _ Hns)) as H1. pose proof (proj1 (Forall_forall _ _) (edge_iter_typed _ _ _ _ _ Hes)) as H2.
      intros x [[l Hl]|(y & z & l & Hl & [->| ->])]%(bf_nodes _ _ _ _ Hb); [exact (H1 _ Hl)|exact (proj1 (H2 _ Hl))|exact (proj2 (H2 _ Hl))]. }
    assert (vec_of text_fits (sp_nls s)) as Hvn.
    { split; [eapply in_usize_le; [exact Hln|]; unfold in_usize; change (id_max TU32) with 4294967295%N in HN; change (id_card TUsize) with 18446744073709551616%N; lia|].
      apply Forall_forall. intros x Hx. by apply (proj1 (Forall_forall _ _) HPN), Hsn. }
    assert (vec_of text_fits (sp_els s)) as Hve.
    { split; [eapply in_usize_le; [exact Hle|]; unfold in_usize; change (id_max TU32) with 4294967295%N in HE; change (id_card TUsize) with 18446744073709551616%N; lia|].
      apply Forall_forall. intros x Hx. by apply (proj1 (Forall_forall _ _) HPE), Hse. }
    assert (in_usize (sp_count s)) as Hus by (by rewrite Hc).
    pose proof (u32_square _ Hids) as Hsq.
    assert (N.of_nat (length (sp_nls s)) ≤ id_max TU32)%N as HN' by lia.
    assert (N.of_nat (length (sp_els s)) ≤ id_max TU32)%N as HE' by lia.
    destruct (ca_reorder a) eqn:Hre.
    - destruct (renumber dir TU32 TU32 c_text c_text text_fits text_fits f_text f_text [] [] (add_calls ns es) rs s n) as (g & Hg & Hall);
        [constructor|constructor|done..|].
      exists g. assert (csv_read dir TU32 TU32 t_string t_string RD C gm_new = Ok (g, true)) as Hcr.
      { rewrite (read_calls dir TU32 TU32 t_string t_string RD C gm_new ns es Hns Hes). change gm_new with (gm_with_label_map (NL:=string) (EL:=string) [] []). by rewrite Hg. }
      split; [done|]. intros ord no eo F Hord Hno Heo.
      destruct (Hall ord no eo false false Hord Hno Heo) as (R & g' & R' & sg & f & B & HR & Htake & Hsg & Hren & Honto & _ & Hrep & Hmiss & Hcnt & Hio).
      destruct (Hio Hvn Hve Hus Hsq) as [Himp _].
      exists (export out (enc (c_sgraph TU32 TU32 c_text c_text) sg) F), sg, f, B. split.
      { unfold csv_to_static. destruct (present_spec a) as (-> & -> & -> & -> & ->). rewrite (run_read _ Hcr). cbn [rbind negb]. rewrite Hre, HR. cbn [rbind].
        rewrite Htake. cbn [fst unwrap rbind]. by rewrite Hsg. }
      split; [intros p Hp; by apply export_other|]. split; [apply Himp|]. split; [done|]. split; [done|]. split; [done|]. split; [done|]. by rewrite Hcnt.
    - destruct Hd as [|Hd]; [done|].
      destruct (label_sim dir TU32 (add_calls ns es) (gm_with_label_map [] []) (s_init dir [] []) rs s) as (g & Hg & H);
        [apply rel_init; constructor|done|unfold labels_fit, id_max in *; lia..|].
      exists g. assert (csv_read dir TU32 TU32 t_string t_string RD C gm_new = Ok (g, true)) as Hcr.
      { rewrite (read_calls dir TU32 TU32 t_string t_string RD C gm_new ns es Hns Hes). change gm_new with (gm_with_label_map (NL:=string) (EL:=string) [] []). by rewrite Hg. }
      split; [done|]. intros ord no eo F Hord Hno Heo.
      destruct (static_stage dir TU32 TU32 c_text c_text text_fits text_fits f_text f_text g s n H Hnode Hd Hids HN' HE') as (sg & Hsg & Hrep & Hmiss & Hcnt & _ & _ & Hio).
      destruct (Hio Hvn Hve Hus Hsq) as [Himp _].
      exists (export out (enc (c_sgraph TU32 TU32 c_text c_text) sg) F), sg, id, (sp_g s). split.
      { unfold csv_to_static. destruct (present_spec a) as (-> & -> & -> & -> & ->). rewrite (run_read _ Hcr). cbn [rbind negb]. rewrite Hre. cbn.
        by rewrite Hsg. }
      split; [intros p Hp; by apply export_other|]. split; [apply Himp|]. split; [apply renames_id; by eapply rp_wf|]. split; [done|]. split; [done|]. split; [done|].
      by rewrite Hcnt.
  Qed.
End cs.

Lemma sep_cases s : (∃ c, csv_separator s = Ok c) ∨ csv_separator s = Panic.
Proof. unfold csv_separator. cbv zeta. match goal with |- context [match ?x with EmptyString => _ | _ => _ end] => destruct x as [|c [|]] end; eauto. Qed.
(** No output without both files, without rows, or with a bad separator. *)
Lemma read_no_file dir R C : csv_node_iter TU32 t_string R C = None ∨ csv_edge_iter TU32 t_string R C = None →
  ∀ x, csv_read dir TU32 TU32 t_string t_string R C gm_new = Ok x → x.2 = false.
Proof.
  intros HR x. unfold csv_read. unfold csv_node_iter, csv_edge_iter in HR. destruct (rd_nodes R) as [p|].
  - destruct (C !! p) as [t|]; [|by intros [= <-]]. destruct HR as [HR|HR]; [done|]. destruct (C !! rd_edges R) as [t'|]; [done|].
    destruct (read_nodes _ _ _ _ _ _); [|done|done]. by intros [= <-].
  - destruct HR as [HR|HR]; [done|]. destruct (C !! rd_edges R) as [t'|]; [done|]. by intros [= <-].
Qed.
Lemma read_from_cases (dir : bool) nodes edges sep headers flexible (C : csvfs) (g : graphmap string string) :
  read_from_csv dir TU32 TU32 t_string t_string nodes edges sep headers flexible C g = Panic ∨
  read_from_csv dir TU32 TU32 t_string t_string nodes edges sep headers flexible C g = csv_read dir TU32 TU32 t_string t_string (Reader nodes edges headers flexible) C g.
Proof. unfold read_from_csv. destruct sep as [s|]; [|by right]. destruct (sep_cases s) as [[c ->]| ->]; [by right|by left]. Qed.
Lemma cs_no_file a ord no eo C F F' : let R := Reader (ca_nodes a) (ca_edges a) (ca_headers a) (ca_flexible a) in
  csv_node_iter TU32 t_string R C = None ∨ csv_edge_iter TU32 t_string R C = None → csv_to_static a ord no eo C F ≠ Ok F'.
Proof.
  intros R HR. unfold csv_to_static. destruct (present_spec a) as (-> & -> & -> & -> & ->).
  edestruct read_from_cases as [->| ->]; [done|]. pose proof (read_no_file (ca_directed a) R C HR) as Hx. fold R.
  destruct (csv_read _ _ _ _ _ _ _ _) as [[g b]| |]; [|done|done]. specialize (Hx _ eq_refl). cbn in Hx. subst b. done.
Qed.
Lemma cs_no_rows a ord no eo C F : let R := Reader (ca_nodes a) (ca_edges a) (ca_headers a) (ca_flexible a) in
  csv_node_iter TU32 t_string R C = Some [] → csv_edge_iter TU32 t_string R C = Some [] → csv_to_static a ord no eo C F = Panic.
Proof.
  intros R Hn He. unfold csv_to_static. destruct (present_spec a) as (-> & -> & -> & -> & ->).
  edestruct read_from_cases as [->| ->]; [done|]. fold R.
  rewrite (read_calls _ _ _ _ _ _ C gm_new [] [] Hn He). cbn [add_calls fmap list_fmap app gm_run rmap snd rbind negb].
  assert (∀ ord, gm_values (NL:=string) (EL:=string) gm_new ord = []) as Hv.
  { intros o. unfold gm_values. induction o as [|k o IH]; [done|]. cbn [omap list_omap gm_new g_nodes]. by rewrite lookup_empty. }
  unfold gm_reorder_id. destruct (ca_reorder a); [|done]. unfold node_order. rewrite Hv. cbn. rewrite Hv. done.
Qed.
Lemma cs_separator a ord no eo C F s : ca_separator a = Some s → (∀ c, csv_separator s ≠ Ok c) → csv_to_static a ord no eo C F = Panic.
Proof.
  intros Hs Hc. unfold csv_to_static, read_from_csv. rewrite Hs. by destruct (sep_cases s) as [[c E]| ->]; [destruct (Hc c)|].
Qed.
(** The option -l changes nothing. *)
Lemma cs_label_option nodes edges out sep headers flexible directed reorder ord no eo C F :
  csv_to_static (CsArgs nodes edges out sep headers flexible directed reorder true) ord no eo C F =
  csv_to_static (CsArgs nodes edges out sep headers flexible directed reorder false) ord no eo C F.
Proof.
  unfold csv_to_static. destruct (present_spec (CsArgs nodes edges out sep headers flexible directed reorder true)) as (-> & -> & -> & -> & ->).
  by destruct (present_spec (CsArgs nodes edges out sep headers flexible directed reorder false)) as (-> & -> & -> & -> & ->).
Qed.

(** ** static_to_csv *)
Lemma lrel_uses {NL EL} (dir : bool) (g : graphmap NL EL) s : rel dir (@lab_rel NL) (@lab_rel EL) g s → uses_labels (sp_g s) (sp_nls s) (sp_els s).
Proof.
  intros H. set (ord := (map_to_list (g_nodes g)).*1). assert (hash_order g ord) as Hit by (by unfold hash_order).
  pose proof (ar_wf _ _ _ _ _ (r_abs _ _ _ _ _ H)) as Hwf. pose proof (ar_dir _ _ _ _ _ (r_abs _ _ _ _ _ H)) as Hdir. split.
  - intros n l Hl. pose proof (ar_node _ _ _ _ _ (r_abs _ _ _ _ _ H) n) as Hn. rewrite Hl in Hn. inversion Hn as [? ? [_ Hlab] Heq1 Heq2|]; clear Hn.
    subst. unfold lab_rel in Hlab. destruct (nm_label _) as [i|]; [|done]. rewrite (r_nls _ _ _ _ _ H) in Hlab. by eapply elem_of_list_lookup_2.
  - intros [x y] l Hl. pose proof (ar_edge _ _ _ _ _ (r_abs _ _ _ _ _ H) x y) as Hn.
    assert (a_edge_at (sp_g s) x y = Some (Some l)) as He.
    { unfold a_edge_at. destruct (Hwf x y) as [-> _]; [by eexists|done]. }
    rewrite He in Hn. inversion Hn as [? ? Hlab Heq1 Heq2|]; clear Hn. unfold lab_rel in Hlab. destruct x0 as [i|]; [|done].
    rewrite (r_els _ _ _ _ _ H) in Hlab. by eapply elem_of_list_lookup_2.
Qed.

Lemma csv_paths out_dir : path_join out_dir "nodes.csv" ≠ path_join out_dir "edges.csv".
Proof. by intros H%join_inj. Qed.
Section to_csv.
  Context (h : list (gop string string)) (nls els : list string) (rs : list (gout string string)) (s : sstate string string) (Hn : NoDup nls) (He : NoDup els).
  Context (Hs : spec_run h (s_init false nls els) = SOk (rs, s)).
  Context (HN : labels_fit TU32 (sp_nls s)) (HE : labels_fit TU32 (sp_els s)) (Hid : Forall (in_type TU32) (h ≫= inserted)).
  Context (HPN : vec_of text_fits (sp_nls s)) (HPE : vec_of text_fits (sp_els s)) (Hus : in_usize (a_num_nodes (sp_g s))) (Hc : in_usize (sp_count s)).

  Lemma history_ids g : gm_run false TU32 h (gm_with_label_map nls els) = Ok (rs, g) → rel false (@lab_rel string) (@lab_rel string) g s →
    ∀ n, a_has_node (sp_g s) n → in_type TU32 n.
  Proof using Hn He Hid.
    intros Hg H n Hnode. set (ord := (map_to_list (g_nodes g)).*1). assert (hash_order g ord) as Ho by (by unfold hash_order).
    destruct (max_seen_lemma false TU32 nls els h rs g ord Hn He Hg Ho) as (o & Ho' & _ & Hmax & Hbelow).
    destruct (lrel_view false g s ord H Ho) as (HA & _ & _ & _ & Hms & _). rewrite Hms in Ho'. injection Ho' as <-.
    apply (rp_has_node _ _ HA) in Hnode. destruct (Hbelow n Hnode) as (m & Hm & Hle). destruct (proj1 (Hmax m) Hm) as [Hin _].
    apply (proj1 (Forall_forall _ _) Hid) in Hin. unfold in_type in *. lia.
  Qed.
  Lemma to_csv : ∃ g : graphmap string string, gm_run false TU32 h (gm_with_label_map nls els) = Ok (rs, g) ∧
    ∀ in_file out_dir ord ord' F C flexible, hash_order g ord → hash_order g ord' →
      Forall (λ l, l ≠ ""%string) (sp_nls s) → Forall (λ l, l ≠ ""%string) (sp_els s) →
      ∃ C' g', static_to_csv in_file out_dir ord (export in_file (enc (c_graphmap TU32 TU32 c_text c_text ord') g) F) C = Ok C' ∧
        (∀ p, p ≠ path_join out_dir "nodes.csv" → p ≠ path_join out_dir "edges.csv" → C' !! p = C !! p) ∧
        csv_read false TU32 TU32 t_string t_string (Reader (Some (path_join out_dir "nodes.csv")) (path_join out_dir "edges.csv") true flexible) C' gm_new = Ok (g', true) ∧
        ∀ o, hash_order g' o → shows (gm_view false o g') (sp_g s).
  Proof using All.
    destruct (history_export false TU32 TU32 c_text c_text text_fits text_fits f_text f_text nls els h rs s) as (g & Hg & Himp); try done.
    exists g. split; [done|]. intros in_file out_dir ord ord' F C flexible Ho Ho' Hne1 Hne2.
    destruct (label_sim false TU32 h (gm_with_label_map nls els) (s_init false nls els) rs s) as (g1 & Hg1 & H); [by apply rel_init|done..|].
    rewrite Hg in Hg1. injection Hg1 as <-. destruct (lrel_view false g s ord H Ho) as (HA & _).
    assert (∀ l : list string, Forall (λ l, l ≠ ""%string) l → Forall (readable t_string) l) as Hrd.
    { intros l Hl. eapply Forall_impl; [exact Hl|]. intros x Hx. by split. }
    assert (ag_dir (sp_g s) = false) as Hdir by (exact (ar_dir _ _ _ _ _ (r_abs _ _ _ _ _ H))).
    destruct (csv_roundtrip TU32 TU32 t_string t_string (gm_view false ord g) (sp_g s) (sp_nls s) (sp_els s) (path_join out_dir "nodes.csv") (path_join out_dir "edges.csv") flexible C)
      as (C' & g' & H1 & H2 & H3 & H4); [done|apply csv_paths|by apply (history_ids g Hg H)|by eapply lrel_uses|by apply Hrd|by apply Hrd|done|done|].
    rewrite Hdir in H3, H4. exists C', g'. split; [|done]. unfold static_to_csv. rewrite Himp by done. exact H1.
  Qed.
End to_csv.

(** ** remove_labels and static_to_mmap *)
Notation typed32 := (typed_sgraph TU32 TU32 (in_type TU32) (in_type TU32)).
Lemma f_u32_static : faithful c_u32_static typed32.
Proof. exact (f_sgraph TU32 TU32 (c_id TU32) (c_id TU32) (in_type TU32) (in_type TU32) (f_id TU32) (f_id TU32)). Qed.
Lemma nil_setmap {X} (P : X → Prop) : setmap_of P [].
Proof. split; [split; [by vm_compute|constructor]|constructor]. Qed.
Lemma evec_unlabelled_typed it lt e : typed_evec it lt e → typed_evec it lt (ev_remove_labels e).
Proof. intros [H1 H2 H3]. by split. Qed.
Lemma remove_edge_typed (g : sgraph N N) : typed32 g → typed32 (sg_remove_edge_labels g).
Proof.
  intros [H1 H2 H3 H4 H5 H6]. split; cbn [sg_remove_edge_labels sg_num_nodes sg_num_edges sg_evec sg_in sg_labels sg_nlm sg_elm]; try done.
  - by apply evec_unlabelled_typed.
  - destruct (sg_in g); [by apply evec_unlabelled_typed|done].
  - apply nil_setmap.
Qed.
Lemma remove_typed (g : sgraph N N) : typed32 g → typed32 (sg_remove_labels g).
Proof.
  intros H. apply remove_edge_typed. destruct H as [H1 H2 H3 H4 H5 H6]. split; try done. apply nil_setmap.
Qed.
Lemma ex_remove dir (g : sgraph N N) in_file out_file F : typed32 g → import c_u32_static in_file F = Some g →
  ∃ F' g', ex_remove_labels in_file out_file F = Ok F' ∧ (∀ p, p ≠ out_file → F' !! p = F !! p) ∧ import c_u32_static out_file F' = Some g' ∧
    let V := sg_view TU32 TU32 dir g in let W := sg_view TU32 TU32 dir g' in
    same_structure V W ∧ no_node_labels W ∧ no_edge_labels W.
Proof.
  intros Hg HF. eexists _, (sg_remove_labels g). split; [unfold ex_remove_labels; by rewrite HF|].
  split; [intros p Hp; by apply export_other|]. split; [apply (import_export _ _ _ _ _ (proj1 f_u32_static)); by apply remove_typed|].
  exact (remove_labels_thm TU32 TU32 dir g).
Qed.
Lemma ex_mmap dir (g : sgraph N N) in_file out F : mappable TU32 TU32 (in_type TU32) (in_type TU32) dir g →
  import c_u32_static in_file F = Some g → fresh_prefix F out →
  ∃ F' m, static_to_mmap in_file out F = Ok F' ∧ mm_open TU32 TU32 (c_id TU32) (c_id TU32) F' out = Ok m ∧
    same_answers (sg_view TU32 TU32 dir g) (mm_view TU32 TU32 m).
Proof.
  intros Hg HF Hf. destruct (roundtrip TU32 TU32 (c_id TU32) (c_id TU32) _ _ (f_id TU32) (f_id TU32) dir g out F Hg (fresh_no_stale F out g Hf)) as (m & H1 & H2).
  eexists _, m. split; [unfold static_to_mmap; by rewrite HF|]. done.
Qed.

(** ** stats *)
Lemma fold_max_spec l : ∀ d : nat, (foldl max d l = d ∨ foldl max d l ∈ l) ∧ d ≤ foldl max d l ∧ ∀ x, x ∈ l → x ≤ foldl max d l.
Proof.
  induction l as [|y l IH]; intros d; cbn [foldl]; [split; [by left|]; split; [done|set_solver]|].
  destruct (IH (max d y)) as (H1 & H2 & H3). split; [|split].
  - destruct H1 as [H1|H1]; [|right; by right]. rewrite H1. destruct (Nat.max_spec d y) as [[_ ->]|[_ ->]]; [right; left|by left].
  - lia.
  - intros x [->|Hx]%elem_of_cons; [lia|by apply H3].
Qed.
Lemma rep_out_degree {NL EL} (V : gview NL EL) A n : represents V A → a_has_node A n → v_degree V n = Ok (a_out_degree A n).
Proof.
  intros HV Hn. rewrite (rp_degree _ _ HV) by done. destruct (rp_neighbors _ _ HV n Hn) as (l & -> & Hinc & Hl). cbn [rmap]. f_equal.
  unfold a_out_degree. apply Permutation_length, NoDup_Permutation; [by apply increasing_NoDup|apply NoDup_filter, NoDup_fst_map_to_list|].
  intros t. rewrite Hl, elem_of_list_filter. split; [|by intros [? _]]. intros He. split; [done|].
  destruct (wf_edge_nodes _ _ _ (rp_wf _ _ HV) He) as [_ [l' Hl']]. apply elem_of_list_fmap. exists (t, l'). by rewrite elem_of_map_to_list.
Qed.
Lemma max_degree_spec {NL EL} (V : gview NL EL) A n : represents V A → a_has_node A n →
  ∃ d, max_degree V = Ok d ∧ (∃ x, a_has_node A x ∧ a_out_degree A x = d) ∧ ∀ x, a_has_node A x → a_out_degree A x ≤ d.
Proof.
  intros HV Hn. unfold max_degree. destruct (rp_node_indices _ _ HV) as [_ Hix].
  rewrite (rmapl_ext (v_degree V) (λ x, Ok (a_out_degree A x))) by (intros x Hx; apply rep_out_degree; [done|by apply Hix]).
  rewrite rmapl_ok_fmap. cbn [rbind]. apply Hix in Hn. destruct (v_node_indices V) as [|y l]; [by apply elem_of_nil in Hn|].
  cbn [fmap list_fmap unwrap]. destruct (fold_max_spec (a_out_degree A <$> l) (a_out_degree A y)) as (H1 & H2 & H3). eexists. split; [done|]. split.
  - destruct H1 as [->|(x & Heq & Hx)%elem_of_list_fmap]; [exists y; split; [apply Hix; left|done]|]. exists x. split; [apply Hix; by right|done].
  - intros x Hx%Hix. apply elem_of_cons in Hx as [->|Hx]; [done|]. apply H3. by apply elem_of_list_fmap_1.
Qed.
Lemma max_degree_empty {NL EL} (V : gview NL EL) A : represents V A → a_num_nodes A = 0 → max_degree V = Panic.
Proof.
  intros HV Hn. unfold max_degree. destruct (v_node_indices V) as [|y l] eqn:E; [done|].
  assert (a_has_node A y) as [x Hx] by (apply (rp_node_indices _ _ HV); rewrite E; left).
  unfold a_num_nodes in Hn. apply map_size_empty_inv in Hn. by rewrite Hn, lookup_empty in Hx.
Qed.
