(** Proofs about vary_labels (Examples.v). *)
From stdpp Require Import gmap strings.
From Verif Require Import Base BaseFacts Api Bytes Spec SpecFacts SpecOps SpecStatic SpecSGraph Map MapFacts GraphMap GraphMapFacts   GraphMapRefine GraphMapQueries GraphMapSim GraphMapThms GraphMapMore ViewFacts Static StaticFacts StaticProps IntoStatic StaticMore IntoStaticProps   SpecReorder Reorder ReorderFacts ReorderProps ReorderThms ReorderMain Serde SpecSerde SerdeFacts Mmap SpecMmap MmapFacts MmapProps MmapThms MmapMore   Gen GraphOpsFacts Csv SpecCsv CsvFacts CsvProps CsvRead SpecCsvRows CsvRows Pipeline Ldbc SpecExamples Examples ExamplesFacts.

Lemma vl_add_items_eq nlm : vl_add_items nlm = Ok (added_labels nlm).
Proof.
  unfold vl_add_items, added_labels. generalize [11; 12; 13; 14]%N. intros l. revert nlm. induction l as [|i l IH]; intros nlm; [done|].
  cbn [rfold foldl]. destruct (register_snd nlm i) as (j & -> & _). cbn [rmap rbind snd]. apply IH.
Qed.
Lemma added_prefix nlm : nlm `prefix_of` added_labels nlm.
Proof.
  unfold added_labels. generalize [11; 12; 13; 14]%N. intros l. revert nlm. induction l as [|i l IH]; intros nlm; [done|].
  cbn [foldl]. etrans; [apply (register_prefix (Some i) nlm)|apply IH].
Qed.
Lemma added_NoDup nlm : NoDup nlm → NoDup (added_labels nlm).
Proof.
  unfold added_labels. generalize [11; 12; 13; 14]%N. intros l. revert nlm. induction l as [|i l IH]; intros nlm Hn; [done|].
  cbn [foldl]. by apply IH, register_NoDup.
Qed.
Lemma register_length {L} `{EqDecision L} (i : L) ls : length (register (Some i) ls) ≤ S (length ls).
Proof. unfold register. destruct (decide _); [lia|]. rewrite app_length. simpl. lia. Qed.
Lemma added_length nlm : length (added_labels nlm) ≤ length nlm + 4.
Proof.
  unfold added_labels. cbn [foldl].
  pose proof (register_length 11%N nlm). pose proof (register_length 12%N (register (Some 11%N) nlm)).
  pose proof (register_length 13%N (register (Some 12%N) (register (Some 11%N) nlm))).
  pose proof (register_length 14%N (register (Some 13%N) (register (Some 12%N) (register (Some 11%N) nlm)))). lia.
Qed.
Lemma register_in_type i ls : in_type TU32 i → Forall (in_type TU32) ls → Forall (in_type TU32) (register (Some i) ls).
Proof. intros Hi Hl. unfold register. destruct (decide _); [done|]. apply Forall_app. split; [done|by constructor]. Qed.
Lemma added_in_type ls : Forall (in_type TU32) ls → Forall (in_type TU32) (added_labels ls).
Proof. intros H. unfold added_labels. cbn [foldl]. repeat (apply register_in_type; [by vm_compute|]). done. Qed.
(** The labels 11 to 14 get the ids 11 to 14 if there are eleven other labels. *)
Lemma added_eleven nlm r : length nlm = 11 → Forall (λ i, i ∉ nlm) [11; 12; 13; 14]%N → 10 < r → r < 15 → added_labels nlm !! r = Some (N.of_nat r).
Proof.
  intros Hlen Hno H1 H2. apply Forall_cons in Hno as [N1 Hno]. apply Forall_cons in Hno as [N2 Hno]. apply Forall_cons in Hno as [N3 Hno]. apply Forall_cons in Hno as [N4 _].
  assert (added_labels nlm = nlm ++ [11; 12; 13; 14]%N) as ->.
  { assert (∀ l i, i ∉ nlm → i ∉ l → register (Some i) (nlm ++ l) = nlm ++ l ++ [i]) as Hreg.
    { intros l i Hi1 Hi2. unfold register. rewrite decide_False; [by rewrite <-app_assoc|]. rewrite elem_of_app. by intros [?|?]. }
    unfold added_labels. cbn [foldl]. rewrite <-(app_nil_r nlm) at 1.
    repeat (rewrite Hreg; [cbn [app]|done|by apply (bool_decide_unpack _); vm_compute]). done. }
  rewrite lookup_app_r, Hlen by lia. assert (r = 11 ∨ r = 12 ∨ r = 13 ∨ r = 14) as [->|[->|[->| ->]]] by lia; done.
Qed.

Lemma vl_relabel_lookup R ls : ∀ k n, vl_relabel R k ls !! n =
  (λ l, if 10 <? rng_int R (k + n) mod 15 then N.of_nat (rng_int R (k + n) mod 15) else l) <$> ls !! n.
Proof.
  induction ls as [|l ls IH]; intros k n; cbn [vl_relabel gen_range]; [done|]. destruct n as [|n]; cbn [lookup list_lookup].
  - cbn [fmap option_fmap option_map]. by rewrite Nat.add_0_r.
  - rewrite IH. by replace (S k + n) with (k + S n) by lia.
Qed.
Lemma vl_relabel_length R ls : ∀ k, length (vl_relabel R k ls) = length ls.
Proof. induction ls as [|l ls IH]; intros k; cbn [vl_relabel gen_range length]; [done|]. by rewrite IH. Qed.

Section vary.
  Context (R : rng) (g : sgraph N N) (A : agraph N N) (H : arrays_of TU32 g A) (Hd : ag_dir A = false).
  Context (ls : list N) (Hls : sg_labels g = Some ls) (Hm : meaningful_labels (sg_nlm g) ls).
  Context (Ht : typed_sgraph TU32 TU32 (in_type TU32) (in_type TU32) g).
  Local Notation nlm' := (added_labels (sg_nlm g)).
  Local Notation draw n := (rng_int R (N.to_nat n) mod 15).
  Local Notation B := (a_relabel (λ n l, if 10 <? draw n then nlm' !! (draw n) else l) A).
  Definition varied : sgraph N N :=
    SGraph (sg_num_nodes g) (sg_num_edges g) (ev_remove_labels (sg_evec g)) (ev_remove_labels <$> sg_in g) (Some (vl_relabel R 0 ls)) nlm' [].
  Lemma vl_graph_eq : vl_graph R g = Ok varied.
  Proof using Hls. unfold vl_graph. cbn [sg_remove_edge_labels sg_nlm sg_labels]. rewrite vl_add_items_eq, Hls. cbn [rbind unwrap]. unfold varied. f_equal. all: by destruct (sg_in g). Qed.
  Lemma varied_arrays : arrays_of TU32 varied B.
  Proof using H Hd Hls Hm.
    assert (∀ s t, a_has_edge B s t ↔ a_has_edge A s t) as He.
    { intros s t. unfold a_has_edge, a_edge_at. simpl. rewrite lookup_fmap. by rewrite fmap_is_Some. }
    assert (∀ n, a_has_node B n ↔ a_has_node A n) as Hn.
    { intros n. unfold a_has_node. simpl. rewrite map_lookup_imap. destruct (ag_nodes A !! n); [split; by eauto|split; by intros [??]]. }
    constructor; cbn [varied sg_evec sg_num_nodes sg_labels sg_nlm sg_elm sg_in]; try apply H.
    - intros s t Hs. simpl in Hs. rewrite lookup_fmap, fmap_is_Some in Hs. apply (so_wf _ _ _ H) in Hs as (H1 & H2 & H3).
      split; [done|]. by rewrite !Hn.
    - intros n. rewrite Hn. apply (so_nodes _ _ _ H).
    - intros s t. rewrite He. apply (so_edges _ _ _ H).
    - intros n Hnode. apply Hn in Hnode. pose proof (so_node_labels _ _ _ H n Hnode) as Hl. rewrite Hls in Hl. destruct Hl as (i & Hi & Hl).
      rewrite vl_relabel_lookup, Hi. cbn [fmap option_fmap option_map plus]. eexists. split; [done|].
      cbn [a_relabel ag_nodes]. rewrite map_lookup_imap. destruct Hnode as [l Hnode]. rewrite Hnode in *. cbn [mbind option_bind label_of] in *.
      destruct (Nat.ltb_spec 10 (draw n)) as [Hr|Hr].
      + pose proof (Nat.mod_upper_bound (rng_int R (N.to_nat n)) 15 ltac:(lia)) as Hb. unfold static_label. rewrite decide_False by (change (id_max TU32) with 4294967295%N; lia).
        cbn [denotes label_of mjoin option_join]. by rewrite Nat2N.id.
      + cbn [label_of mjoin option_join] in *. rewrite Hl. unfold static_label. destruct (decide _) as [Hmax|Hmax]; [done|]. cbn [denotes].
        destruct (Hm i) as [?|Hlt]; [by eapply elem_of_list_lookup_2|done|]. destruct (added_prefix (sg_nlm g)) as [k ->]. by rewrite lookup_app_l.
    - intros s t k _. simpl. unfold a_edge_at. simpl. rewrite lookup_fmap. by destruct (ag_edges A !! _).
    - cbn [a_relabel ag_dir]. by rewrite Hd.
  Qed.
  Lemma varied_typed : in_usize (length (sg_nlm g) + 4) → typed_sgraph TU32 TU32 (in_type TU32) (in_type TU32) varied.
  Proof using Hls Ht.
    intros Hus. destruct (remove_edge_typed g Ht) as [H1 H2 H3 H4 [[H5 H6] H7] H8]. cbn in H1, H2, H3, H4, H5, H6, H7, H8. rewrite Hls in H4.
    split; cbn [varied sg_num_nodes sg_num_edges sg_evec sg_in sg_labels sg_nlm sg_elm]; try done.
    - cbn [opt_all] in *. destruct H4 as [Hl1 Hl2]. split; [by rewrite vl_relabel_length|]. apply Forall_lookup. intros n x Hx. rewrite vl_relabel_lookup in Hx.
      apply fmap_Some in Hx as (l & Hl & ->). pose proof (Nat.mod_upper_bound (rng_int R (0 + n)) 15 ltac:(lia)) as Hb.
      destruct (10 <? _); [|by eapply (proj1 (Forall_lookup _ _) Hl2)]. unfold in_type. change (id_card TU32) with 4294967296%N. lia.
    - split; [split|by apply added_NoDup]; [|by apply added_in_type]. eapply in_usize_le; [apply added_length|done].
  Qed.
  Lemma vary_thm in_file out_file F : in_usize (length (sg_nlm g) + 4) → (csr_nodes (ev_offsets (sg_evec g)) < id_card TU32)%N →
    import c_u32_static in_file F = Some g →
    ∃ F' g', vary_labels R in_file out_file F = Ok F' ∧ (∀ p, p ≠ out_file → F' !! p = F !! p) ∧ import c_u32_static out_file F' = Some g' ∧
      represents (sg_view TU32 TU32 false g') B ∧ answers_missing (sg_view TU32 TU32 false g') B ∧ v_edge_count (sg_view TU32 TU32 false g') = sg_num_edges g.
  Proof using H Hd Hls Hm Ht.
    intros Hus Hc HF. eexists _, varied. split; [unfold vary_labels; by rewrite HF; cbn [unwrap rbind]; rewrite vl_graph_eq|].
    split; [intros p Hp; by apply export_other|]. split; [apply (import_export _ _ _ _ _ (proj1 f_u32_static)); by apply varied_typed|].
    pose proof varied_arrays as HB. assert (ag_dir B = false) as HdB by done. split; [|split; [|done]].
    - pose proof (static_represents TU32 TU32 varied B HB Hc) as Hr. by rewrite HdB in Hr.
    - pose proof (static_missing TU32 TU32 varied B HB) as Hr. rewrite HdB in Hr. by apply Hr.
  Qed.
End vary.

Lemma a_relabel_ext {NL EL} (f f' : N → option NL → option NL) (A : agraph NL EL) :
  (∀ n l, ag_nodes A !! n = Some l → f n l = f' n l) → a_relabel f A = a_relabel f' A.
Proof.
  intros Hf. unfold a_relabel. f_equal. apply map_eq. intros n. rewrite !map_lookup_imap.
  destruct (ag_nodes A !! n) as [l|] eqn:E; [|done]. cbn [mbind option_bind]. by rewrite (Hf n l E).
Qed.
Lemma eleven_relabel (R : rng) (nlm : list N) (A : agraph N N) : length nlm = 11 → Forall (λ i, i ∉ nlm) [11; 12; 13; 14]%N →
  a_relabel (λ n l, if 10 <? rng_int R (N.to_nat n) mod 15 then added_labels nlm !! (rng_int R (N.to_nat n) mod 15) else l) A =
  a_relabel (λ n l, new_label (rng_int R (N.to_nat n) mod 15) l) A.
Proof.
  intros H1 H2. apply a_relabel_ext. intros n l _. unfold new_label. destruct (Nat.ltb_spec 10 (rng_int R (N.to_nat n) mod 15)) as [Hr|Hr]; [|done].
  apply added_eleven; try done. apply Nat.mod_upper_bound. lia.
Qed.
Lemma vary_no_labels R (g : sgraph N N) in_file out_file F : sg_labels g = None → import c_u32_static in_file F = Some g →
  vary_labels R in_file out_file F = Panic.
Proof.
  intros Hn HF. unfold vary_labels. rewrite HF. cbn [unwrap rbind]. unfold vl_graph. cbn [sg_remove_edge_labels sg_nlm sg_labels].
  rewrite vl_add_items_eq. cbn [rbind]. by rewrite Hn.
Qed.
