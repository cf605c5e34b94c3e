(** The order of rows and files of CSV reads. *)
From stdpp Require Import gmap strings.
From Verif Require Import Base BaseFacts Api Spec SpecFacts Map GraphMap GraphMapFrame Csv SpecCsv CsvFacts CsvProps SpecHist HistProps SpecCsvOrder LdbcOrder.

Section order.
  Context {NL EL : Type} `{EqDecision NL, EqDecision EL} (dir : bool) (it lt : idty) (tn : text NL) (te : text EL).
  Notation read_all := (read_all dir it lt tn te).
  Notation all_records := (all_records it tn te).

  Lemma read_all_calls Rs F ns es : all_records Rs F = Some (ns, es) →
    ∃ h : list (gop NL EL), h ≡ₚ add_calls ns es ∧ ∀ g, read_all Rs F g = rmap (λ x, Some x.2) (gm_run dir lt h g).
  Proof.
    unfold SpecCsvOrder.all_records. revert ns es. induction Rs as [|R Rs IH]; intros ns es; cbn [mapM].
    - intros [= <- <-]. by exists [].
    - destruct (csv_node_iter it tn R F) as [n|] eqn:En; [|done]. cbn. destruct (mapM (λ R, csv_node_iter it tn R F) Rs) as [nss|] eqn:Ens; [|done]. cbn.
      destruct (csv_edge_iter it te R F) as [e|] eqn:Ee; [|done]. cbn. destruct (mapM (λ R, csv_edge_iter it te R F) Rs) as [ess|] eqn:Ees; [|done]. cbn.
      intros [= <- <-]. destruct (IH (mjoin nss) (mjoin ess)) as (h & Hh & Hr); [done|].
      exists (add_calls n e ++ h). split.
      + rewrite Hh. unfold add_calls. rewrite !fmap_app. solve_Permutation.
      + intros g. cbn [SpecCsvOrder.read_all]. rewrite (read_calls dir it lt tn te R F g n e En Ee), gm_run_app.
        destruct (gm_run dir lt (add_calls n e) g) as [[rs g']| |]; [|done..]. cbn. rewrite Hr. by destruct (gm_run dir lt h g') as [[]| |].
  Qed.
  Lemma consistent_agree ns es (o o' : gop NL EL) : consistent dir ns es → o ∈ add_calls ns es → o' ∈ add_calls ns es → agree dir o o'.
  Proof.
    intros [Hn He]. unfold add_calls. rewrite !elem_of_app, !elem_of_list_fmap.
    intros [([n l] & -> & Ho)|([[x y] l] & -> & Ho)] [([n' l'] & -> & Ho')|([[x' y'] l'] & -> & Ho')]; cbn; try done.
    - intros ->. by eapply Hn.
    - intros Hk. by eapply He.
  Qed.
  Lemma add_calls_add (ns : list (N * option NL)) (es : list (N * N * option EL)) : Forall (λ o, is_add o = true) (add_calls ns es).
  Proof. unfold add_calls. apply Forall_app_2; apply Forall_fmap; by apply Forall_true. Qed.

  Context (nls : list NL) (els : list EL) (Hn : NoDup nls) (He : NoDup els).
  Lemma records_order h0 rs0 g0 Rs Rs' F F' ns es ns' es' g : Forall (λ o, is_raw o = false) h0 →
    gm_run dir lt h0 (gm_with_label_map nls els) = Ok (rs0, g0) →
    all_records Rs F = Some (ns, es) → all_records Rs' F' = Some (ns', es') → ns' ≡ₚ ns → es' ≡ₚ es → consistent dir ns es →
    read_all Rs F g0 = Ok (Some g) → labels_fit lt (g_nlm g) → labels_fit lt (g_elm g) →
    ∃ g', read_all Rs' F' g0 = Ok (Some g') ∧
      ∀ o o', hash_order g o → hash_order g' o' → same_answers (gm_view dir o g) (gm_view dir o' g').
  Proof using Hn He.
    intros H0 Hr0 Ha Ha' Hpn Hpe Hc Hr Hf1 Hf2. destruct (read_all_calls _ _ _ _ Ha) as (h & Hh & Hcall). destruct (read_all_calls _ _ _ _ Ha') as (h' & Hh' & Hcall').
    rewrite Hcall in Hr. destruct (gm_run dir lt h g0) as [[rs g1]| |] eqn:Eg; [|done..]. cbn in Hr. injection Hr as ->.
    assert (Hhh : h ≡ₚ h'). { rewrite Hh, Hh'. unfold add_calls. by rewrite Hpn, Hpe. }
    destruct (adds_reorder dir lt nls els Hn He h0 h h' (rs0 ++ rs) g) as (rs' & g' & Hrun & Hs); [done| | |done| |done|done|].
    - rewrite Hh. apply add_calls_add.
    - intros o o'. rewrite Hh. by apply consistent_agree.
    - rewrite gm_run_app, Hr0. cbn [rbind]. by rewrite Eg.
    - exists g'. split; [|done]. rewrite gm_run_app, Hr0 in Hrun. cbn [rbind] in Hrun. rewrite Hcall'.
      destruct (gm_run dir lt h' g0) as [[rs1 g1]| |]; [|done..]. cbn in Hrun |- *. by injection Hrun as _ ->.
  Qed.
End order.

Lemma deserialize_perm {A} (record : option row → row → option A) (headers flexible : bool) (h t t' : table) : t' ≡ₚ t → length h = (if headers then 1 else 0) →
  headers || flexible = true → omap (M:=list) (λ x : option A, x) (deserialize record headers flexible (h ++ t')) ≡ₚ omap (M:=list) (λ x : option A, x) (deserialize record headers flexible (h ++ t)).
Proof.
  intros Hp Hh Hf. apply (omap_perm (λ x : option A, x)). unfold deserialize. destruct headers.
  - destruct h as [|h [|]]; try done. cbn. rewrite !read_rows_known, Hp. done.
  - destruct h; [|done]. cbn in *. subst flexible. by rewrite !read_rows_flexible, Hp.
Qed.
Section rows.
  Context {NL EL : Type} (it : idty) (tn : text NL) (te : text EL).
  Lemma records_moved R F F' ns es : rd_headers R || rd_flexible R = true → (∀ p, rd_nodes R = Some p ∨ rd_edges R = p → rows_moved (rd_headers R) F F' p) →
    all_records it tn te [R] F = Some (ns, es) → ∃ ns' es', all_records it tn te [R] F' = Some (ns', es') ∧ ns' ≡ₚ ns ∧ es' ≡ₚ es.
  Proof.
    intros Hf Hm. unfold all_records. cbn [mapM].
    assert (Hn : ∀ n, csv_node_iter it tn R F = Some n → ∃ n', csv_node_iter it tn R F' = Some n' ∧ n' ≡ₚ n).
    { intros n. unfold csv_node_iter. destruct (rd_nodes R) as [p|]; [|intros [= <-]; by exists []].
      destruct (Hm p) as [->|(h & t & t' & -> & -> & Hp & Hh)]; [by left|intros ->; by exists n|]. cbn. intros [= <-].
      eexists. split; [done|]. by apply deserialize_perm. }
    assert (He : ∀ n, csv_edge_iter it te R F = Some n → ∃ n', csv_edge_iter it te R F' = Some n' ∧ n' ≡ₚ n).
    { intros n. unfold csv_edge_iter. destruct (Hm (rd_edges R)) as [->|(h & t & t' & -> & -> & Hp & Hh)]; [by right|intros ->; by exists n|]. cbn. intros [= <-].
      eexists. split; [done|]. by apply deserialize_perm. }
    destruct (csv_node_iter it tn R F) as [n|] eqn:En; [|done]. cbn. destruct (csv_edge_iter it te R F) as [e|] eqn:Ee; [|done]. cbn. intros [= <- <-].
    destruct (Hn n eq_refl) as (n' & -> & Hpn). destruct (He e eq_refl) as (e' & -> & Hpe). cbn. eexists _, _. split; [done|]. by rewrite !app_nil_r.
  Qed.
End rows.
Section files.
  Context {NL EL : Type} (it : idty) (tn : text NL) (te : text EL).
  Lemma records_files Rs Rs' F ns es : Rs' ≡ₚ Rs → all_records it tn te Rs F = Some (ns, es) →
    ∃ ns' es', all_records it tn te Rs' F = Some (ns', es') ∧ ns' ≡ₚ ns ∧ es' ≡ₚ es.
  Proof.
    intros Hp. unfold all_records. destruct (mapM (λ R, csv_node_iter it tn R F) Rs) as [n|] eqn:En; [|done]. cbn.
    destruct (mapM (λ R, csv_edge_iter it te R F) Rs) as [e|] eqn:Ee; [|done]. cbn. intros [= <- <-].
    destruct (mapM_perm _ _ _ _ (symmetry Hp) En) as (n' & -> & Hn). destruct (mapM_perm _ _ _ _ (symmetry Hp) Ee) as (e' & -> & He). cbn.
    eexists _, _. split; [done|]. split; by apply mjoin_perm.
  Qed.
End files.
Section row_order.
  Context {NL EL : Type} `{EqDecision NL, EqDecision EL} (dir : bool) (it lt : idty) (tn : text NL) (te : text EL).
  Context (nls : list NL) (els : list EL) (Hn : NoDup nls) (He : NoDup els).
  Lemma row_order h0 rs0 g0 R F F' ns es g : Forall (λ o, is_raw o = false) h0 →
    gm_run dir lt h0 (gm_with_label_map nls els) = Ok (rs0, g0) →
    csv_node_iter it tn R F = Some ns → csv_edge_iter it te R F = Some es → consistent dir ns es →
    rd_headers R || rd_flexible R = true → (∀ p, rd_nodes R = Some p ∨ rd_edges R = p → rows_moved (rd_headers R) F F' p) →
    csv_read dir it lt tn te R F g0 = Ok (g, true) → labels_fit lt (g_nlm g) → labels_fit lt (g_elm g) →
    ∃ g', csv_read dir it lt tn te R F' g0 = Ok (g', true) ∧
      ∀ o o', hash_order g o → hash_order g' o' → same_answers (gm_view dir o g) (gm_view dir o' g').
  Proof using Hn He.
    intros H0 Hr En Ee Hc Hf Hm Hrd H1 H2.
    assert (Ha : all_records it tn te [R] F = Some (ns, es)). { unfold all_records. cbn [mapM]. rewrite En, Ee. cbn. by rewrite !app_nil_r. }
    destruct (records_moved it tn te R F F' ns es Hf Hm Ha) as (ns' & es' & Ha' & Hpn & Hpe).
    destruct (records_order dir it lt tn te nls els Hn He h0 rs0 g0 [R] [R] F F' ns es ns' es' g H0 Hr Ha Ha' Hpn Hpe Hc) as (g' & Hg' & Hs); [|done|done|].
    - cbn. by rewrite Hrd.
    - exists g'. split; [|done]. cbn in Hg'. destruct (csv_read _ _ _ _ _ R F' g0) as [[g1 []]| |]; [|done..]. cbn in Hg'. by injection Hg' as ->.
  Qed.
End row_order.
