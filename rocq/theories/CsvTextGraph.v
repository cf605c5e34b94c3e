(** Graphs written to text files and read back. *)
From Coq Require Import Ascii.
From stdpp Require Import gmap strings.
From Verif Require Import Base BaseFacts Api Spec SpecOps SpecSerde Map GraphMap Csv SpecCsv CsvFacts CsvProps CsvText SpecCsvText CsvTextProps.

(** Decimal digits are plain. *)
Definition is_digit (c : ascii) : Prop := ∃ d, (d < 10)%N ∧ c = digit d.
Lemma digits_chars fuel x acc c : has_char c (digits fuel x acc) → is_digit c ∨ has_char c acc.
Proof.
  revert x acc. induction fuel as [|fuel IH]; intros x acc; cbn; [by right|].
  assert (is_digit (digit (x mod 10))) as Hd by (exists (x mod 10)%N; split; [apply N.mod_lt; lia|done]).
  destruct (decide (x / 10 = 0)%N).
  - intros [->|?]; [by left|by right].
  - intros H. apply IH in H as [?|[->|?]]; [by left|by left|by right].
Qed.
Lemma digit_range c : is_digit c → (48 ≤ N_of_ascii c ≤ 57)%N.
Proof. intros (d & Hd & ->). unfold digit. rewrite N_ascii_embedding; lia. Qed.
Lemma uint_plain sep x : sep = c_quote ∨ sep = c_cr → show_uint x ≠ ""%string ∧ needs_quotes sep (show_uint x) = false.
Proof.
  intros Hs. split; [by destruct (uint_ok x x) as [? _]; [lia|]|]. apply plain_needs. intros c Hc.
  apply digits_chars in Hc as [Hc|[]]. apply digit_range in Hc.
  assert (∀ d, (N_of_ascii d < 48)%N → c ≠ d) as H by (intros d Hd ->; lia). split_and!; [|by apply H..].
  destruct Hs as [-> | ->]; by apply H.
Qed.
Lemma pair_ok sep f f' : (sep = c_quote ∨ sep = c_cr → f ≠ ""%string ∧ needs_quotes sep f = false) → row_ok sep [f; f'].
Proof.
  intros H. split; [done|]. destruct (decide (sep = c_quote ∨ sep = c_cr)) as [Hs|Hs]; [right|left; naive_solver]. cbn. constructor; [by apply H|constructor].
Qed.
Lemma triple_ok sep f f' f'' : (sep = c_quote ∨ sep = c_cr → f ≠ ""%string ∧ needs_quotes sep f = false) →
  (sep = c_quote ∨ sep = c_cr → f' ≠ ""%string ∧ needs_quotes sep f' = false) → row_ok sep [f; f'; f''].
Proof.
  intros H H'. split; [done|]. destruct (decide (sep = c_quote ∨ sep = c_cr)) as [Hs|Hs]; [right|left; naive_solver].
  cbn. constructor; [by apply H|constructor; [by apply H'|constructor]].
Qed.

Section text.
  Context {NL EL : Type} `{EqDecision NL, EqDecision EL} (it lt : idty) (tn : text NL) (te : text EL).
  Lemma header_ok sep (h : row) (rows : table) : row_ok sep h → Forall (row_ok sep) rows → Forall (row_ok sep) (with_header h rows).
  Proof. intros Hh Hr. destruct rows; [constructor|]. by constructor. Qed.
  Lemma node_rows_ok sep (V : gview NL EL) ids ns : rmapl (λ n, let* l := v_node_label V n in Ok (node_row it tn n l)) ids = Ok ns →
    Forall (row_ok sep) (with_header node_header ns).
  Proof.
    intros Hn. apply header_ok.
    - apply pair_ok. intros [-> | ->]; by vm_compute.
    - apply rmapl_Ok in Hn. apply Forall_forall. intros r Hr. apply elem_of_list_lookup in Hr as [i Hi].
      destruct (Forall2_lookup_r _ _ _ _ _ Hn Hi) as (n & _ & Hx). destruct (v_node_label V n) as [l| |]; [|done..]. injection Hx as <-.
      apply pair_ok. intros Hs. by apply uint_plain.
  Qed.
  Lemma edge_rows_ok sep (V : gview NL EL) ix es : rmapl (λ e, let* l := v_edge_label V e.1 e.2 in Ok (edge_row it te e.1 e.2 l)) ix = Ok es →
    Forall (row_ok sep) (with_header edge_header es).
  Proof.
    intros Hn. apply header_ok.
    - apply triple_ok; intros [-> | ->]; by vm_compute.
    - apply rmapl_Ok in Hn. apply Forall_forall. intros r Hr. apply elem_of_list_lookup in Hr as [i Hi].
      destruct (Forall2_lookup_r _ _ _ _ _ Hn Hi) as ([x y] & _ & Hx). cbn in Hx. destruct (v_edge_label V x y) as [l| |]; [|done..]. injection Hx as <-.
      apply triple_ok; intros Hs; by apply uint_plain.
  Qed.
  (** Reading the text that was written gives the records that were written. *)
  Lemma text_write_csv sep (V : gview NL EL) pn pe F : sep ≠ c_lf →
    rmap (fmap (read_table sep)) (text_write it tn te V pn pe sep F) = csv_write it tn te V pn pe (read_table sep <$> F).
  Proof.
    intros Hs. unfold text_write, csv_write. destruct (rmapl _ (v_node_indices V)) as [ns| |] eqn:Hn; [|done..]. cbn [rbind].
    destruct (v_edge_indices V) as [ix| |]; [|done..]. cbn [rbind]. destruct (rmapl _ ix) as [es| |] eqn:He; [|done..]. cbn [rbind rmap].
    rewrite !fmap_insert. rewrite !read_table_text; [done|done|by eapply node_rows_ok|done|by eapply edge_rows_ok].
  Qed.
  Lemma text_write_other sep (V : gview NL EL) pn pe F F' p : text_write it tn te V pn pe sep F = Ok F' → p ≠ pn → p ≠ pe → F' !! p = F !! p.
  Proof.
    unfold text_write. destruct (rmapl _ (v_node_indices V)) as [ns| |]; [|done..]. cbn [rbind]. destruct (v_edge_indices V) as [ix| |]; [|done..].
    cbn [rbind]. destruct (rmapl _ ix) as [es| |]; [|done..]. cbn [rbind]. intros [= <-] H1 H2. by rewrite !lookup_insert_ne by done.
  Qed.
  Lemma text_roundtrip sep (V : gview NL EL) (A : agraph NL EL) nls els pn pe flexible (F : textfs) : sep ≠ c_lf →
    represents V A → pn ≠ pe → (∀ n, a_has_node A n → in_type it n) → uses_labels A nls els →
    Forall (readable tn) nls → Forall (readable te) els → labels_fit lt nls → labels_fit lt els →
    ∃ F' g, text_write it tn te V pn pe sep F = Ok F' ∧ (∀ p, p ≠ pn → p ≠ pe → F' !! p = F !! p) ∧
      text_read (ag_dir A) it lt tn te (Reader (Some pn) pe true flexible) sep F' gm_new = Ok (g, true) ∧
      ∀ o, hash_order g o → shows (gm_view (ag_dir A) o g) A.
  Proof.
    intros Hs HV Hp Ht Hu H1 H2 H3 H4.
    destruct (csv_roundtrip it lt tn te V A nls els pn pe flexible (read_table sep <$> F) HV Hp Ht Hu H1 H2 H3 H4) as (C & g & Hw & _ & Hr & Hsh).
    pose proof (text_write_csv sep V pn pe F Hs) as He. rewrite Hw in He.
    destruct (text_write it tn te V pn pe sep F) as [F'| |] eqn:HF; [|done..]. cbn in He. injection He as He.
    exists F', g. split; [done|]. split; [intros p; by eapply text_write_other|]. split; [|done].
    unfold text_read. etransitivity; [|exact Hr]. f_equal. exact He.
  Qed.

  (** With LF as separator a file is one record. *)
  Lemma lf_fields r rec s : r ≠ [] → scan c_lf AtField "" rec (fields_text c_lf r +:+ String c_lf s) = scan c_lf AtField "" (rec ++ r) s.
  Proof.
    revert rec. induction r as [|f r IH]; intros rec Hr; [done|]. destruct r as [|f' r].
    - cbn [fields_text]. apply scan_field_sep. by left.
    - change (fields_text c_lf (f :: f' :: r)) with (field_text c_lf f +:+ String c_lf (fields_text c_lf (f' :: r))).
      rewrite sapp_assoc, scons_app. rewrite scan_field_sep by (by left). rewrite IH by done. by rewrite <-app_assoc.
  Qed.
  Lemma lf_record r rec s : r ≠ [] → scan c_lf AtField "" rec (record_text c_lf r +:+ s) = scan c_lf AtField "" (rec ++ r) s.
  Proof.
    intros Hr. unfold record_text. destruct (decide (fields_text c_lf r = EmptyString)) as [He|He].
    - rewrite (fields_empty c_lf r Hr He). done.
    - rewrite sapp_assoc, scons_app. by apply lf_fields.
  Qed.
  Lemma lf_table t rec : Forall (λ r, r ≠ []) t → scan c_lf AtField "" rec (table_text c_lf t) = [rec ++ concat t ++ [""%string]].
  Proof.
    intros Ht. revert rec. induction Ht as [|r t Hr Ht IH]; intros rec; [done|]. cbn [table_text foldr].
    change (scan c_lf AtField "" rec (record_text c_lf r +:+ table_text c_lf t) = [rec ++ concat (r :: t) ++ [""%string]]).
    rewrite lf_record by done. rewrite IH. cbn [concat]. by rewrite !app_assoc.
  Qed.
  Lemma lf_read f r t : f ≠ ""%string → Forall (λ r, r ≠ []) t → read_table c_lf (table_text c_lf ((f :: r) :: t)) = [concat ((f :: r) :: t) ++ [""%string]].
  Proof.
    intros Hf Ht. assert (Forall (λ r, r ≠ []) ((f :: r) :: t)) as Ht' by (by constructor). refine (eq_trans _ (lf_table _ [] Ht')). unfold read_table.
    assert (∃ s, table_text c_lf ((f :: r) :: t) = field_text c_lf f +:+ s) as [s Hs].
    { cbn [table_text foldr]. unfold record_text. destruct (decide (fields_text c_lf (f :: r) = EmptyString)) as [He|He].
      - pose proof (fields_empty c_lf (f :: r) (λ H, ltac:(discriminate H)) He) as [= ? _]. done.
      - destruct r as [|f' r].
        + eexists. cbn [fields_text]. by rewrite !sapp_assoc.
        + eexists. change (fields_text c_lf (f :: f' :: r)) with (field_text c_lf f +:+ String c_lf (fields_text c_lf (f' :: r))). by rewrite !sapp_assoc. }
    destruct (field_text c_lf f +:+ s) as [|c s'] eqn:Hc; rewrite Hs.
    - unfold field_text in Hc. destruct (needs_quotes c_lf f); [done|]. by destruct f.
    - apply at_record_field. eapply field_start; [exact Hf|exact Hc].
  Qed.
  Lemma lf_header (f : string) (h : row) rows : f ≠ ""%string → Forall (λ r, r ≠ []) rows →
    length (read_table c_lf (table_text c_lf (with_header (f :: h) rows))) ≤ 1.
  Proof. intros Hf Hr. destruct rows as [|r rows]; [cbn; lia|]. unfold with_header. rewrite lf_read by done. done. Qed.
  Lemma ok_nonempty sep t : Forall (row_ok sep) t → Forall (λ r, r ≠ []) t.
  Proof. intros H. eapply Forall_impl; [exact H|]. by intros r [? _]. Qed.
  Lemma header_only {A} (record : option row → row → option A) flexible t : length t ≤ 1 → deserialize record true flexible t = [].
  Proof. destruct t as [|h [|? ?]]; cbn; [done|done|lia]. Qed.
  (** Nothing of it is read. *)
  Lemma lf_nothing (V : gview NL EL) (A : agraph NL EL) dir pn pe flexible (F : textfs) g : represents V A → pn ≠ pe →
    ∃ F', text_write it tn te V pn pe c_lf F = Ok F' ∧ text_read dir it lt tn te (Reader (Some pn) pe true flexible) c_lf F' g = Ok (g, true).
  Proof.
    intros HV Hp.
    assert (∃ F', text_write it tn te V pn pe "," F = Ok F') as [F0 H0].
    { destruct (rp_edge_indices _ _ HV) as (ix & Hix & _). pose proof (write_ok it tn te V A ix pn pe (read_table "," <$> F) HV Hix) as HC.
      pose proof (text_write_csv "," V pn pe F) as He. rewrite HC in He. destruct (text_write it tn te V pn pe "," F); [by eexists|by specialize (He ltac:(done))..]. }
    unfold text_write in *. destruct (rmapl _ (v_node_indices V)) as [ns| |] eqn:Hn; [|done..]. cbn [rbind] in *.
    destruct (v_edge_indices V) as [ix| |]; [|done..]. cbn [rbind] in *. destruct (rmapl _ ix) as [es| |] eqn:He; [|done..]. clear H0 F0.
    eexists. split; [reflexivity|]. unfold text_read, csv_read. cbn [rd_nodes rd_edges rd_headers rd_flexible].
    apply (node_rows_ok c_lf) in Hn. apply (edge_rows_ok c_lf) in He.
    rewrite !fmap_insert, lookup_insert_ne, lookup_insert by done. rewrite lookup_insert. unfold read_nodes, read_edges. cbn [rd_headers rd_flexible].
    assert (∀ (h : row) f rows, f ≠ ""%string → Forall (row_ok c_lf) (with_header (f :: h) rows) → length (read_table c_lf (table_text c_lf (with_header (f :: h) rows))) ≤ 1) as Hl.
    { intros h f rows Hf Hr. destruct rows as [|r rows]; [cbn; lia|]. unfold with_header in *. apply Forall_cons in Hr as [_ Hr]. rewrite lf_read; [done|done|by eapply ok_nonempty]. }
    rewrite (header_only _ _ _ (Hl [":LABEL"%string] "nodeId:ID"%string ns (λ H, ltac:(discriminate H)) Hn)). cbn [rfold rbind].
    rewrite (header_only _ _ _ (Hl [":END_ID"; ":TYPE"]%string ":START_ID"%string es (λ H, ltac:(discriminate H)) He)). done.
  Qed.
End text.
