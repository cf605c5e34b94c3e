(** LDBC directories of text files. *)
From Coq Require Import Ascii.
From stdpp Require Import gmap strings.
From Verif Require Import Base BaseFacts Api Spec SpecOps Map GraphMap Csv Ldbc SpecLdbc LdbcThms LdbcWit CsvText SpecCsvText CsvTextProps CsvTextWit LdbcText SpecLdbcText SpecLdbcOrder LdbcOrder.

Lemma as_records_lines sep files : usual sep → Forall (plain_file sep) files → as_records sep (file_text sep <$> files) = file_rows <$> files.
Proof.
  intros Hs Hf. unfold as_records. induction Hf as [|f files (H1 & H2 & H3) _ IH]; [done|]. rewrite !fmap_cons. rewrite IH. f_equal.
  unfold file_text, file_rows. cbn [fst snd]. f_equal. by apply read_lines.
Qed.
Lemma as_records_written sep (files : list (string * table)) : usual sep → Forall (λ f, Forall (λ r, r ≠ []) f.2) files →
  as_records sep ((λ f, (f.1, table_text sep f.2)) <$> files) = files.
Proof.
  intros Hs Hf. unfold as_records. induction Hf as [|[nm t] files H _ IH]; [done|]. rewrite !fmap_cons. rewrite IH. f_equal. cbn [fst snd] in *. f_equal.
  destruct Hs as (H1 & H2 & H3). apply read_table_text; [done|]. eapply Forall_impl; [exact H|]. intros r Hr. split; [done|by left].
Qed.

Definition knows_name : string := "person_knows_person_0_0.csv".
Definition knows_rel : ldbc_relation := LRel "person" "person" "knows" 0 1 "person_knows_person_".
Lemma knows_facts t k : table_facts (edge_fact knows_rel) t = Some k → directory_facts scheme_init [(knows_name, t)] = Some k.
Proof.
  intros H. lazy -[table_facts edge_fact node_fact] in H. lazy -[table_facts edge_fact node_fact]. rewrite H.
  f_equal. transitivity ((k ++ []) ++ []); [reflexivity|]. by rewrite !app_nil_r.
Qed.

(** Rows of two columns, the last one with a quote that is never closed. *)
Definition pair_lines (rows : list (string * string)) : list (row * string) := (λ p, ([p.1; p.2], String "010" "")) <$> rows.
Lemma open_relation header rows x s : Forall (λ p, plain "|" p.1 ∧ plain "|" p.2) (header :: rows) → plain "|" x → ¬ has_char "034" s →
  directory_facts scheme_init (as_records "|" [(knows_name, lines "|" (pair_lines (header :: rows)) +:+ joined "|" [x; String "034" s])]) =
  Some ((λ p : string * string, FEdge ("person", p.1) ("person", p.2) "knows")%string <$> rows ++ [(x, s)]).
Proof.
  intros Hr Hx Hs. unfold as_records. cbn [fmap list_fmap fst snd]. apply knows_facts. change [x; String "034" s] with ([x] ++ [String c_quote s]).
  rewrite (read_open "|" (pair_lines (header :: rows)) [x] s); [|done| |by apply Forall_singleton|done].
  - assert (Hf : filter (λ r : row, r ≠ [""%string]) (pair_lines (header :: rows)).*1 = (λ p : string * string, [p.1; p.2]) <$> (header :: rows)).
    { clear. induction (header :: rows) as [|p l IH]; [done|]. unfold pair_lines in *. rewrite !fmap_cons. rewrite filter_cons_True by done. by rewrite IH. }
    rewrite Hf. clear Hf Hr. rewrite fmap_cons. cbn [app table_facts]. apply mapM_Some. rewrite fmap_app.
    apply Forall2_app; [|by constructor]. rewrite Forall2_fmap. apply Forall_Forall2_diag. apply Forall_true. intros [a b]. done.
  - unfold pair_lines. apply Forall_fmap. eapply Forall_impl; [exact Hr|]. intros [a b] [Ha Hb]. cbn. split; [done|]. split; [by repeat (constructor; [done|])|by left].
Qed.
