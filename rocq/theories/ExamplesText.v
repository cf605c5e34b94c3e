(** static_to_csv (examples/static_to_csv.rs l.32-59) with its files as text. *)
From Coq Require Import Ascii.
From stdpp Require Import gmap strings.
From Verif Require Import Base Api Spec SpecFacts SpecOps Map GraphMap Bytes SpecSerde Serde Csv SpecExamples Examples ExamplesFacts Paths CsvText CsvTextProps CsvTextGraph.

(** CSVWriter::new sets the separator to a comma (writer.rs l.56-62). *)
Definition static_to_csv_text (in_file out_dir : string) (ord : list N) (F : fs) (C : textfs) : res textfs :=
  let* g := unwrap (import (c_graphmap TU32 TU32 c_text c_text ord) in_file F) in
  text_write TU32 t_string t_string (gm_view false ord g) (path_join out_dir "nodes.csv") (path_join out_dir "edges.csv") "," C.

Lemma to_csv_text (h : list (gop string string)) nls els rs s : NoDup nls → NoDup els →
  spec_run h (s_init false nls els) = SOk (rs, s) → labels_fit TU32 (sp_nls s) → labels_fit TU32 (sp_els s) → Forall (in_type TU32) (h ≫= inserted) →
  vec_of text_fits (sp_nls s) → vec_of text_fits (sp_els s) → in_usize (a_num_nodes (sp_g s)) → in_usize (sp_count s) →
  ∃ g : graphmap string string, gm_run false TU32 h (gm_with_label_map nls els) = Ok (rs, g) ∧
    ∀ in_file out_dir ord ord' F C flexible, hash_order g ord → hash_order g ord' →
      Forall (λ l, l ≠ ""%string) (sp_nls s) → Forall (λ l, l ≠ ""%string) (sp_els s) →
      let nodes := path_join out_dir "nodes.csv" in let edges := path_join out_dir "edges.csv" in
      ∃ C' g', static_to_csv_text in_file out_dir ord (export in_file (enc (c_graphmap TU32 TU32 c_text c_text ord') g) F) C = Ok C' ∧
        (∀ p, p ≠ nodes → p ≠ edges → C' !! p = C !! p) ∧
        text_read false TU32 TU32 t_string t_string (Reader (Some nodes) edges true flexible) "," C' gm_new = Ok (g', true) ∧
        ∀ o, hash_order g' o → shows (gm_view false o g') (sp_g s).
Proof.
  intros H1 H2 H3 H4 H5 H6 H7 H8 H9 H10. destruct (to_csv h nls els rs s H1 H2 H3 H4 H5 H6 H7 H8 H9 H10) as (g & Hr & Hall).
  exists g. split; [done|]. intros in_file out_dir ord ord' F C flexible Ho Ho' Hn He nodes edges.
  destruct (Hall in_file out_dir ord ord' F (read_table "," <$> C) flexible Ho Ho' Hn He) as (C0 & g' & Hw & _ & Hrd & Hs).
  unfold static_to_csv in Hw. unfold static_to_csv_text. destruct (unwrap _) as [g0| |]; [|done..]. cbn [rbind] in *.
  rewrite <-text_write_csv in Hw by done. destruct (text_write _ _ _ _ _ _ _ C) as [C'| |] eqn:HC; [|done..]. cbn in Hw. injection Hw as Hw.
  exists C', g'. split; [done|]. split; [intros p; by eapply text_write_other|]. split; [|done]. unfold text_read. etransitivity; [|exact Hrd]. f_equal. exact Hw.
Qed.
