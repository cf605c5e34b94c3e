(** A crash during CSVWriter::write, writer.rs l.99-133.

    File::create makes the file empty (l.107, l.121); a csv::Writer collects what is written and hands it to the file when its buffer is full
    and when it is dropped. Both writers live until the end of the function, so while edges are written the last part of the nodes may still
    be missing. Any beginning of the text can be in a file at a crash; the edge file is made after the records of all nodes were given to the
    first writer. *)
From Coq Require Import Ascii.
From stdpp Require Import gmap strings.
From Verif Require Import Base Api Map GraphMap Csv CsvText SpecCsvCut.

Section crash.
  Context {NL EL : Type} `{EqDecision NL, EqDecision EL} (it : idty) (tn : text NL) (te : text EL).
  (** [F'] can be found after a crash of the call that [text_write] models. *)
  Definition text_crash (V : gview NL EL) (pn pe : string) (sep : ascii) (F F' : textfs) : Prop :=
    F' = F ∨
    ∃ a, (∃ ns, begins a (table_text sep (with_header node_header ns)) ∧
            rmapl (λ n, let* l := v_node_label V n in Ok (node_row it tn n l)) (v_node_indices V) = Ok ns) ∧
      (F' = <[pn := a]> F ∨
       ∃ b, (∃ ix es, v_edge_indices V = Ok ix ∧
               rmapl (λ e, let* l := v_edge_label V e.1 e.2 in Ok (edge_row it te e.1 e.2 l)) ix = Ok es ∧
               begins b (table_text sep (with_header edge_header es))) ∧
         F' = <[pe := b]> (<[pn := a]> F)).
End crash.
