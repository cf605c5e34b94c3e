(** The text layer of the csv crate (version 1, Cargo.toml l.21), as src/io/csv/{reader,writer}.rs
    and src/io/ldbc/scheme.rs set it up: only the delimiter, the headers and the flexible flag are
    chosen (reader.rs l.124-128, writer.rs l.107-109), everything else has the crate's default: the
    quote is character 34, a quote inside quotes is doubled, fields are quoted when necessary, a
    record is ended by LF when written and by LF, CR or CR LF when read, nothing is trimmed.

    The crate itself is not in the repository; this file states what its documentation and its
    automaton (csv-core) do. A byte order mark at the start of a file is not treated. Characters
    are bytes. Texts are valid UTF-8: the crate's errors for other texts are not modelled. *)
From Coq Require Import Ascii.
From stdpp Require Import gmap strings.
From Verif Require Import Base Api Map GraphMap Csv.

Definition c_quote : ascii := "034".
Definition c_lf : ascii := "010".
Definition c_cr : ascii := "013".
Definition is_end (c : ascii) : bool := bool_decide (c = c_lf) || bool_decide (c = c_cr).

(** ** Writing *)
(** Characters that force quotes: the delimiter, the quote and both line ends. *)
Definition is_special (sep c : ascii) : bool := bool_decide (c = sep) || bool_decide (c = c_quote) || is_end c.
Fixpoint needs_quotes (sep : ascii) (f : string) : bool :=
  match f with EmptyString => false | String c f => is_special sep c || needs_quotes sep f end.
(** Quotes inside a field are doubled. *)
Fixpoint double_quotes (f : string) : string :=
  match f with
  | EmptyString => EmptyString
  | String c f => if decide (c = c_quote) then String c_quote (String c_quote (double_quotes f)) else String c (double_quotes f)
  end.
Definition field_text (sep : ascii) (f : string) : string :=
  if needs_quotes sep f then String c_quote (double_quotes f +:+ String c_quote "") else f.
Fixpoint fields_text (sep : ascii) (r : row) : string :=
  match r with
  | [] => EmptyString
  | [f] => field_text sep f
  | f :: r => field_text sep f +:+ String sep (fields_text sep r)
  end.
(** A record without a single byte is written as two quotes. *)
Definition record_text (sep : ascii) (r : row) : string :=
  let s := fields_text sep r in
  (if decide (s = EmptyString) then String c_quote (String c_quote "") else s) +:+ String c_lf "".
Definition table_text (sep : ascii) (t : table) : string := foldr (λ r s, record_text sep r +:+ s) EmptyString t.

(** ** Reading *)
(** The states of csv-core's reader in which a character is taken: StartRecord, StartField,
    InField, InQuotedField, InDoubleEscapedQuote and CRLF. *)
Inductive mode := AtRecord | AtField | InField | InQuotes | AfterQuote | AfterCr.
Fixpoint scan (sep : ascii) (m : mode) (cur : string) (rec : row) (s : string) : table :=
  match s with
  | EmptyString =>
      match m with AtRecord | AfterCr => [] | _ => [rec ++ [cur]] end
  | String c s =>
      let push m := scan sep m (cur +:+ String c "") rec s in
      let end_field := scan sep AtField "" (rec ++ [cur]) s in
      let end_record := (rec ++ [cur]) :: scan sep (if decide (c = c_cr) then AfterCr else AtRecord) "" [] s in
      let at_field :=
        if decide (c = c_quote) then scan sep InQuotes cur rec s
        else if decide (c = sep) then end_field
        else if is_end c then end_record
        else push InField in
      let at_record := if is_end c then scan sep AtRecord "" [] s else at_field in
      match m with
      | AtRecord => at_record
      | AtField => at_field
      | InField => if decide (c = sep) then end_field else if is_end c then end_record else push InField
      | InQuotes => if decide (c = c_quote) then scan sep AfterQuote cur rec s else push InQuotes
      | AfterQuote =>
          if decide (c = c_quote) then push InQuotes
          else if decide (c = sep) then end_field
          else if is_end c then end_record
          else push InField
      | AfterCr => if decide (c = c_lf) then scan sep AtRecord "" [] s else at_record
      end
  end.
Definition read_table (sep : ascii) (s : string) : table := scan sep AtRecord "" [] s.

(** ** Files as text *)
Notation textfs := (gmap string string).
Section text.
  Context {NL EL : Type} `{EqDecision NL, EqDecision EL} (dir : bool) (it lt : idty) (tn : text NL) (te : text EL).
  (** CSVReader::read, node_iter and edge_iter, reader.rs l.118-224, with separator [sep]. *)
  Definition text_read (R : reader) (sep : ascii) (F : textfs) (g : graphmap NL EL) : res (graphmap NL EL * bool) :=
    csv_read dir it lt tn te R (read_table sep <$> F) g.
  Definition text_node_iter (R : reader) (sep : ascii) (F : textfs) : option (list (N * option NL)) :=
    csv_node_iter it tn R (read_table sep <$> F).
  Definition text_edge_iter (R : reader) (sep : ascii) (F : textfs) : option (list (N * N * option EL)) :=
    csv_edge_iter it te R (read_table sep <$> F).
  (** CSVWriter::write, writer.rs l.99-133, with separator [sep]. *)
  Definition text_write (V : gview NL EL) (pn pe : string) (sep : ascii) (F : textfs) : res textfs :=
    let* ns := rmapl (λ n, let* l := v_node_label V n in Ok (node_row it tn n l)) (v_node_indices V) in
    let* ix := v_edge_indices V in
    let* es := rmapl (λ e, let* l := v_edge_label V e.1 e.2 in Ok (edge_row it te e.1 e.2 l)) ix in
    Ok (<[pe := table_text sep (with_header edge_header es)]> (<[pn := table_text sep (with_header node_header ns)]> F)).
End text.
