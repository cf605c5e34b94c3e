(** Model of src/io/csv/{record,reader,writer}.rs.

    The text layer of the csv crate (delimiters, quoting, line ends) is not modelled: a file is
    the list of its records, a record the list of its fields, and a written record is read back
    field by field. The separator therefore does not appear. What the crate does above the text
    layer is: the header row, the check of the number of fields, and the conversion of fields
    by serde. Input/output errors other than a missing file are not modelled. *)
From Coq Require Import Ascii.
From stdpp Require Import gmap strings.
From Verif Require Import Base Api Map GraphMap.

Notation row := (list string).
Notation table := (list (list string)).
(** The file system at the level of records. *)
Notation csvfs := (gmap string (list (list string))).

(** ** Fields *)
(** A type whose values are written to one field and read from one field. *)
Record text (A : Type) := Text { show : A → string; parse : string → option A }.
Arguments Text {_}. Arguments show {_}. Arguments parse {_}.
(** Decimal digits of an unsigned integer, as written by serde/csv. *)
Definition digit (d : N) : ascii := ascii_of_N (48 + d).
Fixpoint digits (fuel : nat) (x : N) (acc : string) : string :=
  match fuel with
  | O => acc
  | S fuel =>
      let acc := String (digit (x mod 10)) acc in
      if decide (x / 10 = 0)%N then acc else digits fuel (x / 10) acc
  end.
Definition show_uint (x : N) : string := digits (S (N.to_nat (N.log2 x))) x "".
(** str::parse of an unsigned integer: an optional +, at least one digit, no overflow. *)
Definition digit_value (c : ascii) : option N :=
  let x := N_of_ascii c in
  if decide (48 ≤ x ∧ x ≤ 57)%N then Some (x - 48)%N else None.
Fixpoint parse_digits (v : N) (s : string) : option N :=
  match s with
  | EmptyString => Some v
  | String c s => d ← digit_value c; parse_digits (10 * v + d) s
  end.
Definition parse_uint (max : N) (s : string) : option N :=
  let s := match s with String "+" s => s | _ => s end in
  match s with
  | EmptyString => None
  | _ => x ← parse_digits 0 s; if decide (x ≤ max)%N then Some x else None
  end.
(** u8, u16, u32 and usize; () is not supported here. Newer versions of the csv crate also read
    0x and hexadecimal digits; this is not modelled. *)
Definition t_id (it : idty) : text N := Text show_uint (parse_uint (id_max it)).
(** String. *)
Definition t_string : text string := Text id Some.

(** deserialize_option of the csv crate: a missing or empty field is None. The caller turns a
    conversion error into None too ([map.next_value().unwrap_or(None)], record.rs l.140, l.238). *)
Definition opt_field {A} (t : text A) (fields : row) : option A * row :=
  match fields with
  | [] => (None, [])
  | f :: fs => (if decide (f = "") then None else parse t f, fs)
  end.
(** [seq.next_element().unwrap_or(None)], record.rs l.117, l.208: the element type is the label
    itself, so an empty field is parsed like any other. *)
Definition seq_label {A} (t : text A) (fields : row) : option A :=
  match fields with [] => None | f :: _ => parse t f end.

(** ** Records *)
Section records.
  Context {A : Type} (it : idty) (tl : text A).
  (** The derived Serialize, record.rs l.30-47: header names and fields. None is an empty field. *)
  Definition show_label (l : option A) : string := match l with Some x => show tl x | None => "" end.
  Definition node_header : row := ["nodeId:ID"; ":LABEL"]%string.
  Definition node_row (n : N) (l : option A) : row := [show (t_id it) n; show_label l].
  Definition edge_header : row := [":START_ID"; ":END_ID"; ":TYPE"]%string.
  Definition edge_row (s t : N) (l : option A) : row := [show (t_id it) s; show (t_id it) t; show_label l].

  (** NodeRecord: visit_map, record.rs l.122-147. The csv crate pairs the header names with the
      fields; None is Err. *)
  Fixpoint node_map (h : row) (fields : row) (id : option N) (label : option (option A)) : option (N * option A) :=
    match h with
    | [] => i ← id; Some (i, default None label)
    | k :: h =>
        if decide (k = "nodeId:ID") then
          match id, fields with
          | None, f :: fs => i ← parse (t_id it) f; node_map h fs (Some i) label
          | _, _ => None
          end
        else if decide (k = ":LABEL") then
          match label with
          | None => let '(l, fs) := opt_field tl fields in node_map h fs id (Some l)
          | Some _ => None
          end
        else None
    end.
  (** NodeRecord: visit_seq, l.110-120. *)
  Definition node_seq (fields : row) : option (N * option A) :=
    match fields with
    | [] => None
    | f :: fs => i ← parse (t_id it) f; Some (i, seq_label tl fs)
    end.
  (** EdgeRecord: visit_map, l.213-246. *)
  Fixpoint edge_map (h : row) (fields : row) (s t : option N) (label : option (option A)) : option (N * N * option A) :=
    match h with
    | [] => x ← s; y ← t; Some (x, y, default None label)
    | k :: h =>
        if decide (k = ":START_ID") then
          match s, fields with
          | None, f :: fs => x ← parse (t_id it) f; edge_map h fs (Some x) t label
          | _, _ => None
          end
        else if decide (k = ":END_ID") then
          match t, fields with
          | None, f :: fs => y ← parse (t_id it) f; edge_map h fs s (Some y) label
          | _, _ => None
          end
        else if decide (k = ":TYPE") then
          match label with
          | None => let '(l, fs) := opt_field tl fields in edge_map h fs s t (Some l)
          | Some _ => None
          end
        else None
    end.
  (** EdgeRecord: visit_seq, l.198-211. *)
  Definition edge_seq (fields : row) : option (N * N * option A) :=
    match fields with
    | f :: f' :: fs => x ← parse (t_id it) f; y ← parse (t_id it) f'; Some (x, y, seq_label tl fs)
    | _ => None
    end.
  (** deserialize_struct of the csv crate: visit_map when there is a header. *)
  Definition node_record (h : option row) (fields : row) : option (N * option A) :=
    match h with Some h => node_map h fields None None | None => node_seq fields end.
  Definition edge_record (h : option row) (fields : row) : option (N * N * option A) :=
    match h with Some h => edge_map h fields None None None | None => edge_seq fields end.
End records.

(** ** Reading a file: into_deserialize of the csv crate *)
(** A record whose length differs from the first one's (the header's, if there is one) is an
    error unless the reader is flexible. *)
Fixpoint read_rows (flexible : bool) (expected : option nat) (t : table) : list (option row) :=
  match t with
  | [] => []
  | r :: t =>
      match expected with
      | None => Some r :: read_rows flexible (Some (length r)) t
      | Some k => (if flexible || bool_decide (length r = k) then Some r else None) :: read_rows flexible expected t
      end
  end.
(** The results, one per row below the header; None is Err. *)
Definition deserialize {A} (record : option row → row → option A) (headers flexible : bool) (t : table) : list (option A) :=
  if headers then
    match t with
    | [] => []
    | h :: t => (λ r, r ≫= record (Some h)) <$> read_rows flexible (Some (length h)) t
    end
  else (λ r, r ≫= record None) <$> read_rows flexible None t.

Section csv.
  Context {NL EL : Type} `{EqDecision NL, EqDecision EL} (dir : bool) (it lt : idty) (tn : text NL) (te : text EL).
  Notation graph := (graphmap NL EL).
  (** CSVReader, reader.rs l.40-48, without the separator. *)
  Record reader := Reader { rd_nodes : option string; rd_edges : string; rd_headers : bool; rd_flexible : bool }.

  (** The loops of read, l.130-138 and l.152-160: an Err is logged and skipped. *)
  Definition read_nodes (R : reader) (t : table) (g : graph) : res graph :=
    rfold (λ g r, match r with
                  | Some (n, l) => rmap snd (gm_add_node lt n l g)
                  | None => Ok g
                  end) (deserialize (node_record it tn) (rd_headers R) (rd_flexible R) t) g.
  Definition read_edges (R : reader) (t : table) (g : graph) : res graph :=
    rfold (λ g r, match r with
                  | Some (x, y, l) => rmap snd (gm_add_edge dir lt x y l g)
                  | None => Ok g
                  end) (deserialize (edge_record it te) (rd_headers R) (rd_flexible R) t) g.
  (** read, l.118-163, on a GraphMap (the only MutGraphTrait). The flag is false for Err, when
      a file cannot be opened; nodes read before stay in the graph. *)
  Definition csv_read (R : reader) (F : csvfs) (g : graph) : res (graph * bool) :=
    let read_edges_file (g : graph) :=
      match F !! rd_edges R with
      | Some t => rmap (λ g, (g, true)) (read_edges R t g)
      | None => Ok (g, false)
      end in
    match rd_nodes R with
    | None => read_edges_file g
    | Some p =>
        match F !! p with
        | Some t => let* g := read_nodes R t g in read_edges_file g
        | None => Ok (g, false)
        end
    end.
  (** node_iter, l.165-195, and edge_iter, l.197-224. None is Err. *)
  Definition csv_node_iter (R : reader) (F : csvfs) : option (list (N * option NL)) :=
    match rd_nodes R with
    | None => Some []
    | Some p => t ← F !! p; Some (omap id (deserialize (node_record it tn) (rd_headers R) (rd_flexible R) t))
    end.
  Definition csv_edge_iter (R : reader) (F : csvfs) : option (list (N * N * option EL)) :=
    t ← F !! rd_edges R; Some (omap id (deserialize (edge_record it te) (rd_headers R) (rd_flexible R) t)).

  (** Writer::serialize: the header is written before the first record. *)
  Definition with_header (h : row) (rows : table) : table := match rows with [] => [] | _ => h :: rows end.
  (** write, writer.rs l.99-133, to two different paths; from_path creates or truncates. *)
  Definition csv_write (V : gview NL EL) (pn pe : string) (F : csvfs) : res csvfs :=
    let* ns := rmapl (λ n, let* l := v_node_label V n in Ok (node_row it tn n l)) (v_node_indices V) in
    let* ix := v_edge_indices V in
    let* es := rmapl (λ e, let* l := v_edge_label V e.1 e.2 in Ok (edge_row it te e.1 e.2 l)) ix in
    Ok (<[pe := with_header edge_header es]> (<[pn := with_header node_header ns]> F)).
End csv.
(** with_separator, reader.rs l.75-99 and writer.rs l.66-91: the names comma, space and tab,
    otherwise the string itself, which must have one byte. *)
Definition csv_separator (s : string) : res ascii :=
  let s := if decide (s = "comma") then ","%string
           else if decide (s = "space") then " "%string
           else if decide (s = "tab") then String (ascii_of_N 9) "" else s in
  match s with
  | String c EmptyString => Ok c
  | _ => Panic
  end.
