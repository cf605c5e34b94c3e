(** Model of writing with input/output errors: std::io::BufWriter as src/io/mmap.rs (l.108-123) and
    src/io/serde.rs (l.53-64) use it, the dump_mmap functions (static_graph/edge_vec.rs l.166-181,
    graph.rs l.424-452) and CSVWriter::write (src/io/csv/writer.rs l.99-133), each with the result
    that it reports and the files that it leaves.

    BufWriter is modelled from its source in the standard library: a write that does not fit
    flushes the buffer first; one that is as long as the buffer goes to the file directly; dropping
    the writer flushes the buffer and ignores the error. csv::Writer has a buffer of its own that it
    flushes in the same situations, also ignoring the error when dropped (documentation of the csv
    crate); it is modelled by the same functions. The files of one call are different files. *)
From Coq Require Import Ascii.
From stdpp Require Import gmap strings.
From Verif Require Import Base Api Bytes Map GraphMap Static Serde Mmap Csv CsvText.

(** The outcome of a call of the operating system that creates a file or writes some bytes:
    everything is done; only [k] bytes were taken, but at least one; an error. An interrupted
    call is repeated by the library and does not count. *)
Inductive io_event := IoAll | IoPart (k : nat) | IoErr.
(** The outcome of every call, numbered from the start. *)
Notation world := (nat → io_event).
Definition accepted (e : io_event) (len : nat) : option nat :=
  match e with IoAll => Some len | IoPart k => Some (Nat.max 1 (Nat.min k len)) | IoErr => None end.

(** ** BufWriter *)
Section writer.
  Context {X : Type} (w : world) (cap : nat).
  (** What is in the file, what is in the buffer, and the number of the next call. *)
  Record writer := Wr { wr_file : list X; wr_buf : list X; wr_next : nat }.
  (** write_all to the file; the second component is what was not written. *)
  Fixpoint push (fuel : nat) (i : nat) (file b : list X) : bool * list X * list X * nat :=
    match b, fuel with
    | [], _ => (true, file, [], i)
    | _, O => (false, file, b, i)
    | _, S fuel =>
        match accepted (w i) (length b) with
        | None => (false, file, b, S i)
        | Some n => push fuel (S i) (file ++ take n b) (drop n b)
        end
    end.
  (** BufWriter::flush_buf: what was written is taken out of the buffer, also after an error. *)
  Definition flush_buf (s : writer) : bool * writer :=
    let '(ok, file, rest, i) := push (length (wr_buf s)) (wr_next s) (wr_file s) (wr_buf s) in (ok, Wr file rest i).
  (** BufWriter::write: the number of bytes taken. *)
  Definition buf_write (s : writer) (b : list X) : option nat * writer :=
    let '(ok, s) := if decide (cap < length (wr_buf s) + length b) then flush_buf s else (true, s) in
    if negb ok then (None, s) else
    if decide (cap ≤ length b) then
      match accepted (w (wr_next s)) (length b) with
      | None => (None, Wr (wr_file s) (wr_buf s) (S (wr_next s)))
      | Some n => (Some n, Wr (wr_file s ++ take n b) (wr_buf s) (S (wr_next s)))
      end
    else (Some (length b), Wr (wr_file s) (wr_buf s ++ b) (wr_next s)).
  (** Write::write_all. *)
  Fixpoint write_all (fuel : nat) (s : writer) (b : list X) : bool * writer :=
    match b, fuel with
    | [], _ => (true, s)
    | _, O => (false, s)
    | _, S fuel =>
        match buf_write s b with
        | (None, s) => (false, s)
        | (Some n, s) => write_all fuel s (drop n b)
        end
    end.
  (** Several writes; the first error ends them. *)
  Fixpoint write_each (s : writer) (l : list (list X)) : bool * writer :=
    match l with
    | [] => (true, s)
    | b :: l => let '(ok, s) := write_all (length b) s b in if ok then write_each s l else (false, s)
    end.
  (** Drop for BufWriter. *)
  Definition drop_writer (s : writer) : writer := (flush_buf s).2.
End writer.
Arguments writer : clear implicits. Arguments Wr {_}.

(** ** Files of bytes. The result is whether success is reported, the files and the next call. *)
Definition io_result : Type := bool * fs * nat.
(** File::create(f)?, then [body] on the file. *)
Definition with_file (w : world) (f : string) (F : fs) (i : nat) (body : writer N → bool * writer N) : io_result :=
  match w i with
  | IoErr => (false, F, S i)
  | _ => let '(ok, s) := body (Wr [] [] (S i)) in (ok, <[f := wr_file s]> F, wr_next s)
  end.
(** The ? operator. *)
Definition and_then (r : io_result) (k : fs → nat → io_result) : io_result :=
  let '(ok, F, i) := r in if ok then k F i else (false, F, i).
(** dump, mmap.rs l.108-123: the loop, then flush, then the writer is dropped. *)
Definition dump_io (w : world) (cap : nat) (f : string) (b : list N) (F : fs) (i : nat) : io_result :=
  with_file w f F i (λ s,
    let '(ok, s) := write_each w cap s (dump_writes (length b) b) in
    let '(ok, s) := if ok then flush_buf w s else (false, s) in
    (ok, drop_writer w s)).
(** Serializer::export, serde.rs l.53-64. bincode's serialize_into writes the encoding in
    pieces ([parts], how is up to the crate); nothing flushes the writer before it is dropped. *)
Definition export_io (w : world) (cap : nat) (f : string) (parts : list (list N)) (F : fs) (i : nat) : io_result :=
  with_file w f F i (λ s, let '(ok, s) := write_each w cap s parts in (ok, drop_writer w s)).
(** EdgeVec::dump_mmap, edge_vec.rs l.166-181. *)
Definition ev_dump_io (w : world) (cap : nat) (it lt : idty) (e : evec) (p : string) (F : fs) (i : nat) : io_result :=
  and_then (dump_io w cap (f_offsets p) (usize_bytes (ev_offsets e)) F i) (λ F i,
  and_then (dump_io w cap (f_edges p) (typed_bytes it (ev_edges e)) F i) (λ F i,
  match ev_labels e with [] => (true, F, i) | ls => dump_io w cap (f_labels p) (typed_bytes lt ls) F i end)).
(** TypedStaticGraph::dump_mmap, graph.rs l.424-452; [parts] are the pieces of the auxiliary file. *)
Definition sg_dump_io {NL EL} (w : world) (cap : nat) (it lt : idty) (g : sgraph NL EL) (p : string) (parts : list (list N)) (F : fs) (i : nat) : io_result :=
  and_then (ev_dump_io w cap it lt (sg_evec g) (p_out p) F i) (λ F i,
  and_then (match sg_in g with Some e => ev_dump_io w cap it lt e (p_in p) F i | None => (true, F, i) end) (λ F i,
  and_then (match sg_labels g with Some ls => dump_io w cap (f_labels p) (typed_bytes lt ls) F i | None => (true, F, i) end) (λ F i,
  export_io w cap (f_aux p) parts F i))).

(** ** Files of text *)
(** CSVWriter::write, writer.rs l.99-133, after its records were formatted: [ns] and [es] are the
    texts handed to the two writers, in pieces. Both writers are dropped at the end, the later
    one first; an error ends the call. *)
Definition text_of (l : list ascii) : string := string_of_list_ascii l.
Definition csv_io (w : world) (cap : nat) (pn pe : string) (ns es : list (list ascii)) (F : textfs) (i : nat) : bool * textfs :=
  match w i with
  | IoErr => (false, F)
  | _ =>
      let '(ok, s) := write_each w cap (Wr [] [] (S i)) ns in
      if negb ok then (false, <[pn := text_of (wr_file (drop_writer w s))]> F) else
      match w (wr_next s) with
      | IoErr => (false, <[pn := text_of (wr_file (drop_writer w (Wr (wr_file s) (wr_buf s) (S (wr_next s)))))]> F)
      | _ =>
          let '(ok, t) := write_each w cap (Wr [] [] (S (wr_next s))) es in
          let t := drop_writer w t in
          let s := drop_writer w (Wr (wr_file s) (wr_buf s) (wr_next t)) in
          (ok, <[pe := text_of (wr_file t)]> (<[pn := text_of (wr_file s)]> F))
      end
  end.
