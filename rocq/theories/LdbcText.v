(** Scheme::from_path (src/io/ldbc/scheme.rs l.193-253) over files of text. The readers are made
    by ReaderBuilder::new().delimiter(self.delimiter) (l.220-222 and l.239-241): everything but
    the delimiter has the csv crate's default (CsvText.v). Texts are valid UTF-8; an invalid one
    is an error of the crate and not modelled. *)
From Coq Require Import Ascii.
From stdpp Require Import gmap strings.
From Verif Require Import Base Api Map GraphMap Csv Ldbc CsvText.

(** The files of a directory, name and text, as the records of the csv crate. *)
Definition as_records (delimiter : ascii) (files : list (string * string)) : list (string * table) :=
  (λ p : string * string, (p.1, read_table delimiter p.2)) <$> files.
Definition from_path_text (dir : bool) (it : idty) (S : scheme) (delimiter : ascii) (files : list (string * string)) :
    res (option (graphmap string string)) :=
  from_path dir it S (as_records delimiter files).
(** read_ldbc_from_path, mod.rs l.31-35, with the delimiter of Scheme::init, scheme.rs l.189. *)
Definition read_ldbc_text (dir : bool) (it : idty) (files : list (string * string)) : res (graphmap string string) :=
  let* g := from_path_text dir it scheme_init "|" files in unwrap g.
