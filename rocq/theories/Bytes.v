(** Byte-level encodings and the file system. Bytes are numbers below 256. Used for
    src/io/serde.rs (bincode 1.0) and src/io/mmap.rs. *)
From stdpp Require Import gmap strings.
From Verif Require Import Base Utf8.

(** ** Fixed-width integers, little endian (bincode's default; the memory layout on x86) *)
Fixpoint le_bytes (k : nat) (x : N) : list N :=
  match k with O => [] | S k => (x mod 256)%N :: le_bytes k (x / 256)%N end.
Definition le_value (b : list N) : N := foldr (λ b v, b + 256 * v)%N 0%N b.

(** ** Encoders and decoders. A decoder consumes a prefix of its input; None is an error. *)
Record codec (A : Type) := Codec { enc : A → list N; dec : list N → option (A * list N) }.
Arguments Codec {_}. Arguments enc {_}. Arguments dec {_}.

(** u8, u16, u32, usize (as u64) and (): the fixed width of the type. *)
Definition c_uint (k : nat) : codec N :=
  Codec (le_bytes k) (λ b, if decide (length b < k) then None else Some (le_value (take k b), drop k b)).
Definition c_id (t : idty) : codec N := c_uint (id_size t).
(** A usize counter. *)
Definition c_usize : codec nat :=
  Codec (λ n, le_bytes 8 (N.of_nat n)) (λ b, '(x, r) ← dec (c_uint 8) b; Some (N.to_nat x, r)).
(** Option: one tag byte. *)
Definition c_option {A} (c : codec A) : codec (option A) :=
  Codec (λ o, match o with None => [0%N] | Some x => 1%N :: enc c x end)
    (λ b, match b with
          | 0%N :: r => Some (None, r)
          | 1%N :: r => '(x, r) ← dec c r; Some (Some x, r)
          | _ => None
          end).
Definition c_pair {A B} (c : codec A) (d : codec B) : codec (A * B) :=
  Codec (λ p, enc c p.1 ++ enc d p.2)
    (λ b, '(x, r) ← dec c b; '(y, r) ← dec d r; Some ((x, y), r)).
(** A type written as another one: through [f], read back through [g]. *)
Definition c_iso {A B} (f : B → A) (g : A → B) (c : codec A) : codec B :=
  Codec (λ y, enc c (f y)) (λ b, '(x, r) ← dec c b; Some (g x, r)).
(** Sequences (Vec, and the entries of sets and maps): length as u64, then the items. *)
Fixpoint dec_items {A} (c : codec A) (n : nat) (b : list N) : option (list A * list N) :=
  match n with
  | O => Some ([], b)
  | S n => '(x, r) ← dec c b; '(l, r) ← dec_items c n r; Some (x :: l, r)
  end.
Definition c_list {A} (c : codec A) : codec (list A) :=
  Codec (λ l, enc c_usize (length l) ++ (l ≫= enc c))
    (λ b, '(n, r) ← dec c_usize b; dec_items c n r).
(** String: length as u64, then the bytes; reading fails unless they are valid UTF-8 (Utf8.v). *)
Definition c_string : codec (list N) :=
  Codec (enc (c_list (c_uint 1))) (λ b, '(s, r) ← dec (c_list (c_uint 1)) b; if utf8 s then Some (s, r) else None).

(** ** The file system: a partial map from paths to contents. Input/output errors other than
    a missing file are not modelled. *)
Notation fs := (gmap string (list N)).
(** File::create truncates or creates; a write appends. *)
Inductive fsop := FCreate (f : string) | FWrite (f : string) (b : list N).
Definition fs_step (F : fs) (o : fsop) : fs :=
  match o with
  | FCreate f => <[f := []]> F
  | FWrite f b => <[f := default [] (F !! f) ++ b]> F
  end.
Definition fs_run (F : fs) (ops : list fsop) : fs := foldl fs_step F ops.
