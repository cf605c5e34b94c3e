(** Model of the three Index implementations of TypedMemoryMap (src/io/mmap.rs l.68-96) at the
    level of the addresses handed to slice::from_raw_parts, and of with_mmap (l.56-65). The
    code there is unsafe: nothing compares these addresses with the size of the map. *)
From stdpp Require Import gmap strings.
From Verif Require Import Base Bytes Mmap.

(** The first byte and the number of items of a slice. *)
Record span := Span { sp_start : N; sp_count : N }.

(** Arithmetic on usize: with overflow checks (debug builds) a panic, without them (release
    builds) modulo 2^64. *)
Definition usize_card : N := id_card TUsize.
Definition mul_usize (checks : bool) (a b : N) : res N :=
  if checks && (usize_card <=? a * b)%N then Panic else Ok (a * b mod usize_card)%N.
Definition sub_usize (checks : bool) (a b : N) : res N :=
  if (b <=? a)%N then Ok (a - b)%N else if checks then Panic else Ok (usize_card + a - b)%N.

(** TypedMemoryMap::with_mmap, l.56-65, for a map of the bytes [b]; it panics, dividing by the
    size of the type, for the type (). *)
Definition tm_with_mmap (t : idty) (b : list N) : res tmap :=
  if decide (id_size t = 0) then Panic else Ok (TMap b (length b / id_size t) (id_size t)).
(** Index<RangeFull>, l.68-74. *)
Definition span_full (m : tmap) : span := Span 0 (N.of_nat (tm_len m)).
(** Index<RangeFrom<usize>>, l.76-88. *)
Definition span_from (checks : bool) (m : tmap) (i : N) : res span :=
  let* s := mul_usize checks i (N.of_nat (tm_type_len m)) in
  let* c := sub_usize checks (N.of_nat (tm_len m)) i in
  Ok (Span s c).
(** Index<RangeTo<usize>>, l.90-96. *)
Definition span_to (m : tmap) (j : N) : span := Span 0 j.
(** What the slice contains when it lies in the map. *)
Definition span_items (m : tmap) (s : span) : list N :=
  raw_items (tm_type_len m) (N.to_nat (sp_count s)) (drop (N.to_nat (sp_start s)) (tm_map m)).
