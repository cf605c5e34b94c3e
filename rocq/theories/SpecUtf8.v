(** UTF-8. *)
From stdpp Require Import list.
From Coq Require Import NArith.
Local Open Scope N_scope.

(** Unicode scalar values: the code points except the surrogates. *)
Definition scalar (c : N) : Prop := c < 55296 ∨ (57344 ≤ c ∧ c < 1114112).
(** The bytes of a character. *)
Definition utf8_char (c : N) : list N :=
  if c <? 128 then [c]
  else if c <? 2048 then [192 + c / 64; 128 + c mod 64]
  else if c <? 65536 then [224 + c / 4096; 128 + c / 64 mod 64; 128 + c mod 64]
  else [240 + c / 262144; 128 + c / 4096 mod 64; 128 + c / 64 mod 64; 128 + c mod 64].
(** [utf8_text s]: the bytes [s] are those of a sequence of characters. *)
Definition utf8_text (s : list N) : Prop := ∃ cs, Forall scalar cs ∧ s = cs ≫= utf8_char.
