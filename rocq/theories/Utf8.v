(** String::from_utf8 of the standard library, which serde calls when it reads a String (bincode, src/io/serde.rs l.65-76): which bytes are accepted, stated
    from the documentation of core::str (the well-formed byte sequences of the Unicode standard, table 3-7). *)
From stdpp Require Import list.
From Coq Require Import NArith.
Local Open Scope N_scope.

Definition between (a b x : N) : bool := (a <=? x) && (x <=? b).
(** A continuation byte. *)
Definition cont (x : N) : bool := between 128 191 x.
Fixpoint utf8 (s : list N) : bool :=
  match s with
  | [] => true
  | a :: s =>
      if a <? 128 then utf8 s else
      match s with
      | [] => false
      | b :: s =>
          if between 194 223 a then cont b && utf8 s else
          match s with
          | [] => false
          | c :: s =>
              if a =? 224 then between 160 191 b && cont c && utf8 s
              else if between 225 236 a || between 238 239 a then cont b && cont c && utf8 s
              else if a =? 237 then between 128 159 b && cont c && utf8 s
              else
                match s with
                | [] => false
                | d :: s =>
                    if a =? 240 then between 144 191 b && cont c && cont d && utf8 s
                    else if between 241 243 a then cont b && cont c && cont d && utf8 s
                    else if a =? 244 then between 128 143 b && cont c && cont d && utf8 s
                    else false
                end
          end
      end
  end.
