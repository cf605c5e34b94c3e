(** What a number and a row of a CSV file mean, read off the file format. *)
From Coq Require Import Ascii.
From stdpp Require Import gmap strings.
From Verif Require Import Base Api Spec SpecSerde Csv.

(** [s] is the number [x] in decimal: an optional + and at least one digit. *)
Definition digit_of (d : N) (c : ascii) : Prop := String.get (N.to_nat d) "0123456789" = Some c.
Definition decimal (s : string) (x : N) : Prop :=
  ∃ ds cs, ds ≠ [] ∧ Forall2 digit_of ds cs ∧ x = foldl (λ v d, (10 * v + d)%N) 0%N ds ∧
    (s = string_of_list_ascii cs ∨ s = String "+" (string_of_list_ascii cs)).
(** [s] is an id of type [it]. *)
Definition id_field (it : idty) (s : string) (x : N) : Prop := decimal s x ∧ in_type it x.

(** The field [f] of row [r] stands below the name [k] of the header [h]. *)
Definition in_column (h r : row) (k f : string) : Prop := ∃ j, h !! j = Some k ∧ r !! j = Some f.
(** The row has the length of the header, or lengths do not matter. *)
Definition right_length (flexible : bool) (k : nat) (r : row) : Prop := flexible = true ∨ length r = k.
(** The label below [k]: one that is empty, absent or no label text counts as no label. *)
Definition label_below {A} (t : text A) (h r : row) (k : string) (l : option A) : Prop :=
  ∀ x, l = Some x ↔ ∃ f, in_column h r k f ∧ f ≠ ""%string ∧ parse t f = Some x.
(** The row [r] below the header [h] says: node [n], label [l]. *)
Definition node_line {A} (it : idty) (t : text A) (flexible : bool) (h r : row) (n : N) (l : option A) : Prop :=
  right_length flexible (length h) r ∧ NoDup h ∧ (∀ k, k ∈ h → k = "nodeId:ID" ∨ k = ":LABEL")%string ∧
  (∃ f, in_column h r "nodeId:ID" f ∧ id_field it f n) ∧ label_below t h r ":LABEL" l.
(** The row [r] below the header [h] says: edge from [x] to [y], label [l]. *)
Definition edge_line {A} (it : idty) (t : text A) (flexible : bool) (h r : row) (x y : N) (l : option A) : Prop :=
  right_length flexible (length h) r ∧ NoDup h ∧ (∀ k, k ∈ h → k = ":START_ID" ∨ k = ":END_ID" ∨ k = ":TYPE")%string ∧
  (∃ f, in_column h r ":START_ID" f ∧ id_field it f x) ∧ (∃ f, in_column h r ":END_ID" f ∧ id_field it f y) ∧
  label_below t h r ":TYPE" l.
(** The same without header: columns have fixed places, and an empty field is parsed as a label. *)
Definition label_in_place {A} (t : text A) (r : row) (j : nat) (l : option A) : Prop :=
  ∀ x, l = Some x ↔ ∃ f, r !! j = Some f ∧ parse t f = Some x.
Definition bare_node_line {A} (it : idty) (t : text A) (r : row) (n : N) (l : option A) : Prop :=
  (∃ f, r !! 0 = Some f ∧ id_field it f n) ∧ label_in_place t r 1 l.
Definition bare_edge_line {A} (it : idty) (t : text A) (r : row) (x y : N) (l : option A) : Prop :=
  (∃ f, r !! 0 = Some f ∧ id_field it f x) ∧ (∃ f, r !! 1 = Some f ∧ id_field it f y) ∧ label_in_place t r 2 l.

(** [items] are the readings of those rows of [rows] that have one, in order. *)
Inductive readings {B} (means : row → B → Prop) : table → list B → Prop :=
  | r_end : readings means [] []
  | r_read r rows x items : means r x → readings means rows items → readings means (r :: rows) (x :: items)
  | r_skip r rows items : (∀ x, ¬ means r x) → readings means rows items → readings means (r :: rows) items.
