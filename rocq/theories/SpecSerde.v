(** Specification vocabulary for serialisation: which model values are values of the Rust
    types (numbers in the range of their type, lengths in the range of usize), and what a
    faithful encoding is. *)
From stdpp Require Import gmap strings.
From Verif Require Import Base SpecUtf8 Bytes GraphMap Static.

Definition in_type (t : idty) (x : N) : Prop := (x < id_card t)%N.
Definition in_usize (n : nat) : Prop := (N.of_nat n < id_card TUsize)%N.
Definition opt_all {A} (P : A → Prop) (o : option A) : Prop := match o with Some x => P x | None => True end.
(** A Vec whose items satisfy P. *)
Definition vec_of {A} (P : A → Prop) (l : list A) : Prop := in_usize (length l) ∧ Forall P l.
(** A String: valid UTF-8 that fits into memory. *)
Definition is_string (s : list N) : Prop := in_usize (length s) ∧ utf8_text s.
(** A SetMap: no item twice. *)
Definition setmap_of {A} (P : A → Prop) (l : list A) : Prop := vec_of P l ∧ NoDup l.

Record typed_node (it lt : idty) (n : nodemap) : Prop := {
  tn_id : in_type it (nm_id n);
  tn_label : opt_all (in_type lt) (nm_label n);
  tn_nbrs : in_usize (size (nm_nbrs n)) ∧
    ∀ x l, nm_nbrs n !! x = Some l → in_type it x ∧ opt_all (in_type lt) l;
  tn_in : in_usize (size (nm_in n)) ∧ ∀ x, x ∈ nm_in n → in_type it x;
}.
Record typed_graph {NL EL} (it lt : idty) (PN : NL → Prop) (PE : EL → Prop) (g : graphmap NL EL) : Prop := {
  tg_nodes : in_usize (size (g_nodes g)) ∧
    ∀ x n, g_nodes g !! x = Some n → in_type it x ∧ typed_node it lt n;
  tg_count : in_usize (g_nedges g);
  tg_nlm : setmap_of PN (g_nlm g);
  tg_elm : setmap_of PE (g_elm g);
  tg_max : opt_all (in_type it) (g_max g);
}.
Record typed_evec (it lt : idty) (e : evec) : Prop := {
  te_offsets : vec_of in_usize (ev_offsets e);
  te_edges : vec_of (in_type it) (ev_edges e);
  te_labels : opt_all (vec_of (in_type lt)) (ev_label_vec e);
}.
Record typed_sgraph {NL EL} (it lt : idty) (PN : NL → Prop) (PE : EL → Prop) (g : sgraph NL EL) : Prop := {
  ts_counts : in_usize (sg_num_nodes g) ∧ in_usize (sg_num_edges g);
  ts_evec : typed_evec it lt (sg_evec g);
  ts_in : opt_all (typed_evec it lt) (sg_in g);
  ts_labels : opt_all (vec_of (in_type lt)) (sg_labels g);
  ts_nlm : setmap_of PN (sg_nlm g);
  ts_elm : setmap_of PE (sg_elm g);
}.

(** Decoding restores every encoded value and leaves what follows it ... *)
Definition restores {A} (c : codec A) (P : A → Prop) : Prop :=
  ∀ x r, P x → dec c (enc c x ++ r) = Some (x, r).
(** ... and reports an error when the encoding is cut short. *)
Definition detects_cut {A} (c : codec A) (P : A → Prop) : Prop :=
  ∀ x b, P x → b `prefix_of` enc c x → b ≠ enc c x → dec c b = None.
Definition faithful {A} (c : codec A) (P : A → Prop) : Prop := restores c P ∧ detects_cut c P.
