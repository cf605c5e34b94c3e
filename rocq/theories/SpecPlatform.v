(** Specification vocabulary for machines. *)
From stdpp Require Import gmap strings.
From Verif Require Import Base Api Bytes Static Platform.

(** The arrays of a graph and the types of their items. *)
Definition ev_arrays (it lt : idty) (e : evec) : list (idty * list N) :=
  [(TUsize, N.of_nat <$> ev_offsets e); (it, ev_edges e); (lt, ev_labels e)].
Definition arrays {NL EL} (it lt : idty) (g : sgraph NL EL) : list (idty * list N) :=
  ev_arrays it lt (sg_evec g) ++ match sg_in g with Some e => ev_arrays it lt e | None => [] end ++
  match sg_labels g with Some ls => [(lt, ls)] | None => [] end.
(** Every number fits its type on the machine. *)
Definition fits_on {NL EL} (M : machine) (it lt : idty) (g : sgraph NL EL) : Prop :=
  (∀ t l x, (t, l) ∈ arrays it lt g → x ∈ l → (x < 256 ^ N.of_nat (size_on M t))%N) ∧
  (N.of_nat (sg_num_nodes g) < 256 ^ N.of_nat (m_usize M))%N ∧ (N.of_nat (sg_num_edges g) < 256 ^ N.of_nat (m_usize M))%N.
(** The type is as wide as on x86-64: the queries are modelled for that width. *)
Definition usual_width (M : machine) (t : idty) : Prop := size_on M t = id_size t.

(** A graph whose arrays are read in another way. *)
Definition reread_ev (R : idty → list N → list N) (it lt : idty) (e : evec) : evec :=
  EV (N.to_nat <$> R TUsize (N.of_nat <$> ev_offsets e)) (R it (ev_edges e)) (match ev_labels e with [] => None | ls => Some (R lt ls) end).
Definition reread {NL EL} (R : idty → list N → list N) (it lt : idty) (g : sgraph NL EL) : sgraph NL EL :=
  SGraph (sg_num_nodes g) (sg_num_edges g) (reread_ev R it lt (sg_evec g)) (reread_ev R it lt <$> sg_in g) (R lt <$> sg_labels g) (sg_nlm g) (sg_elm g).
(** The bytes of every number reversed. *)
Definition swapped (t : idty) (l : list N) : list N := (λ x, le_value (reverse (le_bytes (id_size t) x))) <$> l.
(** Every 64-bit usize read as two of 32 bits, low half first. *)
Definition halved (t : idty) (l : list N) : list N := match t with TUsize => l ≫= λ x, [x mod 2 ^ 32; x / 2 ^ 32]%N | _ => l end.
