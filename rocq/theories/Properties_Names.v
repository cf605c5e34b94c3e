(** C105: names of implementations and the id types. [impl_from_str]: Names.v; [id_new], [id_id], [id_max], [id_incr]: Base.v. Vocabulary: SpecNames.v (spelled), SpecSerde.v (in_type). *)
From Coq Require Import Ascii.
From stdpp Require Import strings.
From Verif Require Import Base SpecSerde SpecNames Names NamesProps.

(** ** C105. Exactly the three names are accepted, in any mixture of upper and lower case. *)
Theorem C105_names s : (impl_from_str s = Some IGraphMap ↔ spelled "graphmap" s) ∧ (impl_from_str s = Some IStaticGraph ↔ spelled "staticgraph" s) ∧
  (impl_from_str s = Some IStaicGraphMmap ↔ spelled "staticgraphmmap" s).
Proof. exact (from_str_ok s). Qed.
Print Assumptions C105_names.
Example C105_names_case : impl_from_str "GraphMap" = Some IGraphMap ∧ spelled "graphmap" "GraphMap" ∧ impl_from_str "StaticGraphMmap" = Some IStaicGraphMmap ∧
  impl_from_str "StaicGraphMmap" = None ∧ impl_from_str "graphmap " = None.
Proof. split; [by vm_compute|]. split; [by apply from_str_ok; vm_compute|]. by vm_compute. Qed.
(** A value goes through usize and back unchanged, a number goes through the id type modulo its size. *)
Theorem C105_ids (t : idty) :
  (∀ x, in_type t x → id_new t (id_id x) = x) ∧
  (∀ n, in_type t (id_new t n) ∧ (N.of_nat (id_id (id_new t n)) = N.of_nat n mod id_card t)%N ∧ (id_id (id_new t n) = n ↔ (N.of_nat n ≤ id_max t)%N)) ∧
  (∀ x, in_type t x ↔ (x ≤ id_max t)%N) ∧
  (t ≠ TUnit → ∀ x, in_type t x → id_incr t x = if bool_decide (x = id_max t) then Panic else Ok (x + 1)%N).
Proof. exact (id_facts t). Qed.
Print Assumptions C105_ids.
Example C105_ids_case : in_type TU8 255 ∧ id_incr TU8 255 = Panic ∧ id_incr TU16 255 = Ok 256%N ∧ id_new TU8 300 = 44%N ∧ id_new TUnit 5 = 0%N ∧ in_type TUnit 0.
Proof. by vm_compute. Qed.
