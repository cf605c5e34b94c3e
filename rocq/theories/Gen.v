(** Model of the graph generators: src/graph_gen/{general,helper,random}.rs.
    The random number generator is an oracle: [rng] fixes the value of every draw, and the
    number of draws made so far is threaded through the code. Theorems quantify over all [rng].
    TypedGraphMap<Id, NL, EL, Ty> leaves the label id type at its default, the node id type
    (graph_map/graph.rs l.74), so both are [idt]. *)
From stdpp Require Import gmap.
From Coq.Floats Require Import SpecFloat.
From Verif Require Import Base Api Map GraphMap.

(** thread_rng() of the rand crate (0.5.5): the k-th integer and the k-th float drawn. *)
Record rng := Rng { rng_int : nat → nat; rng_f32 : nat → spec_float }.
(** rng.gen_range(0, len) for a positive [len]. *)
Definition gen_range (R : rng) (k len : nat) : nat * nat := (rng_int R k mod len, S k).
(** rng.gen_range(0f32, 1f32). *)
Definition gen_f32 (R : rng) (k : nat) : spec_float * nat := (rng_f32 R k, S k).

(** (0..n).tuple_combinations() of itertools for pairs: (0,1), (0,2), ..., (1,2), ... *)
Definition tuple_combinations (n : nat) : list (nat * nat) :=
  seq 0 n ≫= λ i, (λ j, (i, j)) <$> seq (S i) (n - S i).
(** complete_edge_pairs, helper.rs l.29-42. *)
Definition complete_edge_pairs (dir : bool) (n : nat) : list (nat * nat) :=
  if dir then tuple_combinations n ≫= λ p, [(p.1, p.2); (p.2, p.1)]
  else tuple_combinations n.

(** rand::seq::sample_iter (rand 0.5.5), reservoir sampling: the first [amount] elements,
    then each further element replaces a random slot, if the slot exists. *)
Fixpoint reservoir {X} (R : rng) (amount i : nat) (rest : list X) (k : nat) (res : list X) : list X * nat :=
  match rest with
  | [] => (res, k)
  | x :: rest =>
      let '(j, k) := gen_range R k (i + 1 + amount) in
      reservoir R amount (S i) rest k (<[j := x]> res)
  end.
Definition sample_iter {X} (R : rng) (l : list X) (amount k : nat) : option (list X) * nat :=
  let res := take amount l in
  if decide (length res = amount) then
    let '(res, k) := reservoir R amount 0 (drop amount l) k res in (Some res, k)
  else (None, k).

Section gen.
  Context {NL EL : Type} `{EqDecision NL, EqDecision EL} (dir : bool) (idt : idty) (R : rng).
  Notation graph := (graphmap NL EL).

  (** random_node_label, helper.rs l.44-63, and random_edge_label, l.65-84, on the label map. *)
  Definition random_label {X} (labels : list X) (k : nat) : option X * nat :=
    match labels with
    | [] => (None, k)
    | _ => let '(i, k) := gen_range R k (length labels) in (sm_get_item labels i, k)
    end.
  (** The body of the loop in empty_graph, general.rs l.49-52. *)
  Definition gen_node (st : nat * graph) (i : nat) : res (nat * graph) :=
    let '(k, g) := st in
    let '(label, k) := random_label (g_nlm g) k in
    let* '(_, g) := gm_add_node idt (id_new idt i) label g in
    Ok (k, g).
  (** empty_graph, general.rs l.31-55. *)
  Definition empty_graph (n : nat) (node_label : list NL) (edge_label : list EL) (k : nat) : res (nat * graph) :=
    rfold gen_node (seq 0 n) (k, gm_with_label_map (sm_from_vec node_label) (sm_from_vec edge_label)).
  (** The body shared by the loops of complete_graph (general.rs l.71-74) and
      random_gnm_graph (random.rs l.82-85). *)
  Definition gen_edge (st : nat * graph) (p : nat * nat) : res (nat * graph) :=
    let '(k, g) := st in
    let '(label, k) := random_label (g_elm g) k in
    let* '(_, g) := gm_add_edge dir idt (id_new idt p.1) (id_new idt p.2) label g in
    Ok (k, g).
  (** complete_graph, general.rs l.57-77. *)
  Definition complete_graph (n : nat) (node_label : list NL) (edge_label : list EL) : res graph :=
    let* st := empty_graph n node_label edge_label 0 in
    let* '(_, g) := rfold gen_edge (complete_edge_pairs dir n) st in
    Ok g.
  (** empty_graph_unlabeled l.79-87, complete_graph_unlabeled l.89-97. *)
  Definition empty_graph_unlabeled (n : nat) : res (nat * graph) := empty_graph n [] [] 0.
  Definition complete_graph_unlabeled (n : nat) : res graph := complete_graph n [] [].

  (** random_gnp_graph, random.rs l.34-62: f32 comparison is IEEE comparison, false on NaN. *)
  Definition gnp_edge (p : spec_float) (st : nat * graph) (e : nat * nat) : res (nat * graph) :=
    let '(k, g) := st in
    let '(x, k) := gen_f32 R k in
    if SFltb x p then gen_edge (k, g) e else Ok (k, g).
  Definition random_gnp_graph (n : nat) (p : spec_float) (node_label : list NL) (edge_label : list EL) : res graph :=
    if SFltb p (S754_zero false) || SFltb (S754_finite false 8388608 (-23)) p then Panic
    else
      let* st := empty_graph n node_label edge_label 0 in
      let* '(_, g) := rfold (gnp_edge p) (complete_edge_pairs dir n) st in
      Ok g.
  (** random_gnm_graph, random.rs l.64-91. *)
  Definition random_gnm_graph (n m : nat) (node_label : list NL) (edge_label : list EL) : res graph :=
    let* '(k, g) := empty_graph n node_label edge_label 0 in
    let '(sampled, k) := sample_iter R (complete_edge_pairs dir n) m k in
    match sampled with
    | Some edges => let* '(_, g) := rfold gen_edge edges (k, g) in Ok g
    | None => Panic
    end.
  (** random_gnp_graph_unlabeled l.93, random_gnm_graph_unlabeled l.103. *)
  Definition random_gnp_graph_unlabeled (n : nat) (p : spec_float) : res graph := random_gnp_graph n p [] [].
  Definition random_gnm_graph_unlabeled (n m : nat) : res graph := random_gnm_graph n m [] [].
End gen.
