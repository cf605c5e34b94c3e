(** Model of src/algorithm/conn_comp.rs: union-find with path halving. Queries take
    [&self] but compress paths through a RefCell, so they return a new state. *)
From Verif Require Import Base Api SpecConn.

(** struct ConnComp, conn_comp.rs l.59-65. *)
Record ccomp := CC { cc_parent : gmap N N; cc_count : nat }.
(** ConnComp::empty and with_capacity, l.80-90. *)
Definition cc_empty : ccomp := CC ∅ 0.

(** get_root, l.140-154: the loop, at most [fuel] rounds. [parent()[&node]] panics
    when the key is missing. *)
Fixpoint root_loop (fuel : nat) (m : gmap N N) (node : N) : res (option N * gmap N N) :=
  match fuel with
  | 0 => NoFuel
  | S fuel =>
      if decide (m !! node = Some node) then
        Ok (match m !! node with Some _ => Some node | None => None end, m)
      else
        let* p := unwrap (m !! node) in
        let* pp := unwrap (m !! p) in
        root_loop fuel (<[node := pp]> m) pp
  end.
(** A path visits each key at most once: [S (size m)] rounds are enough (proved: the
    result is never NoFuel). *)
Definition cc_get_root (n : N) (c : ccomp) : res (option N * ccomp) :=
  let* '(o, m) := root_loop (S (size (cc_parent c))) (cc_parent c) n in
  Ok (o, CC m (cc_count c)).

(** process_new_edge, l.107-128. *)
Definition cc_see (x : N) (c : ccomp) : ccomp :=
  match cc_parent c !! x with
  | Some _ => c
  | None => CC (<[x := x]> (cc_parent c)) (S (cc_count c))
  end.
Definition cc_process (x y : N) (c : ccomp) : res ccomp :=
  let c := cc_see y (cc_see x c) in
  let* '(o, c) := cc_get_root x c in
  let* x_root := unwrap o in
  let* '(o, c) := cc_get_root y c in
  let* y_root := unwrap o in
  if decide (x_root = y_root) then Ok c
  else let* n := usub (cc_count c) 1 in
       Ok (CC (<[x_root := y_root]> (cc_parent c)) n).

(** get_parent, l.131-137. *)
Definition cc_get_parent (n : N) (c : ccomp) : option N := cc_parent c !! n.
(** is_connected, l.157-163. *)
Definition cc_is_connected (a b : N) (c : ccomp) : res (bool * ccomp) :=
  match cc_parent c !! a, cc_parent c !! b with
  | Some _, Some _ =>
      let* '(ra, c) := cc_get_root a c in
      let* '(rb, c) := cc_get_root b c in
      Ok (bool_decide (ra = rb), c)
  | _, _ => Ok (false, c)
  end.
(** reset, l.166-169. *)
Definition cc_reset (c : ccomp) : ccomp := CC ∅ 0.
(** get_count, l.172-174. *)
Definition cc_get_count (c : ccomp) : nat := cc_count c.
(** get_connected_nodes, l.177-196; [keys] is the order in which the HashMap yields
    its keys. *)
Definition cc_get_connected_nodes (keys : list N) (n : N) (c : ccomp) : res (option (list N) * ccomp) :=
  match cc_parent c !! n with
  | None => Ok (None, c)
  | Some _ =>
      let* '(root, c) := cc_get_root n c in
      let* '(result, c) := rfold (λ '(result, c) k,
        let* '(rk, c) := cc_get_root k c in
        Ok (if decide (rk = root) then result ++ [k] else result, c)) keys ([], c) in
      Ok (Some result, c)
  end.
(** run_detection, l.98-104, and new, l.70-77. *)
Definition cc_run_detection {NL EL} (V : gview NL EL) (c : ccomp) : res ccomp :=
  let* es := v_edges V in
  rfold (λ c e, cc_process e.1.1 e.1.2 c) es c.
Definition cc_new {NL EL} (V : gview NL EL) : res ccomp := cc_run_detection V cc_empty.

(** Histories of calls (SpecConn.v). *)
Definition cc_step (o : ccop) (c : ccomp) : res ccomp :=
  match o with
  | CEdge x y => cc_process x y c
  | CRoot n => rmap snd (cc_get_root n c)
  | CConnected a b => rmap snd (cc_is_connected a b c)
  | CNodes keys n => rmap snd (cc_get_connected_nodes keys n c)
  | CReset => Ok (cc_reset c)
  end.
Definition cc_run (h : list ccop) (c : ccomp) : res ccomp := rfold (λ c o, cc_step o c) h c.
