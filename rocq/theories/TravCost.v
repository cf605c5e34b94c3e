(** How much work a Bfs or Dfs iterated to its end does: Bfs::next bfs.rs l.103-122, Dfs::next
    dfs.rs l.110-129, next_unvisited_node bfs.rs l.125-132 and dfs.rs l.132-139. The words of the
    bit set without ones are skipped by FixedBitSet::ones and are not counted. *)
From Verif Require Import Base Api Traverse.

Record cost := Cost {
  c_items : list N;     (** the items of the iterator *)
  c_looks : nat;        (** rounds of the loop over the neighbours of the current node *)
  c_tests : nat;        (** calls of has_node in next_unvisited_node *)
  c_restarts : list N;  (** the items found by next_unvisited_node *)
  c_peak : nat;         (** the greatest length of the queue or stack at a call of next *)
}.
Section cost.
  Context {NL EL : Type} (idt : idty) (V : gview NL EL).

  (** The recursion of [next_unvisited], counted. *)
  Fixpoint count_tests (l : list N) : nat :=
    match l with
    | [] => 0
    | x :: l' => if v_has_node V (id_new idt (N.to_nat x)) then 1 else S (count_tests l')
    end.
  (** The recursion of [drain], with the work of every call of [next] beside its result. *)
  Fixpoint drain_cost (next : tstate → res (option N * tstate)) (fuel : nat) (st : tstate) : res cost :=
    match fuel with
    | 0 => NoFuel
    | S fuel =>
        let* '(o, st') := next st in
        let scan := match t_todo st with [] => count_tests (bs_iter (fb_ones (t_disc st))) | _ => 0 end in
        match o with
        | None => Ok (Cost [] 0 scan [] (length (t_todo st)))
        | Some x =>
            let* nbrs := v_neighbors V x in
            let* c := drain_cost next fuel st' in
            Ok (Cost (x :: c_items c) (length nbrs + c_looks c) (scan + c_tests c)
              (match t_todo st with [] => x :: c_restarts c | _ => c_restarts c end)
              (length (t_todo st) `max` c_peak c))
        end
    end.
  Definition bfs_cost (fuel : nat) (start : option N) : res cost :=
    let* st := bfs_new V start in drain_cost (bfs_next idt V) fuel st.
  Definition dfs_cost (fuel : nat) (start : option N) : res cost :=
    let* st := dfs_new V start in drain_cost (dfs_next idt V) fuel st.
End cost.
