(** Model of src/algorithm/bfs.rs and src/algorithm/dfs.rs, over any
    implementation of the graph traits (a [gview]); [idt] is the node id type. *)
From Verif Require Import Base Api.

(** The fixedbitset crate: FixedBitSet is a length and the set of one-bits. *)
Record fbs := Fbs { fb_len : N; fb_ones : gset N }.
(** FixedBitSet::with_capacity: all zeros. *)
Definition fb_with_capacity (len : N) : fbs := Fbs len ∅.
(** FixedBitSet::insert_range(..): all ones. *)
Definition fb_insert_all (b : fbs) : fbs :=
  Fbs (fb_len b) (list_to_set (N.of_nat <$> seq 0 (N.to_nat (fb_len b)))).
(** FixedBitSet::clear: all zeros. *)
Definition fb_clear (b : fbs) : fbs := Fbs (fb_len b) ∅.
(** FixedBitSet::set(i, false): asserts that [i] is in range. *)
Definition fb_set_false (i : N) (b : fbs) : res fbs :=
  if decide (i < fb_len b)%N then Ok (Fbs (fb_len b) (fb_ones b ∖ {[i]})) else Panic.
(** FixedBitSet::contains: false when out of range. *)
Definition fb_contains (b : fbs) (i : N) : bool := bool_decide (i ∈ fb_ones b).

(** The state of a Bfs (bfs.rs l.60-67) or Dfs (dfs.rs l.59-66) iterator: the nodes to
    visit next and the bit set [discovered], in which a one means not discovered.
    The head of [t_todo] is the front of Bfs's queue and the top of Dfs's stack. *)
Record tstate := TState { t_todo : list N; t_disc : fbs }.
(** Dfs::from_parts, dfs.rs l.77-87: the last element of the vector is the top of the stack. *)
Definition dfs_from_parts (stack : list N) (discovered : fbs) : tstate := TState (reverse stack) discovered.

Section traverse.
  Context {NL EL : Type} (idt : idty) (V : gview NL EL).

  (** A bit set with one bit per id up to max_seen_id, all ones: bfs.rs l.72-76,
      dfs.rs l.91-93. [id() + 1] is taken without overflow. *)
  Definition undiscovered_all : res fbs :=
    let* om := v_max_seen_id V in
    let* m := unwrap om in
    Ok (fb_insert_all (fb_with_capacity (m + 1))).

  (** next_unvisited_node, bfs.rs l.125-132 and dfs.rs l.132-139. *)
  Definition next_unvisited (d : fbs) : option N :=
    let fix go (l : list N) : option N :=
      match l with
      | [] => None
      | x :: l' => let id := id_new idt (N.to_nat x) in
                   if v_has_node V id then Some id else go l'
      end in
    go (bs_iter (fb_ones d)).

  (** Bfs::new, bfs.rs l.71-100. *)
  Definition bfs_new (start : option N) : res tstate :=
    let* d := undiscovered_all in
    match start with
    | Some s =>
        if v_has_node V s then let* d := fb_set_false s d in Ok (TState [s] d) else Panic
    | None =>
        if decide (v_node_count V = 0) then Panic
        else let* id := unwrap (head (v_node_indices V)) in
             let* d := fb_set_false id d in Ok (TState [id] d)
    end.
  (** Bfs::next, bfs.rs l.103-122. *)
  Definition bfs_next (st : tstate) : res (option N * tstate) :=
    let* st :=
      match t_todo st with
      | [] => match next_unvisited (t_disc st) with
              | Some id => let* d := fb_set_false id (t_disc st) in Ok (TState [id] d)
              | None => Ok st
              end
      | _ => Ok st
      end in
    match t_todo st with
    | [] => Ok (None, st)
    | cur :: queue =>
        let* nbrs := v_neighbors V cur in
        let* st := rfold (λ st n,
          if fb_contains (t_disc st) n then
            let* d := fb_set_false n (t_disc st) in Ok (TState (t_todo st ++ [n]) d)
          else Ok st) nbrs (TState queue (t_disc st)) in
        Ok (Some cur, st)
    end.

  (** Dfs::with_capacity, dfs.rs l.90-100. *)
  Definition dfs_with_capacity : res tstate :=
    let* d := undiscovered_all in Ok (TState [] d).
  (** Dfs::move_to, dfs.rs l.142-161. *)
  Definition dfs_move_to (start : option N) (st : tstate) : res tstate :=
    match start with
    | Some s =>
        if v_has_node V s then let* d := fb_set_false s (t_disc st) in Ok (TState [s] d) else Panic
    | None =>
        if decide (v_node_count V = 0) then Panic
        else let* id := unwrap (head (v_node_indices V)) in
             let* d := fb_set_false id (t_disc st) in Ok (TState [id] d)
    end.
  (** Dfs::new, dfs.rs l.70-74. *)
  Definition dfs_new (start : option N) : res tstate :=
    let* st := dfs_with_capacity in dfs_move_to start st.
  (** Dfs::reset, dfs.rs l.103-107. *)
  Definition dfs_reset (st : tstate) : tstate := TState [] (fb_insert_all (fb_clear (t_disc st))).
  (** Dfs::next, dfs.rs l.110-129. *)
  Definition dfs_next (st : tstate) : res (option N * tstate) :=
    let* st :=
      match t_todo st with
      | [] => match next_unvisited (t_disc st) with
              | Some id => let* d := fb_set_false id (t_disc st) in Ok (TState [id] d)
              | None => Ok st
              end
      | _ => Ok st
      end in
    match t_todo st with
    | [] => Ok (None, st)
    | cur :: stack =>
        let* nbrs := v_neighbors V cur in
        let* st := rfold (λ st n,
          if fb_contains (t_disc st) n then
            let* d := fb_set_false n (t_disc st) in Ok (TState (n :: t_todo st) d)
          else Ok st) nbrs (TState stack (t_disc st)) in
        Ok (Some cur, st)
    end.

  (** [for n in iterator]: call next until it returns None, at most [fuel] times. *)
  Fixpoint drain (next : tstate → res (option N * tstate)) (fuel : nat) (st : tstate) : res (list N) :=
    match fuel with
    | 0 => NoFuel
    | S fuel =>
        let* '(o, st') := next st in
        match o with
        | None => Ok []
        | Some x => rmap (cons x) (drain next fuel st')
        end
    end.
  Definition bfs_run (fuel : nat) (start : option N) : res (list N) :=
    let* st := bfs_new start in drain bfs_next fuel st.
  Definition dfs_run (fuel : nat) (start : option N) : res (list N) :=
    let* st := dfs_new start in drain dfs_next fuel st.
End traverse.
