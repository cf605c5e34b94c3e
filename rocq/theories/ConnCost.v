(** How often the loop of ConnComp::get_root goes round (conn_comp.rs l.140-154). The documentation
    of ConnComp (l.30-37) promises O(k log n) for k edges and n nodes. *)
From Verif Require Import Base Api SpecConn ConnComp.

(** The rounds of one get_root: the recursion of [root_loop], counted. *)
Fixpoint root_rounds (fuel : nat) (m : gmap N N) (node : N) : nat :=
  match fuel with
  | 0 => 0
  | S fuel =>
      if decide (m !! node = Some node) then 0
      else match m !! node with
           | Some p => match m !! p with
                       | Some pp => S (root_rounds fuel (<[node := pp]> m) pp)
                       | None => 0
                       end
           | None => 0
           end
  end.
Definition cc_rounds (n : N) (c : ccomp) : nat := root_rounds (S (size (cc_parent c))) (cc_parent c) n.
(** The calls of ConnComp.v with a counter of rounds beside the state: get_root l.140-154,
    process_new_edge l.107-128, is_connected l.157-163, get_connected_nodes l.177-196, reset l.166-169. *)
Definition t_get_root (n : N) (s : ccomp * nat) : res (option N * (ccomp * nat)) :=
  let* '(o, c) := cc_get_root n s.1 in Ok (o, (c, s.2 + cc_rounds n s.1)).
Definition t_process (x y : N) (s : ccomp * nat) : res (ccomp * nat) :=
  let s := (cc_see y (cc_see x s.1), s.2) in
  let* '(o, s) := t_get_root x s in
  let* x_root := unwrap o in
  let* '(o, s) := t_get_root y s in
  let* y_root := unwrap o in
  if decide (x_root = y_root) then Ok s
  else let* n := usub (cc_count s.1) 1 in
       Ok (CC (<[x_root := y_root]> (cc_parent s.1)) n, s.2).
Definition t_is_connected (a b : N) (s : ccomp * nat) : res (bool * (ccomp * nat)) :=
  match cc_parent s.1 !! a, cc_parent s.1 !! b with
  | Some _, Some _ =>
      let* '(ra, s) := t_get_root a s in
      let* '(rb, s) := t_get_root b s in
      Ok (bool_decide (ra = rb), s)
  | _, _ => Ok (false, s)
  end.
Definition t_get_connected_nodes (keys : list N) (n : N) (s : ccomp * nat) : res (option (list N) * (ccomp * nat)) :=
  match cc_parent s.1 !! n with
  | None => Ok (None, s)
  | Some _ =>
      let* '(root, s) := t_get_root n s in
      let* '(result, s) := rfold (λ '(result, s) k,
        let* '(rk, s) := t_get_root k s in
        Ok (if decide (rk = root) then result ++ [k] else result, s)) keys ([], s) in
      Ok (Some result, s)
  end.
Definition t_step (o : ccop) (s : ccomp * nat) : res (ccomp * nat) :=
  match o with
  | CEdge x y => t_process x y s
  | CRoot n => rmap snd (t_get_root n s)
  | CConnected a b => rmap snd (t_is_connected a b s)
  | CNodes keys n => rmap snd (t_get_connected_nodes keys n s)
  | CReset => Ok (cc_reset s.1, s.2)
  end.
Definition t_run (h : list ccop) (s : ccomp * nat) : res (ccomp * nat) := rfold (λ s o, t_step o s) h s.
