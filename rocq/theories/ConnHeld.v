(** ConnComp while the Ref returned by parent() is alive (src/algorithm/conn_comp.rs l.93-95).
    Queries still compile, since they take [&self], but [mut_parent] (l.199-201) panics with a
    BorrowMutError. process_new_edge and reset take [&mut self] and cannot be called. *)
From Verif Require Import Base Api SpecConn ConnComp.

(** get_root, l.140-154: the two reads [parent()[..]] come before the write. *)
Definition cc_get_root_held (n : N) (c : ccomp) : res (option N) :=
  if decide (cc_parent c !! n = Some n) then Ok (Some n)
  else let* p := unwrap (cc_parent c !! n) in
       let* _ := unwrap (cc_parent c !! p) in
       Panic.
(** is_connected, l.157-163. *)
Definition cc_is_connected_held (a b : N) (c : ccomp) : res bool :=
  match cc_parent c !! a, cc_parent c !! b with
  | Some _, Some _ =>
      let* ra := cc_get_root_held a c in
      let* rb := cc_get_root_held b c in
      Ok (bool_decide (ra = rb))
  | _, _ => Ok false
  end.
(** get_connected_nodes, l.177-196. *)
Definition cc_get_connected_nodes_held (keys : list N) (n : N) (c : ccomp) : res (option (list N)) :=
  match cc_parent c !! n with
  | None => Ok None
  | Some _ =>
      let* root := cc_get_root_held n c in
      let* result := rfold (λ result k,
        let* rk := cc_get_root_held k c in
        Ok (if decide (rk = root) then result ++ [k] else result)) keys [] in
      Ok (Some result)
  end.
