(** Model of src/map/set_map.rs and src/map/vec_map.rs.

    A SetMap wraps an [IndexSet], modelled by the list of its items in
    insertion order; hashing inside IndexSet is trusted. A VecMap is a Vec. *)
From Verif Require Import Base.

Section maps.
  Context {L : Type} `{EqDecision L}.

  (** ** SetMap *)
  (** IndexSet::contains *)
  Definition is_contains (m : list L) (x : L) : bool := bool_decide (x ∈ m).
  (** IndexSet::get_full, first component: the index of the item. *)
  Fixpoint is_get_full (m : list L) (x : L) : option nat :=
    match m with
    | [] => None
    | y :: m' => if decide (x = y) then Some 0 else S <$> is_get_full m' x
    end.
  (** IndexSet::insert: no effect when already present. *)
  Definition is_insert (m : list L) (x : L) : list L :=
    if is_contains m x then m else m ++ [x].

  (** SetMap::new, set_map.rs l.41 (also with_capacity l.47, clear l.64). *)
  Definition sm_new : list L := [].
  (** SetMap::from_vec, set_map.rs l.58: collect into an IndexSet. *)
  Definition sm_from_vec (v : list L) : list L := foldl is_insert [] v.
  (** SetMap::get_item, set_map.rs l.78. *)
  Definition sm_get_item (m : list L) (i : nat) : option L := m !! i.
  (** SetMap::find_index, set_map.rs l.84. *)
  Definition sm_find_index (m : list L) (x : L) : option nat := is_get_full m x.
  (** SetMap::contains, set_map.rs l.93. *)
  Definition sm_contains (m : list L) (x : L) : bool := is_contains m x.
  (** SetMap::items / items_vec, set_map.rs l.98-105. *)
  Definition sm_items (m : list L) : list L := m.
  (** SetMap::len, set_map.rs l.109. *)
  Definition sm_len (m : list L) : nat := length m.
  (** SetMap::add_item, set_map.rs l.117-125; returns (index, new map). The
      [unwrap] of get_full and the subtraction [len - 1] are explicit. *)
  Definition sm_add_item (m : list L) (x : L) : res (nat * list L) :=
    if is_contains m x
    then rmap (λ i, (i, m)) (unwrap (is_get_full m x))
    else let m' := is_insert m x in rmap (λ i, (i, m')) (usub (sm_len m') 1).
  (** SetMap::pop_item, set_map.rs l.129; removes the last item. *)
  Definition sm_pop_item (m : list L) : option L * list L :=
    (last m, take (length m - 1) m).
  (** FromIterator for SetMap, set_map.rs l.142-151. *)
  Definition sm_from_iter (v : list L) : res (list L) :=
    rfold (λ m x, rmap snd (sm_add_item m x)) v sm_new.
  (** derived PartialEq, set_map.rs l.32, on IndexSet: equal length and every
      item of one contained in the other. *)
  Definition sm_eq (m m' : list L) : bool :=
    bool_decide (length m = length m') && forallb (is_contains m') m.
  (** Hash, set_map.rs l.134-140: the sequence of items fed to the hasher. *)
  Definition sm_hash_feed (m : list L) : list L := sm_items m.

  (** ** VecMap *)
  (** VecMap::new, vec_map.rs l.41 (also with_capacity, clear). *)
  Definition vm_new : list L := [].
  (** VecMap::with_data, vec_map.rs l.53. *)
  Definition vm_with_data (v : list L) : list L := v.
  (** VecMap::get_item, vec_map.rs l.75. *)
  Definition vm_get_item (m : list L) (i : nat) : option L := m !! i.
  (** VecMap::find_index, vec_map.rs l.81-89: first equal element; [i] is the
      enumerate counter. *)
  Fixpoint vm_find_from (m : list L) (x : L) (i : nat) : option nat :=
    match m with
    | [] => None
    | e :: m' => if decide (e = x) then Some i else vm_find_from m' x (S i)
    end.
  Definition vm_find_index (m : list L) (x : L) : option nat := vm_find_from m x 0.
  (** VecMap::contains, vec_map.rs l.93. *)
  Definition vm_contains (m : list L) (x : L) : bool := bool_decide (is_Some (vm_find_index m x)).
  (** VecMap::items / items_vec, vec_map.rs l.98-105. *)
  Definition vm_items (m : list L) : list L := m.
  (** VecMap::len, vec_map.rs l.109. *)
  Definition vm_len (m : list L) : nat := length m.
  (** VecMap::add_item, vec_map.rs l.117-126. *)
  Definition vm_add_item (m : list L) (x : L) : res (nat * list L) :=
    match vm_find_index m x with
    | Some i => Ok (i, m)
    | None => let m' := m ++ [x] in rmap (λ i, (i, m')) (usub (vm_len m') 1)
    end.
  (** VecMap::pop_item, vec_map.rs l.130. *)
  Definition vm_pop_item (m : list L) : option L * list L :=
    (last m, take (length m - 1) m).
  (** FromIterator for VecMap, vec_map.rs l.135-145. *)
  Definition vm_from_iter (v : list L) : res (list L) :=
    rfold (λ m x, rmap snd (vm_add_item m x)) v vm_new.
  (** From<Vec>, vec_map.rs l.147-157. *)
  Definition vm_from_vec (v : list L) : list L := vm_with_data v.
  (** derived PartialEq and Hash of VecMap, vec_map.rs l.31: those of Vec (the
      hasher is fed the length and then the items). *)
  Definition vm_eq (m m' : list L) : bool := bool_decide (m = m').
  Definition vm_hash_feed (m : list L) : nat * list L := (length m, m).

  (** ** Conversions *)
  (** From<SetMap> for VecMap, vec_map.rs l.159-173. *)
  Definition vm_from_setmap (m : list L) : list L := vm_with_data (sm_items m).
  (** From<VecMap> for SetMap, set_map.rs l.168-180. *)
  Definition sm_from_vecmap (m : list L) : list L := sm_from_vec (vm_items m).

  (** ** Histories of map operations *)
  Inductive map_op := MAdd (x : L) | MPop | MClear.
  Inductive map_out := MIdx (i : nat) | MItem (o : option L) | MUnit.

  Definition sm_step (m : list L) (o : map_op) : res (map_out * list L) :=
    match o with
    | MAdd x => rmap (λ p, (MIdx p.1, p.2)) (sm_add_item m x)
    | MPop => let p := sm_pop_item m in Ok (MItem p.1, p.2)
    | MClear => Ok (MUnit, [])
    end.
  Definition vm_step (m : list L) (o : map_op) : res (map_out * list L) :=
    match o with
    | MAdd x => rmap (λ p, (MIdx p.1, p.2)) (vm_add_item m x)
    | MPop => let p := vm_pop_item m in Ok (MItem p.1, p.2)
    | MClear => Ok (MUnit, [])
    end.
  (** Run a history from a state, collecting every return value. *)
  Fixpoint run_map (step : list L → map_op → res (map_out * list L))
      (m : list L) (h : list map_op) : res (list map_out * list L) :=
    match h with
    | [] => Ok ([], m)
    | o :: h' =>
      let* '(r, m') := step m o in
      rmap (λ p, (r :: p.1, p.2)) (run_map step m' h')
    end.
End maps.
Arguments map_op : clear implicits.
Arguments map_out : clear implicits.
