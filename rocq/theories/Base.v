(** Base definitions shared by the whole model: outcomes of Rust code, the id
    types, and iteration over B-trees.

    Simplifications that hold everywhere: [usize] counters and lengths are
    unbounded [nat] unless a function is about truncation; node and label ids
    are [N] and are truncated explicitly where the code truncates. *)
From Coq Require Export NArith Lia.
From stdpp Require Export gmap sorting list numbers strings.
From stdpp Require Export fin_sets fin_maps fin_map_dom.

(** ** Outcomes of running Rust code
    [Panic] is a Rust panic (unwrap on None, assert!, arithmetic overflow in a
    debug build, index out of bounds). [NoFuel] is used only by loops modelled
    with explicit fuel and means "not finished yet". *)
Inductive res (A : Type) : Type :=
  | Ok (a : A)
  | Panic
  | NoFuel.
Arguments Ok {A} a.
Arguments Panic {A}.
Arguments NoFuel {A}.

Definition rbind {A B} (f : A → res B) (r : res A) : res B :=
  match r with Ok a => f a | Panic => Panic | NoFuel => NoFuel end.
Definition rmap {A B} (f : A → B) (r : res A) : res B :=
  match r with Ok a => Ok (f a) | Panic => Panic | NoFuel => NoFuel end.
(** [for x in l { s = f(s, x) }] where the body may panic. *)
Fixpoint rfold {S A} (f : S → A → res S) (l : list A) (s : S) : res S :=
  match l with
  | [] => Ok s
  | x :: l' => rbind (rfold f l') (f s x)
  end.
(** [l.map(f)] collected into a vector, where [f] may panic. *)
Fixpoint rmapl {A B} (f : A → res B) (l : list A) : res (list B) :=
  match l with
  | [] => Ok []
  | x :: l' => rbind (λ y, rmap (cons y) (rmapl f l')) (f x)
  end.
(** [Option::unwrap]. *)
Definition unwrap {A} (o : option A) : res A :=
  match o with Some a => Ok a | None => Panic end.
(** [usize] subtraction, checked for underflow. *)
Definition usub (a b : nat) : res nat :=
  if decide (b ≤ a) then Ok (a - b) else Panic.

Notation "'let*' x ':=' r 'in' k" := (rbind (λ x, k) r)
  (at level 200, x name, r at level 100, k at level 200, right associativity).
Notation "'let*' ' p ':=' r 'in' k" := (rbind (λ p, k) r)
  (at level 200, p strict pattern, r at level 100, k at level 200, right associativity).

#[export] Instance res_eq_dec {A} `{EqDecision A} : EqDecision (res A).
Proof. solve_decision. Defined.

(** ** Id types: src/generic/dtype.rs l.64-126 *)
Inductive idty := TUnit | TU8 | TU16 | TU32 | TUsize.
#[export] Instance idty_eq_dec : EqDecision idty.
Proof. solve_decision. Defined.

(** Number of values of the type ([usize] is 64 bits). *)
Definition id_card (t : idty) : N :=
  match t with
  | TUnit => 1
  | TU8 => 256
  | TU16 => 65536
  | TU32 => 4294967296
  | TUsize => 18446744073709551616
  end%N.
(** IdType::new, dtype.rs l.76 and l.102: [x as $type], truncating. *)
Definition id_new (t : idty) (x : nat) : N := (N.of_nat x `mod` id_card t)%N.
(** IdType::id, dtype.rs l.80 and l.106. *)
Definition id_id (x : N) : nat := N.to_nat x.
(** IdType::max_value, dtype.rs l.84 and l.110. *)
Definition id_max (t : idty) : N := (id_card t - 1)%N.
(** IdType::increment, dtype.rs l.92 and l.118: [*self + 1], overflow checked
    (debug build); the unit type returns itself. *)
Definition id_incr (t : idty) (x : N) : res N :=
  match t with
  | TUnit => Ok 0%N
  | _ => if decide (x + 1 < id_card t)%N then Ok (x + 1)%N else Panic
  end.
(** std::mem::size_of of the type. *)
Definition id_size (t : idty) : nat :=
  match t with TUnit => 0 | TU8 => 1 | TU16 => 2 | TU32 => 4 | TUsize => 8 end.

(** ** B-tree iteration (std::collections::BTreeMap/BTreeSet)
    A BTreeMap<Id, A> is a finite map iterated in increasing key order. *)
Definition key_le {A} (x y : N * A) : Prop := (x.1 ≤ y.1)%N.
#[export] Instance key_le_dec {A} : RelDecision (@key_le A).
Proof. intros x y. unfold key_le. apply _. Defined.

(** BTreeMap::iter *)
Definition bt_iter {A} (m : gmap N A) : list (N * A) := merge_sort key_le (map_to_list m).
(** BTreeMap::keys *)
Definition bt_keys {A} (m : gmap N A) : list N := (bt_iter m).*1.
(** BTreeMap::range(k..) *)
Definition bt_range_from {A} (k : N) (m : gmap N A) : list (N * A) :=
  filter (λ p, (k ≤ p.1)%N) (bt_iter m).
(** BTreeSet::iter *)
Definition bs_iter (s : gset N) : list N := merge_sort N.le (elements s).
