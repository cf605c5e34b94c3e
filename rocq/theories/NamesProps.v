(** The accepted names. *)
From Coq Require Import Ascii.
From stdpp Require Import strings.
From Verif Require Import Base SpecNames Names.

Lemma lower_letter c d : c ∈ letters.*1 → lower_char d = c ↔ d = c ∨ (c, d) ∈ letters.
Proof.
  intros Hc. assert (Forall (λ c, ∀ b0 b1 b2 b3 b4 b5 b6 b7, let d := Ascii b0 b1 b2 b3 b4 b5 b6 b7 in
    bool_decide (lower_char d = c) = bool_decide (d = c) || bool_decide ((c, d) ∈ letters)) letters.*1) as HF.
  { repeat (constructor; [by intros [] [] [] [] [] [] [] []; vm_compute|]). constructor. }
  rewrite Forall_forall in HF. specialize (HF c Hc). destruct d as [b0 b1 b2 b3 b4 b5 b6 b7]. specialize (HF b0 b1 b2 b3 b4 b5 b6 b7). cbn zeta in HF.
  rewrite <-(bool_decide_spec (lower_char _ = c)), HF, orb_True, !bool_decide_spec. done.
Qed.
Fixpoint chars_in (l : list ascii) (s : string) : Prop := match s with EmptyString => True | String c s => c ∈ l ∧ chars_in l s end.
Lemma lower_spelled name s : chars_in letters.*1 name → to_lowercase s = name ↔ spelled name s.
Proof.
  revert s. induction name as [|c name IH]; intros [|d s]; [done..|]. intros [Hc Hn]. cbn. rewrite <-(IH s Hn), <-(lower_letter c d Hc). split.
  - by intros [= ? ?].
  - by intros [-> ->].
Qed.
Lemma letters_ok : chars_in letters.*1 "graphmap" ∧ chars_in letters.*1 "staticgraph" ∧ chars_in letters.*1 "staticgraphmmap".
Proof. cbn. split_and!; try done; apply (bool_decide_unpack _); by vm_compute. Qed.
Lemma from_str_ok s : (impl_from_str s = Some IGraphMap ↔ spelled "graphmap" s) ∧ (impl_from_str s = Some IStaticGraph ↔ spelled "staticgraph" s) ∧
  (impl_from_str s = Some IStaicGraphMmap ↔ spelled "staticgraphmmap" s).
Proof.
  destruct letters_ok as (H1 & H2 & H3). rewrite <-!lower_spelled by done. unfold impl_from_str.
  destruct (decide (to_lowercase s = "graphmap"%string)) as [->|E1]; [done|]. destruct (decide (to_lowercase s = "staticgraph"%string)) as [->|E2]; [done|].
  destruct (decide (to_lowercase s = "staticgraphmmap"%string)) as [->|E3]; [done|]. naive_solver.
Qed.
From Verif Require Import SpecSerde.
Lemma id_facts (t : idty) :
  (∀ x, in_type t x → id_new t (id_id x) = x) ∧
  (∀ n, in_type t (id_new t n) ∧ (N.of_nat (id_id (id_new t n)) = N.of_nat n mod id_card t)%N ∧ (id_id (id_new t n) = n ↔ (N.of_nat n ≤ id_max t)%N)) ∧
  (∀ x, in_type t x ↔ (x ≤ id_max t)%N) ∧
  (t ≠ TUnit → ∀ x, in_type t x → id_incr t x = if bool_decide (x = id_max t) then Panic else Ok (x + 1)%N).
Proof.
  assert (0 < id_card t)%N as Hc by (by destruct t). unfold in_type, id_new, id_id, id_max. split_and!.
  - intros x Hx. rewrite N2Nat.id. by apply N.mod_small.
  - intros n. assert (N.of_nat n mod id_card t < id_card t)%N as Hm by (apply N.mod_lt; lia). split; [done|]. rewrite N2Nat.id. split; [done|]. split.
    + intros H. apply (f_equal N.of_nat) in H. rewrite N2Nat.id in H. lia.
    + intros H. rewrite N.mod_small by lia. by rewrite Nat2N.id.
  - intros x. lia.
  - intros Ht x Hx. unfold id_incr. destruct t; [done|..]; (destruct (decide _) as [E|E]; [rewrite bool_decide_eq_false_2 by lia; done|rewrite bool_decide_eq_true_2 by lia; done]).
Qed.
