(** Comparison of floats is comparison of the numbers they stand for. *)
From Coq Require Import QArith Qpower Lia.
From Coq.Floats Require Import SpecFloat.
From stdpp Require Import prelude.
From Verif Require Import Base SpecGen GenFacts SpecGenLaw.
Local Open Scope Z_scope.

Lemma two_pow_pos e : (0 < (2 # 1) ^ e)%Q.
Proof. by apply Qpower_0_lt. Qed.
Lemma scaled m1 e1 m2 e2 : e1 ≤ e2 → (inject_Z m1 * (2 # 1) ^ e1 < inject_Z m2 * (2 # 1) ^ e2)%Q ↔ m1 < m2 * 2 ^ (e2 - e1).
Proof.
  intros He. replace e2 with ((e2 - e1) + e1) at 1 by lia. rewrite Qpower_plus by done.
  change (2 # 1)%Q with (inject_Z 2) at 2. rewrite <-Zpower_Qpower by lia. rewrite Qmult_assoc, <-inject_Z_mult.
  rewrite Qmult_lt_r by apply two_pow_pos. by rewrite <-Zlt_Qlt.
Qed.
Lemma finite_lt m1 e1 m2 e2 : is_f32 (S754_finite false m1 e1) → is_f32 (S754_finite false m2 e2) →
  SFltb (S754_finite false m1 e1) (S754_finite false m2 e2) = true ↔ (float_value (S754_finite false m1 e1) < float_value (S754_finite false m2 e2))%Q.
Proof.
  intros H1%f32_canonical H2%f32_canonical. unfold float_value. unfold SFltb, SFcompare.
  destruct (Z.compare_spec e1 e2) as [->|Hc|Hc].
  - rewrite scaled by lia. rewrite Z.sub_diag. change (Pcompare m1 m2 Eq) with (Pos.compare m1 m2). destruct (Pos.compare_spec m1 m2); split; try done; lia.
  - split; [|done]. intros _. rewrite scaled by lia. replace (e2 - e1) with (1 + (e2 - e1 - 1)) by lia. rewrite Z.pow_add_r by lia.
    pose proof (Z.pow_pos_nonneg 2 (e2 - e1 - 1)). nia.
  - split; [done|]. intros Hlt. exfalso. revert Hlt. apply Qle_not_lt. apply Qlt_le_weak. rewrite scaled by lia. replace (e1 - e2) with (1 + (e1 - e2 - 1)) by lia. rewrite Z.pow_add_r by lia.
    pose proof (Z.pow_pos_nonneg 2 (e1 - e2 - 1)). nia.
Qed.
Lemma draw_lt x p : is_f32 x → below_one x → is_f32 p → in_unit p → SFltb x p = true ↔ (float_value x < float_value p)%Q.
Proof.
  intros Hx Hx1 Hp Hp1. destruct x as [s|s| |[] m e], p as [s'|s'| |[] m' e']; try done; [| |by apply finite_lt].
  - split; [|done]. intros _. cbn. rewrite <-(Qmult_0_l ((2 # 1) ^ e')). apply Qmult_lt_r; [apply two_pow_pos|done].
  - split; [done|]. intros Hlt. exfalso. revert Hlt. apply Qle_not_lt. cbn. apply Qmult_le_0_compat; [done|]. apply Qlt_le_weak, two_pow_pos.
Qed.
