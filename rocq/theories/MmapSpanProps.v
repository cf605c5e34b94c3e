From stdpp Require Import gmap strings.
From Verif Require Import Base BaseFacts Bytes Serde SpecSerde SerdeFacts Mmap MmapFacts MmapSpan SpecSpan.

Lemma le_value_range b : bytes b → (le_value b < 256 ^ N.of_nat (length b))%N.
Proof.
  induction 1 as [|x b Hx Hb IH]; [done|]. unfold le_value in *. cbn [foldr length].
  rewrite Nat2N.inj_succ, N.pow_succ_r'. lia.
Qed.
Lemma le_bytes_value b : bytes b → le_bytes (length b) (le_value b) = b.
Proof.
  induction 1 as [|x b Hx Hb IH]; [done|]. unfold le_value in *. cbn [foldr length le_bytes].
  rewrite (N.mul_comm 256), N.mod_add, N.mod_small, N.div_add, N.div_small, N.add_0_l, IH by done. done.
Qed.
Lemma items_exist t b : t ≠ TUnit → bytes b → ∃ l, items_of t b l.
Proof.
  intros Ht. assert (0 < id_size t) as Hp by (destruct t; simpl; lia || done).
  remember (length b) as n eqn:Hn. revert b Hn. induction n as [n IH] using lt_wf_ind. intros b -> Hb.
  destruct (decide (length b < id_size t)) as [Hs|Hs].
  - exists [], b. done.
  - destruct (IH (length (drop (id_size t) b)) ltac:(rewrite drop_length; lia) _ eq_refl) as (l & r & Hl & Hr & Ht').
    { by apply Forall_drop. }
    exists (le_value (take (id_size t) b) :: l), r. split_and!; [|done|].
    + unfold typed_bytes in *. rewrite bind_cons, <-app_assoc, <-Hl.
      assert (length (take (id_size t) b) = id_size t) as E by (rewrite take_length; lia).
      rewrite <-E at 1. rewrite le_bytes_value by (by apply Forall_take). by rewrite take_drop.
    + constructor; [|done]. rewrite id_card_pow.
      assert (length (take (id_size t) b) = id_size t) as E by (rewrite take_length; lia).
      rewrite <-E at 2. apply le_value_range. by apply Forall_take.
Qed.
Lemma items_len t b l : t ≠ TUnit → items_of t b l → length b / id_size t = length l.
Proof.
  intros Ht (r & -> & Hr & _). assert (0 < id_size t) as Hp by (destruct t; simpl; lia || done).
  rewrite app_length, typed_bytes_length. rewrite Nat.div_add_l by lia. rewrite Nat.div_small by lia. lia.
Qed.
Lemma items_unique t b l l' : t ≠ TUnit → items_of t b l → items_of t b l' → l = l'.
Proof.
  intros Ht Hl Hl'. pose proof (items_len t b l Ht Hl) as E. pose proof (items_len t b l' Ht Hl') as E'.
  destruct Hl as (r & Hb & _ & Hf), Hl' as (r' & Hb' & _ & Hf').
  pose proof (raw_items_ok t l r Hf) as R. pose proof (raw_items_ok t l' r' Hf') as R'.
  rewrite <-Hb in R. rewrite <-Hb' in R'. congruence.
Qed.

Section any.
  Context (t : idty) (b l : list N) (Ht : t ≠ TUnit) (Hb : items_of t b l).
  Notation m := (TMap b (length l) (id_size t)).
  Lemma inside_iff i c : inside (id_size t) b (Span (i * N.of_nat (id_size t)) c) ↔ (i + c ≤ N.of_nat (length l))%N.
  Proof using Ht Hb.
    assert (0 < id_size t) as Hp by (destruct t; simpl; lia || done).
    destruct Hb as (r & E & Hr & _). unfold inside. cbn [sp_start sp_count]. rewrite E, app_length, typed_bytes_length.
    rewrite Nat2N.inj_add, Nat2N.inj_mul. split; intros H; nia.
  Qed.
  Lemma items_at i c : i + c ≤ length l → raw_items (id_size t) c (drop (i * id_size t) b) = take c (drop i l).
  Proof using Hb.
    intros Hc. destruct Hb as (r & -> & Hr & Hf). rewrite <-(take_drop i l) at 1. rewrite typed_bytes_app, <-app_assoc.
    rewrite drop_app_alt by (rewrite typed_bytes_length, take_length; nia).
    rewrite <-(take_drop c (drop i l)) at 1. rewrite typed_bytes_app, <-app_assoc.
    replace c with (length (take c (drop i l))) at 1 by (rewrite take_length, drop_length; lia).
    apply raw_items_ok. apply Forall_take, Forall_drop, Hf.
  Qed.
  Lemma full_thm : inside (id_size t) b (span_full m) ∧ span_items m (span_full m) = l ∧ tm_full m = Ok l.
  Proof using Ht Hb.
    assert (span_items m (span_full m) = l) as E.
    { unfold span_items, span_full. cbn [sp_start sp_count tm_len tm_type_len tm_map]. rewrite Nat2N.id.
      pose proof (items_at 0 (length l) ltac:(lia)) as E. rewrite Nat.mul_0_l in E. change (N.to_nat 0) with 0. rewrite E.
      by rewrite drop_0, firstn_all. }
    assert (inside (id_size t) b (span_full m)) as I.
    { pose proof (inside_iff 0 (N.of_nat (length l))) as [_ H]. rewrite N.mul_0_l in H. apply H. lia. }
    split_and!; [done|done|]. unfold tm_full, raw_parts. cbn [tm_len tm_type_len tm_map]. rewrite decide_True.
    - f_equal. unfold span_items, span_full in E. cbn [sp_start sp_count tm_len tm_type_len tm_map] in E. by rewrite Nat2N.id in E.
    - unfold inside, span_full in I. cbn [sp_start sp_count tm_len] in I. lia.
  Qed.
  Lemma to_thm j : (inside (id_size t) b (span_to m j) ↔ (j ≤ N.of_nat (length l))%N) ∧
    ((j ≤ N.of_nat (length l))%N → span_items m (span_to m j) = take (N.to_nat j) l).
  Proof using Ht Hb.
    split.
    - unfold span_to. rewrite <-(N.mul_0_l (N.of_nat (id_size t))). rewrite inside_iff. lia.
    - intros Hj. unfold span_items, span_to. cbn [sp_start sp_count tm_type_len tm_map]. change (N.to_nat 0) with (0 * id_size t).
      rewrite items_at by lia. by rewrite drop_0.
  Qed.
  Lemma from_thm ch i : (i < id_card TUsize)%N → (N.of_nat (length b) < id_card TUsize)%N →
    ((i ≤ N.of_nat (length l))%N → ∃ s, span_from ch m i = Ok s ∧ inside (id_size t) b s ∧ span_items m s = drop (N.to_nat i) l) ∧
    ((N.of_nat (length l) < i)%N → match span_from ch m i with Ok s => ch = false ∧ ¬ inside (id_size t) b s | r => ch = true ∧ r = Panic end).
  Proof using Ht Hb.
    intros Hi Hlen. assert (0 < id_size t) as Hp by (destruct t; simpl; lia || done).
    assert (N.of_nat (length l) * N.of_nat (id_size t) ≤ N.of_nat (length b))%N as Hls.
    { destruct Hb as (r & -> & _). rewrite app_length, typed_bytes_length. lia. }
    assert (N.of_nat (length b) < (N.of_nat (length l) + 1) * N.of_nat (id_size t))%N as Hlb.
    { destruct Hb as (r & -> & Hr & _). rewrite app_length, typed_bytes_length. nia. }
    unfold span_from, mul_usize, sub_usize. fold usize_card in Hi, Hlen. cbn [tm_len tm_type_len]. split; intros Hil.
    - assert (i * N.of_nat (id_size t) < usize_card)%N as Hm by nia.
      rewrite (proj2 (N.leb_gt _ _) Hm), andb_false_r. cbn [rbind]. rewrite (proj2 (N.leb_le _ _) Hil). cbn [rbind].
      rewrite N.mod_small by done. eexists. split_and!; [done| |].
      + apply inside_iff. lia.
      + unfold span_items. cbn [sp_start sp_count tm_type_len tm_map]. rewrite N2Nat.inj_mul, Nat2N.id.
        rewrite items_at by lia. apply take_ge. rewrite drop_length. lia.
    - destruct ch; cbn [andb].
      + destruct (usize_card <=? _)%N; cbn [rbind]; [by split|]. rewrite (proj2 (N.leb_gt _ _) Hil). by split.
      + cbn [rbind]. rewrite (proj2 (N.leb_gt _ _) Hil). cbn [rbind]. split; [done|].
        unfold inside. cbn [sp_start sp_count]. generalize (i * N.of_nat (id_size t) mod usize_card)%N. intros s Hs. nia.
  Qed.
End any.

Lemma any_file t F f b : t ≠ TUnit → F !! f = Some b → b ≠ [] → bytes b →
  ∃ l, items_of t b l ∧ tm_new t F f = Ok (TMap b (length l) (id_size t)) ∧ tm_with_mmap t b = Ok (TMap b (length l) (id_size t)).
Proof.
  intros Ht Hf Hn Hb. destruct (items_exist t b Ht Hb) as [l Hl]. exists l. split; [done|].
  pose proof (items_len t b l Ht Hl) as E.
  assert (id_size t ≠ 0) as Hp by (destruct t; simpl; lia || done).
  unfold tm_new, tm_with_mmap. rewrite Hf. cbn [unwrap rbind]. rewrite decide_False by done. rewrite !decide_False by done. by rewrite E.
Qed.
Lemma no_map t F f : (F !! f = None ∨ F !! f = Some [] ∨ t = TUnit) ↔ tm_new t F f = Panic.
Proof.
  unfold tm_new. destruct (F !! f) as [b|]; cbn [unwrap rbind].
  - destruct (decide (b = [])) as [->|Hb]; [naive_solver|].
    destruct (decide (id_size t = 0)) as [Hz|Hz].
    + destruct t; try done. naive_solver.
    + destruct t; try done; naive_solver.
  - naive_solver.
Qed.
Lemma with_mmap_eq t b l m : t ≠ TUnit → items_of t b l → tm_with_mmap t b = Ok m → m = TMap b (length l) (id_size t).
Proof.
  intros Ht Hl. unfold tm_with_mmap. rewrite (items_len t b l Ht Hl). case_decide; [done|]. congruence.
Qed.
Lemma typed_map_iff t F f l : (∀ b, F !! f = Some b → bytes b) →
  typed_map t F f = Ok l ↔ t ≠ TUnit ∧ ∃ b, F !! f = Some b ∧ b ≠ [] ∧ items_of t b l.
Proof.
  intros Hby. unfold typed_map. split.
  - intros H. destruct (tm_new t F f) as [m| |] eqn:Em; cbn [rbind] in H; [|done|done].
    destruct (decide (F !! f = None ∨ F !! f = Some [] ∨ t = TUnit)) as [Hn|Hn].
    { apply no_map in Hn. congruence. }
    assert (t ≠ TUnit) as Ht by tauto. split; [done|]. destruct (F !! f) as [b|] eqn:Eb; [|tauto].
    assert (b ≠ []) as Hb by (intros ->; tauto). exists b. split_and!; [done|done|].
    destruct (any_file t F f b Ht Eb Hb (Hby b eq_refl)) as (l' & Hl' & E1 & _).
    destruct (full_thm t b l' Ht Hl') as (_ & _ & E). rewrite E1 in Em. injection Em as <-. rewrite E in H. by injection H as ->.
  - intros (Ht & b & Hf & Hn & Hl). destruct (any_file t F f b Ht Hf Hn (Hby b Hf)) as (l' & Hl' & E1 & _).
    rewrite (items_unique t b l l' Ht Hl Hl'). rewrite E1. cbn [rbind]. by apply full_thm.
Qed.
