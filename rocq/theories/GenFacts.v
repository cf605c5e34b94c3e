(** Facts about the generators' building blocks: label relation, pairs, sampling, floats. *)
From stdpp Require Import gmap.
From Coq.Floats Require Import SpecFloat.
From Verif Require Import Base BaseFacts Api Spec Map MapFacts SpecFacts GraphMap GraphMapFacts GraphMapRefine GraphMapThms SpecGen Gen.

(** ** Pairs *)
Lemma elem_of_combos n s d : (s, d) ∈ tuple_combinations n ↔ s < d ∧ d < n.
Proof.
  unfold tuple_combinations. rewrite elem_of_list_bind. setoid_rewrite elem_of_list_fmap.
  setoid_rewrite elem_of_seq. split.
  - intros (i & (j & [= -> ->] & ?) & ?). lia.
  - intros ?. exists s. split; [|lia]. exists d. split; [done|lia].
Qed.
Lemma combos_NoDup n : NoDup (tuple_combinations n).
Proof.
  unfold tuple_combinations. generalize (NoDup_seq 0 n). generalize (seq 0 n). intros l.
  induction l as [|i l IH]; intros Hl; [constructor|]. rewrite bind_cons.
  apply NoDup_cons in Hl as [Hi Hl]. apply NoDup_app. split_and!.
  - apply NoDup_fmap_2; [by intros ? ? [=]|apply NoDup_seq].
  - intros [s d] (j & [= -> ->] & _)%elem_of_list_fmap (i' & (j' & [= -> ->] & _)%elem_of_list_fmap & ?)%elem_of_list_bind. done.
  - by apply IH.
Qed.
Lemma combos_length_gen n l a : l = seq a (n - a) → a ≤ n →
  2 * length (l ≫= λ i, (λ j, (i, j)) <$> seq (S i) (n - S i)) = (n - a) * (n - a - 1).
Proof.
  revert a. induction l as [|i l IH]; intros a Hl Ha.
  - destruct (n - a) as [|k] eqn:E; [done|simpl in Hl; done].
  - destruct (n - a) as [|k] eqn:E; [done|]. simpl in Hl. injection Hl as -> Hl.
    rewrite bind_cons, app_length, fmap_length, seq_length.
    assert (n - S a = k) as Hk by lia. rewrite Hk. specialize (IH (S a)). rewrite Hk in IH.
    pose proof (IH Hl ltac:(lia)) as Hx. replace (S k - 1) with k by lia. destruct k; nia.
Qed.
Lemma combos_length n : 2 * length (tuple_combinations n) = n * (n - 1).
Proof. pose proof (combos_length_gen n (seq 0 n) 0) as H. rewrite Nat.sub_0_r in H. apply H; [done|lia]. Qed.
Lemma elem_of_pairs dir n s d : (s, d) ∈ complete_edge_pairs dir n ↔
  s < n ∧ d < n ∧ (if dir then s ≠ d else s < d).
Proof.
  unfold complete_edge_pairs. destruct dir; [|rewrite elem_of_combos; lia].
  rewrite elem_of_list_bind. split.
  - intros ([a b] & Hin & H%elem_of_combos). simpl in Hin. set_unfold. destruct Hin as [[= -> ->]|[[= -> ->]|[]]]; lia.
  - intros (Hs & Hd & Hne). destruct (decide (s < d)).
    + exists (s, d). split; [simpl; set_solver|]. apply elem_of_combos. lia.
    + exists (d, s). split; [simpl; set_solver|]. apply elem_of_combos. lia.
Qed.
Lemma pairs_NoDup dir n : NoDup (complete_edge_pairs dir n).
Proof.
  unfold complete_edge_pairs. destruct dir; [|apply combos_NoDup].
  pose proof (combos_NoDup n) as Hn.
  assert (∀ p, p ∈ tuple_combinations n → p.1 < p.2) as Hlt. { intros [s d] H%elem_of_combos. simpl. lia. }
  revert Hn Hlt. generalize (tuple_combinations n). intros l. induction l as [|[s d] l IH]; [constructor|].
  intros [Hp Hl]%NoDup_cons Hlt. rewrite bind_cons. apply NoDup_app. cbn [fst snd].
  pose proof (Hlt (s, d) ltac:(set_solver)) as Hsd. simpl in Hsd. split_and!.
  - apply NoDup_cons. split; [|apply NoDup_singleton]. rewrite elem_of_list_singleton. intros [=]. lia.
  - intros [a b] Hab ([a' b'] & Hin & Hmem)%elem_of_list_bind. pose proof (Hlt (a', b') ltac:(set_solver)) as Hlt'.
    simpl in *. set_unfold. naive_solver lia.
  - apply IH; [done|]. set_solver.
Qed.
Lemma pairs_length dir n : length (complete_edge_pairs dir n) = max_edges dir n.
Proof.
  pose proof (combos_length n) as H. unfold complete_edge_pairs, max_edges. destruct dir.
  - rewrite <- H. generalize (tuple_combinations n). clear. intros l. induction l as [|p l IH]; [done|].
    rewrite bind_cons, app_length, IH. simpl. lia.
  - rewrite <- H, Nat.mul_comm, Nat.div_mul; lia.
Qed.

(** ** Sampling *)
Lemma reservoir_spec {X} R amount rest : ∀ i k (res : list X),
  NoDup (res ++ rest) →
  ∃ res' k', reservoir R amount i rest k res = (res', k') ∧ length res' = length res ∧ NoDup res' ∧
    ∀ x, x ∈ res' → x ∈ res ∨ x ∈ rest.
Proof.
  induction rest as [|x rest IH]; intros i k res Hn.
  { rewrite app_nil_r in Hn. exists res, k. split_and!; try done. set_solver. }
  cbn [reservoir]. unfold gen_range. cbv zeta.
  set (j := rng_int R k mod _). apply NoDup_app in Hn as (H1 & H2 & [H3 H4]%NoDup_cons).
  assert (∀ y, y ∈ <[j:=x]> res → y ∈ res ∨ y = x) as Hel.
  { intros y (i' & Hi')%elem_of_list_lookup. destruct (decide (j = i')) as [<-|Hne].
    - apply list_lookup_insert_Some in Hi' as [(_ & -> & _)|(? & _)]; [by right|done].
    - rewrite list_lookup_insert_ne in Hi' by done. left. by eapply elem_of_list_lookup_2. }
  assert (NoDup (<[j:=x]> res)) as Hnd.
  { apply NoDup_alt. intros a b y Ha Hb.
    apply list_lookup_insert_Some in Ha as [(-> & -> & ?)|(Hja & Ha)];
    apply list_lookup_insert_Some in Hb as [(-> & Hy & ?)|(Hjb & Hb)]; try done.
    - exfalso. apply (H2 y); [by eapply elem_of_list_lookup_2|set_solver].
    - exfalso. apply (H2 y); rewrite ?Hy in *; [by eapply elem_of_list_lookup_2|set_solver].
    - exact (proj1 (NoDup_alt res) H1 a b y Ha Hb). }
  destruct (IH (S i) (S k) (<[j:=x]> res)) as (res' & k' & Heq & Hlen & Hnd' & Hin).
  { apply NoDup_app. split_and!; [done| |done]. intros y [Hy| ->]%Hel Hr; [|done]. apply (H2 y); set_solver. }
  exists res', k'. split; [exact Heq|]. rewrite insert_length in Hlen. split_and!; [done..|].
  intros y [[Hy| ->]%Hel|Hy]%Hin; set_solver.
Qed.
Lemma sample_spec {X} R (l : list X) m k : NoDup l →
  if decide (m ≤ length l) then
    ∃ res k', sample_iter R l m k = (Some res, k') ∧ length res = m ∧ NoDup res ∧ ∀ x, x ∈ res → x ∈ l
  else ∃ k', sample_iter R l m k = (None, k').
Proof.
  intros Hn. unfold sample_iter. rewrite take_length.
  destruct (decide (m ≤ length l)) as [Hle|Hgt].
  - destruct (decide (m `min` length l = m)) as [_|?]; [|lia].
    destruct (reservoir_spec R m (drop m l) 0 k (take m l)) as (res & k' & -> & Hlen & Hnd & Hin).
    { by rewrite take_drop. }
    exists res, k'. split; [done|]. rewrite take_length in Hlen. split; [lia|]. split; [done|].
    intros x [Hx|Hx]%Hin; [by eapply elem_of_take_inv in Hx || (by apply elem_of_list_lookup in Hx as (i & Hi); apply lookup_take_Some in Hi as [Hi _]; eapply elem_of_list_lookup_2)|].
    apply elem_of_list_lookup in Hx as (i & Hi). rewrite lookup_drop in Hi. by eapply elem_of_list_lookup_2.
  - destruct (decide (m `min` length l = m)) as [?|_]; [lia|]. by eexists.
Qed.

(** ** Floats *)
Lemma pos_bounds m k : digits2_pos m = k → (2 ^ (Z.pos k - 1) ≤ Z.pos m < 2 ^ Z.pos k)%Z.
Proof.
  revert k. induction m as [m IH|m IH|]; intros k; simpl; intros <-; [| |done].
  - specialize (IH _ eq_refl). rewrite Pos2Z.inj_succ. replace (Z.succ (Z.pos (digits2_pos m)) - 1)%Z with (Z.succ (Z.pos (digits2_pos m) - 1)) by lia.
    rewrite !Z.pow_succ_r by lia. lia.
  - specialize (IH _ eq_refl). rewrite Pos2Z.inj_succ. replace (Z.succ (Z.pos (digits2_pos m)) - 1)%Z with (Z.succ (Z.pos (digits2_pos m) - 1)) by lia.
    rewrite !Z.pow_succ_r by lia. lia.
Qed.
Lemma f32_canonical s m e : is_f32 (S754_finite s m e) →
  (e = Z.max (Z.pos (digits2_pos m) + e - 24) (-149))%Z ∧ (Z.pos m < 2 ^ 24)%Z ∧ (-149 < e → 2 ^ 23 ≤ Z.pos m)%Z.
Proof.
  unfold is_f32, valid_binary, bounded, canonical_mantissa, fexp, emin. intros H.
  apply andb_prop in H as [H _]. apply Zeq_bool_eq in H. simpl in H.
  assert (e = Z.max (Z.pos (digits2_pos m) + e - 24) (-149))%Z as He by lia. split; [done|].
  pose proof (pos_bounds m _ eq_refl) as [Hb1 Hb2]. split.
  - eapply Z.lt_le_trans; [exact Hb2|]. apply Z.pow_le_mono_r; lia.
  - intros Hl. etrans; [|exact Hb1]. apply Z.pow_le_mono_r; lia.
Qed.
Lemma unit_check p : is_f32 p → p ≠ S754_nan →
  SFltb p (S754_zero false) || SFltb (S754_finite false 8388608 (-23)) p = false ↔ in_unit p.
Proof.
  intros Hf Hn. destruct p as [s|s| |s m e]; [|by destruct s|done|]; [done|].
  destruct s; [done|]. apply f32_canonical in Hf as (He & Hlt & Hge).
  unfold SFltb, SFcompare. cbn [orb]. unfold in_unit.
  destruct (Z.compare_spec (-23) e) as [<-|Hc|Hc].
  - change (Pos.compare_cont Eq 8388608 m) with (8388608 ?= m)%positive.
    destruct (Pos.compare_spec 8388608 m) as [<-|Hp|Hp]; split; intros Hx; try done; try (left; split; [done|]; simpl; lia).
    exfalso. destruct Hx as [[_ Hx]|[? _]]; [|done]. simpl in Hx. lia.
  - split; [done|]. intros [[Hz Hx]|[-> ->]]; [|by specialize (Hge ltac:(lia))].
    specialize (Hge ltac:(lia)). assert (2 ^ (- e) ≤ 2 ^ 22)%Z by (apply Z.pow_le_mono_r; lia). lia.
  - split; [|done]. intros _. left. split; [lia|].
    assert (2 ^ 24 ≤ 2 ^ (- e))%Z by (apply Z.pow_le_mono_r; lia). lia.
Qed.
Lemma SFltb_finite m e q e0 : (e < e0 ∨ e = e0 ∧ Z.pos m < Z.pos q)%Z →
  SFltb (S754_finite false m e) (S754_finite false q e0) = true.
Proof.
  unfold SFltb, SFcompare. destruct (Z.compare_spec e e0) as [->|Hc|Hc]; [|done|lia].
  change (Pos.compare_cont Eq m q) with (m ?= q)%positive.
  destruct (Pos.compare_spec m q); [lia|done|lia].
Qed.
Lemma draw_below_one x : is_f32 x → below_one x → SFltb x f32_one = true.
Proof.
  intros Hf Hb. destruct x as [s|s| |s m e]; [done|done|done|]. destruct s; [done|].
  destruct Hb as [Hz Hb]. apply f32_canonical in Hf as (He & Hlt & Hge).
  apply SFltb_finite. destruct (Z.compare_spec e (-23)) as [->|Hc|Hc]; [right; split; [done|exact Hb]|by left|].
  specialize (Hge ltac:(lia)). assert (2 ^ (- e) ≤ 2 ^ 22)%Z by (apply Z.pow_le_mono_r; lia). lia.
Qed.
Lemma draw_not_below_zero x p : below_one x → is_zero p → SFltb x p = false.
Proof. destruct x as [|[]| |[]], p; done. Qed.
Lemma nothing_below_nan x : SFltb x S754_nan = false.
Proof. by destruct x as [|[]| |[]]. Qed.
