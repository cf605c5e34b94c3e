(** The chances of random graphs. *)
From Coq Require Import Factorial QArith.
From stdpp Require Import gmap.
From Coq.Floats Require Import SpecFloat.
From Verif Require Import Base BaseFacts Api Spec Map SpecFacts SpecLabelHist GraphMap GraphMapFacts GraphMapQueries ViewOps HashProps SpecGen SpecGenWrap Gen GenFacts GenProps SpecGenLaw Reservoir GenLaw FloatLt LabelHist.
Local Open Scope nat_scope.

Section thms.
  Context {NL EL : Type} `{EqDecision NL, EqDecision EL} (dir : bool) (idt : idty).
  Implicit Types (A : agraph NL EL) (R : rng).
  Notation M n := (max_edges dir n).
  Lemma below_length n T : pairs_below dir n T → length T ≤ M n.
  Proof. intros [Hn HT]. rewrite <-pairs_length. apply submseteq_length, NoDup_submseteq; [done|]. intros p Hp. by apply in_pairs, HT. Qed.
  Lemma same_graph (g : graphmap NL EL) A B : (∀ it, hash_order g it → represents (gm_view dir it g) A) → (∀ it, hash_order g it → represents (gm_view dir it g) B) → A = B.
  Proof. intros H1 H2. pose proof (hash_order_exists g) as Hit. apply (box_hash_inj _ _ A B (H1 _ Hit) (H2 _ Hit)). done. Qed.
  Lemma gnm_uniform n nls els R T : (N.of_nat n ≤ id_card idt)%N → pairs_below dir n T →
    exactly (fact (M n - length T)) (λ ds, outcome (seq (S (length T)) (M n - length T)) ds ∧
      ∃ (g : graphmap NL EL) A, random_gnm_graph dir idt (with_draws R (label_draws n nls) ds) n (length T) nls els = Ok g ∧
        (∀ it, hash_order g it → represents (gm_view dir it g) A) ∧ joins dir T A).
  Proof.
    intros Hf HT. pose proof (below_length n T HT) as Hm. set (m := length T) in *. pose proof (pairs_length dir n) as Hl.
    set (P := complete_edge_pairs dir n) in *.
    exists (filter (λ ds, list_to_set (fill ds (drop m P) (take m P)) =@{gset (nat * nat)} list_to_set T) (vecs m (M n - m))). split; [apply NoDup_filter, vecs_NoDup|].
    split.
    - rewrite <-tot_filter. pose proof (reservoir_count (take m P) (drop m P)) as Hc. rewrite take_drop, take_length, drop_length, Hl, Nat.min_l in Hc by done.
      apply Hc; [apply pairs_NoDup|by apply size_list_to_set, HT|]. intros p. rewrite elem_of_list_to_set. intros Hp. by apply in_pairs, HT.
    - intros ds. rewrite elem_of_list_filter, elem_of_vecs.
      assert (∀ X Y Z : Prop, (Y → (X ↔ Z)) → X ∧ Y ↔ Y ∧ Z) as Htaut by tauto. apply Htaut. clear Htaut. intros Ho.
      assert (length ds = M n - m) as Hlen. { apply Forall2_length in Ho. by rewrite seq_length in Ho. }
      destruct (gnm_law dir idt n nls els Hf (with_draws R (label_draws n nls) ds) m Hm) as (g & A & Hg & HA & Hj & _).
      assert (sampled dir n nls (with_draws R (label_draws n nls) ds) m = fill ds (drop m P) (take m P)) as Hs.
      { unfold sampled. fold P. rewrite <-Hlen. rewrite rdraws_with; [done|]. by rewrite Hlen. }
      destruct (sampled_props dir n nls (with_draws R (label_draws n nls) ds) m Hm) as [_ Hb]. rewrite Hs in *. set (S0 := fill ds (drop m P) (take m P)) in *. split.
      + intros He. exists g, A. split; [done|]. split; [intros it Hit; apply HA, Hit|]. apply (joins_iff dir S0); [|done].
        intros p. rewrite <-!(elem_of_list_to_set (C:=gset (nat * nat))). by rewrite He.
      + intros (g' & B & Hg' & HB & HjB). rewrite Hg in Hg'. injection Hg' as <-.
        assert (A = B) as <-. { apply (same_graph g); [intros it Hit; apply HA, Hit|done]. }
        apply set_eq. intros p. rewrite !elem_of_list_to_set. split; by apply (joins_same dir n _ _ A).
  Qed.
  Lemma gnm_outcomes n m : m ≤ M n → ∃ K, exactly K (outcome (seq (S m) (M n - m))) ∧ K * fact m = fact (M n).
  Proof.
    intros Hm. exists (length (vecs m (M n - m))). split.
    - exists (vecs m (M n - m)). split; [apply vecs_NoDup|]. split; [done|]. intros ds. apply elem_of_vecs.
    - rewrite vecs_length. f_equal. lia.
  Qed.
  Lemma gnm_labels n m nls els : (N.of_nat n ≤ id_card idt)%N → labels_have_ids idt nls → labels_have_ids idt els → m ≤ M n →
    ∃ pos : rng → N * N → nat, (∀ R R', same_numbers (label_draws n nls + (M n - m)) R R' → pos R = pos R') ∧
      ∀ R, ∃ (g : graphmap NL EL) A, random_gnm_graph dir idt R n m nls els = Ok g ∧ (∀ it, hash_order g it → represents (gm_view dir it g) A) ∧
        node_labels_by_draws n nls R A ∧ told_apart dir (a_has_edge A) (pos R) ∧
        ∀ x y, a_has_edge A x y → label_draws n nls + (M n - m) ≤ pos R (x, y) ∧ a_edge_at A x y = Some (picked els (rng_int R (pos R (x, y)))).
  Proof.
    intros Hf Hn He Hm. exists (λ R e, label_draws n nls + (M n - m) + idx dir (sampled dir n nls R m) e). split.
    - intros R R' HR. unfold sampled. by rewrite (rdraws_ext R R' _ _ _ HR).
    - intros R. destruct (gnm_law dir idt n nls els Hf R m Hm) as (g & A & Hg & HA & Hj & HN & HE). exists g, A. split; [done|]. split; [intros it Hit; apply HA, Hit|].
      split; [exact (HN Hn)|]. split; [|intros x y Hxy; split; [lia|exact (HE He x y Hxy)]].
      intros x y x' y' H1 H2 Heq. rewrite joins_keys in Hj. apply Hj in H1, H2. apply (idx_apart dir _ x y x' y' H1 H2). lia.
  Qed.
  Lemma complete_labels n nls els : (N.of_nat n ≤ id_card idt)%N → labels_have_ids idt nls → labels_have_ids idt els →
    ∃ pos : N * N → nat, told_apart dir (possible_edge n) pos ∧ (∀ e, label_draws n nls ≤ pos e) ∧
      ∀ R, ∃ (g : graphmap NL EL) A, complete_graph dir idt R n nls els = Ok g ∧ (∀ it, hash_order g it → represents (gm_view dir it g) A) ∧
        node_labels_by_draws n nls R A ∧
        ∀ x y, possible_edge n x y → a_edge_at A x y = Some (picked els (rng_int R (pos (x, y)))).
  Proof.
    intros Hf Hn He. exists (λ e, label_draws n nls + idx dir (complete_edge_pairs dir n) e). split.
    - intros x y x' y' H1 H2 Heq. apply (complete_edges dir) in H1, H2. apply (idx_apart dir _ x y x' y' H1 H2). lia.
    - split; [lia|]. intros R. destruct (complete_law dir idt n nls els Hf R) as (g & A & Hg & HA & Hj & HN & HE). exists g, A. split; [done|].
      split; [intros it Hit; apply HA, Hit|]. split; [exact (HN Hn)|]. intros x y Hxy. apply (HE He), Hj, Hxy.
  Qed.
  Lemma gnp_draws n p nls els : (N.of_nat n ≤ id_card idt)%N → labels_have_ids idt nls → labels_have_ids idt els → is_f32 p → in_unit p →
    ∃ pos : rng → N * N → nat, (∀ R R' e, same_fractions (pos R e) R R' → pos R' e = pos R e) ∧
      ∀ R, (∀ j, is_f32 (rng_f32 R j) ∧ below_one (rng_f32 R j)) →
      told_apart dir (possible_edge n) (pos R) ∧ (∀ e, label_draws n nls ≤ pos R e) ∧
      ∃ (g : graphmap NL EL) A, random_gnp_graph dir idt R n p nls els = Ok g ∧ (∀ it, hash_order g it → represents (gm_view dir it g) A) ∧
        node_labels_by_draws n nls R A ∧
        (∀ x y, a_has_edge A x y ↔ possible_edge n x y ∧ (float_value (rng_f32 R (pos R (x, y))) < float_value p)%Q) ∧
        ∀ x y, a_has_edge A x y → a_edge_at A x y = Some (picked els (rng_int R (S (pos R (x, y))))) ∧
          (els ≠ [] → ∀ e, pos R e ≠ S (pos R (x, y))).
  Proof.
    intros Hf Hn He Hp Hu. exists (decides dir n nls els p). split.
    - intros R R' e HR. unfold decides in *. apply gpos_adapted. intros i Hi. by rewrite HR.
    - intros R HRd. split; [|split; [intros e; unfold decides; pose proof (gpos_ge (λ k, SFltb (rng_f32 R k) p) (takes (sm_from_vec els)) (label_draws n nls) (idx dir (complete_edge_pairs dir n) e)); lia|]].
      { intros x y x' y' H1 H2 Heq%gpos_inj. apply (complete_edges dir) in H1, H2. by apply (idx_apart dir _ x y x' y' H1 H2). }
      destruct (gnp_law dir idt n nls els Hf R p Hp (or_introl Hu)) as (g & A & Hg & HA & Hj & HN & HE). exists g, A. split; [done|].
      split; [intros it Hit; apply HA, Hit|]. split; [exact (HN Hn)|].
      split; [intros x y; rewrite Hj; apply and_iff_compat_l, draw_lt; [apply HRd..|done|done]|]. intros x y Hxy. split; [exact (HE He x y Hxy)|]. intros Hne e Heq.
      apply Hj in Hxy as [_ Hacc]. unfold decides in *. set (acc k := SFltb (rng_f32 R k) p) in *. set (k := label_draws n nls) in *.
      assert (takes (sm_from_vec els) = 1) as Ht. { pose proof (takes_draws 1 els) as H1. destruct els; [done|]. cbn [label_draws] in H1. lia. }
      rewrite Ht in *. set (i := idx dir _ (x, y)) in *. set (j := idx dir _ e) in *.
      destruct (lt_eq_lt_dec i j) as [[Hl|Hl]|Hl].
      + apply (gpos_lt acc 1 k) in Hl. change (acc (gpos acc 1 k i) = true) in Hacc. rewrite Hacc in Hl. lia.
      + rewrite Hl in Heq. lia.
      + apply (gpos_lt acc 1 k) in Hl. lia.
  Qed.
End thms.

Lemma label_fair {X} `{EqDecision X} (ls : list X) (x : X) : x ∈ ls → exactly 1 (λ d, d < length (first_uses ls) ∧ picked ls d = Some x).
Proof.
  intros Hx. pose proof (first_uses_NoDup ls) as Hn.
  assert (x ∈ first_uses ls) as Hu by (by apply first_uses_elem). apply elem_of_list_lookup in Hu as [i Hi]. exists [i].
  split; [apply NoDup_singleton|]. split; [done|]. intros d. rewrite elem_of_list_singleton. unfold picked. cbv zeta. split.
  - intros ->. apply lookup_lt_Some in Hi as Hlt. split; [done|]. by rewrite Nat.mod_small.
  - intros [Hd Hp]. rewrite Nat.mod_small in Hp by done. by eapply NoDup_lookup.
Qed.
