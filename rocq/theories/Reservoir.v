(** sample_iter chooses every set equally often. *)
From Coq Require Import Factorial.
From stdpp Require Import gmap.
From Verif Require Import Base BaseFacts Gen SpecGenLaw.

Definition fill {X} (ds : list nat) (xs res : list X) : list X := foldl (λ r q, <[q.1 := q.2]> r) res (zip ds xs).
Definition rdraws (R : rng) (k b len : nat) : list nat := (λ j, rng_int R (k + j) mod (b + j)) <$> seq 0 len.
Lemma rdraws_S R k b len : rdraws R k b (S len) = (rng_int R k mod b) :: rdraws R (S k) (S b) len.
Proof.
  unfold rdraws. cbn [seq]. rewrite fmap_cons, !Nat.add_0_r. f_equal. rewrite <-fmap_S_seq, <-list_fmap_compose. apply list_fmap_ext.
  intros i x _. unfold compose. by rewrite !Nat.add_succ_r, !Nat.add_succ_l.
Qed.
Lemma reservoir_fill {X} R amount (rest : list X) : ∀ i k res,
  reservoir R amount i rest k res = (fill (rdraws R k (i + 1 + amount) (length rest)) rest res, k + length rest).
Proof.
  induction rest as [|x rest IH]; intros i k res; [by cbn; rewrite Nat.add_0_r|]. cbn [reservoir length]. unfold gen_range. cbv zeta.
  rewrite IH, rdraws_S. unfold fill. cbn [zip_with foldl fst snd]. f_equal. lia.
Qed.
Lemma fill_snoc {X} ds (xs : list X) d x res : length ds = length xs → fill (ds ++ [d]) (xs ++ [x]) res = <[d := x]> (fill ds xs res).
Proof. intros H. unfold fill. rewrite zip_with_app by done. by rewrite foldl_app. Qed.

(** ** Sums *)
Fixpoint tot {A} (f : A → nat) (l : list A) : nat := match l with [] => 0 | x :: l => f x + tot f l end.
Definition ind (P : Prop) `{Decision P} : nat := if decide P then 1 else 0.
Lemma tot_app {A} (f : A → nat) l k : tot f (l ++ k) = tot f l + tot f k.
Proof. induction l as [|x l IH]; cbn; [done|]. rewrite IH. lia. Qed.
Lemma tot_bind {A B} (f : B → nat) (g : A → list B) l : tot f (l ≫= g) = tot (λ x, tot f (g x)) l.
Proof. induction l as [|x l IH]; [done|]. rewrite bind_cons, tot_app, IH. done. Qed.
Lemma tot_fmap {A B} (f : B → nat) (g : A → B) l : tot f (g <$> l) = tot (λ x, f (g x)) l.
Proof. induction l as [|x l IH]; [done|]. cbn. by rewrite IH. Qed.
Lemma tot_ext {A} (f g : A → nat) l : (∀ x, x ∈ l → f x = g x) → tot f l = tot g l.
Proof. induction l as [|x l IH]; intros H; [done|]. cbn. rewrite (H x), IH; [done|intros; apply H; by right|by left]. Qed.
Lemma tot_const {A} c (l : list A) : tot (λ _, c) l = length l * c.
Proof. induction l as [|x l IH]; cbn; [done|]. by rewrite IH. Qed.
Lemma tot_mul {A} c (f : A → nat) l : tot (λ x, f x * c) l = tot f l * c.
Proof. induction l as [|x l IH]; cbn; [done|]. rewrite IH. lia. Qed.
Lemma tot_plus {A} (f g : A → nat) l : tot (λ x, f x + g x) l = tot f l + tot g l.
Proof. induction l as [|x l IH]; cbn; [done|]. rewrite IH. lia. Qed.
Lemma tot_swap {A B} (f : A → B → nat) l k : tot (λ x, tot (f x) k) l = tot (λ y, tot (λ x, f x y) l) k.
Proof.
  induction l as [|x l IH]; cbn [tot].
  - rewrite tot_const. lia.
  - rewrite IH, <-tot_plus. done.
Qed.
Lemma tot_ind_none {A} (P : A → Prop) `{∀ x, Decision (P x)} l : (∀ x, x ∈ l → ¬ P x) → tot (λ x, ind (P x)) l = 0.
Proof.
  intros Hn. rewrite (tot_ext _ (λ _, 0)), tot_const; [lia|]. intros x Hx. unfold ind. by rewrite decide_False by (by apply Hn).
Qed.
(** A thing that occurs once. *)
Lemma tot_ind_one {A} (P : A → Prop) `{∀ x, Decision (P x)} l y : NoDup l → y ∈ l → P y → (∀ x, x ∈ l → P x → x = y) → tot (λ x, ind (P x)) l = 1.
Proof.
  induction l as [|x l IH]; intros Hn Hy HP Hu; [by apply elem_of_nil in Hy|]. apply NoDup_cons in Hn as [Hx Hn]. cbn [tot].
 apply elem_of_cons in Hy as [->|Hy].
  - unfold ind at 1. rewrite decide_True by done. rewrite tot_ind_none; [done|]. intros z Hz Hz'. apply Hx. rewrite <-(Hu z); [done|by right|done].
  - unfold ind at 1. rewrite decide_False; [|intros Hx'; apply Hx; rewrite (Hu x); [done|by left|done]]. rewrite IH; [done..|].
    intros z Hz. apply Hu. by right.
Qed.
Lemma tot_filter {A} (P : A → Prop) `{∀ x, Decision (P x)} l : tot (λ x, ind (P x)) l = length (filter P l).
Proof.
  induction l as [|x l IH]; [done|]. cbn [tot]. rewrite IH, filter_cons.
  unfold ind. by destruct (decide (P x)).
Qed.

(** ** All outcomes *)
Fixpoint vecs (m k : nat) : list (list nat) :=
  match k with O => [[]] | S k => vecs m k ≫= λ ds, (λ d, ds ++ [d]) <$> seq 0 (m + S k) end.
Lemma elem_of_vecs m k ds : ds ∈ vecs m k ↔ outcome (seq (S m) k) ds.
Proof.
  revert ds. induction k as [|k IH]; intros ds.
  - cbn. rewrite elem_of_list_singleton. unfold outcome. split; [intros ->; constructor|]. by intros H%Forall2_nil_inv_r.
  - cbn [vecs]. rewrite elem_of_list_bind. rewrite seq_S. unfold outcome in *. split.
    + intros (ds' & (d & -> & Hd%elem_of_seq)%elem_of_list_fmap & H%IH). apply Forall2_app; [done|]. constructor; [lia|constructor].
    + intros H. apply Forall2_app_inv_r in H as (ds' & dl & H1 & H2 & ->). apply Forall2_cons_inv_r in H2 as (d & dl' & Hd & H3 & ->).
      apply Forall2_nil_inv_r in H3 as ->. exists ds'. split; [|by apply IH]. apply elem_of_list_fmap. exists d. split; [done|]. apply elem_of_seq. lia.
Qed.
Lemma vecs_NoDup m k : NoDup (vecs m k).
Proof.
  induction k as [|k IH]; [apply NoDup_singleton|]. cbn [vecs]. generalize (m + S k). intros b. induction IH as [|ds l Hds Hl IH]; [constructor|].
  rewrite bind_cons. apply NoDup_app. split_and!; [| |done].
  - apply NoDup_fmap_2; [intros x y Hxy; by apply app_inj_tail in Hxy as [_ ?]|apply NoDup_seq].
  - intros z (d & -> & _)%elem_of_list_fmap (ds' & (d' & Heq & _)%elem_of_list_fmap & Hin)%elem_of_list_bind. apply app_inj_tail in Heq as [-> _]. done.
Qed.
Lemma vecs_length m k : length (vecs m k) * fact m = fact (m + k).
Proof.
  induction k as [|k IH]; [by rewrite Nat.add_0_r; cbn; lia|]. cbn [vecs].
  assert (length (vecs m k ≫= λ ds, (λ d, ds ++ [d]) <$> seq 0 (m + S k)) = length (vecs m k) * (m + S k)) as ->.
  { generalize (vecs m k). intros l. induction l as [|x l IHl]; [done|]. rewrite bind_cons, app_length, fmap_length, seq_length, IHl. cbn [length]. lia. }
  rewrite <-Nat.mul_assoc, (Nat.mul_comm (m + S k)), Nat.mul_assoc, IH. rewrite Nat.add_succ_r. cbn [fact]. lia.
Qed.

(** ** Counting *)
Section count.
  Context {X : Type} `{Countable X}.
  Implicit Types (l res rest : list X).

  Lemma set_eq_size (Y Z : gset X) : Y ⊆ Z → size Z ≤ size Y → Y = Z.
  Proof.
    intros H1 H2. apply set_eq. intros z. split; [apply H1|]. intros Hz. destruct (decide (z ∈ Y)) as [|Hn]; [done|]. exfalso.
    assert (size Y < size Z); [|lia]. apply subset_size. split; [done|]. intros H3. by apply Hn, H3.
  Qed.
  (** The one member outside. *)
  Lemma one_outside (r : list X) (S1 : gset X) : NoDup r → S1 ⊆ list_to_set r → size S1 = length r - 1 → length r ≠ 0 →
    ∃ y, y ∈ r ∧ y ∉ S1 ∧ list_to_set r = S1 ∪ {[y]}.
  Proof.
    intros Hn Hs H1 H2. assert (size (list_to_set r : gset X) = length r) as Hsr by (by rewrite size_list_to_set).
    assert (size ((list_to_set r : gset X) ∖ S1) = 1) as Hone by (rewrite size_difference by done; lia).
    apply size_1_elem_of in Hone as [y Hy]. assert (y ∈ (list_to_set r : gset X) ∖ S1) as [Hy1 Hy2]%elem_of_difference by (rewrite Hy; by apply elem_of_singleton).
    apply elem_of_list_to_set in Hy1 as Hy3. exists y. split; [done|]. split; [done|]. apply set_eq. intros z. rewrite elem_of_union, elem_of_singleton. split.
    - intros Hz. destruct (decide (z ∈ S1)); [by left|right]. apply (elem_of_singleton (C:=gset X)). rewrite <-Hy. by apply elem_of_difference.
    - intros [Hz| ->]; [by apply Hs|done].
  Qed.
  Lemma insert_subset l d x y : y ∈ <[d := x]> l → y ∈ l ∨ y = x.
  Proof.
    intros (i & Hi)%elem_of_list_lookup. apply list_lookup_insert_Some in Hi as [(_ & -> & _)|(_ & Hi)]; [by right|]. left. by eapply elem_of_list_lookup_2.
  Qed.
  Lemma insert_NoDup l d x : NoDup l → x ∉ l → NoDup (<[d := x]> l).
  Proof.
    intros Hn Hx. apply NoDup_alt. intros a b y Ha Hb.
    apply list_lookup_insert_Some in Ha as [(-> & -> & ?)|(Hja & Ha)];
    apply list_lookup_insert_Some in Hb as [(-> & Hy & ?)|(Hjb & Hb)]; try done.
    - exfalso. apply Hx. by eapply elem_of_list_lookup_2.
    - exfalso. subst. apply Hx. by eapply elem_of_list_lookup_2.
    - exact (proj1 (NoDup_alt l) Hn a b y Ha Hb).
  Qed.
  Lemma fill_props rest : ∀ ds res, NoDup (res ++ rest) → length ds = length rest →
    length (fill ds rest res) = length res ∧ NoDup (fill ds rest res) ∧ ∀ x, x ∈ fill ds rest res → x ∈ res ∨ x ∈ rest.
  Proof.
    induction rest as [|x rest IH] using rev_ind; intros ds res Hn Hlen.
    - destruct ds; [|done]. rewrite app_nil_r in Hn. unfold fill. cbn. split_and!; [done..|by left].
    - destruct (decide (ds = [])) as [->|Hne]; [rewrite app_length in Hlen; cbn in Hlen; lia|].
      destruct (exists_last Hne) as (ds' & d & ->). rewrite !app_length in Hlen. cbn in Hlen. assert (length ds' = length rest) as Hl by lia.
      rewrite fill_snoc by done. rewrite app_assoc in Hn. apply NoDup_app in Hn as (Hn1 & Hn2 & _).
      destruct (IH ds' res Hn1 Hl) as (I1 & I2 & I3). split; [by rewrite insert_length|]. split.
      + apply insert_NoDup; [done|]. intros [Hx|Hx]%I3; apply (Hn2 x); set_solver.
      + intros y [Hy| ->]%insert_subset; [apply I3 in Hy|]; set_solver.
  Qed.

  (** The set after one more element. *)
  Lemma last_other (r : list X) (x : X) (b m k : nat) (S0 : gset X) : length r = m → b = m + S k → x ∉ S0 →
    tot (λ d, ind (list_to_set (<[d := x]> r) = S0)) (seq 0 b) = ind (list_to_set r = S0) * S k.
  Proof.
    intros Hr -> Hx. rewrite seq_app, tot_app. rewrite (tot_ind_none (λ d, list_to_set (<[d := x]> r) = S0) (seq 0 m)).
    - cbn [plus]. rewrite (tot_ext _ (λ _, ind (list_to_set r = S0))).
      + rewrite tot_const, seq_length. lia.
      + intros d Hd%elem_of_seq. by rewrite list_insert_ge by lia.
    - intros d Hd%elem_of_seq Heq. apply Hx. rewrite <-Heq, elem_of_list_to_set. apply (elem_of_list_lookup_2 _ d). apply list_lookup_insert. lia.
  Qed.
  Lemma last_this (r : list X) (x : X) (b m k : nat) (S0 : gset X) : NoDup r → length r = m → b = m + S k → size S0 = m → x ∈ S0 → x ∉ r →
    tot (λ d, ind (list_to_set (<[d := x]> r) = S0)) (seq 0 b) = ind (S0 ∖ {[x]} ⊆ list_to_set r).
  Proof.
    intros Hn Hr -> HS Hx Hxr.
    destruct (decide (S0 ∖ {[x]} ⊆ list_to_set r)) as [Hs|Hs]; unfold ind at 2; [rewrite decide_True by done|rewrite decide_False by done].
    - (* the one member of r outside S0 *)
      assert (m ≠ 0) as Hm. { intros ->. apply size_empty_inv in HS. set_solver. }
      assert (size (S0 ∖ {[x]}) = m - 1) as Hs1. { rewrite size_difference; [by rewrite size_singleton, HS|set_solver]. }
      destruct (one_outside r (S0 ∖ {[x]})) as (y & Hyr & Hyn & Hset); [done|done|lia|lia|].
      assert (y ≠ x) as Hyx by (intros ->; done).
      apply elem_of_list_lookup in Hyr as [d Hd].
      apply (tot_ind_one (λ d, list_to_set (<[d := x]> r) = S0) _ d); [apply NoDup_seq| | |].
      + apply elem_of_seq. apply lookup_lt_Some in Hd. lia.
      + assert (size (list_to_set (<[d:=x]> r) : gset X) = m) as Hsz. { rewrite size_list_to_set; [by rewrite insert_length|by apply insert_NoDup]. }
        symmetry. apply set_eq_size. 
        * intros z Hz. rewrite elem_of_list_to_set. destruct (decide (z = x)) as [->|Hne].
          -- apply (elem_of_list_lookup_2 _ d). apply list_lookup_insert. by eapply lookup_lt_Some.
          -- assert (z ∈ r) as [i Hi]%elem_of_list_lookup by set_solver. apply (elem_of_list_lookup_2 _ i). rewrite list_lookup_insert_ne; [done|].
             intros ->. rewrite Hd in Hi. injection Hi as ->. set_solver.
        * lia.
      + intros d' Hd'%elem_of_seq Heq. destruct (decide (d = d')) as [->|Hne]; [done|]. exfalso.
        assert (y ∈ S0). { rewrite <-Heq, elem_of_list_to_set. apply (elem_of_list_lookup_2 _ d). by rewrite list_lookup_insert_ne. }
        set_solver.
    - apply (tot_ind_none (λ d, list_to_set (<[d := x]> r) = S0)). intros d _ Heq. apply Hs. intros z Hz. rewrite elem_of_list_to_set.
      assert (z ∈ <[d:=x]> r) as [?| ->]%insert_subset; [|done|set_solver]. apply (elem_of_list_to_set (C:=gset X)). rewrite Heq. set_solver.
  Qed.

  Lemma reservoir_count init rest : NoDup (init ++ rest) → ∀ S0 : gset X, size S0 = length init → (∀ x, x ∈ S0 → x ∈ init ++ rest) →
    tot (λ ds, ind (list_to_set (fill ds rest init) = S0)) (vecs (length init) (length rest)) = fact (length rest).
  Proof.
    induction rest as [|x rest IH] using rev_ind; intros Hn S0 HS Hin.
    - rewrite app_nil_r in Hn, Hin. cbn [length vecs tot fact]. unfold fill. cbn [zip_with foldl]. unfold ind. rewrite decide_True; [done|].
      symmetry. apply set_eq_size; [intros z Hz; rewrite elem_of_list_to_set; by apply Hin|]. rewrite size_list_to_set; [lia|done].
    - rewrite app_length. cbn [length]. rewrite Nat.add_1_r. cbn [vecs]. rewrite tot_bind.
      rewrite app_assoc in Hn. apply NoDup_app in Hn as (Hn1 & Hn2 & _). assert (x ∉ init ++ rest) as Hx by set_solver.
      assert (∀ ds, ds ∈ vecs (length init) (length rest) → length ds = length rest) as Hlen.
      { intros ds Hds%elem_of_vecs. apply Forall2_length in Hds. by rewrite seq_length in Hds. }
      rewrite (tot_ext _ (λ ds, tot (λ d, ind (list_to_set (<[d := x]> (fill ds rest init)) = S0)) (seq 0 (length init + S (length rest))))).
      2:{ intros ds Hds. rewrite tot_fmap. apply tot_ext. intros d _. by rewrite fill_snoc by (by apply Hlen). }
      destruct (decide (x ∈ S0)) as [HxS|HxS].
      + rewrite (tot_ext _ (λ ds, ind (S0 ∖ {[x]} ⊆ list_to_set (fill ds rest init)))).
        2:{ intros ds Hds. destruct (fill_props rest ds init Hn1 (Hlen ds Hds)) as (I1 & I2 & I3).
            apply (last_this _ x _ (length init) (length rest)); [done|done|done|done|done|]. intros [?|?]%I3; set_solver. }
        set (ys := filter (λ y, y ∉ S0 ∖ {[x]}) (init ++ rest)).
        rewrite (tot_ext _ (λ ds, tot (λ y, ind (list_to_set (fill ds rest init) = (S0 ∖ {[x]}) ∪ {[y]})) ys)).
        * rewrite tot_swap. rewrite (tot_ext _ (λ _, fact (length rest))).
          -- rewrite tot_const. assert (length ys = S (length rest)) as ->; [|cbn [fact]; lia].
             assert (NoDup ys) as Hny by (by apply NoDup_filter). rewrite <-(size_list_to_set (C:=gset X) ys) by done.
             assert ((list_to_set ys : gset X) = list_to_set (init ++ rest) ∖ (S0 ∖ {[x]})) as ->.
             { apply set_eq. intros z. rewrite elem_of_list_to_set, elem_of_difference, elem_of_list_to_set. unfold ys. rewrite elem_of_list_filter. tauto. }
             rewrite size_difference, size_list_to_set, app_length by (done || (intros z Hz; rewrite elem_of_list_to_set; specialize (Hin z); set_solver)).
             rewrite size_difference, size_singleton, HS by set_solver. assert (length init ≠ 0); [|lia].
             intros H0. rewrite H0 in HS. apply size_empty_inv in HS. set_solver.
          -- intros y Hy. unfold ys in Hy. apply elem_of_list_filter in Hy as [Hy1 Hy2]. apply IH; [done| |].
             ++ rewrite size_union by set_solver. rewrite size_difference, !size_singleton, HS by set_solver. assert (length init ≠ 0); [|lia].
                intros H0. rewrite H0 in HS. apply size_empty_inv in HS. set_solver.
             ++ intros z [Hz|Hz]%elem_of_union; [|set_solver]. specialize (Hin z). set_solver.
        * intros ds Hds. destruct (fill_props rest ds init Hn1 (Hlen ds Hds)) as (I1 & I2 & I3). set (r := fill ds rest init) in *.
          destruct (decide (S0 ∖ {[x]} ⊆ list_to_set r)) as [Hs|Hs]; unfold ind at 1; [rewrite decide_True by done|rewrite decide_False by done]; symmetry.
          -- assert (length init ≠ 0) as Hm. { intros H0. rewrite H0 in HS. apply size_empty_inv in HS. set_solver. }
             assert (size (S0 ∖ {[x]}) = length init - 1) as Hs1. { rewrite size_difference; [by rewrite size_singleton, HS|set_solver]. }
             destruct (one_outside r (S0 ∖ {[x]})) as (y & Hyr & Hyn & Hset); [done|done|lia|lia|].
             apply (tot_ind_one (λ y, list_to_set r = S0 ∖ {[x]} ∪ {[y]}) _ y); [by apply NoDup_filter| |done|].
             ++ apply elem_of_list_filter. split; [done|]. by apply elem_of_app, I3.
             ++ intros y' Hy' Heq. apply elem_of_list_filter in Hy' as [Hy1 _]. assert (y' ∈ (list_to_set r : gset X)) as Hz by (rewrite Heq; set_solver).
                rewrite Hset in Hz. apply elem_of_union in Hz as [Hz|Hz]; [done|by apply elem_of_singleton in Hz].
          -- apply (tot_ind_none (λ y, list_to_set r = S0 ∖ {[x]} ∪ {[y]})). intros y _ Heq. apply Hs. rewrite Heq. set_solver.
      + rewrite (tot_ext _ (λ ds, ind (list_to_set (fill ds rest init) = S0) * S (length rest))).
        2:{ intros ds Hds. destruct (fill_props rest ds init Hn1 (Hlen ds Hds)) as (I1 & _). by apply (last_other _ x _ (length init)). }
        rewrite tot_mul, IH; [cbn [fact]; lia|done|done|]. intros z Hz. specialize (Hin z Hz). apply elem_of_app. rewrite !elem_of_app in Hin. set_solver.
  Qed.
End count.
