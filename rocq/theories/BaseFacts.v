(** General lemmas about Base.v. *)
From Verif Require Import Base Api Spec.

(** ** Monad *)
Lemma rbind_Ok {A B} (r : res A) (f : A → res B) b :
  rbind f r = Ok b ↔ ∃ a, r = Ok a ∧ f a = Ok b.
Proof. destruct r; simpl; naive_solver. Qed.
Lemma rmap_Ok {A B} (r : res A) (f : A → B) b :
  rmap f r = Ok b ↔ ∃ a, r = Ok a ∧ f a = b.
Proof. destruct r; simpl; naive_solver. Qed.
Lemma rmapl_Ok {A B} (f : A → res B) l l' :
  rmapl f l = Ok l' ↔ Forall2 (λ x y, f x = Ok y) l l'.
Proof.
  revert l'. induction l as [|x l IH]; intros l'; simpl.
  - split; [intros [= <-]; constructor|]. inversion 1; subst; done.
  - rewrite rbind_Ok. split.
    + intros (y & Hy & H). apply rmap_Ok in H as (l'' & Hl & <-).
      constructor; [done|]. by apply IH.
    + inversion 1 as [|? y ? l'' Hy Hl]; subst. exists y. split; [done|].
      apply IH in Hl. rewrite Hl. done.
Qed.
Lemma rmapl_ok_fmap {A B} (f : A → B) l : rmapl (λ x, Ok (f x)) l = Ok (f <$> l).
Proof. induction l as [|x l IH]; [done|]. csimpl. rewrite IH. done. Qed.
Lemma rmapl_ext {A B} (f g : A → res B) l :
  (∀ x, x ∈ l → f x = g x) → rmapl f l = rmapl g l.
Proof.
  induction l as [|x l IH]; intros Hfg; [done|]. csimpl.
  rewrite (Hfg x) by left. rewrite IH; [done|]. intros y Hy. apply Hfg. by right.
Qed.
Lemma rfold_app {S A} (f : S → A → res S) l1 l2 s :
  rfold f (l1 ++ l2) s = rbind (rfold f l2) (rfold f l1 s).
Proof.
  revert s. induction l1 as [|x l1 IH]; intros s; simpl; [done|].
  destruct (f s x); simpl; [|done..]. apply IH.
Qed.
Lemma rfold_ind {S A} (P : list A → S → Prop) (f : S → A → res S) l s0 :
  P [] s0 →
  (∀ l1 x l2 s, l = l1 ++ x :: l2 → P l1 s → ∃ s', f s x = Ok s' ∧ P (l1 ++ [x]) s') →
  ∃ s', rfold f l s0 = Ok s' ∧ P l s'.
Proof.
  intros H0 Hstep.
  assert (∀ l2 l1 s, l = l1 ++ l2 → P l1 s → ∃ s', rfold f l2 s = Ok s' ∧ P l s') as Hgen.
  { induction l2 as [|x l2 IH]; intros l1 s Hl HP; simpl.
    - rewrite app_nil_r in Hl. subst. by exists s.
    - destruct (Hstep l1 x l2 s Hl HP) as (s' & Hs' & HP').
      rewrite Hs'. simpl. apply (IH (l1 ++ [x])); [|done]. by rewrite <-app_assoc. }
  exact (Hgen l [] s0 eq_refl H0).
Qed.
Lemma usub_ok a b : b ≤ a → usub a b = Ok (a - b).
Proof. intros. unfold usub. by rewrite decide_True. Qed.
Lemma usub_panic a b : a < b → usub a b = Panic.
Proof. intros. unfold usub. rewrite decide_False; [done|lia]. Qed.

(** ** Ids *)
Lemma id_card_pos t : (0 < id_card t)%N.
Proof. by destruct t. Qed.
Lemma id_new_small t x : (N.of_nat x < id_card t)%N → id_new t x = N.of_nat x.
Proof. intros. unfold id_new. by apply N.mod_small. Qed.
Lemma id_new_id t x : (N.of_nat x < id_card t)%N → id_id (id_new t x) = x.
Proof. intros. rewrite id_new_small by done. unfold id_id. lia. Qed.
Lemma id_new_lt t x : (id_new t x < id_card t)%N.
Proof. unfold id_new. apply N.mod_lt. pose proof (id_card_pos t). lia. Qed.

(** ** Lists *)
Lemma lists_exactly_length {X A} `{Countable X} (l : list X) (m : gmap X A) :
  lists_exactly l (λ k, is_Some (m !! k)) → length l = size m.
Proof.
  intros [Hnd Hl].
  assert (l ≡ₚ (map_to_list m).*1) as Hp.
  { apply NoDup_Permutation; [done|apply NoDup_fst_map_to_list|].
    intros x. rewrite Hl. rewrite elem_of_list_fmap. split.
    - intros [a Ha]. exists (x, a). by rewrite elem_of_map_to_list.
    - intros ([k a] & -> & Hk). rewrite elem_of_map_to_list in Hk. by exists a. }
  by rewrite Hp, fmap_length.
Qed.
Lemma lists_exactly_perm {X} (l l' : list X) P :
  lists_exactly l P → lists_exactly l' P → l ≡ₚ l'.
Proof.
  intros [H1 H2] [H3 H4]. apply NoDup_Permutation; [done..|]. intros x. by rewrite H2, H4.
Qed.
Lemma lists_exactly_iff {X} (l : list X) P Q :
  (∀ x, P x ↔ Q x) → lists_exactly l P ↔ lists_exactly l Q.
Proof. intros HPQ. unfold lists_exactly. by setoid_rewrite HPQ. Qed.
Lemma increasing_NoDup l : increasing l → NoDup l.
Proof.
  induction 1 as [|x l Hs IH Hf]; constructor; [|done].
  intros Hx. rewrite Forall_forall in Hf. specialize (Hf x Hx). lia.
Qed.
Lemma increasing_unique l l' :
  increasing l → increasing l' → (∀ x, x ∈ l ↔ x ∈ l') → l = l'.
Proof.
  intros H. revert l'. induction H as [|x l Hs IH Hf]; intros l' H' Hl.
  - destruct l' as [|y l']; [done|]. destruct (not_elem_of_nil y). apply Hl. left.
  - rewrite Forall_forall in Hf.
    destruct H' as [|y l' Hs' Hf'].
    + destruct (not_elem_of_nil x). apply Hl. left.
    + rewrite Forall_forall in Hf'.
      assert (x = y) as ->.
      { assert (x ∈ y :: l') as Hx by (apply Hl; left).
        assert (y ∈ x :: l) as Hy by (apply Hl; left).
        apply elem_of_cons in Hx as [->|Hx]; [done|].
        apply elem_of_cons in Hy as [->|Hy]; [done|].
        specialize (Hf _ Hy). specialize (Hf' _ Hx). lia. }
      f_equal. apply IH; [done|]. intros z. specialize (Hl z).
      rewrite !elem_of_cons in Hl. split; intros Hz.
      * destruct Hl as [Hl _]. destruct Hl as [->|]; [by right| |done].
        specialize (Hf _ Hz). lia.
      * destruct Hl as [_ Hl]. destruct Hl as [->|]; [by right| |done].
        specialize (Hf' _ Hz). lia.
Qed.

(** ** B-trees *)
#[export] Instance key_le_trans {A} : Transitive (@key_le A).
Proof. intros x y z. unfold key_le. lia. Qed.
#[export] Instance key_le_total {A} : Total (@key_le A).
Proof. intros x y. unfold key_le. lia. Qed.

Lemma bt_iter_perm {A} (m : gmap N A) : bt_iter m ≡ₚ map_to_list m.
Proof. apply merge_sort_Permutation. Qed.
Lemma elem_of_bt_iter {A} (m : gmap N A) k a : (k, a) ∈ bt_iter m ↔ m !! k = Some a.
Proof. rewrite bt_iter_perm. apply elem_of_map_to_list. Qed.
Lemma bt_iter_length {A} (m : gmap N A) : length (bt_iter m) = size m.
Proof. by rewrite bt_iter_perm. Qed.
Lemma bt_keys_NoDup {A} (m : gmap N A) : NoDup (bt_keys m).
Proof. unfold bt_keys. rewrite bt_iter_perm. apply NoDup_fst_map_to_list. Qed.
Lemma elem_of_bt_keys {A} (m : gmap N A) k : k ∈ bt_keys m ↔ is_Some (m !! k).
Proof.
  unfold bt_keys. rewrite elem_of_list_fmap. split.
  - intros ([k' a] & -> & Hk). apply elem_of_bt_iter in Hk. by exists a.
  - intros [a Ha]. exists (k, a). by rewrite elem_of_bt_iter.
Qed.
Lemma bt_keys_length {A} (m : gmap N A) : length (bt_keys m) = size m.
Proof. unfold bt_keys. by rewrite fmap_length, bt_iter_length. Qed.

Lemma keys_increasing {A} (l : list (N * A)) :
  StronglySorted key_le l → NoDup l.*1 → increasing l.*1.
Proof.
  induction 1 as [|[k a] l Hs IH Hf]; csimpl; intros Hnd; [constructor|].
  apply NoDup_cons in Hnd as [Hk Hnd]. constructor; [by apply IH|].
  rewrite Forall_forall in Hf. apply Forall_forall. intros k' Hk'.
  apply elem_of_list_fmap in Hk' as ([k'' a'] & Heq & Hin). simpl in Heq. subst.
  specialize (Hf _ Hin). unfold key_le in Hf. simpl in Hf.
  assert (k ≠ k''); [|lia]. intros ->. apply Hk. apply elem_of_list_fmap. by exists (k'', a').
Qed.
Lemma bt_iter_sorted {A} (m : gmap N A) : StronglySorted key_le (bt_iter m).
Proof. apply StronglySorted_merge_sort; apply _. Qed.
Lemma bt_keys_increasing {A} (m : gmap N A) : increasing (bt_keys m).
Proof. apply keys_increasing; [apply bt_iter_sorted|apply bt_keys_NoDup]. Qed.

Lemma StronglySorted_filter {X} (R : X → X → Prop) (P : X → Prop) `{∀ x, Decision (P x)} l :
  StronglySorted R l → StronglySorted R (filter P l).
Proof.
  induction 1 as [|x l Hs IH Hf]; [constructor|]. rewrite filter_cons.
  destruct (decide (P x)); [|done]. constructor; [done|].
  rewrite Forall_forall in *. intros y Hy. apply elem_of_list_filter in Hy as [_ Hy]. by apply Hf.
Qed.
Lemma elem_of_bt_range {A} (m : gmap N A) k0 k a :
  (k, a) ∈ bt_range_from k0 m ↔ (k0 ≤ k)%N ∧ m !! k = Some a.
Proof. unfold bt_range_from. rewrite elem_of_list_filter, elem_of_bt_iter. done. Qed.
Lemma elem_of_bt_range_keys {A} (m : gmap N A) k0 k :
  k ∈ (bt_range_from k0 m).*1 ↔ (k0 ≤ k)%N ∧ is_Some (m !! k).
Proof.
  rewrite elem_of_list_fmap. split.
  - intros ([k' a] & -> & Hk). apply elem_of_bt_range in Hk as [??]. split; [done|by exists a].
  - intros [Hk [a Ha]]. exists (k, a). by rewrite elem_of_bt_range.
Qed.
Lemma NoDup_fst_filter {A B} (l : list (A * B)) (P : A * B → Prop) `{∀ x, Decision (P x)} :
  NoDup l.*1 → NoDup (filter P l).*1.
Proof.
  induction l as [|[k a] l IH]; csimpl; intros Hnd; [constructor|].
  apply NoDup_cons in Hnd as [Hk Hnd]. rewrite filter_cons.
  destruct (decide (P (k, a))); [|by apply IH]. csimpl. constructor; [|by apply IH].
  intros Hin. apply Hk. apply elem_of_list_fmap in Hin as (x & -> & Hx).
  apply elem_of_list_filter in Hx as [_ Hx]. apply elem_of_list_fmap. by exists x.
Qed.
Lemma bt_range_keys_increasing {A} (m : gmap N A) k0 : increasing (bt_range_from k0 m).*1.
Proof.
  apply keys_increasing.
  - apply StronglySorted_filter, bt_iter_sorted.
  - apply NoDup_fst_filter, bt_keys_NoDup.
Qed.

Lemma bs_iter_perm (s : gset N) : bs_iter s ≡ₚ elements s.
Proof. apply merge_sort_Permutation. Qed.
Lemma elem_of_bs_iter (s : gset N) x : x ∈ bs_iter s ↔ x ∈ s.
Proof. rewrite bs_iter_perm. apply elem_of_elements. Qed.
Lemma bs_iter_NoDup (s : gset N) : NoDup (bs_iter s).
Proof. rewrite bs_iter_perm. apply NoDup_elements. Qed.
Lemma bs_iter_length (s : gset N) : length (bs_iter s) = size s.
Proof. by rewrite bs_iter_perm. Qed.
Lemma StronglySorted_le_lt (l : list N) : StronglySorted N.le l → NoDup l → increasing l.
Proof.
  induction 1 as [|x l Hs IH Hf]; intros Hnd; [constructor|].
  apply NoDup_cons in Hnd as [Hx Hnd]. constructor; [by apply IH|].
  rewrite Forall_forall in *. intros y Hy. specialize (Hf y Hy).
  assert (x ≠ y) by (intros ->; done). lia.
Qed.
#[export] Instance Nle_total : Total N.le.
Proof. intros x y. lia. Qed.
Lemma bs_iter_increasing (s : gset N) : increasing (bs_iter s).
Proof.
  apply StronglySorted_le_lt; [|apply bs_iter_NoDup].
  apply StronglySorted_merge_sort; apply _.
Qed.

Lemma NoDup_bind' {A B} (f : A → list B) l :
  (∀ x1 x2 y, x1 ∈ l → x2 ∈ l → y ∈ f x1 → y ∈ f x2 → x1 = x2) →
  (∀ x, x ∈ l → NoDup (f x)) → NoDup l → NoDup (l ≫= f).
Proof.
  intros Hinj Hf. induction 1 as [|x l Hx Hnd IH]; csimpl; [constructor|].
  apply NoDup_app. split; [apply Hf; left|]. split.
  - intros y Hy Hy'. apply elem_of_list_bind in Hy' as (x' & Hy' & Hx').
    assert (x = x') as ->; [|done]. eapply Hinj; [left|by right|done|done].
  - apply IH; intros; [eapply Hinj; [by right|by right|done|done]|apply Hf; by right].
Qed.

(** Closing concrete runs by computation. *)
Lemma run_ok_ex {A B} (r : res (A * B)) (P : A → B → Prop) :
  match r with Ok (a, b) => P a b | _ => False end → ∃ a b, r = Ok (a, b) ∧ P a b.
Proof. destruct r as [[a b]| |]; [|done..]. by eauto. Qed.
Lemma res_ok_ex {A} (r : res A) (P : A → Prop) :
  match r with Ok a => P a | _ => False end → ∃ a, r = Ok a ∧ P a.
Proof. destruct r as [a| |]; [|done..]. by eauto. Qed.
Lemma run_ok_ex2 {A B C D} (r : res (A * B)) (r' : res (C * D)) (P : A → B → C → D → Prop) :
  match r, r' with Ok (a, b), Ok (c, d) => P a b c d | _, _ => False end →
  ∃ a b c d, r = Ok (a, b) ∧ r' = Ok (c, d) ∧ P a b c d.
Proof. destruct r as [[a b]| |], r' as [[c d]| |]; try done. intros H. exists a, b, c, d. done. Qed.

Lemma StronglySorted_app_iff {X} (R : X → X → Prop) l1 l2 : StronglySorted R (l1 ++ l2) ↔
  StronglySorted R l1 ∧ StronglySorted R l2 ∧ ∀ x y, x ∈ l1 → y ∈ l2 → R x y.
Proof.
  induction l1 as [|a l1 IH]; simpl.
  - split; [intros; split_and!; [constructor|done|set_solver]|by intros (_&?&_)].
  - split.
    + inversion 1 as [|?? Hs Hf]; subst. apply IH in Hs as (H1&H2&H3). apply Forall_app in Hf as [Hf1 Hf2].
      split_and!; [by constructor|done|]. intros x y [->|Hx]%elem_of_cons Hy; [|by apply H3].
      rewrite Forall_forall in Hf2. by apply Hf2.
    + intros (H1&H2&H3). inversion H1 as [|?? Hs Hf]; subst. constructor.
      * apply IH. split_and!; [done|done|]. intros; apply H3; set_solver.
      * apply Forall_app. split; [done|]. apply Forall_forall. intros; apply H3; set_solver.
Qed.
Lemma sublist_NoDup {X} (l k : list X) : l `sublist_of` k → NoDup k → NoDup l.
Proof.
  induction 1 as [|x l k H IH|x l k H IH]; intros Hk; [done|..].
  - apply NoDup_cons in Hk as [Hx Hk]. constructor; [|by apply IH]. intros Hx'. apply Hx.
    eapply elem_of_submseteq; [done|]. by apply sublist_submseteq.
  - apply NoDup_cons in Hk as [Hx Hk]. by apply IH.
Qed.
