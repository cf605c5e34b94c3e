(** Facts about the renaming of nodes and label ids. *)
From Verif Require Import Base Api Spec BaseFacts SpecFacts Map MapFacts GraphMap GraphMapFacts
  GraphMapRefine GraphMapQueries SpecReorder Reorder.

(** ** Sorting *)
Section sort.
  Context {A : Type} (le : A → A → bool).
  Lemma sort_insert_perm x l : sort_insert le x l ≡ₚ x :: l.
  Proof.
    induction l as [|y l IH]; cbn [sort_insert]; [done|]. destruct (le x y); [done|].
    rewrite IH. apply Permutation_swap.
  Qed.
  Lemma sort_by_perm l : sort_by le l ≡ₚ l.
  Proof. induction l as [|x l IH]; [done|]. cbn. by rewrite sort_insert_perm, IH. Qed.
  Context (Htot : ∀ x y, le x y = false → le y x = true).
  Context (Htr : ∀ x y z, le x y = true → le y z = true → le x z = true).
  Lemma sort_insert_sorted x l : StronglySorted (λ a b, le a b = true) l →
    StronglySorted (λ a b, le a b = true) (sort_insert le x l).
  Proof.
    induction 1 as [|y l Hl IH Hy]; cbn [sort_insert]; [repeat constructor|].
    destruct (le x y) eqn:Hxy.
    - constructor; [by constructor|]. constructor; [done|]. eapply Forall_impl; [exact Hy|]. intros z Hz. by eapply Htr.
    - constructor; [done|]. rewrite sort_insert_perm. constructor; [by apply Htot|done].
  Qed.
  Lemma sort_by_sorted l : StronglySorted (λ a b, le a b = true) (sort_by le l).
  Proof. induction l as [|x l IH]; [constructor|]. cbn. by apply sort_insert_sorted. Qed.
End sort.

(** ** Collecting *)
Lemma bt_collect_lookup l y v :
  (∀ p q, p ∈ l → q ∈ l → p.1 = q.1 → p.2 = q.2) → bt_collect l !! y = Some v ↔ (y, v) ∈ l.
Proof.
  intros Hl. unfold bt_collect. induction l as [|[k w] l IH] using rev_ind.
  { cbn [foldl]. rewrite lookup_empty. set_solver. }
  rewrite foldl_app. cbn [foldl fst snd]. destruct (decide (k = y)) as [->|Hk].
  - rewrite lookup_insert. rewrite elem_of_app, elem_of_list_singleton. split; [naive_solver|].
    intros [Hin| [= ->] ]; [|done]. f_equal. apply (Hl (y, w) (y, v)); set_solver.
  - rewrite lookup_insert_ne by done. rewrite IH by (intros; apply Hl; set_solver).
    rewrite elem_of_app, elem_of_list_singleton. naive_solver.
Qed.

Lemma nodes_collect (G : nodemap → nodemap) l y n' :
  (∀ n1 n2, n1 ∈ l → n2 ∈ l → nm_id (G n1) = nm_id (G n2) → G n1 = G n2) →
  foldl (λ m n, <[nm_id (G n) := G n]> m) (∅ : gmap N nodemap) l !! y = Some n' ↔
  ∃ n, n ∈ l ∧ G n = n' ∧ nm_id n' = y.
Proof.
  intros Hl. induction l as [|n l IH] using rev_ind.
  { cbn [foldl]. rewrite lookup_empty. set_solver. }
  rewrite foldl_app. cbn [foldl]. destruct (decide (nm_id (G n) = y)) as [Hy|Hy].
  - rewrite Hy, lookup_insert. split.
    + intros [= <-]. exists n. set_solver.
    + intros (n2 & Hin & <- & Hid). f_equal. apply Hl; [set_solver|done|congruence].
  - rewrite lookup_insert_ne by done. rewrite IH by (intros; apply Hl; set_solver).
    split; intros (n2 & Hin & H2 & Hid); exists n2; [set_solver|].
    apply elem_of_app in Hin as [?| ->%elem_of_list_singleton]; [done|]. congruence.
Qed.
Lemma rfold_nodes (F : nodemap → res nodemap) (G : nodemap → nodemap) l (m : gmap N nodemap) :
  (∀ n, n ∈ l → F n = Ok (G n)) →
  rfold (λ m n, let* n' := F n in Ok (<[nm_id n' := n']> m)) l m
    = Ok (foldl (λ m n, <[nm_id (G n) := G n]> m) m l).
Proof.
  intros HF. revert m. induction l as [|n l IH]; intros m; [done|]. cbn [rfold foldl].
  rewrite HF by set_solver. cbn [rbind]. apply IH. intros; apply HF; set_solver.
Qed.

Lemma list_max_spec l : match list_max_N l with
  | Some k => ∀ x, x ∈ l → (x ≤ k)%N
  | None => l = []
  end.
Proof.
  induction l as [|x l IH]; [done|]. cbn [list_max_N foldr]. change (foldr _ None l) with (list_max_N l).
  destruct (list_max_N l) as [k|].
  - intros y [ -> | Hy]%elem_of_cons; [lia|]. specialize (IH y Hy). lia.
  - subst l. intros y ->%elem_of_list_singleton. done.
Qed.

(** ** Renaming through a map *)
Definition vf (t : idty) (o : option (list N)) (x : N) : N := match via t o x with Ok y => y | _ => x end.
Definition covers (t : idty) (o : option (list N)) (P : N → Prop) : Prop :=
  match o with Some m => (∀ x, P x → x ∈ m) ∧ (N.of_nat (length m) ≤ id_card t)%N | None => True end.

Lemma via_ok t o P x : covers t o P → P x → via t o x = Ok (vf t o x).
Proof.
  intros Hc Hx. unfold vf. destruct o as [m|]; [|done]. destruct Hc as [Hc _]. cbn [via].
  unfold sm_find_index. destruct (is_get_full m x) eqn:Hi; [done|].
  apply get_full_None in Hi. by apply Hc in Hx.
Qed.
Lemma vf_index t m P x : covers t (Some m) P → P x →
  ∃ i, is_get_full m x = Some i ∧ m !! i = Some x ∧ vf t (Some m) x = N.of_nat i ∧ i < length m.
Proof.
  intros [Hc Hlen] Hx. unfold vf. cbn [via]. unfold sm_find_index. destruct (is_get_full m x) as [i|] eqn:Hi.
  - exists i. split; [done|]. pose proof (get_full_Some _ _ _ Hi) as Hl. split; [done|].
    pose proof (lookup_lt_Some _ _ _ Hl). split; [|done]. cbn [unwrap rbind]. apply id_new_small. lia.
  - apply get_full_None in Hi. by apply Hc in Hx.
Qed.
Lemma vf_inj t o P x y : covers t o P → P x → P y → vf t o x = vf t o y → x = y.
Proof.
  intros Hc Hx Hy He. destruct o as [m|]; [|done].
  destruct (vf_index t m P x Hc Hx) as (i & _ & Hi & Hvi & _).
  destruct (vf_index t m P y Hc Hy) as (j & _ & Hj & Hvj & _).
  assert (i = j) as -> by lia. congruence.
Qed.
Definition vfo (t : idty) (o : option (list N)) (x : option N) : option N := vf t o <$> x.
Lemma via_opt_ok t o P x : covers t o P → (∀ i, x = Some i → P i) → via_opt t o x = Ok (vfo t o x).
Proof.
  intros Hc Hx. destruct x as [i|]; [|done]. cbn [via_opt vfo fmap option_fmap option_map].
  rewrite (via_ok t o P i) by (try done; by apply Hx). done.
Qed.

(** ** reorder_label_map *)
Section labels.
  Context {X : Type} `{EqDecision X}.
  Implicit Types (old : list X) (mp : list N).

  Lemma label_map_gen mp2 mp1 old (slots : list (option X)) :
    NoDup (mp1 ++ mp2) → NoDup old → (∀ i, i ∈ mp1 ++ mp2 → N.to_nat i < length old) →
    (∀ k, slots !! k = if decide (N.of_nat k ∈ mp1) then Some None else Some <$> old !! k) →
    rmap snd (rfold (λ (st : list (option X) * list X) i,
      let* slot := unwrap (st.1 !! id_id i) in
      let* l := unwrap slot in
      let* p := sm_add_item st.2 l in
      Ok (<[id_id i := None]> st.1, p.2)) mp2 (slots, omap (λ i, old !! N.to_nat i) mp1))
    = Ok (omap (λ i, old !! N.to_nat i) (mp1 ++ mp2)).
  Proof.
    revert mp1 slots. induction mp2 as [|i mp2 IH]; intros mp1 slots Hnd Hold Hb Hslots.
    { rewrite app_nil_r. done. }
    assert (i ∉ mp1) as Hi by (apply NoDup_app in Hnd as (_ & Hd & _); intros Hin; apply (Hd i Hin); left).
    destruct (lookup_lt_is_Some_2 old (N.to_nat i)) as [l Hl]; [apply Hb; set_solver|].
    cbn [rfold]. cbn [fst snd]. unfold id_id. rewrite Hslots.
    rewrite N2Nat.id, (decide_False (P := i ∈ mp1)) by done. rewrite Hl. cbn [fmap option_fmap option_map unwrap rbind].
    assert (l ∉ omap (λ i, old !! N.to_nat i) mp1) as Hnl.
    { rewrite elem_of_list_omap. intros (j & Hj & Hlj). 
      pose proof (NoDup_lookup _ _ _ _ Hold Hl Hlj). apply Hi. by replace i with j by lia. }
    unfold sm_add_item. unfold is_insert, is_contains. rewrite bool_decide_false by done.
    rewrite usub_ok by (unfold sm_len; rewrite app_length; cbn; lia). cbn [rmap rbind snd].
    replace (mp1 ++ i :: mp2) with ((mp1 ++ [i]) ++ mp2) by (by rewrite <-app_assoc).
    replace (omap (λ i, old !! N.to_nat i) mp1 ++ [l]) with (omap (λ i, old !! N.to_nat i) (mp1 ++ [i])).
    2:{ rewrite omap_app. cbn. by rewrite Hl. }
    apply IH.
    - by rewrite <-app_assoc.
    - done.
    - intros j. rewrite <-app_assoc. apply Hb.
    - intros k. unfold id_id. destruct (decide (N.to_nat i = k)) as [<-|Hk].
      + rewrite N2Nat.id. rewrite decide_True by set_solver. apply list_lookup_insert.
        destruct (lookup_lt_is_Some slots (N.to_nat i)) as [Hs _]. apply Hs. rewrite Hslots.
        rewrite N2Nat.id, decide_False by done. rewrite Hl. by eexists.
      + rewrite list_lookup_insert_ne by done. rewrite Hslots.
        destruct (decide (N.of_nat k ∈ mp1)) as [Hin|Hnin]; [by rewrite decide_True by set_solver|].
        rewrite decide_False; [done|]. rewrite elem_of_app, elem_of_list_singleton. intros [?|?]; [done|lia].
  Qed.
  Lemma label_map_spec mp old :
    NoDup mp → NoDup old → (∀ i, i ∈ mp → N.to_nat i < length old) →
    reorder_label_map mp old = Ok (omap (λ i, old !! N.to_nat i) mp).
  Proof.
    intros Hmp Hold Hb. unfold reorder_label_map, sm_items, sm_new.
    apply (label_map_gen mp [] old (Some <$> old)); try done.
    intros k. rewrite decide_False by set_solver. by rewrite list_lookup_fmap.
  Qed.
  Lemma omap_total {A B} (F : A → option B) (l : list A) j a : (∀ x, x ∈ l → is_Some (F x)) → l !! j = Some a → omap F l !! j = F a.
  Proof.
    revert j. induction l as [|x l IH]; intros j HF Hj; [done|]. 
    destruct (HF x ltac:(left)) as [b Hb]. cbn [omap list_omap]. rewrite Hb. destruct j as [|j]; cbn in *; [congruence|].
    apply IH; [|done]. intros; apply HF; by right.
  Qed.
  Lemma omap_total_length {A B} (F : A → option B) (l : list A) : (∀ x, x ∈ l → is_Some (F x)) → length (omap F l) = length l.
  Proof.
    induction l as [|x l IH]; intros HF; [done|]. destruct (HF x ltac:(left)) as [b Hb].
    cbn [omap list_omap]. rewrite Hb. cbn. f_equal. apply IH. intros; apply HF; by right.
  Qed.
  Lemma label_map_NoDup mp old : NoDup mp → NoDup old → NoDup (omap (λ i, old !! N.to_nat i) mp).
  Proof.
    intros Hmp Hold. induction Hmp as [|i mp Hi Hmp IH]; [constructor|]. cbn [omap list_omap].
    destruct (old !! N.to_nat i) as [l|] eqn:Hl; [|done]. constructor; [|done].
    rewrite elem_of_list_omap. intros (j & Hj & Hlj).
    pose proof (NoDup_lookup _ _ _ _ Hold Hl Hlj). apply Hi. by replace i with j by lia.
  Qed.
End labels.
