(** The derived encodings are faithful. *)
From stdpp Require Import gmap strings.
From Verif Require Import Base BaseFacts Utf8 SpecUtf8 Utf8Props Bytes Map MapFacts GraphMap Static Serde SpecSerde.

(** ** Integers *)
Lemma le_bytes_length k x : length (le_bytes k x) = k.
Proof. revert x. induction k as [|k IH]; intros x; simpl; [done|]. by rewrite IH. Qed.
Lemma le_value_bytes k x : (x < 256 ^ N.of_nat k)%N → le_value (le_bytes k x) = x.
Proof.
  revert x. induction k as [|k IH]; intros x Hx.
  - simpl in Hx. simpl. lia.
  - cbn [le_bytes]. unfold le_value. cbn [foldr]. fold (le_value (le_bytes k (x / 256))).
    rewrite IH; [|]. { rewrite (N.div_mod x 256) at 3 by done. lia. }
    rewrite Nat2N.inj_succ, N.pow_succ_r' in Hx. apply N.div_lt_upper_bound; lia.
Qed.
Lemma le_bytes_range k x : Forall (λ b, b < 256)%N (le_bytes k x).
Proof. revert x. induction k as [|k IH]; intros x; simpl; constructor; [by apply N.mod_lt|done]. Qed.
Lemma id_card_pow t : id_card t = (256 ^ N.of_nat (id_size t))%N.
Proof. by destruct t. Qed.

(** A proper prefix of a concatenation. *)
Lemma cut_app {X} (a b p : list X) : p `prefix_of` a ++ b → p ≠ a ++ b →
  (p `prefix_of` a ∧ p ≠ a) ∨ ∃ q, p = a ++ q ∧ q `prefix_of` b ∧ q ≠ b.
Proof.
  intros [k Hk] Hne. destruct (decide (length p < length a)) as [Hl|Hl].
  - left. apply (f_equal (take (length p))) in Hk. rewrite take_app, take_app_le in Hk by lia. split.
    + rewrite <- Hk. apply prefix_take || (exists (drop (length p) a); by rewrite take_drop).
    + intros ->. lia.
  - right. exists (drop (length a) p). pose proof Hk as Hk'.
    apply (f_equal (take (length a))) in Hk'. rewrite take_app, take_app_le in Hk' by lia.
    assert (p = a ++ drop (length a) p) as Hp. { rewrite Hk' at 1. by rewrite take_drop. }
    split; [done|]. rewrite Hp in Hk. rewrite <-app_assoc in Hk. apply app_inv_head in Hk.
    split; [by exists k|]. intros Heq. apply Hne. by rewrite Hp, Heq at 1.
Qed.

Lemma f_uint k : faithful (c_uint k) (λ x, x < 256 ^ N.of_nat k)%N.
Proof.
  split.
  - intros x r Hx. cbn [c_uint enc dec]. rewrite app_length, le_bytes_length.
    destruct (decide _); [lia|]. rewrite take_app_alt, drop_app_alt by (by rewrite le_bytes_length).
    by rewrite le_value_bytes.
  - intros x b Hx Hp Hne. cbn [c_uint enc dec] in *. destruct (decide _) as [|Hl]; [done|].
    exfalso. apply Hne. destruct Hp as [k' Hk]. pose proof (le_bytes_length k x) as Hlen. rewrite Hk in Hlen |- *.
    rewrite app_length in Hlen. destruct k'; [by rewrite app_nil_r|simpl in Hlen; lia].
Qed.
Lemma f_weaken {A} (c : codec A) (P Q : A → Prop) : (∀ x, Q x → P x) → faithful c P → faithful c Q.
Proof. intros H [H1 H2]. split; intros x b Hx; [apply H1|apply H2]; by apply H. Qed.
Lemma f_id t : faithful (c_id t) (in_type t).
Proof. eapply f_weaken, f_uint. intros x. unfold in_type. by rewrite id_card_pow. Qed.
Lemma f_usize : faithful c_usize in_usize.
Proof.
  destruct (f_uint 8) as [H1 H2]. split.
  - intros n r Hn. cbn [c_usize enc dec]. pose proof (H1 (N.of_nat n) r Hn) as Hd. cbn [c_uint enc] in Hd. rewrite Hd.
    simpl. by rewrite Nat2N.id.
  - intros n b Hn Hp Hne. cbn [c_usize enc dec] in *. pose proof (H2 (N.of_nat n) b Hn Hp Hne) as Hd. rewrite Hd. done.
Qed.
Lemma f_option {A} (c : codec A) P : faithful c P → faithful (c_option c) (opt_all P).
Proof.
  intros [H1 H2]. split.
  - intros [x|] r Hx; cbn [c_option enc dec app]; [|done]. by rewrite (H1 x r Hx).
  - intros [x|] b Hx Hp Hne; cbn [c_option enc dec] in *.
    + destruct b as [|y b]; [done|]. destruct Hp as [k Hk]. cbn [app] in Hk. injection Hk as <- Hk.
      rewrite (H2 x b); [done|done|by exists k|]. intros ->. done.
    + destruct b as [|y b]; [done|]. destruct Hp as [k Hk]. cbn [app] in Hk. injection Hk as <- Hk.
      destruct b; [done|done].
Qed.
Lemma f_pair {A B} (c : codec A) (d : codec B) P Q : faithful c P → faithful d Q →
  faithful (c_pair c d) (λ p, P p.1 ∧ Q p.2).
Proof.
  intros [H1 H2] [H3 H4]. split.
  - intros [x y] r [Hx Hy]. cbn [c_pair enc dec fst snd]. rewrite <-app_assoc, (H1 x _ Hx). simpl. by rewrite (H3 y r Hy).
  - intros [x y] b [Hx Hy] Hp Hne. cbn [c_pair enc dec fst snd] in *.
    destruct (cut_app _ _ _ Hp Hne) as [[Hp' Hne']|(q & -> & Hp' & Hne')].
    + by rewrite (H2 x b Hx Hp' Hne').
    + rewrite (H1 x q Hx). simpl. by rewrite (H4 y q Hy Hp' Hne').
Qed.
Lemma f_items {A} (c : codec A) P l : faithful c P → Forall P l →
  (∀ r, dec_items c (length l) ((l ≫= enc c) ++ r) = Some (l, r)) ∧
  (∀ b, b `prefix_of` (l ≫= enc c) → b ≠ (l ≫= enc c) → dec_items c (length l) b = None).
Proof.
  intros [H1 H2]. induction l as [|x l IH]; intros HF.
  - split; [done|]. intros b Hp Hne. apply prefix_nil_inv in Hp. done.
  - inversion HF as [|? ? Hx Hl]; subst. destruct (IH Hl) as [IH1 IH2]. split.
    + intros r. rewrite bind_cons, <-app_assoc. cbn [length dec_items]. rewrite (H1 x _ Hx). simpl. by rewrite IH1.
    + intros b. rewrite bind_cons. intros Hp Hne. cbn [length dec_items].
      destruct (cut_app _ _ _ Hp Hne) as [[Hp' Hne']|(q & -> & Hp' & Hne')].
      * by rewrite (H2 x b Hx Hp' Hne').
      * rewrite (H1 x q Hx). simpl. by rewrite (IH2 q Hp' Hne').
Qed.
Lemma f_list {A} (c : codec A) P : faithful c P → faithful (c_list c) (vec_of P).
Proof.
  intros Hc. destruct f_usize as [H1 H2]. split.
  - intros l r [Hn Hl]. cbn [c_list enc dec]. rewrite <-app_assoc, (H1 _ _ Hn). simpl. by apply (f_items c P).
  - intros l b [Hn Hl] Hp Hne. cbn [c_list enc dec] in *.
    destruct (cut_app _ _ _ Hp Hne) as [[Hp' Hne']|(q & -> & Hp' & Hne')].
    + by rewrite (H2 _ b Hn Hp' Hne').
    + rewrite (H1 _ q Hn). simpl. by apply (f_items c P).
Qed.
Lemma string_vec s : is_string s → vec_of (in_type TU8) s.
Proof. intros [H1 H2]. split; [done|]. exact (utf8_bytes s H2). Qed.
Lemma f_string : faithful c_string is_string.
Proof.
  destruct (f_list _ _ (f_id TU8)) as [H1 H2]. split.
  - intros s r Hs. cbn [c_string enc dec]. change (c_uint 1) with (c_id TU8). rewrite (H1 s r (string_vec s Hs)). cbn [mbind option_bind].
    by rewrite (proj2 (utf8_ok s) (proj2 Hs)).
  - intros s b Hs Hp Hne. cbn [c_string enc dec] in *. change (c_uint 1) with (c_id TU8) in *. by rewrite (H2 s b (string_vec s Hs) Hp Hne).
Qed.
(** A codec that re-encodes another one: an injection [f] with left inverse [g]. *)
Lemma f_iso {A B} (c : codec A) P (f : B → A) (g : A → B) (Q : B → Prop) :
  faithful c P → (∀ y, Q y → P (f y) ∧ g (f y) = y) →
  faithful (c_iso f g c) Q.
Proof.
  intros [H1 H2] Hfg. split.
  - intros y r Hy. destruct (Hfg y Hy) as [HP Hg]. cbn [c_iso enc dec]. rewrite (H1 _ r HP). simpl. by rewrite Hg.
  - intros y b Hy Hp Hne. destruct (Hfg y Hy) as [HP Hg]. cbn [c_iso enc dec] in *. by rewrite (H2 _ b HP Hp Hne).
Qed.
Lemma f_setmap {L} `{EqDecision L} (c : codec L) P : faithful c P → faithful (c_setmap c) (setmap_of P).
Proof.
  intros Hc. apply (f_iso (c_list c) (vec_of P)); [by apply f_list|].
  intros l [Hl Hn]. split; [done|]. by apply from_vec_id.
Qed.

(** ** Maps and sets *)
Lemma map_of_gen {V} (l : list (N * V)) (m : gmap N V) :
  foldl (λ m p, <[p.1 := p.2]> m) m l = (list_to_map (reverse l) : gmap N V) ∪ m.
Proof.
  revert m. induction l as [|[k v] l IH]; intros m; cbn [foldl].
  { symmetry. apply (left_id_L ∅ (∪)). }
  rewrite IH, reverse_cons. cbn [fst snd]. rewrite list_to_map_app. simpl.
  rewrite <-(assoc_L (∪) (list_to_map (reverse l) : gmap N V)). f_equal. by rewrite insert_union_singleton_l, insert_empty.
Qed.
Lemma map_of_spec {V} (l : list (N * V)) (m : gmap N V) : NoDup l.*1 → (∀ k v, (k, v) ∈ l ↔ m !! k = Some v) → map_of l = m.
Proof.
  intros Hn Hl. unfold map_of. rewrite map_of_gen, (right_id_L ∅ (∪)). apply map_eq. intros k. apply option_eq. intros v.
  rewrite <-elem_of_list_to_map, elem_of_reverse; [apply Hl|]. by rewrite fmap_reverse, reverse_Permutation.
Qed.
Lemma set_of_spec l (s : gset N) : (∀ x, x ∈ l ↔ x ∈ s) → set_of l = s.
Proof.
  intros H. unfold set_of. assert (∀ t : gset N, foldl (λ (s : gset N) x, {[x]} ∪ s) t l = list_to_set l ∪ t) as Hg.
  { clear. induction l as [|x l IH]; intros t; simpl; [set_solver|]. rewrite IH. set_solver. }
  rewrite Hg. set_solver.
Qed.

Lemma f_btmap {V} it (c : codec V) P : faithful c P →
  faithful (c_btmap it c) (λ m, in_usize (size m) ∧ ∀ x v, m !! x = Some v → in_type it x ∧ P v).
Proof.
  intros Hc. eapply f_iso; [apply f_list, f_pair; [apply f_id|exact Hc]|].
  intros m [Hs Hm]. split.
  - split; [by rewrite bt_iter_length|]. apply Forall_forall. intros [x v] Hx. apply elem_of_bt_iter in Hx. by apply Hm.
  - apply map_of_spec; [apply bt_keys_NoDup|]. intros k v. apply elem_of_bt_iter.
Qed.
Lemma f_btset it : faithful (c_btset it) (λ s, in_usize (size s) ∧ ∀ x, x ∈ s → in_type it x).
Proof.
  eapply f_iso; [apply f_list, f_id|]. intros s [Hs Hm]. split.
  - split; [by rewrite bs_iter_length|]. apply Forall_forall. intros x Hx. apply elem_of_bs_iter in Hx. by apply Hm.
  - apply set_of_spec. intros x. apply elem_of_bs_iter.
Qed.
Lemma f_nodemap it lt : faithful (c_nodemap it lt) (typed_node it lt).
Proof.
  eapply f_iso; [apply f_pair; [apply f_id|apply f_pair; [apply f_option, f_id|apply f_pair; [apply f_btmap, f_option, f_id|apply f_btset]]]|].
  intros [i l m s] [H1 H2 H3 H4]. done.
Qed.
Lemma entries_spec ord (m : gmap N nodemap) : ord ≡ₚ (map_to_list m).*1 →
  NoDup (table_entries ord m).*1 ∧ length (table_entries ord m) = size m ∧
  ∀ k v, (k, v) ∈ table_entries ord m ↔ m !! k = Some v.
Proof.
  intros Hord. assert (NoDup ord) as Hn by (rewrite Hord; apply NoDup_fst_map_to_list).
  assert (∀ k, k ∈ ord ↔ is_Some (m !! k)) as Hin.
  { intros k. rewrite Hord, elem_of_list_fmap. split.
    - intros ([k' v] & -> & ?%elem_of_map_to_list). by eexists.
    - intros [v Hv]. exists (k, v). by rewrite elem_of_map_to_list. }
  assert (∀ l, (∀ k, k ∈ l → is_Some (m !! k)) → (table_entries l m).*1 = l) as Hfst.
  { induction l as [|k l IH]; intros Hl; [done|]. unfold table_entries. cbn [omap list_omap].
    destruct (Hl k ltac:(set_solver)) as [v Hv]. rewrite Hv. cbn [fmap option_fmap option_map list_fmap fst]. f_equal.
    apply IH. set_solver. }
  pose proof (Hfst ord (λ k, proj1 (Hin k))) as Hf. split_and!.
  - by rewrite Hf.
  - rewrite <-(fmap_length fst), Hf, Hord. by rewrite fmap_length.
  - intros k v. unfold table_entries. rewrite elem_of_list_omap. split.
    + intros (x & Hx & (v' & Hv & [= -> ->])%fmap_Some). done.
    + intros Hv. exists k. rewrite Hv. split; [|done]. apply Hin. by eexists.
Qed.
Lemma f_table it lt ord : faithful (c_table it lt ord) (λ m, ord ≡ₚ (map_to_list m).*1 ∧ in_usize (size m) ∧
  ∀ x n, m !! x = Some n → in_type it x ∧ typed_node it lt n).
Proof.
  eapply f_iso; [apply f_list, f_pair; [apply f_id|apply f_nodemap]|].
  intros m (Hord & Hs & Hm). destruct (entries_spec ord m Hord) as (E1 & E2 & E3). split.
  - split; [by rewrite E2|]. apply Forall_forall. intros [x n] Hx. apply E3 in Hx. by apply Hm.
  - by apply map_of_spec.
Qed.
Section graph.
  Context {NL EL : Type} `{EqDecision NL, EqDecision EL} (it lt : idty) (cn : codec NL) (ce : codec EL).
  Context (PN : NL → Prop) (PE : EL → Prop) (Hcn : faithful cn PN) (Hce : faithful ce PE).
  Lemma f_graphmap ord : faithful (c_graphmap it lt cn ce ord) (λ g, hash_order g ord ∧ typed_graph it lt PN PE g).
  Proof using Hcn Hce.
    eapply f_iso; [apply f_pair; [apply f_table|apply f_pair; [apply f_usize|apply f_pair; [by apply f_setmap|apply f_pair; [by apply f_setmap|apply f_option, f_id]]]]|].
    intros [m k nl el mx] [Ho [[H1 H2] H3 H4 H5 H6]]. done.
  Qed.
  Lemma f_evec : faithful (c_evec it lt) (typed_evec it lt).
  Proof.
    eapply f_iso; [apply f_pair; [apply f_list, f_usize|apply f_pair; [apply f_list, f_id|apply f_option, f_list, f_id]]|].
    intros [o e l] [H1 H2 H3]. done.
  Qed.
  Lemma f_sgraph : faithful (c_sgraph it lt cn ce) (typed_sgraph it lt PN PE).
  Proof using Hcn Hce.
    eapply f_iso; [apply f_pair; [apply f_usize|apply f_pair; [apply f_usize|apply f_pair; [apply f_evec|apply f_pair; [apply f_option, f_evec|
      apply f_pair; [apply f_option, f_list, f_id|apply f_pair; by apply f_setmap]]]]]|].
    intros [a k e i l nl el] [[H1 H2] H3 H4 H5 H6 H7]. done.
  Qed.
  Lemma f_aux : faithful (c_aux cn ce) (λ p, in_usize p.1 ∧ in_usize p.2.1 ∧ setmap_of PN p.2.2.1 ∧ setmap_of PE p.2.2.2).
  Proof using Hcn Hce. exact (f_pair _ _ _ _ f_usize (f_pair _ _ _ _ f_usize (f_pair _ _ _ _ (f_setmap cn PN Hcn) (f_setmap ce PE Hce)))). Qed.
End graph.

(** ** Files *)
Lemma export_file path b F : export path b F !! path = Some b.
Proof.
  unfold export, export_ops, fs_run. cbn [foldl fs_step]. by rewrite !lookup_insert.
Qed.
Lemma export_other path b F q : q ≠ path → export path b F !! q = F !! q.
Proof. intros Hq. unfold export, export_ops, fs_run. cbn [foldl fs_step]. by rewrite !lookup_insert_ne by done. Qed.
Lemma import_export {A} (c : codec A) P path F x : restores c P → P x → import c path (export path (enc c x) F) = Some x.
Proof.
  intros Hc Hx. unfold import. rewrite export_file. simpl. pose proof (Hc x [] Hx) as Hd. rewrite app_nil_r in Hd. by rewrite Hd.
Qed.
Lemma import_cut {A} (c : codec A) P path (F : fs) x b : detects_cut c P → P x → F !! path = Some b →
  b `prefix_of` enc c x → b ≠ enc c x → import c path F = None.
Proof. intros Hc Hx HF Hp Hne. unfold import. rewrite HF. simpl. by rewrite (Hc x b Hx Hp Hne). Qed.
