(** The order of fs::read_dir and LDBC imports. *)
From Coq Require Import Ascii.
From stdpp Require Import gmap strings.
From Verif Require Import Base BaseFacts Api Spec SpecFacts SpecOps SpecReorder Map GraphMap Csv Ldbc SpecLdbc SpecLdbcOrder LdbcProps LdbcThms.

Lemma mapM_perm {X Y} (f : X → option Y) l l' k : l ≡ₚ l' → mapM f l = Some k → ∃ k', mapM f l' = Some k' ∧ k' ≡ₚ k.
Proof.
  intros Hp. revert k. induction Hp as [|x l l' _ IH|x y l|l l' l'' _ IH _ IH']; intros k.
  - intros [= <-]. by exists [].
  - cbn. destruct (f x) as [b|] eqn:E; [|done]. cbn. destruct (mapM f l) as [k0|] eqn:E0; [|done]. cbn. intros [= <-].
    destruct (IH k0 eq_refl) as (k' & -> & Hk). exists (b :: k'). split; [done|by constructor].
  - cbn. destruct (f y) as [b|]; [|done]. cbn. destruct (f x) as [a|]; [|done]. cbn. destruct (mapM f l) as [k0|]; [|done]. cbn. intros [= <-].
    exists (a :: b :: k0). split; [done|]. constructor.
  - intros Hk. destruct (IH k Hk) as (k' & Hk' & H1). destruct (IH' k' Hk') as (k'' & Hk'' & H2). exists k''. split; [done|by etransitivity].
Qed.
Lemma mjoin_perm {X} (l l' : list (list X)) : l ≡ₚ l' → mjoin l ≡ₚ mjoin l'.
Proof.
  induction 1 as [|x l l' _ IH|x y l|l l' l'' _ IH _ IH']; cbn; [done|by rewrite IH| |by etransitivity].
  rewrite !(assoc_L (++)). by rewrite (comm (++) y x).
Qed.
Lemma files_facts_perm m fact_of files files' fs : files ≡ₚ files' → files_facts m fact_of files = Some fs →
  ∃ fs', files_facts m fact_of files' = Some fs' ∧ fs' ≡ₚ fs.
Proof.
  unfold files_facts. intros Hp. destruct (mapM _ files) as [k|] eqn:E; [|done]. cbn. intros [= <-].
  destruct (mapM_perm _ _ _ _ Hp E) as (k' & -> & Hk). cbn. eexists. split; [done|by apply mjoin_perm].
Qed.
Lemma types_facts_perm {T} (matches : T → string → bool) (fact_of : T → row → option fact) ts files files' fss : files ≡ₚ files' →
  mapM (λ x, files_facts (matches x) (fact_of x) files) ts = Some fss →
  ∃ fss', mapM (λ x, files_facts (matches x) (fact_of x) files') ts = Some fss' ∧ Forall2 (≡ₚ) fss' fss.
Proof.
  intros Hp. revert fss. induction ts as [|x ts IH]; intros fss; cbn; [intros [= <-]; by exists []|].
  destruct (files_facts (matches x) (fact_of x) files) as [k|] eqn:E; [|done]. cbn. destruct (mapM _ ts) as [ks|] eqn:Es; [|done]. cbn. intros [= <-].
  destruct (files_facts_perm _ _ _ _ _ Hp E) as (k' & -> & Hk). destruct (IH ks eq_refl) as (ks' & -> & Hks). cbn.
  exists (k' :: ks'). split; [done|by constructor].
Qed.
Lemma mjoin_forall2 {X} (l l' : list (list X)) : Forall2 (≡ₚ) l l' → mjoin l ≡ₚ mjoin l'.
Proof. induction 1 as [|x y l l' Hx _ IH]; cbn; [done|by rewrite Hx, IH]. Qed.

(** Blocks of relations of one kind. *)
Lemma edge_facts rl files fs f : files_facts (lr_match rl) (edge_fact rl) files = Some fs → f ∈ fs → ∃ s t, f = FEdge s t (lr_edge rl).
Proof.
  intros H Hf. destruct (files_facts_elem _ _ _ _ _ H Hf) as (r & Hr). unfold edge_fact in Hr.
  destruct (r !! lr_start_id rl) as [i|]; [|done]. cbn in Hr. destruct (r !! lr_target_id rl) as [j|]; [|done]. cbn in Hr. injection Hr as <-. by eexists _, _.
Qed.
Lemma node_facts nd files fs f : files_facts (ln_match nd) (node_fact nd) files = Some fs → f ∈ fs → ∃ e l, f = FNode e l.
Proof.
  intros H Hf. destruct (files_facts_elem _ _ _ _ _ H Hf) as (r & Hr). unfold node_fact in Hr.
  destruct (r !! ln_id nd) as [i|]; [|done]. cbn in Hr. destruct (r !! ln_label nd) as [j|]; [|done]. cbn in Hr. injection Hr as <-. by eexists _, _.
Qed.
Lemma joins_block dir s t l (fs : list fact) : (∀ f, f ∈ fs → ∃ s t, f = FEdge s t l) →
  omap (joins dir s t) fs = replicate (length (omap (joins dir s t) fs)) l.
Proof.
  induction fs as [|f fs IH]; intros H; cbn; [done|]. destruct (H f) as (s' & t' & ->); [set_solver|]. cbn.
  assert (IH' := IH (λ f Hf, H f (elem_of_list_further _ _ _ Hf))). destruct (decide _); cbn; [by rewrite <-IH'|exact IH'].
Qed.
Lemma joins_nodes dir s t (fs : list fact) : (∀ f, f ∈ fs → ∃ e l, f = FNode e l) → omap (joins dir s t) fs = [].
Proof.
  induction fs as [|f fs IH]; intros H; cbn; [done|]. destruct (H f) as (e & l & ->); [set_solver|]. cbn. apply IH. set_solver.
Qed.
Lemma omap_join {X Y} (f : X → option Y) (l : list (list X)) : omap f (mjoin l) = mjoin (omap f <$> l).
Proof. induction l as [|x l IH]; [done|]. change (mjoin (x :: l)) with (x ++ mjoin l). rewrite omap_app, IH. done. Qed.
Lemma omap_perm {X Y} (f : X → option Y) l l' : l ≡ₚ l' → omap f l ≡ₚ omap f l'.
Proof. intros H. by rewrite H. Qed.

Section order.
  Context (S : scheme) (files files' : list (string * table)) (fs : list fact).
  Context (Hp : files' ≡ₚ files) (Hfs : directory_facts S files = Some fs).
  Lemma facts_perm : ∃ fs', directory_facts S files' = Some fs' ∧ fs' ≡ₚ fs ∧ ∀ dir s t, relation_label dir fs' s t = relation_label dir fs s t.
  Proof using Hp Hfs.
    unfold directory_facts in Hfs. destruct (mapM _ (sc_nodes S)) as [ns|] eqn:En; [|done]. cbn in Hfs.
    destruct (mapM _ (sc_relations S)) as [es|] eqn:Ee; [|done]. cbn in Hfs. injection Hfs as <-.
    destruct (types_facts_perm ln_match node_fact _ _ _ _ (symmetry Hp) En) as (ns' & En' & Hn).
    destruct (types_facts_perm lr_match edge_fact _ _ _ _ (symmetry Hp) Ee) as (es' & Ee' & He).
    exists (mjoin ns' ++ mjoin es'). split; [unfold directory_facts; rewrite En'; cbn; by rewrite Ee'|].
    split; [by rewrite (mjoin_forall2 _ _ Hn), (mjoin_forall2 _ _ He)|]. intros dir s t. unfold relation_label. f_equal. rewrite !omap_app.
    assert (Hnil : ∀ fl k, mapM (λ nd, files_facts (ln_match nd) (node_fact nd) fl) (sc_nodes S) = Some k → omap (joins dir s t) (mjoin k) = []).
    { intros fl k Hk. apply joins_nodes. intros f (b & Hf & Hb)%elem_of_list_join. apply mapM_Some in Hk.
      apply elem_of_list_lookup in Hb as (i & Hi). destruct (Forall2_lookup_r _ _ _ _ _ Hk Hi) as (nd & _ & Hnd). by eapply node_facts. }
    rewrite (Hnil _ _ En), (Hnil _ _ En'). cbn. clear Hnil En En' Hn ns ns'. rewrite !omap_join. f_equal.
    apply mapM_Some in Ee, Ee'. revert es es' Ee Ee' He. induction (sc_relations S) as [|rl rls IH]; intros es es' Ee Ee' He.
    - by inversion Ee; inversion Ee'.
    - inversion Ee as [|? b ? es0 Hb Hes]; subst. inversion Ee' as [|? b' ? es0' Hb' Hes']; subst. inversion He as [|? ? ? ? Hbb Hrest]; subst. cbn.
      f_equal; [|by apply IH].
      rewrite (joins_block dir s t (lr_edge rl) b) by (intros f Hf; exact (edge_facts _ _ _ _ Hb Hf)).
      rewrite (joins_block dir s t (lr_edge rl) b') by (intros f Hf; exact (edge_facts _ _ _ _ Hb' Hf)). by rewrite (omap_perm _ _ _ Hbb).
  Qed.
  Lemma facts_malformed : directory_facts S files' = None → False.
  Proof using Hp Hfs. destruct facts_perm as (? & -> & _). done. Qed.
End order.

Lemma entities_perm fs fs' : fs' ≡ₚ fs → entities fs' ≡ₚ entities fs.
Proof. intros H. unfold entities. by rewrite H. Qed.
Lemma last_const {X} (l : list X) x y : last l = Some y → (∀ z, z ∈ l → z = x) → y = x.
Proof. intros H Hx. apply Hx. by apply last_Some_elem_of. Qed.
Lemma entity_label_perm fs fs' e : fs' ≡ₚ fs → one_label fs → entity_label fs' e = entity_label fs e.
Proof.
  intros Hp H1. unfold entity_label. set (f := λ f0 : fact, _). assert (Hf := omap_perm f _ _ Hp).
  destruct (last (omap f fs)) as [l|] eqn:E.
  - assert (H : ∀ z, z ∈ omap f fs → z = l).
    { assert (Hl : l ∈ omap f fs) by by apply last_Some_elem_of. intros z Hz.
      apply elem_of_list_omap in Hl as (x & Hx & Ex). apply elem_of_list_omap in Hz as (y & Hy & Ey). unfold f in Ex, Ey.
      destruct x as [ex lx|]; [|done]. destruct y as [ey ly|]; [|done]. destruct (decide (ex = e)) as [->|]; [|done]. destruct (decide (ey = e)) as [->|]; [|done].
      injection Ex as ->. injection Ey as ->. by apply (H1 e). }
    destruct (last (omap f fs')) as [l'|] eqn:E'; cbn.
    + apply (H l'). rewrite <-Hf. by apply last_Some_elem_of.
    + apply last_None in E'. rewrite E' in Hf. apply Permutation_nil in Hf. by rewrite Hf in E.
  - apply last_None in E. rewrite E in Hf. apply Permutation_nil_r in Hf. by rewrite Hf.
Qed.

Section rename.
  Context (dir : bool) (fs fs' : list fact) (seen seen' : list entity) (A A' : agraph string string).
  Context (H : import_of dir fs seen A) (H' : import_of dir fs' seen' A') (Hp : fs' ≡ₚ fs).
  Context (Hr : ∀ s t, relation_label dir fs' s t = relation_label dir fs s t).
  Definition rank (l : list entity) (e : entity) : N := match list_find (e =.) l with Some (i, _) => N.of_nat i | None => 0%N end.
  Definition move (n : N) : N := match seen !! N.to_nat n with Some e => rank seen' e | None => 0%N end.
  Lemma rank_ok (l : list entity) e : e ∈ l → ∃ i, rank l e = N.of_nat i ∧ l !! i = Some e.
  Proof using.
    intros He. unfold rank. destruct (list_find (e =.) l) as [[i e']|] eqn:E; [|apply list_find_None in E; rewrite Forall_forall in E; by destruct (E e He)].
    apply list_find_Some in E as (Hi & <- & _). by exists i.
  Qed.
  Lemma seen_same e : e ∈ seen ↔ e ∈ seen'.
  Proof using H H' Hp. rewrite (io_entities _ _ _ _ H), (io_entities _ _ _ _ H'). by rewrite (entities_perm _ _ Hp). Qed.
  Lemma node_entity n : a_has_node A n ↔ ∃ e, seen !! N.to_nat n = Some e.
  Proof using H.
    rewrite (io_nodes _ _ _ _ H). split; [intros Hn; apply lookup_lt_is_Some_2; lia|]. intros (e & He). apply lookup_lt_Some in He. lia.
  Qed.
  Lemma move_ok n e : seen !! N.to_nat n = Some e → ∃ j, move n = N.of_nat j ∧ seen' !! j = Some e.
  Proof using H H' Hp.
    intros He. unfold move. rewrite He. apply rank_ok. rewrite <-seen_same. by eapply elem_of_list_lookup_2.
  Qed.
  Lemma move_onto j e : seen' !! j = Some e → ∃ i, seen !! i = Some e ∧ move (N.of_nat i) = N.of_nat j.
  Proof using H H' Hp.
    intros He. assert (Hin : e ∈ seen) by (rewrite seen_same; by eapply elem_of_list_lookup_2). apply elem_of_list_lookup in Hin as (i & Hi).
    exists i. split; [done|]. destruct (move_ok (N.of_nat i) e) as (j' & -> & Hj'); [by rewrite Nat2N.id|].
    by rewrite (NoDup_lookup _ _ _ _ (io_seen _ _ _ _ H') Hj' He).
  Qed.
  Lemma move_renames : renames_edges move A A'.
  Proof using H H' Hp Hr.
    split.
    - by rewrite (io_dir _ _ _ _ H), (io_dir _ _ _ _ H').
    - intros x y (e & He)%node_entity (e' & He')%node_entity Heq. destruct (move_ok _ _ He) as (j & Hj & Hs). destruct (move_ok _ _ He') as (j' & Hj' & Hs').
      assert (j = j') by lia. subst j'. rewrite Hs in Hs'. injection Hs' as <-. assert (Hx := NoDup_lookup _ _ _ _ (io_seen _ _ _ _ H) He He'). lia.
    - intros y. rewrite (io_nodes _ _ _ _ H'). split.
      + intros Hy. destruct (lookup_lt_is_Some_2 seen' (N.to_nat y)) as (e & He); [lia|]. destruct (move_onto _ _ He) as (i & Hi & Hm).
        exists (N.of_nat i). split; [apply node_entity; rewrite Nat2N.id; by exists e|]. rewrite Hm. lia.
      + intros (x & (e & He)%node_entity & <-). destruct (move_ok _ _ He) as (j & -> & Hj%lookup_lt_Some). lia.
    - intros s t (e & He)%node_entity (e' & He')%node_entity. destruct (move_ok _ _ He) as (j & -> & Hs). destruct (move_ok _ _ He') as (j' & -> & Hs').
      rewrite (io_edges _ _ _ _ H' _ _ _ _ Hs Hs'), Hr, <-(io_edges _ _ _ _ H _ _ _ _ He He'). by rewrite !N2Nat.id.
  Qed.
  Lemma move_renames_all : ag_wf A' → (∀ e, entity_label fs' e = entity_label fs e) → renames move A A'.
  Proof using H H' Hp Hr.
    intros Hw Hl. destruct move_renames as [R1 R2 R3 R4]. split; [done..| |done]. intros y l. split.
    - intros Hy. destruct (proj1 (R3 y)) as (x & Hx & Hxy); [by eexists|]. destruct (proj1 (node_entity x) Hx) as (e & He).
      destruct (move_ok _ _ He) as (j & Hj & Hs). exists x. split; [|done].
      assert (Ha := io_node_label _ _ _ _ H _ _ He). rewrite N2Nat.id in Ha. rewrite Ha. assert (Hb := io_node_label _ _ _ _ H' _ _ Hs).
      rewrite <-Hj, Hxy, Hy in Hb. injection Hb as ->. by rewrite Hl.
    - intros (x & Hx & Hxy). assert (Hn : a_has_node A x) by by eexists. apply node_entity in Hn as (e & He).
      destruct (move_ok _ _ He) as (j & Hj & Hs). assert (Ha := io_node_label _ _ _ _ H _ _ He). rewrite N2Nat.id, Hx in Ha. injection Ha as ->.
      rewrite <-Hxy, Hj, (io_node_label _ _ _ _ H' _ _ Hs). by rewrite Hl.
  Qed.
End rename.

Lemma num_seen dir fs seen A : import_of dir fs seen A → a_num_nodes A = length seen.
Proof.
  intros H. unfold a_num_nodes. rewrite <-size_dom. assert (Hd : dom (ag_nodes A) = list_to_set (C := gset N) (N.of_nat <$> seq 0 (length seen))).
  { apply set_eq. intros n. rewrite elem_of_dom, elem_of_list_to_set, elem_of_list_fmap. etransitivity; [exact (io_nodes _ _ _ _ H n)|]. split.
    - intros Hn. exists (N.to_nat n). rewrite N2Nat.id. split; [done|]. apply elem_of_seq. lia.
    - intros (i & -> & Hi%elem_of_seq). lia. }
  rewrite Hd, size_list_to_set; [by rewrite fmap_length, seq_length|]. apply NoDup_fmap_2; [intros ???; lia|apply NoDup_seq].
Qed.
Lemma perm_subset {X} (l l' k : list X) : l' ≡ₚ l → l ⊆ k → l' ⊆ k.
Proof. intros Hp Hs x Hx. apply Hs. by rewrite <-Hp. Qed.
Lemma listing_order dir it S files files' fs nls els : files' ≡ₚ files →
  directory_facts S files = Some fs → unambiguous fs → (N.of_nat (length (remove_dups (entities fs))) ≤ id_card it)%N →
  node_labels fs ⊆ nls → edge_labels fs ⊆ els → labels_fit it nls → labels_fit it els →
  ∃ g g' A A' f, from_path dir it S files = Ok (Some g) ∧ from_path dir it S files' = Ok (Some g') ∧
    renames_edges f A A' ∧ (one_label fs → renames f A A') ∧
    ∀ o o', hash_order g o → hash_order g' o' → let V := gm_view dir o g in let V' := gm_view dir o' g' in
      represents V A ∧ represents V' A' ∧ v_node_count V' = v_node_count V ∧ v_edge_count V' = v_edge_count V.
Proof.
  intros Hp Hd Hu Hc H1 H2 H3 H4. destruct (facts_perm S files files' fs Hp Hd) as (fs' & Hd' & Hpf & Hrl).
  destruct (import_ok dir it S files fs nls els Hd Hu Hc H1 H2 H3 H4) as (g & seen & A & Hg & Hi & Hw & H).
  assert (Hpe := entities_perm _ _ Hpf).
  destruct (import_ok dir it S files' fs' nls els Hd') as (g' & seen' & A' & Hg' & Hi' & Hw' & H'); [..|done|done|].
  - intros e e' He He'. rewrite Hpe in He, He'. by apply Hu.
  - rewrite (Permutation_length (l:=remove_dups (entities fs')) (l':=remove_dups (entities fs))); [done|].
    apply NoDup_Permutation; [apply NoDup_remove_dups..|]. intros e. rewrite !elem_of_remove_dups. by rewrite Hpe.
  - eapply perm_subset; [|exact H1]. unfold node_labels. by rewrite Hpf.
  - eapply perm_subset; [|exact H2]. by apply omap_perm.
  - exists g, g', A, A', (move seen seen'). split; [done|]. split; [done|].
    split; [by apply (move_renames dir fs fs' seen seen' A A' Hi Hi' Hpf (Hrl dir))|].
    split; [intros Ho; apply (move_renames_all dir fs fs' seen seen' A A' Hi Hi' Hpf (Hrl dir) Hw'); intros e; by apply entity_label_perm|].
    intros o o' Ho Ho' V V'. destruct (H o Ho) as (Hv & _ & _ & Hn). destruct (H' o' Ho') as (Hv' & _ & _ & Hn'). split; [done|]. split; [done|].
    split; [|unfold V, V'; rewrite Hn, Hn'; apply Permutation_length; by apply omap_perm].
    unfold V, V'. rewrite (rp_node_count _ _ Hv), (rp_node_count _ _ Hv'), (num_seen _ _ _ _ Hi), (num_seen _ _ _ _ Hi').
    apply Permutation_length, NoDup_Permutation; [exact (io_seen _ _ _ _ Hi')|exact (io_seen _ _ _ _ Hi)|].
    intros e. symmetry. exact (seen_same dir fs fs' seen seen' A A' Hi Hi' Hpf e).
Qed.
