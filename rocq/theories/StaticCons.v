(** The constructors of static graphs: new, with_labels, from_raw. *)
From Verif Require Import Base BaseFacts Api Spec SpecFacts SpecStatic Static StaticFacts SpecSGraph StaticProps SpecCons StaticMore Map GraphMap IntoStatic IntoStaticProps StaticWit.

Section cons.
  Context {NL EL : Type} (it lt : idty) (e : evec) (in_e : option evec).
  Lemma check_in A (ls : option (list N)) (nlm : list NL) (elm : list EL) : arrays_describe lt e in_e ls nlm elm A → sg_check_in (ag_dir A) in_e = Ok tt.
  Proof. intros H. unfold sg_check_in. destruct (ag_dir A) eqn:Hd; [|done]. destruct (so_in _ _ _ H Hd) as (e' & He & _). cbn in He. by rewrite He. Qed.
  Lemma describe_shows A ls nlm elm n m : arrays_describe lt e in_e ls nlm elm A → (csr_nodes (ev_offsets e) < id_card it)%N → N.of_nat n = csr_nodes (ev_offsets e) →
    shows (sg_view it lt (ag_dir A) (SGraph n m e in_e ls nlm elm : sgraph NL EL)) A nlm elm m.
  Proof.
    intros H Hf Hn. assert (arrays_of lt (SGraph n m e in_e ls nlm elm : sgraph NL EL) A) as Ha by (destruct H; by constructor).
    split; [exact (static_represents it lt _ A Ha Hf)|]. split; [exact (static_missing it lt _ A Ha Hf)|]. done.
  Qed.
  Lemma num_nodes_of A ls (nlm : list NL) (elm : list EL) : arrays_describe lt e in_e ls nlm elm A →
    ∃ k, ev_num_nodes e = Ok k ∧ N.of_nat k = csr_nodes (ev_offsets e).
  Proof.
    intros H. eexists. split; [exact (num_nodes_ok _ (so_csr _ _ _ H))|]. unfold csr_nodes. cbn [sg_evec]. lia.
  Qed.
  Lemma new_ok (A : agraph NL EL) nn ne : arrays_describe lt e in_e None [] [] A → (csr_nodes (ev_offsets e) < id_card it)%N →
    (∀ n, nn = Some n → N.of_nat n = csr_nodes (ev_offsets e)) →
    ∃ g, sg_new (ag_dir A) e in_e nn ne = Ok g ∧ shows (sg_view it lt (ag_dir A) g) A [] [] (edge_number (ag_dir A) e ne).
  Proof.
    intros H Hf Hn. destruct (num_nodes_of _ _ _ _ H) as (k & Hk & Hk'). unfold sg_new, sg_counts. rewrite (check_in _ _ _ _ H), Hk. cbn [rbind].
    eexists. split; [done|]. apply describe_shows; [done|done|]. destruct nn as [n|]; [by apply Hn|done].
  Qed.
  Lemma with_labels_ok A ls nlm elm nn ne : arrays_describe lt e in_e (Some ls) nlm elm A → (csr_nodes (ev_offsets e) < id_card it)%N →
    (∀ n, nn = Some n → N.of_nat n = csr_nodes (ev_offsets e)) →
    ∃ g : sgraph NL EL, sg_with_labels (ag_dir A) e in_e ls nlm elm nn ne = Ok g ∧ shows (sg_view it lt (ag_dir A) g) A nlm elm (edge_number (ag_dir A) e ne).
  Proof.
    intros H Hf Hn. destruct (num_nodes_of _ _ _ _ H) as (k & Hk & Hk'). unfold sg_with_labels, sg_counts. rewrite (check_in _ _ _ _ H), Hk. cbn [rbind].
    eexists. split; [done|]. apply describe_shows; [done|done|]. destruct nn as [n|]; [by apply Hn|done].
  Qed.
  Lemma from_raw_ok A ls nlm elm n m : arrays_describe lt e in_e ls nlm elm A → (csr_nodes (ev_offsets e) < id_card it)%N →
    N.of_nat n = csr_nodes (ev_offsets e) →
    ∃ g : sgraph NL EL, sg_from_raw (ag_dir A) n m e in_e ls nlm elm = Ok g ∧ shows (sg_view it lt (ag_dir A) g) A nlm elm m.
  Proof.
    intros H Hf Hn. destruct (num_nodes_of _ _ _ _ H) as (k & Hk & Hk'). unfold sg_from_raw. rewrite (check_in _ _ _ _ H), Hk. cbn [rbind].
    eexists. split; [done|]. by apply describe_shows.
  Qed.
  Lemma cons_panics dir ls ls' (nlm : list NL) (elm : list EL) nn ne n m : let bad := (dir = true ∧ in_e = None) ∨ ev_offsets e = [] in
    ((sg_new dir e in_e nn ne : res (sgraph NL EL)) = Panic ↔ bad) ∧ (sg_with_labels dir e in_e ls nlm elm nn ne = Panic ↔ bad) ∧
    (sg_from_raw dir n m e in_e ls' nlm elm = Panic ↔ bad).
  Proof.
    cbv zeta. unfold sg_new, sg_with_labels, sg_from_raw, sg_counts, sg_check_in, ev_num_nodes, usub.
    destruct (ev_offsets e) as [|o os]; cbn [length].
    - rewrite decide_False by lia. split_and!; (split; [by right|intros _; by destruct dir, in_e]).
    - rewrite decide_True by lia. destruct dir, in_e as [e'|]; cbn [rbind]; split_and!; (split; [|intros [[? ?]|?]]); first [done|intros _; by left].
  Qed.
End cons.
(** Arrays that describe a labelled graph. *)
Lemma cons_case dir : ∃ e in_e ls (A : agraph N N), arrays_describe TU8 e in_e (Some ls) [7; 8]%N [5; 6]%N A ∧ (csr_nodes (ev_offsets e) < id_card TU8)%N ∧
  ag_dir A = dir ∧ a_num_nodes A = 4 ∧ a_num_edges A = 4.
Proof.
  destruct (st_dense_case dir) as (g & ord & A & _ & HA & H0 & Hids & Hd & Hn & He & Hnn & Hne & Hnl & Hel).
  destruct (max_exists dir g ord A HA 0%N H0) as (max & Hmax & Hmn & Hle).
  assert (arrays_of TU8 (static_arrays TU8 dir g (S (N.to_nat max))) A) as Ha.
  { apply (into_static_arrays TU8 dir g ord A HA max Hmax); [|done..]. intros m. split; [apply Hle|]. intros Hm.
    destruct (decide (m = max)) as [-> |]; [done|]. apply (Hd max); [done|lia]. }
  revert Ha. unfold static_arrays, has_nl, has_el. rewrite Hnl, Hel. cbn [if_some]. intros Ha.
  eexists _, _, _, A. split; [|split; [|split_and!; [by rewrite <-(rp_directed _ _ HA)|done|done]]].
  - unfold arrays_describe. destruct Ha. constructor; try done. cbn [sg_evec sg_num_nodes] in *. by rewrite N2Nat.id.
  - destruct (rows_csr dir g ord A HA max Hmax) as (_ & _ & Hcn). apply Hids in Hmn. change (id_max TU8) with 255%N in Hmn. change (id_card TU8) with 256%N. refine (N.le_lt_trans _ _ _ (N.eq_le_incl _ _ Hcn) _). lia.
Qed.
Lemma cons_plain_case dir : ∃ e in_e (A : agraph N N), arrays_describe TU8 e in_e None [] [] A ∧ (csr_nodes (ev_offsets e) < id_card TU8)%N ∧
  ag_dir A = dir ∧ a_num_nodes A = 3 ∧ a_num_edges A = 3.
Proof.
  destruct (st_tri_case dir) as (e & in_e & g & A & Hg & Ha & Ht & Hd & He & Hn & _). exists e, in_e, A. revert Hg. unfold sg_new. intros Hg.
  apply rbind_Ok in Hg as (_ & _ & Hg). apply rbind_Ok in Hg as ([a b] & Hc & [= <-]). split; [|split; [|done]].
  - unfold arrays_describe. destruct Ha. constructor; try done. cbn [sg_evec sg_num_nodes] in *. by rewrite N2Nat.id.
  - assert (sg_num_nodes (SGraph a b e in_e None [] [] : sgraph N N) = 3) as H3.
    { rewrite <-Hn. unfold a_num_nodes. symmetry. apply size_below. intros n. rewrite (so_count _ _ _ Ha). apply (so_nodes _ _ _ Ha). }
    pose proof (so_count _ _ _ Ha) as Hx. cbn [sg_evec] in Hx. rewrite <-Hx, H3. by vm_compute.
Qed.
