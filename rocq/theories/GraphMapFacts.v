(** Refinement of the abstract graph by the GraphMap model. *)
From Verif Require Import Base Api Spec BaseFacts SpecFacts Map MapFacts GraphMap.

Definition adj (m : gmap N nodemap) (s t : N) : option (option N) :=
  match m !! s with Some n => nm_nbrs n !! t | None => None end.

(** ** The loops of remove_node *)
Definition upd_all (f : nodemap → nodemap) (l : list N) (m : gmap N nodemap) : gmap N nodemap :=
  map_imap (λ k n, Some (if decide (k ∈ l) then f n else n)) m.
Lemma lookup_upd_all f l m k :
  upd_all f l m !! k = (λ n, if decide (k ∈ l) then f n else n) <$> m !! k.
Proof. unfold upd_all. rewrite map_lookup_imap. by destruct (m !! k). Qed.

Section loops.
  Context {NL EL : Type}.
  Implicit Types g : graphmap NL EL.
  Lemma rfold_upd_ok f l g :
    NoDup l → (∀ k, k ∈ l → is_Some (g_nodes g !! k)) →
    rfold (λ g k, upd_node k f g) l g = Ok (set_nodes (upd_all f l (g_nodes g)) g).
  Proof.
    revert g. induction l as [|k l IH]; intros g Hnd Hl; simpl.
    - f_equal. destruct g as [m ne nl el mx]. unfold set_nodes. simpl. f_equal.
      apply map_eq. intros i. rewrite lookup_upd_all. by destruct (m !! i).
    - apply NoDup_cons in Hnd as [Hk Hnd].
      destruct (Hl k) as [n Hn]; [left|]. unfold upd_node at 2. rewrite Hn. cbn [unwrap rbind].
      rewrite IH; [|done|].
      + f_equal. unfold set_nodes. simpl. f_equal. apply map_eq. intros i.
        rewrite !lookup_upd_all. destruct (decide (i = k)) as [->|Hne].
        * rewrite lookup_insert, Hn. simpl. rewrite decide_False by done.
          rewrite decide_True by left. done.
        * rewrite lookup_insert_ne by done. destruct (g_nodes g !! i); simpl; [|done]. f_equal.
          destruct (decide (i ∈ l)); [rewrite decide_True by (by right); done|].
          rewrite decide_False; [done|]. rewrite not_elem_of_cons. done.
      + intros k' Hk'. simpl. destruct (decide (k' = k)) as [->|Hne]; [rewrite lookup_insert; by eexists|].
        rewrite lookup_insert_ne by done. apply Hl. by right.
  Qed.
  Lemma rfold_upd_panic f l g k :
    k ∈ l → g_nodes g !! k = None → rfold (λ g k, upd_node k f g) l g = Panic.
  Proof.
    revert g. induction l as [|k' l IH]; intros g Hk Hg; simpl; [by apply elem_of_nil in Hk|].
    unfold upd_node at 2. apply elem_of_cons in Hk as [<-|Hk]; [by rewrite Hg|].
    destruct (g_nodes g !! k') as [n|] eqn:Hn; [|done]. cbn [unwrap rbind].
    apply IH; [done|]. simpl. rewrite lookup_insert_ne; [done|]. intros ->. by rewrite Hn in Hg.
  Qed.
End loops.

Section abs.
  Context {NL EL : Type} (dir : bool).
  Implicit Types (m : gmap N nodemap) (A : agraph NL EL).

  (** The node table [m] stores the graph [A]; [PN]/[PE] say when a stored label
      id stands for a label. *)
  Record abs_rel (PN : option N → option NL → Prop) (PE : option N → option EL → Prop) m A : Prop := {
    ar_dir : ag_dir A = dir;
    ar_wf : ag_wf A;
    ar_node : ∀ k, option_Forall2 (λ n l, nm_id n = k ∧ PN (nm_label n) l) (m !! k) (ag_nodes A !! k);
    ar_edge : ∀ s t, option_Forall2 PE (adj m s t) (a_edge_at A s t);
    ar_in : ∀ t n, m !! t = Some n →
      if dir then ∀ s, s ∈ nm_in n ↔ a_has_edge A s t else nm_in n = ∅;
  }.

  Lemma abs_mono (PN PN' : option N → option NL → Prop) (PE PE' : option N → option EL → Prop) m A :
    (∀ i l, PN i l → PN' i l) → (∀ i l, PE i l → PE' i l) → abs_rel PN PE m A → abs_rel PN' PE' m A.
  Proof.
    intros HN HE [H1 H2 H3 H4 H5]. split; try done.
    - intros k. specialize (H3 k). inversion H3 as [n l [??]|]; constructor. naive_solver.
    - intros s t. specialize (H4 s t). inversion H4; constructor. naive_solver.
  Qed.

  Context (PN : option N → option NL → Prop) (PE : option N → option EL → Prop).
  Notation abs := (abs_rel PN PE).

  Lemma abs_empty : abs ∅ (a_empty dir).
  Proof.
    split; [done|apply wf_empty|..].
    - intros k. simpl. rewrite !lookup_empty. constructor.
    - intros s t. unfold adj, a_edge_at. simpl. rewrite !lookup_empty. constructor.
    - intros t n. by rewrite lookup_empty.
  Qed.
  Lemma abs_node_Some m A k n : abs m A → m !! k = Some n →
    ∃ l, ag_nodes A !! k = Some l ∧ nm_id n = k ∧ PN (nm_label n) l.
  Proof. intros H Hk. pose proof (ar_node _ _ _ _ H k) as Hf. rewrite Hk in Hf. inversion Hf; naive_solver. Qed.
  Lemma abs_node_Some_r m A k l : abs m A → ag_nodes A !! k = Some l →
    ∃ n, m !! k = Some n ∧ nm_id n = k ∧ PN (nm_label n) l.
  Proof. intros H Hk. pose proof (ar_node _ _ _ _ H k) as Hf. rewrite Hk in Hf. inversion Hf; naive_solver. Qed.
  Lemma abs_node_None m A k : abs m A → m !! k = None ↔ ag_nodes A !! k = None.
  Proof. intros H. pose proof (ar_node _ _ _ _ H k) as Hf. inversion Hf; naive_solver. Qed.
  Lemma abs_has_node m A k : abs m A → is_Some (m !! k) ↔ a_has_node A k.
  Proof. intros H. unfold a_has_node. rewrite <-!not_eq_None_Some. by rewrite (abs_node_None m A). Qed.
  Lemma abs_adj m A s t : abs m A → is_Some (adj m s t) ↔ a_has_edge A s t.
  Proof.
    intros H. unfold a_has_edge. pose proof (ar_edge _ _ _ _ H s t) as Hf.
    inversion Hf; split; intros [? ?]; naive_solver.
  Qed.
  Lemma abs_nbr m A s n t : abs m A → m !! s = Some n → is_Some (nm_nbrs n !! t) ↔ a_has_edge A s t.
  Proof. intros H Hs. rewrite <-(abs_adj m A) by done. unfold adj. by rewrite Hs. Qed.
  Lemma abs_nbr_None m A s n t : abs m A → m !! s = Some n → nm_nbrs n !! t = None ↔ a_edge_at A s t = None.
  Proof.
    intros H Hs. pose proof (ar_edge _ _ _ _ H s t) as Hf. unfold adj in Hf. rewrite Hs in Hf.
    inversion Hf; naive_solver.
  Qed.

  Lemma abs_new_node m A id lid l :
    abs m A → m !! id = None → PN lid l → abs (<[id := nm_new id lid]> m) (a_add_node id l A).
  Proof.
    intros H Hid Hl. split; [by destruct H|apply wf_add_node; by destruct H|..].
    - intros k. simpl. destruct (decide (k = id)) as [->|Hne].
      + rewrite !lookup_insert. constructor. done.
      + rewrite !lookup_insert_ne by done. apply H.
    - intros s t. rewrite add_node_edge_at. pose proof (ar_edge _ _ _ _ H s t) as Hf.
      unfold adj in *. destruct (decide (s = id)) as [->|Hne].
      + rewrite lookup_insert. rewrite Hid in Hf. simpl. by rewrite lookup_empty.
      + by rewrite lookup_insert_ne.
    - intros t n. destruct (decide (t = id)) as [->|Hne].
      + rewrite lookup_insert. intros [= <-]. simpl. destruct dir eqn:Hd; [|done].
        intros s. split; [by intros []%not_elem_of_empty|]. intros He.
        change (a_has_edge A s id) in He.
        apply wf_edge_nodes in He as [_ He]; [|by destruct H].
        apply (abs_has_node m A) in He; [|done]. rewrite Hid in He. by destruct He.
      + rewrite lookup_insert_ne by done. intros Ht. exact (ar_in _ _ _ _ H t n Ht).
  Qed.
  Lemma abs_set_label m A id n lid l :
    abs m A → m !! id = Some n → PN lid l → abs (<[id := nm_set_label_id lid n]> m) (a_add_node id l A).
  Proof.
    intros H Hid Hl. destruct (abs_node_Some m A id n H Hid) as (l0 & Hl0 & Hnid & _).
    split; [by destruct H|apply wf_add_node; by destruct H|..].
    - intros k. simpl. destruct (decide (k = id)) as [->|Hne].
      + rewrite !lookup_insert. constructor. done.
      + rewrite !lookup_insert_ne by done. apply H.
    - intros s t. rewrite add_node_edge_at. pose proof (ar_edge _ _ _ _ H s t) as Hf.
      unfold adj in *. destruct (decide (s = id)) as [->|Hne].
      + rewrite lookup_insert. by rewrite Hid in Hf.
      + by rewrite lookup_insert_ne.
    - intros t n'. destruct (decide (t = id)) as [->|Hne].
      + rewrite lookup_insert. intros [= <-]. exact (ar_in _ _ _ _ H id n Hid).
      + rewrite lookup_insert_ne by done. intros Ht. exact (ar_in _ _ _ _ H t n' Ht).
  Qed.

  (** Changing only the neighbour tables. *)
  Lemma abs_reshape m m' A A' :
    abs m A →
    ag_dir A' = ag_dir A → ag_wf A' → ag_nodes A' = ag_nodes A →
    (∀ k, option_Forall2 (λ n n', nm_id n' = nm_id n ∧ nm_label n' = nm_label n) (m !! k) (m' !! k)) →
    (∀ s t, option_Forall2 PE (adj m' s t) (a_edge_at A' s t)) →
    (∀ t n, m' !! t = Some n → if dir then ∀ s, s ∈ nm_in n ↔ a_has_edge A' s t else nm_in n = ∅) →
    abs m' A'.
  Proof.
    intros H Hd Hwf Hn Hm Hadj Hin. split; [rewrite Hd; apply H|done| |done|done].
    intros k. rewrite Hn. pose proof (ar_node _ _ _ _ H k) as Hf. specialize (Hm k).
    destruct Hm as [n n' [Hi Hl]|].
    - inversion Hf as [? l [? ?]|]; subst. constructor. split; congruence.
    - inversion Hf. constructor.
  Qed.

  (** add_edge when both end points exist. *)
  Definition add_edge_nodes_map (s t : N) (lid : option N) (ns : nodemap) m : option (gmap N nodemap) :=
    let m1 := <[s := (nm_add_edge t lid ns).2]> m in
    if dir then (λ nt, <[t := nm_add_in_edge s nt]> m1) <$> m1 !! t
    else if decide (s = t) then Some m1
    else (λ nt, <[t := (nm_add_edge s lid nt).2]> m1) <$> m1 !! t.

  Lemma nm_add_in_edge_nbrs s n : nm_nbrs (nm_add_in_edge s n) = nm_nbrs n.
  Proof. unfold nm_add_in_edge. by destruct (nm_has_in_neighbor n s). Qed.
  Lemma nm_add_in_edge_id s n : nm_id (nm_add_in_edge s n) = nm_id n.
  Proof. unfold nm_add_in_edge. by destruct (nm_has_in_neighbor n s). Qed.
  Lemma nm_add_in_edge_label s n : nm_label (nm_add_in_edge s n) = nm_label n.
  Proof. unfold nm_add_in_edge. by destruct (nm_has_in_neighbor n s). Qed.
  Lemma nm_add_in_edge_in s n x : x ∈ nm_in (nm_add_in_edge s n) ↔ x = s ∨ x ∈ nm_in n.
  Proof.
    unfold nm_add_in_edge, nm_has_in_neighbor. case_bool_decide; simpl; set_solver.
  Qed.

  Lemma abs_add_edge m A s t lid l ns :
    abs m A → m !! s = Some ns → is_Some (m !! t) → PE lid l →
    ∃ m', add_edge_nodes_map s t lid ns m = Some m' ∧ abs m' (a_add_edge s t l A).
  Proof.
    intros H Hs [nt Ht] Hl.
    assert (a_touch t (a_touch s A) = A) as Htouch.
    { rewrite (touch_present s); [apply touch_present|];
        apply (abs_has_node m A); try done; by eexists. }
    assert (ag_nodes (a_add_edge s t l A) = ag_nodes A) as Hnodes.
    { rewrite add_edge_nodes. by rewrite Htouch. }
    assert (ag_wf (a_add_edge s t l A)) as Hwf by (apply wf_add_edge; apply H).
    pose proof (ar_dir _ _ _ _ H) as Hdir.
    unfold add_edge_nodes_map. destruct dir eqn:Hd.
    - assert (∃ nt1, <[s:=(nm_add_edge t lid ns).2]> m !! t = Some nt1 ∧
        nm_id nt1 = nm_id nt ∧ nm_label nt1 = nm_label nt ∧ nm_in nt1 = nm_in nt ∧
        nm_nbrs nt1 = if decide (s = t) then <[t := lid]> (nm_nbrs nt) else nm_nbrs nt) as (nt1 & Hnt1 & Hi & Hlb & Hin & Hnb).
      { destruct (decide (s = t)) as [->|Hne].
        - rewrite lookup_insert. eexists. split; [done|]. simpl. assert (ns = nt) by congruence. by subst.
        - rewrite lookup_insert_ne by done. by exists nt. }
      rewrite Hnt1. simpl. eexists. split; [done|].
      apply (abs_reshape m _ A); [done|by rewrite add_edge_dir|done|done|..].
      + intros k. destruct (decide (k = t)) as [->|Hkt].
        { rewrite lookup_insert, Ht. constructor. rewrite nm_add_in_edge_id, nm_add_in_edge_label. done. }
        rewrite lookup_insert_ne by done. destruct (decide (k = s)) as [->|Hks].
        { rewrite lookup_insert, Hs. by constructor. }
        rewrite lookup_insert_ne by done. destruct (m !! k); by constructor.
      + intros x y. rewrite add_edge_edge_at. rewrite Hdir. pose proof (ar_edge _ _ _ _ H x y) as Hf.
        unfold adj in *. unfold ekey.
        destruct (decide (x = t)) as [->|Hxt].
        * rewrite lookup_insert, nm_add_in_edge_nbrs, Hnb. rewrite Ht in Hf.
          destruct (decide (s = t)) as [->|Hst].
          -- destruct (decide (y = t)) as [->|Hyt].
             ++ rewrite lookup_insert. rewrite decide_True by done. by constructor.
             ++ rewrite lookup_insert_ne by done. rewrite decide_False by congruence. done.
          -- rewrite decide_False by congruence. done.
        * rewrite lookup_insert_ne by done. destruct (decide (x = s)) as [->|Hxs].
          -- rewrite lookup_insert. simpl. rewrite Hs in Hf. destruct (decide (y = t)) as [->|Hyt].
             ++ rewrite lookup_insert. rewrite decide_True by done. by constructor.
             ++ rewrite lookup_insert_ne by done. rewrite decide_False by congruence. done.
          -- rewrite lookup_insert_ne by done. rewrite decide_False by congruence. done.
      + intros x n Hx. rewrite Hd. intros y. unfold a_has_edge. rewrite add_edge_edge_at. rewrite Hdir. unfold ekey.
        assert (∀ z nz, m !! z = Some nz → ∀ s, s ∈ nm_in nz ↔ a_has_edge A s z) as Hin0.
        { intros z nz Hz. pose proof (ar_in _ _ _ _ H z nz Hz) as Hz'. by rewrite Hd in Hz'. }
        destruct (decide (x = t)) as [->|Hxt].
        * rewrite lookup_insert in Hx. simplify_eq. rewrite nm_add_in_edge_in, Hin.
          rewrite (Hin0 t nt Ht y). unfold a_has_edge. destruct (decide ((s, t) = (y, t))) as [Hc|Hc].
          -- simplify_eq. split; [by eexists|by left].
          -- split; [intros [->|?]; [by destruct Hc|done]|by right].
        * rewrite lookup_insert_ne in Hx by done. rewrite decide_False by congruence.
          destruct (decide (x = s)) as [->|Hxs].
          -- rewrite lookup_insert in Hx. simplify_eq. simpl. exact (Hin0 s ns Hs y).
          -- rewrite lookup_insert_ne in Hx by done. exact (Hin0 x n Hx y).
    - (* undirected *)
      assert (∃ m', (if decide (s = t) then Some (<[s:=(nm_add_edge t lid ns).2]> m)
                else (λ nt, <[t := (nm_add_edge s lid nt).2]> (<[s:=(nm_add_edge t lid ns).2]> m)) <$>
                     <[s:=(nm_add_edge t lid ns).2]> m !! t) = Some m' ∧
         (∀ k, option_Forall2 (λ n n', nm_id n' = nm_id n ∧ nm_label n' = nm_label n ∧ nm_in n' = nm_in n) (m !! k) (m' !! k)) ∧
         (∀ x y, adj m' x y = if decide ((x = s ∧ y = t) ∨ (x = t ∧ y = s)) then Some lid else adj m x y)) as (m' & Hm' & Hk & Hadj).
      { destruct (decide (s = t)) as [->|Hst].
        - eexists. split; [done|]. split.
          + intros k. destruct (decide (k = t)) as [->|Hne]; [rewrite lookup_insert, Hs; by constructor|].
            rewrite lookup_insert_ne by done. destruct (m !! k); by constructor.
          + intros x y. unfold adj. destruct (decide (x = t)) as [->|Hxt].
            * rewrite lookup_insert. simpl. destruct (decide (y = t)) as [->|Hyt].
              -- rewrite lookup_insert. rewrite decide_True by (by left). done.
              -- rewrite lookup_insert_ne by done. rewrite Hs. rewrite decide_False by naive_solver. done.
            * rewrite lookup_insert_ne by done. rewrite decide_False by naive_solver. done.
        - rewrite lookup_insert_ne by done. rewrite Ht. simpl. eexists. split; [done|]. split.
          + intros k. destruct (decide (k = t)) as [->|Hne]; [rewrite lookup_insert, Ht; by constructor|].
            rewrite lookup_insert_ne by done.
            destruct (decide (k = s)) as [->|Hne']; [rewrite lookup_insert, Hs; by constructor|].
            rewrite lookup_insert_ne by done. destruct (m !! k); by constructor.
          + intros x y. unfold adj. destruct (decide (x = t)) as [->|Hxt].
            * rewrite lookup_insert. simpl. destruct (decide (y = s)) as [->|Hyt].
              -- rewrite lookup_insert. rewrite decide_True by (by right). done.
              -- rewrite lookup_insert_ne by done. rewrite Ht. rewrite decide_False by naive_solver. done.
            * rewrite lookup_insert_ne by done. destruct (decide (x = s)) as [->|Hxs].
              -- rewrite lookup_insert. simpl. destruct (decide (y = t)) as [->|Hyt].
                 ++ rewrite lookup_insert. rewrite decide_True by (by left). done.
                 ++ rewrite lookup_insert_ne by done. rewrite Hs. rewrite decide_False by naive_solver. done.
              -- rewrite lookup_insert_ne by done. rewrite decide_False by naive_solver. done. }
      exists m'. split; [exact Hm'|].
      apply (abs_reshape m _ A); [done|by rewrite add_edge_dir|done|done|..].
      + intros k. specialize (Hk k). destruct Hk as [n n' (? & ? & ?)|]; by constructor.
      + intros x y. rewrite Hadj, add_edge_edge_at, Hdir. 
        assert (ekey false s t = ekey false x y ↔ x = s ∧ y = t ∨ x = t ∧ y = s) as Hek.
        { rewrite ekey_eq. naive_solver. }
        destruct (decide (ekey false s t = ekey false x y)) as [He|He].
        * rewrite decide_True by (by apply Hek). by constructor.
        * rewrite decide_False by (by rewrite <-Hek). apply H.
      + intros x n Hx. specialize (Hk x). rewrite Hx in Hk. inversion Hk as [n0 ? (_ & _ & Hi) Hn0|]; subst.
        rewrite Hd, Hi. pose proof (ar_in _ _ _ _ H x n0 (eq_sym Hn0)) as Hx'. by rewrite Hd in Hx'.
  Qed.

  Lemma nm_remove_edge_nbrs t n x :
    nm_nbrs (nm_remove_edge t n).2 !! x = if decide (x = t) then None else nm_nbrs n !! x.
  Proof.
    unfold nm_remove_edge. destruct (nm_nbrs n !! t) eqn:Ht; simpl.
    - case_decide; subst; [by rewrite lookup_delete|by rewrite lookup_delete_ne].
    - case_decide; subst; done.
  Qed.
  Lemma nm_remove_edge_id t n : nm_id (nm_remove_edge t n).2 = nm_id n.
  Proof. unfold nm_remove_edge. by destruct (nm_nbrs n !! t). Qed.
  Lemma nm_remove_edge_label t n : nm_label (nm_remove_edge t n).2 = nm_label n.
  Proof. unfold nm_remove_edge. by destruct (nm_nbrs n !! t). Qed.
  Lemma nm_remove_edge_in t n : nm_in (nm_remove_edge t n).2 = nm_in n.
  Proof. unfold nm_remove_edge. by destruct (nm_nbrs n !! t). Qed.

  (** remove_edge of an existing edge. *)
  Lemma abs_remove_edge m A s t ns nt1 :
    abs m A → m !! s = Some ns → is_Some (nm_nbrs ns !! t) →
    let m1 := <[s := (nm_remove_edge t ns).2]> m in
    m1 !! t = Some nt1 →
    abs (<[t := if dir then nm_remove_in_edge s nt1 else (nm_remove_edge s nt1).2]> m1) (a_remove_edge s t A).
  Proof.
    intros H Hs Hst m1 Ht1.
    assert (∃ nt, m !! t = Some nt) as [nt Ht].
    { unfold m1 in Ht1. destruct (decide (t = s)) as [->|]; [by exists ns|].
      rewrite lookup_insert_ne in Ht1 by done. by eexists. }
    assert (nm_id nt1 = nm_id nt ∧ nm_label nt1 = nm_label nt ∧ nm_in nt1 = nm_in nt ∧
      ∀ x, nm_nbrs nt1 !! x = if decide (s = t ∧ x = t) then None else nm_nbrs nt !! x) as (Hi & Hlb & Hin & Hnb).
    { unfold m1 in Ht1. destruct (decide (t = s)) as [->|Hne].
      - rewrite lookup_insert in Ht1. assert (ns = nt) as -> by congruence. simplify_eq.
        rewrite nm_remove_edge_id, nm_remove_edge_label, nm_remove_edge_in. do 3 (split; [done|]).
        intros x. rewrite nm_remove_edge_nbrs. destruct (decide (x = s)); subst.
        + by rewrite decide_True.
        + by rewrite decide_False by naive_solver.
      - rewrite lookup_insert_ne in Ht1 by done. assert (nt1 = nt) as -> by congruence.
        do 3 (split; [done|]). intros x. by rewrite decide_False by naive_solver. }
    pose proof (ar_dir _ _ _ _ H) as Hdir.
    assert (a_has_edge A s t) as Hast by (by apply (abs_nbr m A s ns t)).
    set (f := if dir then nm_remove_in_edge s nt1 else (nm_remove_edge s nt1).2).
    assert (nm_id f = nm_id nt ∧ nm_label f = nm_label nt) as [Hfi Hfl].
    { unfold f. destruct dir; simpl; [by rewrite Hi, Hlb|].
      by rewrite nm_remove_edge_id, nm_remove_edge_label, Hi, Hlb. }
    assert (nm_in f = if dir then nm_in nt ∖ {[s]} else nm_in nt) as Hfin.
    { unfold f. destruct dir; simpl; [by rewrite Hin|]. by rewrite nm_remove_edge_in, Hin. }
    apply (abs_reshape m _ A); [done|done|apply wf_remove_edge; apply H|done|..].
    - intros k. destruct (decide (k = t)) as [->|Hkt].
      { rewrite lookup_insert, Ht. by constructor. }
      rewrite lookup_insert_ne by done. unfold m1. destruct (decide (k = s)) as [->|Hks].
      { rewrite lookup_insert, Hs. constructor. by rewrite nm_remove_edge_id, nm_remove_edge_label. }
      rewrite lookup_insert_ne by done. destruct (m !! k); by constructor.
    - intros x y. rewrite remove_edge_edge_at. pose proof (ar_edge _ _ _ _ H x y) as Hf.
      assert (adj (<[t:=f]> m1) x y =
        if decide (ekey (ag_dir A) s t = ekey (ag_dir A) x y) then None else adj m x y) as ->.
      { rewrite Hdir. unfold adj. destruct (decide (x = t)) as [->|Hxt].
        - rewrite lookup_insert, Ht. unfold f. destruct dir.
          + simpl. rewrite Hnb. unfold ekey. destruct (decide (s = t ∧ y = t)) as [[-> ->]|Hn].
            * by rewrite decide_True.
            * by rewrite decide_False by naive_solver.
          + rewrite nm_remove_edge_nbrs, Hnb. destruct (decide (y = s)) as [->|Hys].
            * rewrite decide_True; [done|]. by rewrite ekey_sym.
            * rewrite (decide_False (P := s = t ∧ y = t)) by naive_solver.
              rewrite decide_False; [done|]. rewrite ekey_eq. naive_solver.
        - rewrite lookup_insert_ne by done. unfold m1. destruct (decide (x = s)) as [->|Hxs].
          + rewrite lookup_insert, Hs, nm_remove_edge_nbrs. destruct (decide (y = t)) as [->|Hyt].
            * by rewrite decide_True.
            * rewrite decide_False; [done|]. rewrite ekey_eq. naive_solver.
          + rewrite lookup_insert_ne by done. rewrite decide_False; [done|]. rewrite ekey_eq. naive_solver. }
      destruct (decide (ekey (ag_dir A) s t = ekey (ag_dir A) x y)); [constructor|done].
    - intros x n Hx. destruct dir eqn:Hd.
      + assert (∀ z nz, m !! z = Some nz → ∀ s, s ∈ nm_in nz ↔ a_has_edge A s z) as Hin0.
        { intros z nz Hz. pose proof (ar_in _ _ _ _ H z nz Hz) as Hz'. by rewrite Hd in Hz'. }
        rewrite ?Hd. intros y. unfold a_has_edge. rewrite remove_edge_edge_at, Hdir. unfold ekey.
        destruct (decide (x = t)) as [->|Hxt].
        * rewrite lookup_insert in Hx. injection Hx as Hx; rewrite <-Hx, Hfin.
          rewrite elem_of_difference, elem_of_singleton, (Hin0 t nt Ht y).
          destruct (decide ((s, t) = (y, t))) as [Heq|Hne].
          -- simplify_eq. split; [naive_solver|by intros [? ?]].
          -- unfold a_has_edge. naive_solver.
        * rewrite lookup_insert_ne in Hx by done. rewrite decide_False by naive_solver.
          unfold m1 in Hx. destruct (decide (x = s)) as [->|Hxs].
          -- rewrite lookup_insert in Hx. simplify_eq. rewrite nm_remove_edge_in. apply (Hin0 s ns Hs).
          -- rewrite lookup_insert_ne in Hx by done. by apply Hin0.
      + assert (∀ z nz, m !! z = Some nz → nm_in nz = ∅) as Hin0.
        { intros z nz Hz. pose proof (ar_in _ _ _ _ H z nz Hz) as Hz'. by rewrite Hd in Hz'. }
        rewrite ?Hd. destruct (decide (x = t)) as [->|Hxt].
        * rewrite lookup_insert in Hx. injection Hx as Hx; rewrite <-Hx, Hfin. by apply (Hin0 t).
        * rewrite lookup_insert_ne in Hx by done. unfold m1 in Hx. destruct (decide (x = s)) as [->|Hxs].
          -- rewrite lookup_insert in Hx. simplify_eq. rewrite nm_remove_edge_in. by apply (Hin0 s).
          -- rewrite lookup_insert_ne in Hx by done. by apply (Hin0 x).
  Qed.

  (** remove_node of a node without self-loop. *)
  Definition remove_node_map (id : N) (node : nodemap) m : gmap N nodemap :=
    let m0 := delete id m in
    if dir then
      upd_all (λ n, (nm_remove_edge id n).2) (nm_in_neighbors node)
        (upd_all (nm_remove_in_edge id) (nm_neighbors node) m0)
    else upd_all (λ n, (nm_remove_edge id n).2) (nm_neighbors node) m0.

  Lemma lookup_remove_node_map id node m k :
    remove_node_map id node m !! k =
      if decide (k = id) then None
      else (λ n, if dir then
                   let n1 := if decide (k ∈ nm_neighbors node) then nm_remove_in_edge id n else n in
                   if decide (k ∈ nm_in_neighbors node) then (nm_remove_edge id n1).2 else n1
                 else if decide (k ∈ nm_neighbors node) then (nm_remove_edge id n).2 else n) <$> m !! k.
  Proof.
    unfold remove_node_map. destruct dir; rewrite ?lookup_upd_all;
      (destruct (decide (k = id)) as [->|Hne];
       [by rewrite lookup_delete|rewrite lookup_delete_ne by done; by destruct (m !! k)]).
  Qed.
  Lemma abs_remove_node m A id node :
    abs m A → m !! id = Some node →
    abs (remove_node_map id node m) (a_remove_node id A).
  Proof.
    intros H Hid. pose proof (ar_dir _ _ _ _ H) as Hdir.
    assert (∀ k, k ∈ nm_neighbors node ↔ a_has_edge A id k) as Hnb.
    { intros k. unfold nm_neighbors. rewrite elem_of_bt_keys. by apply (abs_nbr m A). }
    split; [done|apply wf_remove_node; apply H|..].
    - intros k. rewrite lookup_remove_node_map. simpl. destruct (decide (k = id)) as [->|Hne].
      + rewrite lookup_delete. constructor.
      + rewrite lookup_delete_ne by done. pose proof (ar_node _ _ _ _ H k) as Hf.
        inversion Hf as [n l [? ?] Hn Hl|]; simpl; constructor.
        destruct dir; repeat case_decide; simpl;
          rewrite ?nm_remove_edge_id, ?nm_remove_edge_label; simpl; done.
    - intros x y. rewrite remove_node_edge_at. unfold adj. rewrite lookup_remove_node_map.
      destruct (decide (x = id)) as [->|Hxid].
      { rewrite decide_True by (by left). constructor. }
      pose proof (ar_edge _ _ _ _ H x y) as Hf. unfold adj in Hf.
      destruct (m !! x) as [nx|] eqn:Hx; cbn [fmap option_fmap option_map].
      2:{ destruct (decide (x = id ∨ y = id)); [constructor|done]. }
      pose proof (abs_nbr m A x nx id H Hx) as Hxn.
      match goal with |- option_Forall2 _ (nm_nbrs ?n' !! _) _ =>
        assert (nm_nbrs n' !! y = if decide (y = id) then None else nm_nbrs nx !! y) as -> end.
      { destruct dir eqn:Hd.
        - assert (∀ z nz, m !! z = Some nz → ∀ s, s ∈ nm_in nz ↔ a_has_edge A s z) as Hin0.
          { intros z nz Hz. pose proof (ar_in _ _ _ _ H z nz Hz) as Hz'. by rewrite Hd in Hz'. }
          assert (x ∈ nm_in_neighbors node ↔ a_has_edge A x id) as Hxin.
          { unfold nm_in_neighbors. rewrite elem_of_bs_iter. by apply Hin0. }
          destruct (decide (x ∈ nm_in_neighbors node)) as [Hi|Hi].
          + rewrite nm_remove_edge_nbrs. by destruct (decide (y = id)); destruct (decide (x ∈ nm_neighbors node)).
          + destruct (decide (y = id)) as [->|]; [|by destruct (decide (x ∈ nm_neighbors node))].
            assert (nm_nbrs nx !! id = None).
            { destruct (nm_nbrs nx !! id) eqn:Hn; [|done]. destruct Hi. apply Hxin, Hxn. by eexists. }
            by destruct (decide (x ∈ nm_neighbors node)).
        - destruct (decide (x ∈ nm_neighbors node)) as [Hi|Hi].
          + by rewrite nm_remove_edge_nbrs.
          + destruct (decide (y = id)) as [->|]; [|done].
            destruct (nm_nbrs nx !! id) eqn:Hn; [|done]. destruct Hi. apply Hnb.
            rewrite has_edge_sym by (by rewrite Hdir). apply Hxn. by eexists. }
      destruct (decide (y = id)) as [->|Hy].
      + rewrite decide_True by (by right). constructor.
      + by rewrite decide_False by naive_solver.
    - intros x n Hx. rewrite lookup_remove_node_map in Hx.
      destruct (decide (x = id)) as [->|Hxid]; [done|].
      destruct (m !! x) as [nx|] eqn:Hmx; [|done]. cbn [fmap option_fmap option_map] in Hx.
      apply (inj Some) in Hx. subst n. destruct dir eqn:Hd.
      + assert (∀ z nz, m !! z = Some nz → ∀ s, s ∈ nm_in nz ↔ a_has_edge A s z) as Hin0.
        { intros z nz Hz. pose proof (ar_in _ _ _ _ H z nz Hz) as Hz'. by rewrite Hd in Hz'. }
        rewrite ?Hd. intros y. unfold a_has_edge. rewrite remove_node_edge_at.
        assert (y ∈ nm_in (if decide (x ∈ nm_neighbors node) then nm_remove_in_edge id nx else nx)
          ↔ y ≠ id ∧ y ∈ nm_in nx) as Hy.
        { destruct (decide (x ∈ nm_neighbors node)) as [Hi|Hi]; [simpl; set_solver|].
          split; [|naive_solver]. intros Hy. split; [|done]. intros ->. apply Hi, Hnb. by apply (Hin0 x nx). }
        assert (y ∈ nm_in (let n1 := if decide (x ∈ nm_neighbors node) then nm_remove_in_edge id nx else nx in
           if decide (x ∈ nm_in_neighbors node) then (nm_remove_edge id n1).2 else n1) ↔ y ≠ id ∧ y ∈ nm_in nx) as ->.
        { cbv zeta. rewrite <-Hy. destruct (decide (x ∈ nm_in_neighbors node)); [|done].
          by rewrite nm_remove_edge_in. }
        rewrite (Hin0 x nx Hmx y). unfold a_has_edge.
        destruct (decide (y = id ∨ x = id)) as [[?|?]|Hn]; [|done|naive_solver].
        subst. split; [naive_solver|by intros [? ?]].
      + rewrite ?Hd. pose proof (ar_in _ _ _ _ H x nx Hmx) as Hin0. rewrite Hd in Hin0.
        destruct (decide (x ∈ nm_neighbors node)); [|done]. by rewrite nm_remove_edge_in.
  Qed.

  (** The number of edges removed with a node that has no self-loop. *)
  Lemma abs_incident m A id node :
    abs m A → m !! id = Some node → ¬ a_has_edge A id id →
    size (a_incident id A) = nm_degree node + nm_in_degree node.
  Proof.
    intros H Hid Hloop. pose proof (ar_dir _ _ _ _ H) as Hdir.
    set (l := ((λ t, ekey dir id t) <$> nm_neighbors node) ++ ((λ s, (s, id)) <$> nm_in_neighbors node)).
    assert (lists_exactly l (λ k, is_Some (a_incident id A !! k))) as Hl.
    { assert (∀ k, k ∈ (λ t, ekey dir id t) <$> nm_neighbors node ↔
          ∃ t, k = ekey dir id t ∧ a_has_edge A id t) as Hl1.
      { intros k. rewrite elem_of_list_fmap. apply exist_proper. intros t.
        unfold nm_neighbors. rewrite elem_of_bt_keys. by rewrite (abs_nbr m A). }
      assert (∀ k, k ∈ (λ s, (s, id)) <$> nm_in_neighbors node ↔
          dir = true ∧ ∃ s, k = (s, id) ∧ a_has_edge A s id) as Hl2.
      { intros k. rewrite elem_of_list_fmap. unfold nm_in_neighbors. pose proof (ar_in _ _ _ _ H id node Hid) as Hin.
        setoid_rewrite elem_of_bs_iter. destruct dir.
        - setoid_rewrite Hin. naive_solver.
        - rewrite Hin. set_solver. }
      split.
      - apply NoDup_app. split; [|split].
        + apply NoDup_fmap_2_strong; [|apply bt_keys_NoDup].
          intros x y Hx Hy Heq. apply ekey_eq in Heq. naive_solver.
        + intros k Hk1 Hk2. apply Hl1 in Hk1 as (t & -> & Ht). apply Hl2 in Hk2 as (Hd & s & Heq & Hs).
          rewrite Hd in Heq. unfold ekey in Heq. simplify_eq. done.
        + apply NoDup_fmap_2; [|apply bs_iter_NoDup]. intros ?? [= ->]. done.
      - intros [x y]. unfold l. rewrite elem_of_app, Hl1, Hl2.
        unfold a_incident. unfold is_Some. setoid_rewrite map_filter_lookup_Some. simpl.
        split.
        + intros [(t & Heq & [lb Ht])|(Hd & s & Heq & [lb Hs])].
          * exists lb. rewrite Heq. unfold a_edge_at in Ht. rewrite Hdir in Ht. split; [done|].
            apply ekey_touches. by left.
          * exists lb. unfold a_edge_at, ekey in Hs. rewrite Hdir, Hd in Hs. rewrite Heq. split; [done|].
            by right.
        + intros (lb & Hlb & Ht). destruct (ar_wf _ _ _ _ H x y) as (Hk & Hx & Hy); [by eexists|].
          rewrite Hdir in Hk.
          assert (a_has_edge A x y) as Hxy. { unfold a_has_edge, a_edge_at. rewrite Hdir, Hk. by eexists. }
          unfold touches in Ht. simpl in Ht. destruct (decide (x = id)) as [->|Hxid].
          * left. by exists y.
          * destruct Ht as [Ht|Ht]; [done|subst y]. destruct dir eqn:Hd.
            -- right. split; [done|]. by exists x.
            -- left. exists x. split; [by rewrite ekey_sym|]. by rewrite has_edge_sym. }
    rewrite <-(lists_exactly_length _ _ Hl). unfold l. rewrite app_length, !fmap_length.
    unfold nm_neighbors, nm_in_neighbors. by rewrite bt_keys_length, bs_iter_length.
  Qed.

  (** Overwriting a label id through get_edge_mut. *)
  Lemma abs_set_edge m A s t ns lid l :
    abs m A → m !! s = Some ns → is_Some (nm_nbrs ns !! t) → PE lid l → dir = true ∨ s = t →
    abs (<[s := NodeMap (nm_id ns) (nm_label ns) (<[t := lid]> (nm_nbrs ns)) (nm_in ns)]> m)
        (AG (ag_dir A) (ag_nodes A) (<[ekey (ag_dir A) s t := l]> (ag_edges A))).
  Proof.
    intros H Hs Hst Hl Hd.
    assert (a_has_edge A s t) as He by (by apply (abs_nbr m A s ns)).
    set (A' := AG _ _ _).
    assert (∀ x y, a_edge_at A' x y =
      if decide (ekey (ag_dir A) s t = ekey (ag_dir A) x y) then Some l else a_edge_at A x y) as Hat.
    { intros x y. unfold a_edge_at. simpl.
      case_decide as Hk; [rewrite Hk; by rewrite lookup_insert|by rewrite lookup_insert_ne]. }
    apply (abs_reshape m _ A); [done|done| |done|..].
    - intros x y Hxy. simpl in *. destruct (decide (ekey (ag_dir A) s t = (x, y))) as [Hk|Hk].
      + unfold a_has_edge, a_edge_at in He. rewrite Hk in He. by apply (ar_wf _ _ _ _ H).
      + rewrite lookup_insert_ne in Hxy by done. by apply (ar_wf _ _ _ _ H).
    - intros k. destruct (decide (k = s)) as [->|Hne].
      + rewrite lookup_insert, Hs. by constructor.
      + rewrite lookup_insert_ne by done. destruct (m !! k); by constructor.
    - intros x y. rewrite Hat. pose proof (ar_edge _ _ _ _ H x y) as Hf. pose proof (ar_dir _ _ _ _ H) as Hdir.
      rewrite Hdir.
      assert (ekey dir s t = ekey dir x y ↔ s = x ∧ t = y) as Hek.
      { rewrite ekey_eq. split; [|naive_solver]. intros [?|(Hdf & -> & ->)]; [done|].
        destruct Hd as [Hd|Hd]; [congruence|by subst]. }
      unfold adj in *. destruct (decide (x = s)) as [->|Hne].
      + rewrite lookup_insert. simpl. rewrite Hs in Hf. destruct (decide (y = t)) as [->|Hyt].
        * rewrite lookup_insert. rewrite decide_True by done. by constructor.
        * rewrite lookup_insert_ne by done. by rewrite decide_False by naive_solver.
      + rewrite lookup_insert_ne by done. by rewrite decide_False by naive_solver.
    - intros x n Hx. assert (∀ a b, a_has_edge A' a b ↔ a_has_edge A a b) as Hiff.
      { intros a b. unfold a_has_edge. rewrite Hat. case_decide as Hk; [|done].
        split; [|by eexists]. intros _. unfold a_edge_at. rewrite <-Hk. exact He. }
      assert (∃ n0, m !! x = Some n0 ∧ nm_in n = nm_in n0) as (n0 & Hn0 & ->).
      { destruct (decide (x = s)) as [->|Hne].
        - rewrite lookup_insert in Hx. simplify_eq. by exists ns.
        - rewrite lookup_insert_ne in Hx by done. by exists n. }
      pose proof (ar_in _ _ _ _ H x n0 Hn0) as Hin. destruct dir; [|done].
      intros y. by rewrite Hiff.
  Qed.
End abs.
