(** Facts about ConnComp. *)
From Verif Require Import Base BaseFacts Api Spec SpecConn ConnComp.
Implicit Types m : gmap N N.

(** [depth m x k r]: following parents from [x] reaches the root [r] after [k] steps. *)
Inductive depth (m : gmap N N) : N → nat → N → Prop :=
  | depth_root r : m !! r = Some r → depth m r 0 r
  | depth_step x p k r : m !! x = Some p → x ≠ p → depth m p k r → depth m x (S k) r.

Lemma depth_fun m x k r k' r' : depth m x k r → depth m x k' r' → k = k' ∧ r = r'.
Proof.
  intros H. revert k' r'. induction H as [r Hr|x p k r Hx Hne H IH]; intros k' r' H'; inversion H'; subst; simplify_eq; try done.
  edestruct IH as [-> ->]; [done|]. done.
Qed.
Lemma depth_dom m x k r : depth m x k r → is_Some (m !! x).
Proof. inversion 1; subst; by eexists. Qed.
Lemma depth_root_root m x k r : depth m x k r → depth m r 0 r.
Proof. induction 1; [by constructor|done]. Qed.
Lemma depth_zero m x r : depth m x 0 r → x = r ∧ m !! r = Some r.
Proof. by inversion 1. Qed.

Lemma depth_path m x k r : depth m x k r → ∃ l, NoDup l ∧ length l = S k ∧
  ∀ y, y ∈ l → ∃ k' , k' ≤ k ∧ depth m y k' r.
Proof.
  induction 1 as [r Hr|x p k r Hx Hne H (l & Hnd & Hl & Hd)].
  - exists [r]. split_and!; [apply NoDup_singleton|done|]. intros y ->%elem_of_list_singleton. exists 0. split; [lia|by constructor].
  - exists (x :: l). split_and!; [|simpl; lia|].
    + constructor; [|done]. intros (k' & Hk & Hx')%Hd. assert (depth m x (S k) r) as Hx2 by (by econstructor).
      destruct (depth_fun _ _ _ _ _ _ Hx' Hx2). lia.
    + intros y [->|(k' & ? & ?)%Hd]%elem_of_cons; [exists (S k)|exists k']; (split; [lia|]); [|done]. by econstructor.
Qed.
Lemma depth_bound m x k r : depth m x k r → k < size m.
Proof.
  intros H. destruct (depth_path _ _ _ _ H) as (l & Hnd & Hl & Hd).
  assert (S k ≤ size m); [|lia]. rewrite <- Hl, <- size_dom.
  replace (length l) with (size (list_to_set l : gset N)) by (by rewrite size_list_to_set).
  apply subseteq_size. intros y Hy%elem_of_list_to_set. apply Hd in Hy as (? & _ & Hy). apply elem_of_dom. by eapply depth_dom.
Qed.

Definition same_roots (m m' : gmap N N) : Prop := ∀ x r, (∃ k, depth m x k r) ↔ ∃ k, depth m' x k r.
Definition forest (m : gmap N N) : Prop := ∀ x, is_Some (m !! x) → ∃ k r, depth m x k r.

(** Path halving. *)
Lemma halve_depth m n p pp : m !! n = Some p → n ≠ p → m !! p = Some pp →
  ∀ k x r, depth m x k r → ∃ k', k' ≤ k ∧ depth (<[n := pp]> m) x k' r.
Proof.
  intros Hn Hne Hp k. induction (lt_wf k) as [k _ IH]. intros x r Hd.
  destruct (decide (x = n)) as [->|Hxn].
  - inversion Hd as [|? p' k1 ? Hp' _ Hd1]; subst; simplify_eq.
    inversion Hd1 as [|? pp' k2 ? Hpp' Hne2 Hd2]; subst; simplify_eq.
    + exists 1. split; [lia|]. eapply depth_step; [apply lookup_insert|done|]. constructor. by rewrite lookup_insert_ne.
    + destruct (IH k2 ltac:(lia) _ _ Hd2) as (k' & Hk' & Hd'). exists (S k'). split; [lia|].
      eapply depth_step; [apply lookup_insert| |done]. intros ->.
      destruct (depth_fun _ _ _ _ _ _ Hd Hd2). lia.
  - inversion Hd as [? Hr|? p' k1 ? Hp' Hne' Hd1]; subst.
    + exists 0. split; [done|]. constructor. by rewrite lookup_insert_ne.
    + destruct (IH k1 ltac:(lia) _ _ Hd1) as (k' & Hk' & Hd'). exists (S k'). split; [lia|].
      eapply depth_step; [by rewrite lookup_insert_ne|done..].
Qed.
Lemma halve_dom m n p pp : m !! n = Some p → m !! p = Some pp → (dom (<[n := pp]> m) : gset N) = dom m.
Proof. intros Hn _. rewrite dom_insert_L. assert (n ∈ dom m) by (by apply elem_of_dom_2 in Hn). set_solver. Qed.

Lemma root_loop_spec fuel : ∀ m n k r, depth m n k r → forest m → k < fuel →
  ∃ m', root_loop fuel m n = Ok (Some r, m') ∧ (dom m' : gset N) = dom m ∧ forest m' ∧
    (∀ x k r, depth m x k r → ∃ k', depth m' x k' r).
Proof.
  induction fuel as [|fuel IH]; intros m n k r Hd Hf Hk; [lia|]. cbn [root_loop].
  inversion Hd as [? Hr|? p k1 ? Hp Hne Hd1]; subst.
  - rewrite decide_True by done. rewrite Hr. exists m. split_and!; eauto.
  - rewrite decide_False by congruence. rewrite Hp. cbn [unwrap rbind].
    assert (∃ pp, m !! p = Some pp) as [pp Hpp] by (eapply depth_dom; done). rewrite Hpp. cbn [unwrap rbind].
    pose proof (halve_depth m n p pp Hp Hne Hpp) as Hh.
    assert (forest (<[n:=pp]> m)) as Hf'.
    { intros x Hx. apply elem_of_dom in Hx. rewrite (halve_dom _ _ p) in Hx by done. apply elem_of_dom in Hx.
      destruct (Hf x Hx) as (kx & rx & Hdx). destruct (Hh _ _ _ Hdx) as (k' & _ & ?). eauto. }
    assert (∃ k2, k2 ≤ k1 ∧ depth m pp k2 r) as (k2 & Hk2 & Hd2).
    { inversion Hd1; subst; simplify_eq; eauto. }
    destruct (Hh _ _ _ Hd2) as (k' & Hk' & Hd').
    destruct (IH _ _ _ _ Hd' Hf') as (m' & Hm' & Hdom & Hf'' & Hs); [lia|].
    exists m'. split_and!; [done| |done|].
    + rewrite Hdom. by eapply halve_dom.
    + intros x kx rx Hx. destruct (Hh _ _ _ Hx) as (? & _ & Hx'). by eapply Hs.
Qed.

(** Equal roots, invariant under compression. *)
Definition compresses (m m' : gmap N N) : Prop :=
  (dom m' : gset N) = dom m ∧ forest m' ∧ ∀ x k r, depth m x k r → ∃ k', depth m' x k' r.
Lemma compresses_refl m : forest m → compresses m m.
Proof. intros. split_and!; eauto. Qed.
Lemma compresses_trans m m' m'' : compresses m m' → compresses m' m'' → compresses m m''.
Proof.
  intros (H1 & H2 & H3) (H4 & H5 & H6). split_and!; [congruence|done|]. intros x k r Hd. destruct (H3 _ _ _ Hd) as [k' Hd'].
  by eapply H6.
Qed.
Lemma get_root_spec c n : forest (cc_parent c) → is_Some (cc_parent c !! n) →
  ∃ k r m', depth (cc_parent c) n k r ∧ cc_get_root n c = Ok (Some r, CC m' (cc_count c)) ∧ compresses (cc_parent c) m'.
Proof.
  intros Hf Hn. destruct (Hf n Hn) as (k & r & Hd). exists k, r. unfold cc_get_root.
  destruct (root_loop_spec (S (size (cc_parent c))) (cc_parent c) n k r Hd Hf) as (m' & Hm' & Hdom & Hf' & Hs).
  { apply depth_bound in Hd. lia. }
  exists m'. rewrite Hm'. done.
Qed.
Lemma get_root_missing c n : cc_parent c !! n = None → cc_get_root n c = Panic.
Proof. intros Hn. unfold cc_get_root. cbn [root_loop]. rewrite decide_False by congruence. by rewrite Hn. Qed.

(** ** Connectivity *)
Lemma seen_app es x y n : seen (es ++ [(x, y)]) n ↔ seen es n ∨ n = x ∨ n = y.
Proof.
  unfold seen. split.
  - intros (e & [He| ->%elem_of_list_singleton]%elem_of_app & Hn); eauto.
  - intros [(e & He & Hn)|Hn]; [exists e|exists (x, y)]; rewrite elem_of_app, elem_of_list_singleton; eauto.
Qed.
Lemma joined_refl es x : seen es x → joined es x x.
Proof. intros. split_and!; [done..|]. reflexivity. Qed.
Lemma joined_sym es x y : joined es x y → joined es y x.
Proof. intros (?&?&?). split_and!; [done..|]. by symmetry. Qed.
Lemma joined_trans es x y z : joined es x y → joined es y z → joined es x z.
Proof. intros (?&?&?) (?&?&?). split_and!; [done..|]. by etrans. Qed.
Lemma joined_edge es x y : (x, y) ∈ es → joined es x y.
Proof.
  intros He. split_and!.
  - exists (x, y). naive_solver.
  - exists (x, y). naive_solver.
  - apply rtc_once. by left.
Qed.
Lemma joined_app es e x y : joined es x y → joined (es ++ e) x y.
Proof.
  intros (H1&H2&H3). split_and!.
  - destruct H1 as (p & ? & ?). exists p. rewrite elem_of_app. eauto.
  - destruct H2 as (p & ? & ?). exists p. rewrite elem_of_app. eauto.
  - eapply rtc_subrel; [|exact H3]. intros a b [Hab|Hab]; [left|right]; simpl; rewrite elem_of_app; eauto.
Qed.
(** A relation that contains the edges and is an equivalence on the nodes seen contains [joined]. *)
Lemma joined_ind es (R : N → N → Prop) :
  (∀ x, seen es x → R x x) → (∀ x y, R x y → R y x) → (∀ x y z, R x y → R y z → R x z) →
  (∀ x y, (x, y) ∈ es → R x y) → ∀ x y, joined es x y → R x y.
Proof.
  intros Hr Hs Ht He x y (Hx & _ & H). induction H as [|a b c Hab Hbc IH]; [by apply Hr|].
  assert (R a b) as HR. { destruct Hab as [Hab|Hab]; [by apply He|]. by apply Hs, He. }
  eapply Ht; [exact HR|]. apply IH. destruct Hab as [Hab|Hab]; eexists; (split; [exact Hab|]); eauto.
Qed.

Definition sameroot (m : gmap N N) (x y : N) : Prop := ∃ r k k', depth m x k r ∧ depth m y k' r.

Record cinv (es : list (N * N)) (c : ccomp) : Prop := {
  ci_dom : ∀ n, is_Some (cc_parent c !! n) ↔ seen es n;
  ci_forest : forest (cc_parent c);
  ci_same : ∀ x y, sameroot (cc_parent c) x y ↔ joined es x y;
  ci_count : cc_count c = size (filter (λ kv, kv.1 = kv.2) (cc_parent c));
}.
(** Compression keeps the number of roots. *)
Lemma depth_self m n k : depth m n k n → k = 0 ∧ m !! n = Some n.
Proof.
  intros H. pose proof (depth_root_root _ _ _ _ H) as H0. destruct (depth_fun _ _ _ _ _ _ H H0) as [-> _].
  by apply depth_zero in H0 as [_ ?].
Qed.
Lemma compresses_roots m m' : forest m → compresses m m' →
  filter (λ kv, kv.1 = kv.2) m' = filter (λ kv, kv.1 = kv.2) m.
Proof.
  intros Hf (Hdom & Hf' & Hd). apply map_eq. intros n. apply option_eq. intros v.
  rewrite !map_filter_lookup_Some. simpl.
  assert (m' !! n = Some n ↔ m !! n = Some n) as Hr.
  { split; intros Hn.
    - assert (is_Some (m !! n)) as Hn'. { apply elem_of_dom. rewrite <- Hdom. by apply elem_of_dom_2 in Hn. }
      destruct (Hf n Hn') as (k & r & Hk). destruct (Hd _ _ _ Hk) as [k' Hk'].
      assert (depth m' n 0 n) as H0 by (by constructor). destruct (depth_fun _ _ _ _ _ _ Hk' H0) as [-> ->]. by apply depth_self in Hk as [_ ?].
    - assert (depth m n 0 n) as H0 by (by constructor). destruct (Hd _ _ _ H0) as [k' Hk']. by apply depth_self in Hk' as [_ ?]. }
  split; intros [Hv <-]; (split; [|done]); by apply Hr.
Qed.
Lemma compresses_same m m' x y : forest m → compresses m m' → sameroot m' x y ↔ sameroot m x y.
Proof.
  intros Hf (Hdom & Hf' & Hd). split.
  - intros (r & k & k' & H1 & H2).
    assert (∀ z k, depth m' z k r → ∃ k', depth m z k' r) as Hback.
    { intros z kz Hz. assert (is_Some (m !! z)) as Hzm. { apply elem_of_dom. rewrite <- Hdom. apply elem_of_dom. by eapply depth_dom. }
      destruct (Hf z Hzm) as (k2 & r2 & H). destruct (Hd _ _ _ H) as [k3 H3].
      destruct (depth_fun _ _ _ _ _ _ Hz H3) as [_ ->]. eauto. }
    destruct (Hback _ _ H1), (Hback _ _ H2). unfold sameroot. eauto.
  - intros (r & k & k' & H1 & H2). destruct (Hd _ _ _ H1), (Hd _ _ _ H2). unfold sameroot. eauto.
Qed.
Lemma cinv_compress es c m' : cinv es c → compresses (cc_parent c) m' → cinv es (CC m' (cc_count c)).
Proof.
  intros [H1 H2 H3 H4] Hc. constructor; simpl.
  - intros n. rewrite <- H1. destruct Hc as [Hd _]. by rewrite <- !elem_of_dom, Hd.
  - by destruct Hc as (_&?&_).
  - intros x y. by rewrite compresses_same by done.
  - by rewrite (compresses_roots (cc_parent c) m').
Qed.
Lemma cinv_empty : cinv [] cc_empty.
Proof.
  constructor; simpl.
  - intros n. rewrite lookup_empty. split; [by intros []|]. intros (e & He & _). by apply elem_of_nil in He.
  - intros x. rewrite lookup_empty. by intros [].
  - intros x y. split.
    + intros (r & k & k' & H & _). apply depth_dom in H as [? H]. by rewrite lookup_empty in H.
    + intros ((e & He & _) & _). by apply elem_of_nil in He.
  - rewrite map_filter_empty. by rewrite map_size_empty.
Qed.

(** Seeing a new node. *)
Lemma see_parent x c y : cc_parent (cc_see x c) !! y = if decide (y = x) then Some (default x (cc_parent c !! x)) else cc_parent c !! y.
Proof.
  unfold cc_see. destruct (cc_parent c !! x) as [p|] eqn:Hx.
  - case_decide; [subst; by rewrite Hx|done].
  - simpl. case_decide; [subst; by rewrite lookup_insert|by rewrite lookup_insert_ne].
Qed.
Lemma insert_fresh_depth m x y k r : m !! x = None → depth m y k r → depth (<[x:=x]> m) y k r.
Proof.
  intros Hx. induction 1 as [r Hr|y p k r Hy Hne H IH].
  - constructor. rewrite lookup_insert_ne; [done|]. intros ->. congruence.
  - eapply depth_step; [|done|done]. rewrite lookup_insert_ne; [done|]. intros ->. congruence.
Qed.
Lemma insert_fresh_depth_inv m x y k r : m !! x = None → depth (<[x:=x]> m) y k r → forest m → 
  (y = x ∧ r = x) ∨ (∃ k', depth m y k' r).
Proof.
  intros Hx Hd Hf. destruct (decide (y = x)) as [->|Hne].
  - left. split; [done|]. inversion Hd as [|???? Hp]; subst; [done|]. rewrite lookup_insert in Hp. congruence.
  - right. pose proof (depth_dom _ _ _ _ Hd) as Hy. rewrite lookup_insert_ne in Hy by done.
    destruct (Hf y Hy) as (k' & r' & Hd'). pose proof (insert_fresh_depth _ x _ _ _ Hx Hd') as Hd2.
    destruct (depth_fun _ _ _ _ _ _ Hd Hd2) as [_ ->]. eauto.
Qed.
(** The invariant between seeing the end points and joining them: [xs] are isolated nodes. *)
Record cinv' (es : list (N * N)) (extra : N → Prop) (c : ccomp) : Prop := {
  cx_dom : ∀ n, is_Some (cc_parent c !! n) ↔ seen es n ∨ extra n;
  cx_forest : forest (cc_parent c);
  cx_same : ∀ x y, sameroot (cc_parent c) x y ↔ joined es x y ∨ (x = y ∧ extra x);
  cx_count : cc_count c = size (filter (λ kv, kv.1 = kv.2) (cc_parent c));
}.
Lemma cinv'_see es extra x c : cinv' es extra c → cinv' es (λ n, extra n ∨ n = x) (cc_see x c).
Proof.
  intros [H1 H2 H3 H4]. unfold cc_see. destruct (cc_parent c !! x) as [p|] eqn:Hx.
  - assert (seen es x ∨ extra x) as Hsx by (apply H1; by eexists).
    constructor; [|done| |done].
    + intros n. rewrite H1. naive_solver.
    + intros a b. rewrite H3. split; [naive_solver|]. intros [?|[-> [?| ->]]]; [by left|by right|].
      destruct Hsx; [left; by apply joined_refl|by right].
  - constructor; simpl.
    + intros n. destruct (decide (n = x)) as [->|]; [rewrite lookup_insert; naive_solver|].
      rewrite lookup_insert_ne by done. rewrite H1. naive_solver.
    + intros n Hn. destruct (decide (n = x)) as [->|].
      * exists 0, x. constructor. apply lookup_insert.
      * rewrite lookup_insert_ne in Hn by done. destruct (H2 n Hn) as (k & r & ?). exists k, r. by apply insert_fresh_depth.
    + intros a b. split.
      * intros (r & k & k' & Ha & Hb).
        destruct (insert_fresh_depth_inv _ _ _ _ _ Hx Ha H2) as [[-> ->]|[ka Ha']].
        -- destruct (insert_fresh_depth_inv _ _ _ _ _ Hx Hb H2) as [[-> _]|[kb Hb']]; [naive_solver|].
           apply depth_root_root, depth_dom in Hb' as [? Hb']. congruence.
        -- destruct (insert_fresh_depth_inv _ _ _ _ _ Hx Hb H2) as [[-> ->]|[kb Hb']].
           { apply depth_root_root, depth_dom in Ha' as [? Ha']. congruence. }
           assert (sameroot (cc_parent c) a b) as Hab%H3 by (unfold sameroot; eauto). naive_solver.
      * intros [Hj|[<- He]].
        -- assert (sameroot (cc_parent c) a b) as (r & k & k' & ? & ?) by (apply H3; by left).
           exists r, k, k'. split; by apply insert_fresh_depth.
        -- destruct (decide (a = x)) as [->|Hne].
           { exists x, 0, 0. split; constructor; apply lookup_insert. }
           assert (sameroot (cc_parent c) a a) as (r & k & k' & ? & ?) by (apply H3; naive_solver).
           exists r, k, k'. split; by apply insert_fresh_depth.
    + rewrite map_filter_insert_True by done. rewrite map_size_insert_None; [by rewrite H4|].
      apply map_filter_lookup_None. by left.
Qed.

(** Linking two roots. *)
Lemma link_depth m rx ry : m !! rx = Some rx → m !! ry = Some ry → rx ≠ ry →
  ∀ z k r, depth m z k r → ∃ k', depth (<[rx := ry]> m) z k' (if decide (r = rx) then ry else r).
Proof.
  intros Hx Hy Hne z k r. induction 1 as [r Hr|z p k r Hz Hzp H [k' IH]].
  - case_decide as Hrx; [subst r|].
    + exists 1. eapply depth_step; [apply lookup_insert|done|]. constructor. by rewrite lookup_insert_ne.
    + exists 0. constructor. by rewrite lookup_insert_ne.
  - exists (S k'). eapply depth_step; [|done|done]. rewrite lookup_insert_ne; [done|]. intros ->. congruence.
Qed.

Lemma process_spec es c x y : cinv es c → ∃ c', cc_process x y c = Ok c' ∧ cinv (es ++ [(x, y)]) c'.
Proof.
  intros [H1 H2 H3 H4]. unfold cc_process.
  assert (cinv' es (λ n, (False ∨ n = x) ∨ n = y) (cc_see y (cc_see x c))) as Hs.
  { apply cinv'_see. apply (cinv'_see es (λ _, False)). constructor; [|done| |done].
    - intros n. rewrite H1. naive_solver.
    - intros a b. rewrite H3. naive_solver. }
  revert Hs. generalize (cc_see y (cc_see x c)). clear c H1 H2 H3 H4. intros c Hc.
  destruct (get_root_spec c x) as (kx & rx & m1 & Hdx & Hrx & Hc1); [apply Hc|apply (cx_dom _ _ _ Hc); naive_solver|].
  rewrite Hrx. cbn [rbind unwrap].
  destruct Hc1 as (Hdom1 & Hf1 & Hd1).
  destruct (get_root_spec (CC m1 (cc_count c)) y) as (ky & ry & m2 & Hdy & Hry & Hc2).
  { done. } { simpl. apply elem_of_dom. rewrite Hdom1. apply elem_of_dom, (cx_dom _ _ _ Hc). naive_solver. }
  rewrite Hry. cbn [rbind unwrap]. simpl in *.
  assert (compresses (cc_parent c) m2) as Hcm. { eapply compresses_trans; [|done]. done. }
  assert (forest m2) as Hf2 by apply Hc2.
  assert (∀ n, is_Some (m2 !! n) ↔ seen (es ++ [(x, y)]) n) as Hdom2.
  { intros n. rewrite <- elem_of_dom. destruct Hcm as [-> _]. rewrite elem_of_dom, (cx_dom _ _ _ Hc), seen_app. naive_solver. }
  assert (∀ a b, sameroot m2 a b ↔ joined es a b ∨ a = b ∧ ((False ∨ a = x) ∨ a = y)) as Hsame.
  { intros a b. rewrite (compresses_same (cc_parent c) m2) by (done || apply Hc). apply Hc. }
  assert (cc_count c = size (filter (λ kv, kv.1 = kv.2) m2)) as Hcount.
  { rewrite (compresses_roots (cc_parent c) m2) by (done || apply Hc). apply Hc. }
  assert (∃ k, depth m2 x k rx) as [kx2 Hx2]. { destruct (Hd1 _ _ _ Hdx) as [? Hx']. by apply Hc2 in Hx'. }
  assert (∃ k, depth m2 y k ry) as [ky2 Hy2]. { by apply Hc2 in Hdy. }
  clear Hrx Hry Hdx Hdy Hdom1 Hf1 Hd1 Hc2 Hcm m1 kx ky.
  assert (∀ a b, joined es a b → joined (es ++ [(x, y)]) a b) as Hmono by (intros; by apply joined_app).
  assert (joined (es ++ [(x, y)]) x y) as Hxy by (apply joined_edge; set_solver).
  assert (∀ a b, sameroot m2 a b → joined (es ++ [(x, y)]) a b) as Hsj.
  { intros a b [?|[<- ?]]%Hsame; [by apply Hmono|]. apply joined_refl, seen_app. naive_solver. }
  assert (∀ a b, joined es a b → sameroot m2 a b) as Hjs by (intros a b ?; apply Hsame; by left).
  case_decide as Heq; [subst ry|].
  - eexists. split; [done|]. constructor; simpl; [done..| |done]. intros a b. split; [apply Hsj|].
    apply joined_ind.
    + intros z Hz. apply Hdom2 in Hz. destruct (Hf2 z Hz) as (k & r & ?). exists r, k, k. done.
    + intros a' b' (r & k & k' & ? & ?). exists r, k', k. done.
    + intros a' b' c' (r & k & k' & ? & Hb1) (r' & k2 & k3 & Hb2 & ?).
      destruct (depth_fun _ _ _ _ _ _ Hb1 Hb2) as [-> ->]. exists r', k, k3. done.
    + intros a' b' [Hab|Hab%elem_of_list_singleton]%elem_of_app; [by apply Hjs, joined_edge|]. simplify_eq.
      exists rx, kx2, ky2. done.
  - assert (m2 !! rx = Some rx) as Hrx by (by apply depth_root_root, depth_zero in Hx2 as [_ ?]).
    assert (m2 !! ry = Some ry) as Hry by (by apply depth_root_root, depth_zero in Hy2 as [_ ?]).
    assert (filter (λ kv, kv.1 = kv.2) (<[rx:=ry]> m2) = delete rx (filter (λ kv, kv.1 = kv.2) m2)) as Hfl.
    { rewrite map_filter_insert_False by done. by rewrite map_filter_delete. }
    assert (filter (λ kv, kv.1 = kv.2) m2 !! rx = Some rx) as Hrf by (by apply map_filter_lookup_Some).
    assert (cc_count c ≠ 0) as Hc0. { rewrite Hcount. intros H0. apply map_size_empty_inv in H0. rewrite H0 in Hrf. by rewrite lookup_empty in Hrf. }
    rewrite usub_ok by lia. cbn [rbind]. eexists. split; [done|].
    pose proof (link_depth m2 rx ry Hrx Hry Heq) as Hlink.
    constructor; simpl.
    + intros n. rewrite lookup_insert_is_Some'. rewrite <- Hdom2. split; [|naive_solver]. intros [<-|?]; [by eexists|done].
    + intros n Hn. assert (is_Some (m2 !! n)) as Hn'. { apply lookup_insert_is_Some' in Hn as [<-|?]; [by eexists|done]. }
      destruct (Hf2 n Hn') as (k & r & Hd). destruct (Hlink _ _ _ Hd). eauto.
    + intros a b. split.
      * intros (r & k & k' & Ha & Hb).
        assert (∀ z k, depth (<[rx:=ry]> m2) z k r → ∃ k' r', depth m2 z k' r' ∧ r = if decide (r' = rx) then ry else r') as Hinv.
        { intros z kz Hz. assert (is_Some (m2 !! z)) as Hz'.
          { pose proof (depth_dom _ _ _ _ Hz) as [<-|?]%lookup_insert_is_Some'; [by eexists|done]. }
          destruct (Hf2 z Hz') as (k1 & r1 & H1). destruct (Hlink _ _ _ H1) as [k2 H2].
          destruct (depth_fun _ _ _ _ _ _ Hz H2) as [_ ->]. eauto. }
        destruct (Hinv _ _ Ha) as (ka & ra & Ha' & Hra). destruct (Hinv _ _ Hb) as (kb & rb & Hb' & Hrb).
        assert (∀ z w kz kw rz, depth m2 z kz rz → depth m2 w kw rz → joined (es ++ [(x, y)]) z w) as Hj.
        { intros z w kz kw rz Hz Hw. apply Hsj. exists rz, kz, kw. done. }
        destruct (decide (ra = rx)) as [->|], (decide (rb = rx)) as [->|]; subst.
        -- by eapply Hj.
        -- eapply joined_trans; [eapply Hj; [exact Ha'|exact Hx2]|]. eapply joined_trans; [exact Hxy|]. by eapply Hj.
        -- eapply joined_trans; [|eapply Hj; [exact Hx2|exact Hb']]. eapply joined_trans; [|apply joined_sym, Hxy]. by eapply Hj.
        -- by eapply Hj.
      * apply joined_ind.
        -- intros z Hz. apply Hdom2 in Hz. destruct (Hf2 z Hz) as (k & r & Hd). destruct (Hlink _ _ _ Hd) as [k' ?]. eexists _, k', k'. done.
        -- intros a' b' (r & k & k' & ? & ?). exists r, k', k. done.
        -- intros a' b' c' (r & k & k' & ? & Hb1) (r' & k2 & k3 & Hb2 & ?).
           destruct (depth_fun _ _ _ _ _ _ Hb1 Hb2) as [-> ->]. exists r', k, k3. done.
        -- intros a' b' [Hab|Hab%elem_of_list_singleton]%elem_of_app.
           ++ apply joined_edge, Hjs in Hab as (r & k & k' & Ha & Hb). destruct (Hlink _ _ _ Ha), (Hlink _ _ _ Hb). eexists _, _, _. done.
           ++ simplify_eq. destruct (Hlink _ _ _ Hx2) as [k1 Hl1], (Hlink _ _ _ Hy2) as [k2 Hl2].
              rewrite decide_True in Hl1 by done. rewrite decide_False in Hl2 by done. exists ry, k1, k2. done.
    + rewrite Hfl. rewrite map_size_delete, Hrf. cbn. lia.
Qed.
