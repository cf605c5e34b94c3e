(** Facts about the traversals: an invariant of the iterator state, and the orders. *)
From Verif Require Import Base BaseFacts Api Spec SpecFacts Traverse SpecTraverse.

Section pure.
  Context {NL EL : Type} (A : agraph NL EL).
  Local Notation E := (a_has_edge A).
  Context (Hwf : ag_wf A).

  Record pinv (pre : list N) (r : N) (cur q : list N) : Prop := {
    pi_closed : ∀ x y, x ∈ pre → E x y → y ∈ pre;
    pi_nd : NoDup (pre ++ cur ++ q);
    pi_nodes : ∀ x, x ∈ pre ++ cur ++ q → a_has_node A x;
    pi_succ : ∀ x y, x ∈ cur → E x y → y ∈ pre ++ cur ++ q;
    pi_reach : ∀ x, x ∈ cur ++ q → reaches A r x;
    pi_head : (cur = [] ∧ q = [r]) ∨ head cur = Some r;
  }.
  Definition news_of pre cur c q news : Prop :=
    increasing news ∧ ∀ x, x ∈ news ↔ E c x ∧ x ∉ pre ++ cur ++ c :: q.

  Lemma edge_node x y : E x y → a_has_node A x ∧ a_has_node A y.
  Proof. intros H; by apply (wf_edge_nodes A x y). Qed.

  Lemma pinv_init pre r : (∀ x y, x ∈ pre → E x y → y ∈ pre) → NoDup pre →
    (∀ x, x ∈ pre → a_has_node A x) → r ∉ pre → a_has_node A r → pinv pre r [] [r].
  Proof.
    intros Hc Hnd Hn Hr Hrn. constructor; simpl.
    - done.
    - apply NoDup_app. split_and!; [done| |apply NoDup_singleton]. set_solver.
    - set_solver.
    - set_solver.
    - intros x ->%elem_of_list_singleton. apply rtc_refl.
    - by left.
  Qed.
  Lemma pinv_step pre r cur c q news q' : pinv pre r cur (c :: q) → news_of pre cur c q news →
    q' ≡ₚ q ++ news → pinv pre r (cur ++ [c]) q'.
  Proof.
    intros [H1 H2 H3 H4 H5 H6] [Hi Hn] Hq.
    assert (pre ++ (cur ++ [c]) ++ q' ≡ₚ (pre ++ cur ++ c :: q) ++ news) as Hp.
    { rewrite Hq. rewrite <- !(assoc_L (++)). simpl. done. }
    constructor.
    - done.
    - rewrite Hp. apply NoDup_app. split_and!; [done| |by apply increasing_NoDup].
      intros x Hx Hx'. apply Hn in Hx' as [? ?]. done.
    - intros x. rewrite Hp, elem_of_app. intros [Hx|[Hx _]%Hn]; [by apply H3|]. by apply edge_node in Hx as [_ ?].
    - intros x y Hx Hxy. rewrite Hp, elem_of_app. apply elem_of_app in Hx as [Hx| ->%elem_of_list_singleton].
      + left. by apply (H4 x).
      + destruct (decide (y ∈ pre ++ cur ++ c :: q)); [by left|]. right. by apply Hn.
    - intros x. rewrite <- (assoc_L (++)), Hq. intros Hx.
      assert (x ∈ cur ++ c :: q ∨ x ∈ news) as [Hx'|Hx'] by set_solver; [by apply H5|].
      apply Hn in Hx' as [Hx' _]. eapply rtc_r; [|done]. apply H5. set_solver.
    - right. destruct H6 as [[-> ?]|H6]; [simplify_eq; done|]. destruct cur; [done|]. done.
  Qed.
  Lemma rtc_closed (P : N → Prop) x y : (∀ x y, P x → E x y → P y) → P x → reaches A x y → P y.
  Proof. intros Hcl Hx Hr. revert Hx. induction Hr; [done|]. intros. eauto. Qed.
  Lemma pinv_end pre r cur : pinv pre r cur [] →
    head cur = Some r ∧ NoDup cur ∧ (∀ x, x ∈ cur ↔ reaches A r x ∧ x ∉ pre) ∧
    (∀ x y, x ∈ pre ++ cur → E x y → y ∈ pre ++ cur) ∧ NoDup (pre ++ cur) ∧
    (∀ x, x ∈ pre ++ cur → a_has_node A x).
  Proof.
    intros [H1 H2 H3 H4 H5 H6]. rewrite !app_nil_r in *.
    assert (∀ x y, x ∈ pre ++ cur → E x y → y ∈ pre ++ cur) as Hcl.
    { intros x y [Hx|Hx]%elem_of_app Hxy; [|by eapply H4]. apply elem_of_app. left. by eapply H1. }
    destruct H6 as [[_ ?]|H6]; [done|].
    split_and!; [done|by apply NoDup_app in H2 as (_&_&?)| |done|done|done].
    intros x. split.
    - intros Hx. split; [by apply H5|]. apply NoDup_app in H2 as (_&H2&_). intros Hx'. by apply (H2 x).
    - intros [Hx Hp]. assert (x ∈ pre ++ cur) as Hx'; [|set_solver].
      assert (r ∈ pre ++ cur) as Hr. { destruct cur; [done|]. simplify_eq/=. set_solver. }
      clear Hp. by eapply (rtc_closed (λ x, x ∈ pre ++ cur) r).
  Qed.

  (** ** Distances *)
  Definition jdist (pre : list N) (r : N) (cur q : list N) : Prop :=
    ∃ ks kq, Forall2 (distance A r) cur ks ∧ Forall2 (distance A r) q kq ∧ StronglySorted le (ks ++ kq) ∧
      match kq with
      | [] => True
      | k :: _ => Forall (λ k', k' ≤ S k) kq ∧ ∀ j y, j ≤ k → nsteps E j r y → y ∈ pre ++ cur ++ q
      end.
  Lemma jdist_init pre r : jdist pre r [] [r].
  Proof.
    exists [], [0]. split_and!; [constructor| |repeat constructor|repeat constructor; lia|].
    - repeat constructor. intros; lia.
    - intros j y Hj. assert (j = 0) as -> by lia. inversion 1; subst. set_solver.
  Qed.
  Lemma StronglySorted_app_le l1 l2 : StronglySorted le l1 → StronglySorted le l2 →
    (∀ x y, x ∈ l1 → y ∈ l2 → x ≤ y) → StronglySorted le (l1 ++ l2).
  Proof.
    induction 1 as [|x l Hs IH Hf]; simpl; intros H2 H; [done|]. constructor.
    - apply IH; [done|]. intros; apply H; set_solver.
    - apply Forall_app. split; [done|]. apply Forall_forall. intros y Hy. apply H; set_solver.
  Qed.
  Lemma jdist_step pre r cur c q news : pinv pre r cur (c :: q) → news_of pre cur c q news →
    jdist pre r cur (c :: q) → jdist pre r (cur ++ [c]) (q ++ news).
  Proof.
    intros [H1 H2 H3 H4 H5 H6] [Hi Hn] (ks & kq & Hks & Hkq & Hs & Hk).
    inversion Hkq as [|? k ? kq' Hc Hq]; subst. destruct Hk as [Hle Hcov].
    exists (ks ++ [k]), (kq' ++ replicate (length news) (S k)).
    assert (∀ x, x ∈ news → distance A r x (S k)) as Hnd.
    { intros x [Hx Hd]%Hn. split; [eapply nsteps_r; [apply Hc|done]|].
      intros j Hj. destruct (decide (j ≤ k)); [|lia]. exfalso. apply Hd. by apply (Hcov j). }
    apply StronglySorted_app_iff in Hs as (Hs1 & Hs2 & Hs12). inversion Hs2 as [|?? Hs3 Hf]; subst.
    rewrite Forall_forall in Hf.
    split_and!.
    - apply Forall2_app; [done|]. constructor; [done|constructor].
    - apply Forall2_app; [done|]. rewrite Forall2_lookup. intros i.
      destruct (news !! i) as [x|] eqn:Hx.
      + rewrite lookup_replicate_2 by (by apply lookup_lt_Some in Hx). constructor. apply Hnd.
        by eapply elem_of_list_lookup_2.
      + rewrite (proj2 (lookup_ge_None _ _)); [constructor|]. rewrite replicate_length. by apply lookup_ge_None.
    - rewrite <- (assoc_L (++)). simpl. apply StronglySorted_app_iff. split_and!; [done| |].
      + assert (StronglySorted le (kq' ++ replicate (length news) (S k))) as Hss.
        { apply StronglySorted_app_iff. split_and!; [done| |].
          - induction (length news); simpl; constructor; [done|]. apply Forall_replicate. lia.
          - intros a b Ha [-> _]%elem_of_replicate. rewrite Forall_forall in Hle. apply Hle. set_solver. }
        constructor; [done|]. apply Forall_app. split; [by apply Forall_forall|]. apply Forall_replicate. lia.
      + intros a b Ha Hb. rewrite elem_of_cons, elem_of_app in Hb. rewrite elem_of_replicate in Hb.
        pose proof (Hs12 a k Ha ltac:(set_solver)).
        destruct Hb as [->|[Hb|[-> _]]]; [done| |lia]. apply Hs12; set_solver.
    - destruct (kq' ++ replicate (length news) (S k)) as [|h tl] eqn:Heq; [done|].
      assert (h ∈ kq' ++ replicate (length news) (S k)) as Hh by (rewrite Heq; set_solver).
      assert (k ≤ h ∧ h ≤ S k) as [Hkh HhS].
      { apply elem_of_app in Hh as [Hh|[-> _]%elem_of_replicate]; [|lia]. split; [by apply Hf|].
        rewrite Forall_forall in Hle. apply Hle; set_solver. }
      assert (∀ y, y ∈ pre ++ cur ++ c :: q → y ∈ pre ++ (cur ++ [c]) ++ q ++ news) as Hsub by set_solver.
      split.
      { rewrite <- Heq. apply Forall_app. split; [|apply Forall_replicate; lia].
        apply Forall_forall. intros x Hx. rewrite Forall_forall in Hle. specialize (Hle x ltac:(set_solver)). lia. }
      intros j y Hj Hjy. destruct (decide (j ≤ k)) as [Hjk|Hjk]; [by apply Hsub, (Hcov j)|].
      assert (j = S k) as -> by lia. assert (h = S k) as -> by lia.
      apply nsteps_inv_r in Hjy as (z & Hz & Hzy).
      assert (z ∈ pre ++ cur ++ c :: q) as Hzd by (by apply (Hcov k)).
      rewrite !elem_of_app, elem_of_cons in Hzd. destruct Hzd as [Hzp|[Hzc|[->|Hzq]]].
      + apply elem_of_app. left. by apply (H1 z).
      + by apply Hsub, (H4 z).
      + destruct (decide (y ∈ pre ++ cur ++ c :: q)); [by apply Hsub|]. rewrite !elem_of_app. right. right. right. by apply Hn.
      + exfalso. apply elem_of_list_lookup in Hzq as (i & Hi'). pose proof (Forall2_lookup_l _ _ _ _ _ Hq Hi') as (kz & Hkz & Hdz).
        destruct Hdz as [_ Hmin]. specialize (Hmin k Hz).
        destruct kq' as [|h' kq'']; [done|]. simplify_eq/=. 
        assert (S k ≤ kz); [|lia].
        destruct i; simplify_eq/=; [done|]. inversion Hs3 as [|?? _ Hf']; subst. rewrite Forall_forall in Hf'.
        apply Hf'. by eapply elem_of_list_lookup_2.
  Qed.
  Lemma jdist_end pre r cur : jdist pre r cur [] → by_distance A pre r cur.
  Proof.
    intros (ks & kq & Hks & Hkq & Hs & _). inversion Hkq; subst. rewrite app_nil_r in Hs. by exists ks.
  Qed.

  (** ** Order of discovery *)
  Lemma discovered_unique b x j k : discovered_at A b x j → discovered_at A b x k → j = k.
  Proof.
    intros [(p & Hp & Hpx) Hj] [(p' & Hp' & Hpx') Hk].
    destruct (decide (j < k)); [exfalso; by eapply Hk|]. destruct (decide (k < j)); [exfalso; by eapply Hj|]. lia.
  Qed.
  Lemma discovered_app b b' x j : j < length b → discovered_at A (b ++ b') x j ↔ discovered_at A b x j.
  Proof.
    intros Hj. unfold discovered_at. rewrite lookup_app_l by done. split; intros [H1 H2]; (split; [done|]).
    - intros k p Hk Hp. apply (H2 k p Hk). rewrite lookup_app_l by lia. done.
    - intros k p Hk. rewrite lookup_app_l by lia. by apply H2.
  Qed.
  Lemma discovered_lt b x j : discovered_at A b x j → j < length b.
  Proof. intros [(p & Hp & _) _]. by apply lookup_lt_Some in Hp. Qed.
  Lemma discovered_ext b b' x j j' : discovered_at A (b ++ b') x j → discovered_at A b x j' → j = j'.
  Proof.
    intros H H'. eapply discovered_unique; [done|]. apply discovered_app; [by eapply discovered_lt|done].
  Qed.
  Lemma discovered_new pre r cur c q news x : pinv pre r cur (c :: q) → news_of pre cur c q news → x ∈ news →
    discovered_at A (cur ++ [c]) x (length cur).
  Proof.
    intros [H1 H2 H3 H4 H5 H6] [Hi Hn] [Hx Hd]%Hn. split.
    - exists c. split; [|done]. rewrite lookup_app_r by done. by rewrite Nat.sub_diag.
    - intros k p Hk Hp Hpx. rewrite lookup_app_l in Hp by done. apply Hd. eapply H4; [|done]. by eapply elem_of_list_lookup_2.
  Qed.

  (** [later = true]: the order of a stack; [false]: of a queue. *)
  Definition before (later : bool) (j : nat) (x : N) (k : nat) (y : N) : Prop :=
    if later then k < j ∨ (k = j ∧ (y ≤ x)%N) else j < k ∨ (k = j ∧ (x ≤ y)%N).
  Definition disc_order (later : bool) (pre : list N) (r : N) (b : list N) : Prop :=
    ∀ i x, b !! S i = Some x →
      ∃ j, j ≤ i ∧ discovered_at A b x j ∧
        ∀ y k, y ∉ pre ++ take (S i) b → k ≤ i → discovered_at A b y k → before later j x k y.
  Definition jrel (later : bool) (cur : list N) (x y : N) : Prop :=
    ∀ j k, discovered_at A cur x j → discovered_at A cur y k → before later j x k y.
  Definition jdisc (later : bool) (pre : list N) (r : N) (cur q : list N) : Prop :=
    (cur = [] ∧ q = [r]) ∨
    (disc_order later pre r cur ∧ Forall (λ x, ∃ j, discovered_at A cur x j) q ∧
     StronglySorted (jrel later cur) q).
  Definition place (later : bool) (q news : list N) : list N :=
    if later then reverse news ++ q else q ++ news.
  Lemma place_perm later q news : place later q news ≡ₚ q ++ news.
  Proof. destruct later; simpl; [|done]. by rewrite reverse_Permutation, (comm (++)). Qed.

  Lemma increasing_rev_sorted l (R : N → N → Prop) : (∀ x y, x ∈ l → y ∈ l → (x < y)%N → R y x) →
    increasing l → StronglySorted R (reverse l).
  Proof.
    intros HR. induction 1 as [|x l Hs IH Hf]; [constructor|]. rewrite reverse_cons. apply StronglySorted_app_iff. split_and!.
    - apply IH. intros; apply HR; set_solver.
    - repeat constructor.
    - intros a b Ha Hb. rewrite elem_of_reverse in Ha. apply elem_of_list_singleton in Hb. subst b. rewrite Forall_forall in Hf. apply HR; [set_solver..|by apply Hf].
  Qed.
  Lemma increasing_sorted_R l (R : N → N → Prop) : (∀ x y, x ∈ l → y ∈ l → (x < y)%N → R x y) →
    increasing l → StronglySorted R l.
  Proof.
    intros HR. induction 1 as [|x l Hs IH Hf]; constructor.
    - apply IH. intros; apply HR; set_solver.
    - rewrite Forall_forall in Hf |- *. intros; apply HR; [set_solver..|by apply Hf].
  Qed.

  Lemma disc_order_snoc later pre r cur c :
    disc_order later pre r cur → (cur = [] ∨ ∃ j, j < length cur ∧ discovered_at A cur c j ∧
       ∀ y k, y ∉ pre ++ cur → discovered_at A cur y k → before later j c k y) →
    disc_order later pre r (cur ++ [c]).
  Proof.
    intros Ho Hc i x Hx. destruct (decide (S i < length cur)) as [Hi|Hi].
    - rewrite lookup_app_l in Hx by done. destruct (Ho i x Hx) as (j & Hj & Hd & Hmax). exists j. split; [done|].
      split; [apply discovered_app; [lia|done]|]. intros y k. rewrite take_app_le by lia. intros Hy Hk Hdk.
      apply Hmax; [done..|]. by rewrite discovered_app in Hdk by lia.
    - assert (S i = length cur) as Hl. { apply lookup_lt_Some in Hx. rewrite app_length in Hx; simpl in Hx. lia. }
      rewrite lookup_app_r in Hx by lia. rewrite Hl, Nat.sub_diag in Hx. injection Hx as ->.
      destruct Hc as [->|(j & Hj & Hd & Hmax)]; [done|]. exists j. split; [lia|]. split; [by apply discovered_app|].
      intros y k. rewrite Hl, take_app. intros Hy Hk Hdk. apply Hmax; [done|]. by rewrite discovered_app in Hdk by lia.
  Qed.

  Lemma before_refl later j x : before later j x j x.
  Proof. destruct later; right; done. Qed.

  Lemma jdisc_init later pre r : jdisc later pre r [] [r].
  Proof. by left. Qed.
  Lemma jdisc_step later pre r cur c q news : pinv pre r cur (c :: q) → news_of pre cur c q news →
    jdisc later pre r cur (c :: q) → jdisc later pre r (cur ++ [c]) (place later q news).
  Proof.
    intros Hpi Hn Hj. right.
    assert (∀ x j, x ∈ news → discovered_at A (cur ++ [c]) x j → j = length cur) as Hnew.
    { intros x j Hx Hd. eapply discovered_unique; [done|]. by eapply discovered_new. }
    assert (∃ Hold : Forall (λ x, ∃ j, discovered_at A cur x j) q, StronglySorted (jrel later cur) q ∧
      disc_order later pre r (cur ++ [c])) as (Hex & Hsort & Hord).
    { destruct Hj as [[-> [= -> ->]]|(Ho & Hex & Hs)].
      - exists (List.Forall_nil _). split; [constructor|]. intros i x Hx. done.
      - inversion Hex as [|?? [jc Hc] Hex']; subst. exists Hex'. inversion Hs as [|?? Hs' Hf]; subst.
        split; [done|]. apply disc_order_snoc; [done|]. right. exists jc. split; [by eapply discovered_lt|].
        split; [done|]. intros y k Hy Hk. rewrite Forall_forall in Hf.
        assert (y ∈ pre ++ cur ++ c :: q) as Hy'.
        { pose proof Hk as [(p & Hp & Hpy) _]. eapply (pi_succ _ _ _ _ Hpi); [|done]. by eapply elem_of_list_lookup_2. }
        assert (y = c ∨ y ∈ q) as [->|Hyq] by set_solver.
        + rewrite (discovered_unique _ _ _ _ Hk Hc). apply before_refl.
        + by apply (Hf y Hyq). }
    split; [done|].
    assert (∀ x, x ∈ q → ∃ j, j < length cur ∧ discovered_at A cur x j) as Hold.
    { intros x Hx. rewrite Forall_forall in Hex. destruct (Hex x Hx) as [j Hd]. exists j. split; [by eapply discovered_lt|done]. }
    split.
    - apply Forall_forall. intros x Hx. rewrite place_perm in Hx. apply elem_of_app in Hx as [Hx|Hx].
      + destruct (Hold x Hx) as (j & ? & ?). exists j. by apply discovered_app.
      + exists (length cur). by eapply discovered_new.
    - assert (StronglySorted (jrel later (cur ++ [c])) q) as Hq.
      { assert (∀ x, x ∈ q → ∃ j, j < length cur ∧ discovered_at A cur x j) as Hold' by done. clear -Hsort Hold.
        induction Hsort as [|x q Hs IH Hf]; constructor; [apply IH; intros; apply Hold; set_solver|].
        rewrite Forall_forall in Hf |- *. intros y Hy j k Hjx Hky.
        destruct (Hold x ltac:(set_solver)) as (j' & ? & Hj'). destruct (Hold y ltac:(set_solver)) as (k' & ? & Hk').
        rewrite (discovered_ext _ _ _ _ _ Hjx Hj').
        rewrite (discovered_ext _ _ _ _ _ Hky Hk').
        by apply (Hf y Hy). }
      assert (∀ x j, x ∈ q → discovered_at A (cur ++ [c]) x j → j < length cur) as Hqlt.
      { intros x j Hx Hjx. destruct (Hold x Hx) as (j' & ? & Hj').
        by rewrite (discovered_ext _ _ _ _ _ Hjx Hj'). }
      destruct Hn as [Hi Hn]. destruct later; simpl; apply StronglySorted_app_iff; split_and!.
      + apply increasing_rev_sorted; [|done]. intros x y Hx Hy Hxy j k Hj1 Hk1.
        rewrite (Hnew y j), (Hnew x k) by done. right. split; [done|lia].
      + done.
      + intros x y Hx Hy j k Hj1 Hk1. rewrite elem_of_reverse in Hx. rewrite (Hnew x j) by done. left. by apply (Hqlt y).
      + done.
      + apply increasing_sorted_R; [|done]. intros x y Hx Hy Hxy j k Hj1 Hk1.
        rewrite (Hnew x j), (Hnew y k) by done. right. split; [done|lia].
      + intros x y Hx Hy j k Hj1 Hk1. rewrite (Hnew y k) by done. left. by apply (Hqlt x).
  Qed.
  Lemma jdisc_end later pre r cur : jdisc later pre r cur [] → disc_order later pre r cur.
  Proof. intros [[-> ?]|(?&_)]; done. Qed.
End pure.
