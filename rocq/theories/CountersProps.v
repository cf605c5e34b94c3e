From stdpp Require Import gmap.
From Verif Require Import Base BaseFacts Api Spec SpecFacts Map MapFacts GraphMap GraphMapFacts GraphMapRefine GraphMapQueries GraphMapSim GraphMapThms
  GraphMapMore SpecCounters Counters GraphMapProps.

Notation skrel dir := (rel dir (λ _ _ _, True) (λ _ _ _, True)).
Section props.
  Context {NL EL : Type} `{EqDecision NL, EqDecision EL}.
  Context (W : nat) (HW : 1 < W) (dir : bool) (lt : idty).
  Implicit Types (g : graphmap NL EL).

  (** Everything but the counter. *)
  Notation wk k := (λ p, (p.1, set_nedges k p.2)).
  Lemma upd_node_k k x f g : upd_node x f (set_nedges k g) = rmap (set_nedges k) (upd_node x f g).
  Proof. unfold upd_node. cbn. by destruct (g_nodes g !! x). Qed.
  Lemma rfold_upd_k k f l : ∀ g, rfold (λ g nb, upd_node nb f g) l (set_nedges k g) = rmap (set_nedges k) (rfold (λ g nb, upd_node nb f g) l g).
  Proof.
    induction l as [|x l IH]; intros g; [done|]. cbn [rfold]. rewrite upd_node_k. destruct (upd_node x f g) as [g1| |]; cbn [rbind rmap]; [|done|done]. apply IH.
  Qed.
  Lemma upd_node_nedges x f g g' : upd_node x f g = Ok g' → g_nedges g' = g_nedges g.
  Proof. unfold upd_node. destruct (g_nodes g !! x); cbn; [|done]. by intros [= <-]. Qed.
  Lemma rfold_upd_nedges f l : ∀ g g', rfold (λ g nb, upd_node nb f g) l g = Ok g' → g_nedges g' = g_nedges g.
  Proof.
    induction l as [|x l IH]; intros g g'; cbn [rfold]; [by intros [= <-]|]. destruct (upd_node x f g) as [g1| |] eqn:E; cbn [rbind]; [|done|done].
    intros H. rewrite (IH _ _ H). by eapply upd_node_nedges.
  Qed.
  Lemma add_node_label_k k l g : gm_add_node_label lt l (set_nedges k g) = rmap (wk k) (gm_add_node_label lt l g).
  Proof. destruct l as [x|]; [|done]. unfold gm_add_node_label. cbn. by destruct (sm_add_item (g_nlm g) x) as [[i m]| |]. Qed.
  Lemma add_edge_label_k k l g : gm_add_edge_label lt l (set_nedges k g) = rmap (wk k) (gm_add_edge_label lt l g).
  Proof. destruct l as [x|]; [|done]. unfold gm_add_edge_label. cbn. by destruct (sm_add_item (g_elm g) x) as [[i m]| |]. Qed.
  Lemma add_edge_label_nedges l g i g' : gm_add_edge_label lt l g = Ok (i, g') → g_nedges g' = g_nedges g.
  Proof. destruct l as [x|]; cbn; [|by intros [= _ <-]]. destruct (sm_add_item (g_elm g) x) as [[j m]| |]; cbn; [|done|done]. by intros [= _ <-]. Qed.
  Lemma add_node_k k n l g : gm_add_node lt n l (set_nedges k g) = rmap (wk k) (gm_add_node lt n l g).
  Proof.
    unfold gm_add_node. rewrite add_node_label_k. destruct (gm_add_node_label lt l g) as [[i g1]| |]; cbn [rbind rmap fst snd]; [|done|done].
    change (gm_has_node (set_nedges k g1) n) with (gm_has_node g1 n). destruct (gm_has_node g1 n).
    - rewrite upd_node_k. by destruct (upd_node n _ g1).
    - cbn. destruct (g_max g1) as [m|]; [|done]. by destruct (decide (m < n)%N).
  Qed.
  Lemma add_node_nedges n l g b g' : gm_add_node lt n l g = Ok (b, g') → g_nedges g' = g_nedges g.
  Proof.
    unfold gm_add_node. destruct (gm_add_node_label lt l g) as [[i g1]| |] eqn:E; cbn [rbind]; [|done|done].
    assert (g_nedges g1 = g_nedges g) as H1.
    { destruct l as [x|]; cbn in E; [|by injection E as _ <-]. destruct (sm_add_item (g_nlm g) x) as [[j m]| |]; cbn in E; [|done|done]. by injection E as _ <-. }
    destruct (gm_has_node g1 n).
    - destruct (upd_node n _ g1) as [g2| |] eqn:E2; cbn; [|done|done]. intros [= _ <-]. by rewrite (upd_node_nedges _ _ _ _ E2).
    - cbn. intros [= _ <-]. destruct (g_max g1) as [m|]; [|done]. by destruct (decide (m < n)%N).
  Qed.
  (** What a build makes of a result whose counter is [g_nedges]. *)
  Definition norm {X} (ch : bool) (p : X * graphmap NL EL) : res (X * graphmap NL EL) :=
    if decide (g_nedges p.2 < W) then Ok p else if ch then Panic else Ok (p.1, set_nedges (g_nedges p.2 mod W) p.2).
  Definition low g : graphmap NL EL := set_nedges (g_nedges g mod W) g.
  Lemma norm_false {X} (p : X * graphmap NL EL) : norm false p = Ok (p.1, low p.2).
  Proof using HW.
    unfold norm, low. destruct p as [x g]. cbn. destruct (decide _) as [Hl|]; [|done]. rewrite Nat.mod_small by done. by destruct g.
  Qed.
  Lemma norm_k {X} ch k (x : X) g : norm ch (x, set_nedges k g) = rbind (λ k', Ok (x, set_nedges k' g)) (u_count W ch k).
  Proof. unfold norm, u_count. cbn. destruct (decide (k < W)); [done|]. by destruct ch. Qed.
  Lemma u_add_ok ch a b : (ch = true → a < W) → u_add W ch (a mod W) (b mod W) = u_count W ch (a + b) ∨ (ch = true ∧ W ≤ b).
  Proof using HW.
    intros Ha. destruct ch.
    - destruct (decide (b < W)); [left|right; split; [done|lia]]. by rewrite !Nat.mod_small by auto.
    - left. unfold u_add, u_count. rewrite (Nat.add_mod a b W) by lia. pose proof (Nat.mod_upper_bound a W). pose proof (Nat.mod_upper_bound b W).
      destruct (decide (a mod W + b mod W < W)) as [H1|H1], (decide (a + b < W)) as [H2|H2].
      + rewrite !Nat.mod_small by lia. done.
      + f_equal. symmetry. by apply Nat.mod_small.
      + rewrite !Nat.mod_small in H1 by lia. lia.
      + done.
  Qed.
  Lemma u_sub_ok ch a b : (ch = true → a < W) → b ≤ a → u_sub W ch (a mod W) (b mod W) = u_count W ch (a - b).
  Proof using HW.
    intros Ha Hb. destruct ch.
    - rewrite !Nat.mod_small by (specialize (Ha eq_refl); lia). unfold u_sub, u_count. rewrite !decide_True; [done|..]; specialize (Ha eq_refl); lia.
    - unfold u_sub, u_count. pose proof (Nat.mod_upper_bound a W ltac:(lia)). pose proof (Nat.mod_upper_bound b W ltac:(lia)).
      pose proof (Nat.div_mod a W ltac:(lia)) as Ea. pose proof (Nat.div_mod b W ltac:(lia)) as Eb.
      set (qa := a / W) in *. set (qb := b / W) in *. set (ra := a mod W) in *. set (rb := b mod W) in *.
      assert (∀ x y, x < W → x + W * y = a - b → (if decide (a - b < W) then Ok (a - b) else Ok ((a - b) mod W)) = Ok x) as Hx.
      { intros x y Hx Hy. rewrite <-Hy, Nat.mul_comm, Nat.mod_add, Nat.mod_small by lia. destruct (decide _) as [Hl|]; [|done]. f_equal. destruct y; [lia|]. cbn in Hl. lia. }
      destruct (decide (rb ≤ ra)) as [Hl|Hl].
      + symmetry. apply (Hx _ (qa - qb)); [lia|]. assert (qb ≤ qa) by nia. rewrite Nat.mul_sub_distr_l. nia.
      + symmetry. apply (Hx _ (qa - qb - 1)); [lia|]. assert (qb < qa) by nia. rewrite !Nat.mul_sub_distr_l. nia.
  Qed.
  Lemma u_add_edge_low ch x y l g : (ch = true → g_nedges g < W) →
    u_add_edge W ch dir lt x y l (low g) = rbind (norm ch) (gm_add_edge dir lt x y l g).
  Proof using HW.
    intros Hg. unfold u_add_edge, gm_add_edge, low. set (k := g_nedges g mod W).
    assert (∀ z g, g_nedges g mod W = k → (ch = true → g_nedges g < W) →
      (if gm_has_node (set_nedges k g) z then Ok (set_nedges k g) else rmap snd (gm_add_node lt z None (set_nedges k g)))
      = rmap (set_nedges k) (if gm_has_node g z then Ok g else rmap snd (gm_add_node lt z None g))) as Hz.
    { clearbody k. clear. intros z g0 _ _. change (gm_has_node (set_nedges k g0) z) with (gm_has_node g0 z). destruct (gm_has_node g0 z); [done|].
      rewrite add_node_k. by destruct (gm_add_node lt z None g0) as [[b g']| |]. }
    assert (∀ z g g', (if gm_has_node g z then Ok g else rmap snd (gm_add_node lt z None g)) = Ok g' → g_nedges g' = g_nedges g) as Hz'.
    { clear. intros z g0 g'. destruct (gm_has_node g0 z); [by intros [= <-]|]. destruct (gm_add_node lt z None g0) as [[b g1]| |] eqn:E; cbn; [|done|done].
      intros [= <-]. by eapply add_node_nedges. }
    rewrite Hz by done. destruct (if gm_has_node g x then _ else _) as [g1| |] eqn:E1; cbn [rbind rmap]; [|done|done]. apply Hz' in E1.
    rewrite Hz by (by rewrite E1). destruct (if gm_has_node g1 y then _ else _) as [g2| |] eqn:E2; cbn [rbind rmap]; [|done|done]. apply Hz' in E2.
    rewrite add_edge_label_k. destruct (gm_add_edge_label lt l g2) as [[i g3]| |] eqn:E3; cbn [rbind rmap fst snd]; [|done|done]. apply add_edge_label_nedges in E3.
    change (g_nodes (set_nedges k g3)) with (g_nodes g3). destruct (g_nodes g3 !! x) as [ns|]; cbn [unwrap rbind]; [|done].
    destruct (nm_add_edge y i ns) as [b ns']. change (set_nodes (<[x:=ns']> (g_nodes g3)) (set_nedges k g3)) with (set_nedges k (set_nodes (<[x:=ns']> (g_nodes g3)) g3)).
    set (g4 := set_nodes (<[x:=ns']> (g_nodes g3)) g3) in *. assert (g_nedges g4 = g_nedges g) as E4 by (by rewrite <-E1, <-E2, <-E3).
    clearbody g4.
    assert ((if dir then upd_node y (nm_add_in_edge x) (set_nedges k g4) else if decide (x = y) then Ok (set_nedges k g4) else upd_node y (λ n, (nm_add_edge x i n).2) (set_nedges k g4))
      = rmap (set_nedges k) (if dir then upd_node y (nm_add_in_edge x) g4 else if decide (x = y) then Ok g4 else upd_node y (λ n, (nm_add_edge x i n).2) g4)) as ->.
    { rewrite !upd_node_k. destruct dir; [done|]. by destruct (decide (x = y)). }
    destruct (if dir then _ else _) as [g5| |] eqn:E5; cbn [rbind rmap]; [|done|done].
    assert (g_nedges g5 = g_nedges g) as E6.
    { rewrite <-E4. destruct dir; [by eapply upd_node_nedges|]. destruct (decide (x = y)); [by injection E5 as <-|by eapply upd_node_nedges]. }
    rewrite norm_k. cbn [g_nedges set_nedges]. rewrite E6.
    destruct (u_add_ok ch (g_nedges g) 1 Hg) as [E|[_ E]]; [|lia]. rewrite (Nat.mod_small 1 W) in E by done. fold k in E. rewrite E, Nat.add_1_r. done.
  Qed.
  Lemma u_remove_edge_low ch x y g : (ch = true → g_nedges g < W) → gm_remove_edge dir x y g ≠ Panic →
    u_remove_edge W ch dir x y (low g) = rbind (norm ch) (gm_remove_edge dir x y g).
  Proof using HW.
    intros Hg. unfold u_remove_edge, gm_remove_edge, low. set (k := g_nedges g mod W).
    change (gm_has_edge (set_nedges k g) x y) with (gm_has_edge g x y). destruct (gm_has_edge g x y).
    2:{ intros _. cbn. unfold norm. cbn. unfold k. destruct (decide (g_nedges g < W)) as [Hl|Hl]; [rewrite Nat.mod_small by done; by destruct g|].
        destruct ch; [by destruct Hl; auto|done]. }
    change (g_nodes (set_nedges k g)) with (g_nodes g). destruct (g_nodes g !! x) as [ns|]; cbn [unwrap rbind]; [|done].
    destruct (nm_remove_edge y ns) as [e ns']. change (set_nodes (<[x:=ns']> (g_nodes g)) (set_nedges k g)) with (set_nedges k (set_nodes (<[x:=ns']> (g_nodes g)) g)).
    set (g4 := set_nodes (<[x:=ns']> (g_nodes g)) g) in *. assert (g_nedges g4 = g_nedges g) as E4 by done. clearbody g4.
    rewrite !upd_node_k.
    assert ((if dir then rmap (set_nedges k) (upd_node y (nm_remove_in_edge x) g4) else rmap (set_nedges k) (upd_node y (λ n, (nm_remove_edge x n).2) g4))
      = rmap (set_nedges k) (if dir then upd_node y (nm_remove_in_edge x) g4 else upd_node y (λ n, (nm_remove_edge x n).2) g4)) as -> by (by destruct dir).
    destruct (if dir then _ else _) as [g5| |] eqn:E5; cbn [rbind rmap]; [|done|done].
    assert (g_nedges g5 = g_nedges g) as E6. { rewrite <-E4. destruct dir; by eapply upd_node_nedges. }
    cbn [g_nedges set_nedges]. rewrite E6. unfold usub. destruct (decide (1 ≤ g_nedges g)) as [Hl|]; [|done]. cbn [rbind]. intros _.
    pose proof (u_sub_ok ch (g_nedges g) 1 Hg Hl) as E. rewrite (Nat.mod_small 1 W) in E by done. fold k in E. rewrite E, norm_k. done.
  Qed.
  Lemma u_remove_node_low ch x g : (ch = true → g_nedges g < W) → (gm_remove_node dir x g = Panic → gm_has_edge g x x = true) →
    u_remove_node W ch dir x (low g) = rbind (norm ch) (gm_remove_node dir x g).
  Proof using HW.
    intros Hg HP. unfold low. set (k := g_nedges g mod W). unfold u_remove_node. unfold gm_remove_node in HP |- *.
    change (g_nodes (set_nedges k g)) with (g_nodes g). unfold gm_has_edge in HP. destruct (g_nodes g !! x) as [node|] eqn:Hx.
    2:{ cbn. unfold norm. cbn. unfold k. destruct (decide (g_nedges g < W)) as [Hl|Hl]; [rewrite Nat.mod_small by done; by destruct g|].
        destruct ch; [by destruct Hl; auto|done]. }
    change (set_nodes (delete x (g_nodes g)) (set_nedges k g)) with (set_nedges k (set_nodes (delete x (g_nodes g)) g)).
    set (g4 := set_nodes (delete x (g_nodes g)) g) in *. assert (g_nedges g4 = g_nedges g) as E4 by done.
    assert (g_nodes g4 !! x = None) as Hd by (cbn; apply lookup_delete). clearbody g4.
    set (L := λ g4 : graphmap NL EL, if dir then
            let* g := rfold (λ g nb, upd_node nb (nm_remove_in_edge x) g) (nm_neighbors node) g4 in
            rfold (λ g nb, upd_node nb (λ n, (nm_remove_edge x n).2) g) (nm_in_neighbors node) g
          else
            rfold (λ g nb, upd_node nb (λ n, (nm_remove_edge x n).2) g) (nm_neighbors node) g4).
    change (rbind (λ g, let* k := usub (g_nedges g) (nm_degree node + nm_in_degree node) in Ok (Some node, set_nedges k g)) (L g4) = Panic → nm_has_neighbor node x = true) in HP.
    assert (L (set_nedges k g4) = rmap (set_nedges k) (L g4)) as EL1.
    { unfold L. destruct dir; [|apply rfold_upd_k]. rewrite rfold_upd_k. destruct (rfold _ (nm_neighbors node) g4) as [g5| |]; cbn [rbind rmap]; [|done|done]. apply rfold_upd_k. }
    assert (∀ g5, L g4 = Ok g5 → g_nedges g5 = g_nedges g) as EL2.
    { unfold L. rewrite <-E4. destruct dir; intros g5.
      - destruct (rfold _ (nm_neighbors node) g4) as [g6| |] eqn:E6; cbn [rbind]; [|done|done]. intros E. rewrite (rfold_upd_nedges _ _ _ _ E). by eapply rfold_upd_nedges.
      - intros E. by eapply rfold_upd_nedges. }
    assert (nm_has_neighbor node x = true → L g4 = Panic) as EL3.
    { intros Hn. assert (x ∈ nm_neighbors node) as Hin. { unfold nm_neighbors. apply elem_of_bt_keys. unfold nm_has_neighbor in Hn. by apply bool_decide_eq_true in Hn. }
      unfold L. destruct dir; rewrite (rfold_upd_panic _ (nm_neighbors node) _ x); done. }
    fold (L (set_nedges k g4)). fold (L g4). rewrite EL1. destruct (L g4) as [g5| |] eqn:E5; cbn [rbind rmap]; [|done|done].
    cbn [rbind] in HP. specialize (EL2 g5 eq_refl). rewrite EL2 in HP |- *. cbn [g_nedges set_nedges].
    unfold usub in *. destruct (decide (nm_degree node + nm_in_degree node ≤ g_nedges g)) as [Hl|Hl].
    2:{ specialize (HP eq_refl). by apply EL3 in HP. }
    cbn [rbind]. rewrite norm_k.
    set (d := nm_degree node) in *. set (d' := nm_in_degree node) in *. clearbody d d'. clear -HW Hg Hl.
    pose proof (u_sub_ok ch (g_nedges g) (d + d') Hg Hl) as E. fold k in E. rewrite <-E.
    assert (∀ c, (ch = true → c < W) → u_count W ch c = Ok (c mod W)) as Hc.
    { intros c Hcw. unfold u_count. destruct (decide (c < W)) as [?|Hn]; [by rewrite Nat.mod_small|]. destruct ch; [destruct Hn; auto|done]. }
    rewrite (Hc d), (Hc d') by (intros ->; specialize (Hg eq_refl); lia). cbn [rbind].
    destruct (u_add_ok ch d d') as [E2|[-> E2]]; [intros ->; specialize (Hg eq_refl); lia| |specialize (Hg eq_refl); lia].
    rewrite E2, Hc by (intros ->; specialize (Hg eq_refl); lia). done.
  Qed.
  Lemma low_id g : g_nedges g < W → low g = g.
  Proof. intros Hl. unfold low. rewrite Nat.mod_small by done. by destruct g. Qed.
  Lemma norm_rmap {X Y} ch (F : X * graphmap NL EL → Y) (r : res (X * graphmap NL EL)) : (∀ x k g, F (x, set_nedges k g) = F (x, g)) →
    rmap (λ p, (F p, p.2)) (rbind (norm ch) r) = rbind (norm ch) (rmap (λ p, (F p, p.2)) r).
  Proof.
    intros HF. destruct r as [[x g]| |]; [|done|done]. cbn [rbind rmap]. unfold norm. cbn [snd fst]. destruct (decide (g_nedges g < W)); [done|].
    destruct ch; [done|]. cbn. by rewrite HF.
  Qed.
  (** A call that leaves the counter alone. *)
  Lemma same_count {X} ch (f : graphmap NL EL → res (X * graphmap NL EL)) g : (ch = true → g_nedges g < W) →
    (∀ k, f (set_nedges k g) = rmap (wk k) (f g)) → (∀ x g', f g = Ok (x, g') → g_nedges g' = g_nedges g) →
    f (low g) = rbind (norm ch) (f g).
  Proof.
    intros Hg Hk He. unfold low. rewrite Hk. destruct (f g) as [[x g']| |]; [|done|done]. cbn [rbind rmap]. specialize (He x g' eq_refl).
    unfold norm. cbn [fst snd]. rewrite <-He. destruct (decide (g_nedges g' < W)) as [Hl|Hl].
    - rewrite Nat.mod_small by done. by destruct g'.
    - destruct ch; [|done]. destruct Hl. rewrite He. auto.
  Qed.
  Lemma u_step_low ch o g s : skrel dir g s → (ch = true → g_nedges g < W) →
    u_step W ch dir lt o (low g) = rbind (norm ch) (gm_step dir lt o g).
  Proof using HW.
    intros Hs Hg. destruct o as [n l|x y l|n|x y|n l|x y l|l|l| |n lid|x y lid]; cbn [u_step].
    - apply (same_count ch (gm_step dir lt (OAddNode n l))); [done|..]; cbn [gm_step].
      + intros k. rewrite add_node_k. by destruct (gm_add_node lt n l g) as [[b g']| |].
      + intros r g'. destruct (gm_add_node lt n l g) as [[b g1]| |] eqn:E; cbn; [|done|done]. intros [= _ <-]. by eapply add_node_nedges.
    - rewrite u_add_edge_low by done. by rewrite (norm_rmap ch (λ p, RBool p.1)).
    - rewrite u_remove_node_low; [|done|].
      + by rewrite (norm_rmap ch (λ p, RNode ((λ x, (nm_id x, lookup_label (g_nlm p.2) (nm_label x))) <$> p.1))).
      + intros HP. destruct (skrel_step dir lt g s (ORemoveNode n) Hs) as [(r & g' & s' & E & _)|(_ & n' & [= <-] & Hn)]; [|done].
        cbn [gm_step] in E. by rewrite HP in E.
    - rewrite u_remove_edge_low; [|done|].
      + by rewrite (norm_rmap ch (λ p, REdge ((λ e, (e.1.1, e.1.2, lookup_label (g_elm p.2) e.2)) <$> p.1))).
      + intros HP. destruct (skrel_step dir lt g s (ORemoveEdge x y) Hs) as [(r & g' & s' & E & _)|(_ & n' & [=] & _)].
        cbn [gm_step] in E. by rewrite HP in E.
    - apply (same_count ch (gm_step dir lt (OUpdateNodeLabel n l))); [done|..]; cbn [gm_step]; unfold gm_update_node_label.
      + intros k. change (gm_has_node (set_nedges k g) n) with (gm_has_node g n). destruct (gm_has_node g n); [|done].
        rewrite add_node_k. by destruct (gm_add_node lt n l g) as [[b g']| |].
      + intros r g'. destruct (gm_has_node g n); cbn; [|by intros [= _ <-]].
        destruct (gm_add_node lt n l g) as [[b g1]| |] eqn:E; cbn; [|done|done]. intros [= _ <-]. by eapply add_node_nedges.
    - cbn [gm_step]. unfold u_update_edge_label, gm_update_edge_label. change (gm_has_edge (low g) x y) with (gm_has_edge g x y).
      destruct (gm_has_edge g x y).
      + rewrite u_add_edge_low by done. rewrite (norm_rmap ch (λ _, true)) by done. by rewrite (norm_rmap ch (λ p, RBool p.1)).
      + apply (same_count ch (λ g, Ok (RBool false, g))); [done|done|]. by intros ?? [= _ <-].
    - apply (same_count ch (gm_step dir lt (OAddNodeLabel l))); [done|..]; cbn [gm_step].
      + intros k. rewrite add_node_label_k. by destruct (gm_add_node_label lt l g) as [[b g']| |].
      + intros r g'. destruct l as [x|]; cbn; [|by intros [= _ <-]]. destruct (sm_add_item (g_nlm g) x) as [[i m]| |]; cbn; [|done|done]. by intros [= _ <-].
    - apply (same_count ch (gm_step dir lt (OAddEdgeLabel l))); [done|..]; cbn [gm_step].
      + intros k. rewrite add_edge_label_k. by destruct (gm_add_edge_label lt l g) as [[b g']| |].
      + intros r g'. destruct (gm_add_edge_label lt l g) as [[b g1]| |] eqn:E; cbn; [|done|done]. intros [= _ <-]. by eapply add_edge_label_nedges.
    - cbn [gm_step rbind]. unfold u_refine_edge_count, gm_refine_edge_count. change (g_nodes (low g)) with (g_nodes g).
      change (gm_edge_indices dir (low g) (map_to_list (g_nodes g)).*1) with (gm_edge_indices dir g (map_to_list (g_nodes g)).*1). rewrite norm_k.
      by destruct (u_count W ch _).
    - apply (same_count ch (gm_step dir lt (OSetNodeLabelId n lid))); [done|..]; cbn [gm_step]; unfold gm_set_node_label_id.
      + intros k. cbn. by destruct (g_nodes g !! n).
      + intros r g'. cbn. destruct (g_nodes g !! n); cbn; by intros [= _ <-].
    - apply (same_count ch (gm_step dir lt (OSetEdgeLabelId x y lid))); [done|..]; cbn [gm_step]; unfold gm_set_edge_label_id.
      + intros k. change (gm_has_edge (set_nedges k g) x y) with (gm_has_edge g x y). destruct (gm_has_edge g x y); [|done]. cbn.
        destruct (g_nodes g !! x) as [nd|]; cbn; [|done]. by destruct (nm_set_neighbor_label y lid nd).
      + intros r g'. destruct (gm_has_edge g x y); cbn; [|by intros [= _ <-]]. destruct (g_nodes g !! x) as [nd|]; cbn; [|done].
        destruct (nm_set_neighbor_label y lid nd); cbn; by intros [= _ <-].
  Qed.
  Lemma u_release h : ∀ g s, skrel dir g s → u_run W false dir lt h (low g) = rmap (λ p, (p.1, low p.2)) (gm_run dir lt h g).
  Proof using HW.
    induction h as [|o h IH]; intros g s Hs; [done|]. cbn [u_run gm_run]. rewrite (u_step_low false o g s Hs) by done.
    destruct (skrel_step dir lt g s o Hs) as [(r & g' & s' & E & Hs' & _)|(E & _)]; rewrite E; cbn [rbind rmap]; [|done].
    rewrite norm_false. cbn [rbind fst snd]. rewrite (IH g' s' Hs'). by destruct (gm_run dir lt h g') as [[rs g2]| |].
  Qed.
  Lemma u_checked h : ∀ g s, skrel dir g s → g_nedges g < W →
    ((∀ h1, h1 `prefix_of` h → ∀ rs g', gm_run dir lt h1 g = Ok (rs, g') → g_nedges g' < W) → u_run W true dir lt h g = gm_run dir lt h g) ∧
    ((∃ h1 rs g', h1 `prefix_of` h ∧ gm_run dir lt h1 g = Ok (rs, g') ∧ W ≤ g_nedges g') → u_run W true dir lt h g = Panic).
  Proof using HW.
    induction h as [|o h IH]; intros g s Hs Hg.
    { split; [done|]. intros (h1 & rs & g' & Hp & Hr & Hl). apply prefix_nil_inv in Hp as ->. cbn in Hr. injection Hr as _ <-. lia. }
    pose proof (u_step_low true o g s Hs (λ _, Hg)) as Hu. rewrite (low_id g Hg) in Hu. cbn [u_run gm_run]. rewrite Hu.
    destruct (skrel_step dir lt g s o Hs) as [(r & g' & s' & E & Hs' & _)|(E & _)]; rewrite E; cbn [rbind rmap].
    2:{ done. }
    unfold norm. cbn [snd]. destruct (decide (g_nedges g' < W)) as [Hl|Hl].
    - destruct (IH g' s' Hs' Hl) as [I1 I2]. split; intros Hp.
      + cbn [rbind]. rewrite I1; [done|]. intros h1 Hh1 rs g2 Hr. apply (Hp (o :: h1) (prefix_cons _ _ _ Hh1) (r :: rs)). cbn [gm_run]. rewrite E. cbn [rbind]. by rewrite Hr.
      + cbn [rbind]. rewrite I2; [done|]. destruct Hp as (h1 & rs & g2 & Hp & Hr & Hl2). destruct h1 as [|o1 h1].
        { cbn in Hr. injection Hr as _ <-. lia. }
        pose proof (prefix_cons_inv_1 _ _ _ _ Hp) as ->. apply prefix_cons_inv_2 in Hp. cbn [gm_run] in Hr. rewrite E in Hr. cbn [rbind] in Hr.
        destruct (gm_run dir lt h1 g') as [[rs1 g3]| |] eqn:E3; cbn in Hr; [|done|done]. injection Hr as _ <-. by exists h1, rs1, g3.
    - split; intros Hp; [|done]. destruct Hl. apply (Hp [o] (prefix_cons _ _ _ (prefix_nil _)) [r]). cbn [gm_run]. rewrite E. done.
  Qed.
End props.

(** ** How large the counter gets *)
Section bound.
  Context {NL EL : Type} `{EqDecision NL, EqDecision EL} (dir : bool) (lt : idty).
  Implicit Types (g : graphmap NL EL) (s : sstate NL EL).
  Lemma add_edge_num A x y l : @a_num_edges NL EL (a_add_edge x y l A) ≤ S (a_num_edges A).
  Proof.
    unfold a_num_edges. rewrite add_edge_edges. destruct (ag_edges A !! ekey (ag_dir A) x y) eqn:E.
    - rewrite map_size_insert_Some by done. lia.
    - by rewrite map_size_insert_None.
  Qed.
  Lemma step_bound o s r s' n : spec_step o s = SOk (r, s') → sp_count s ≤ n → a_num_edges (sp_g s) ≤ n →
    let m := if counts o then S n else n in sp_count s' ≤ m ∧ a_num_edges (sp_g s') ≤ m.
  Proof.
    intros Ho Hc Hn. destruct o as [k l|x y l|k|x y|k l|x y l|l|l| |k lid|x y lid]; cbn [spec_step counts] in *.
    - injection Ho as _ <-. done.
    - injection Ho as _ <-. cbn [s_add_edge sp_count sp_g]. pose proof (add_edge_num (sp_g s) x y l). lia.
    - destruct (ag_nodes (sp_g s) !! k); [|by injection Ho as _ <-]. destruct (decide _); [done|]. injection Ho as _ <-. cbn [sp_count sp_g].
      pose proof (remove_node_num_edges k (sp_g s)). lia.
    - destruct (a_edge_at (sp_g s) x y); [|by injection Ho as _ <-]. injection Ho as _ <-. cbn [sp_count sp_g]. split; [lia|].
      etrans; [|exact Hn]. unfold a_num_edges, a_remove_edge. cbn [ag_edges].
      destruct (ag_edges (sp_g s) !! ekey (ag_dir (sp_g s)) x y) eqn:Ed; [rewrite map_size_delete_Some by done; lia|by rewrite map_size_delete_None].
    - destruct (ag_nodes (sp_g s) !! k); by injection Ho as _ <-.
    - destruct (a_edge_at (sp_g s) x y); [|injection Ho as _ <-; lia]. injection Ho as _ <-. cbn [s_add_edge sp_count sp_g]. pose proof (add_edge_num (sp_g s) x y l). lia.
    - injection Ho as _ <-. done.
    - injection Ho as _ <-. done.
    - injection Ho as _ <-. done.
    - destruct (ag_nodes (sp_g s) !! k); [|by injection Ho as _ <-]. destruct lid as [i|]; [destruct (sp_nls s !! N.to_nat i); [|done]|]; by injection Ho as _ <-.
    - destruct (a_edge_at (sp_g s) x y) eqn:El; [|by injection Ho as _ <-]. destruct (_ && _); [done|].
      assert (∀ l, a_num_edges (AG (ag_dir (sp_g s)) (ag_nodes (sp_g s)) (<[ekey (ag_dir (sp_g s)) x y:=l]> (ag_edges (sp_g s)))) = a_num_edges (sp_g s)) as Hins.
      { intros l. unfold a_num_edges. cbn. rewrite map_size_insert_Some; [done|]. unfold a_edge_at in El. by rewrite El. }
      destruct lid as [i|]; [destruct (sp_els s !! N.to_nat i); [|done]|]; injection Ho as _ <-; cbn [sp_count sp_g]; by rewrite Hins.
  Qed.
  Lemma run_bound h : ∀ g s n rs g', skrel dir g s → sp_count s ≤ n → a_num_edges (sp_g s) ≤ n → gm_run dir lt h g = Ok (rs, g') →
    g_nedges g' ≤ n + length (filter (λ o, counts o = true) h).
  Proof.
    induction h as [|o h IH]; intros g s n rs g' Hs Hc Hn Hr.
    { cbn in *. injection Hr as _ <-. rewrite (r_count _ _ _ _ _ Hs). lia. }
    cbn [gm_run] in Hr. destruct (skrel_step dir lt g s o Hs) as [(r & g1 & s1 & E & Hs1 & Hspec)|(E & _)]; rewrite E in Hr; cbn [rbind] in Hr; [|done].
    destruct (gm_run dir lt h g1) as [[rs1 g2]| |] eqn:E1; cbn in Hr; [|done|done]. injection Hr as _ <-.
    assert (sp_count s1 ≤ (if counts o then S n else n) ∧ a_num_edges (sp_g s1) ≤ (if counts o then S n else n)) as [H1 H2].
    { destruct Hspec as [[Hraw ->]|(_ & r0 & Ho & _)]; [by destruct o|]. by eapply step_bound. }
    pose proof (IH g1 s1 _ rs1 g2 Hs1 H1 H2 E1) as Hb. rewrite filter_cons. destruct (counts o); [rewrite decide_True by done; cbn; lia|rewrite decide_False by done; lia].
  Qed.
  Lemma bound nls els h rs g : NoDup nls → NoDup els → gm_run dir lt h (gm_with_label_map nls els) = Ok (rs, g) →
    g_nedges g ≤ length (filter (λ o, counts o = true) h).
  Proof.
    intros Hn He Hr. pose proof (run_bound h _ _ 0 rs g (skrel_init dir nls els Hn He)) as Hb. cbn [Nat.add] in Hb. by apply Hb.
  Qed.
End bound.
Section thms.
  Context {NL EL : Type} `{EqDecision NL, EqDecision EL} (W : nat) (HW : 1 < W) (dir : bool) (lt : idty).
  Context (nls : list NL) (els : list EL) (Hn : NoDup nls) (He : NoDup els).
  Lemma init_low : low W (gm_with_label_map nls els : graphmap NL EL) = gm_with_label_map nls els.
  Proof using HW. apply low_id. cbn. lia. Qed.
  Lemma release_thm h : u_run W false dir lt h (gm_with_label_map nls els) = rmap (λ p, (p.1, set_nedges (g_nedges p.2 mod W) p.2)) (gm_run dir lt h (gm_with_label_map nls els)).
  Proof using HW Hn He. rewrite <-init_low at 1. exact (u_release W HW dir lt h _ _ (skrel_init dir nls els Hn He)). Qed.
  Lemma checked_thm h :
    ((∀ h1, h1 `prefix_of` h → ∀ rs g', gm_run dir lt h1 (gm_with_label_map nls els) = Ok (rs, g') → g_nedges g' < W) →
      u_run W true dir lt h (gm_with_label_map nls els) = gm_run dir lt h (gm_with_label_map nls els)) ∧
    ((∃ h1 rs g', h1 `prefix_of` h ∧ gm_run dir lt h1 (gm_with_label_map nls els) = Ok (rs, g') ∧ W ≤ g_nedges g') →
      u_run W true dir lt h (gm_with_label_map nls els) = Panic).
  Proof using HW Hn He. apply (u_checked W HW dir lt h _ _ (skrel_init dir nls els Hn He)). cbn. lia. Qed.
  Lemma enough_thm ch h : length (filter (λ o, counts o = true) h) < W →
    u_run W ch dir lt h (gm_with_label_map nls els) = gm_run dir lt h (gm_with_label_map nls els).
  Proof using HW Hn He.
    intros Hl. destruct ch.
    - apply checked_thm. intros h1 [h2 ->] rs g' Hr. pose proof (bound dir lt nls els h1 rs g' Hn He Hr). rewrite filter_app, app_length in Hl. lia.
    - rewrite release_thm. destruct (gm_run dir lt h (gm_with_label_map nls els)) as [[rs g]| |] eqn:Hr; [|done|done]. cbn.
      pose proof (bound dir lt nls els h rs g Hn He Hr). rewrite Nat.mod_small by lia. by destruct g.
  Qed.
  Lemma release_view h :
    match gm_run dir lt h (gm_with_label_map nls els) with
    | Ok (rs, g) => ∃ g', u_run W false dir lt h (gm_with_label_map nls els) = Ok (rs, g') ∧
        (∀ it, hash_order g' it ↔ hash_order g it) ∧
        ∀ it, gm_view dir it g' = with_edge_count (v_edge_count (gm_view dir it g) mod W) (gm_view dir it g)
    | r => u_run W false dir lt h (gm_with_label_map nls els) = r
    end.
  Proof using HW Hn He.
    rewrite release_thm. destruct (gm_run dir lt h (gm_with_label_map nls els)) as [[rs g]| |]; [|done|done]. by eexists.
  Qed.
  Lemma checked_view h :
    (∀ h1 rs g it, h1 `prefix_of` h → gm_run dir lt h1 (gm_with_label_map nls els) = Ok (rs, g) → v_edge_count (gm_view dir it g) < W) →
    u_run W true dir lt h (gm_with_label_map nls els) = gm_run dir lt h (gm_with_label_map nls els).
  Proof using HW Hn He. intros H. apply checked_thm. intros h1 Hp rs g Hr. exact (H h1 rs g [] Hp Hr). Qed.
  Lemma checked_panic h h1 rs g it : h1 `prefix_of` h → gm_run dir lt h1 (gm_with_label_map nls els) = Ok (rs, g) → W ≤ v_edge_count (gm_view dir it g) →
    u_run W true dir lt h (gm_with_label_map nls els) = Panic.
  Proof using HW Hn He. intros Hp Hr Hl. apply checked_thm. by exists h1, rs, g. Qed.
  Lemma readd n x y : ∃ rs g, gm_run dir lt (replicate n (OAddEdge x y None)) (gm_with_label_map nls els : graphmap NL EL) = Ok (rs, g) ∧
    g_nedges g = n ∧ (0 < n → gm_has_edge g x y = true).
  Proof using Hn He.
    pose proof (skel_run dir lt (replicate n (OAddEdge x y None)) _ _ (skrel_init dir nls els Hn He)) as Hs.
    assert (∀ n (s : sstate NL EL), ∃ rs s', spec_run (strip (replicate n (OAddEdge x y (None : option EL)))) s = SOk (rs, s') ∧ sp_count s' = sp_count s + n ∧
      (0 < n ∨ a_has_edge (sp_g s) x y → a_has_edge (sp_g s') x y)) as Hr.
    { clear. intros n. induction n as [|n IH]; intros s.
      { eexists _, _. split; [done|]. split; [lia|]. intros [?|?]; [lia|done]. }
      change (replicate (S n) ?o) with (o :: replicate n o).
      assert (∀ (o : gop NL EL) h, is_raw o = false → strip (o :: h) = o :: strip h) as Hst. { clear. intros o h Ho. unfold strip. by rewrite filter_cons_True. }
      rewrite Hst by done. cbn [spec_run spec_step]. destruct (IH (s_add_edge x y None s)) as (rs & s' & -> & Hc & Hh). eexists _, _. split; [done|].
      split; [rewrite Hc; cbn; lia|]. intros _. apply Hh. right. unfold a_has_edge. cbn [s_add_edge sp_g]. rewrite add_edge_edge_at, decide_True by done. by eexists. }
    destruct (Hr n (s_init dir nls els)) as (rs & s & Es & Hc & Hh). rewrite Es in Hs. destruct Hs as (rs' & g & Hg & HR & _). exists rs', g. split; [done|].
    split; [by rewrite (r_count _ _ _ _ _ HR), Hc|]. intros Hp. rewrite (rel_has_edge dir _ _ g s x y HR). apply bool_decide_eq_true_2. apply Hh. by left.
  Qed.
  Lemma readd_wraps x y : ∃ rs g, u_run W false dir lt (replicate W (OAddEdge x y None)) (gm_with_label_map nls els : graphmap NL EL) = Ok (rs, g) ∧
    (∀ it, v_edge_count (gm_view dir it g) = 0 ∧ v_has_edge (gm_view dir it g) x y = Ok true) ∧
    u_run W true dir lt (replicate W (OAddEdge x y None)) (gm_with_label_map nls els : graphmap NL EL) = Panic.
  Proof using HW Hn He.
    destruct (readd W x y) as (rs & g & Hg & Hc & Hh). exists rs, (set_nedges (g_nedges g mod W) g). split; [rewrite release_thm, Hg; done|]. split.
    - intros it. cbn. unfold gm_edge_count. cbn. rewrite Hc, Nat.mod_same by lia. split; [done|].
      change (gm_has_edge (set_nedges 0 g) x y) with (gm_has_edge g x y). f_equal. apply Hh. lia.
    - eapply (checked_panic _ _ rs g []); [done|exact Hg|]. cbn. unfold gm_edge_count. lia.
  Qed.
End thms.
