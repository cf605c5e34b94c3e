From Verif Require Import Base Api Spec BaseFacts SpecFacts Map GraphMap GraphMapFacts GraphMapRefine GraphMapQueries GraphMapSim GraphMapThms GraphMapMore
  SpecConn ConnComp ConnCompFacts ConnCompProps SpecConnGrow.

Lemma sublist_nodup {A} (l k : list A) : sublist l k → NoDup k → NoDup l.
Proof.
  induction 1 as [|x l k Hs IH|x l k Hs IH]; [done|..]; intros [Hx Hk]%NoDup_cons; [|by apply IH].
  apply NoDup_cons. split; [|by apply IH]. intros Hl. apply Hx. eapply elem_of_submseteq; [exact Hl|by apply sublist_submseteq].
Qed.
(** ** What depends on the links only *)
Lemma seen_linked es n : seen es n ↔ ∃ m, linked es n m.
Proof.
  split.
  - intros ([x y] & He & [Hn|Hn]); cbn in Hn; subst n; [exists y; by left|exists x; by right].
  - intros (m & [H|H]); (eexists; split; [exact H|]); cbn; auto.
Qed.
Lemma links_seen es es' n : same_links es es' → seen es n ↔ seen es' n.
Proof. intros H. rewrite !seen_linked. split; intros [m Hm]; exists m; by apply H. Qed.
Lemma links_joined es es' a b : same_links es es' → joined es a b ↔ joined es' a b.
Proof.
  intros H. unfold joined. rewrite !(links_seen es es') by done. unfold rtsc.
  split; intros (H1 & H2 & H3); (split_and!; [done..|]); (eapply rtc_subrel; [|exact H3]); intros x y Hxy; by apply H.
Qed.
Lemma cinv_alike es es' c c' : cinv es c → cinv es' c' → (∀ n, seen es n ↔ seen es' n) → (∀ a b, joined es a b ↔ joined es' a b) → cc_alike c c'.
Proof.
  intros Hc Hc' Hs Hj. constructor.
  - eapply components_unique; [by apply count_components|]. destruct (count_components es' c' Hc') as (reps & H1 & H2 & H3 & H4 & H5).
    exists reps. split; [done|]. split; [done|]. split; [intros r Hr; by apply Hs, H3|]. split.
    + intros r r' Hr Hr' Hrr. apply H4; [done..|]. by apply Hj.
    + intros n Hn. destruct (H5 n (proj1 (Hs n) Hn)) as (r & Hr & Hnr). exists r. split; [done|by apply Hj].
  - intros a b. destruct (is_connected_spec es c a b Hc) as (v & d & H1 & _ & Hv). destruct (is_connected_spec es' c' a b Hc') as (v' & d' & H1' & _ & Hv').
    exists v, d, d'. split; [done|]. rewrite H1'. assert (v' = v) as ->; [|done]. apply eq_true_iff_eq. by rewrite Hv, Hv', Hj.
  - intros n. unfold known, cc_get_parent. by rewrite (ci_dom _ _ Hc), (ci_dom _ _ Hc').
  - intros keys keys' n [Hk Hk2] [Hk' Hk2'].
    assert (∀ k, k ∈ keys ↔ seen es k) as Hks. { intros k. rewrite Hk2. unfold known, cc_get_parent. by rewrite (ci_dom _ _ Hc). }
    assert (∀ k, k ∈ keys' ↔ seen es' k) as Hks'. { intros k. rewrite Hk2'. unfold known, cc_get_parent. by rewrite (ci_dom _ _ Hc'). }
    destruct (connected_nodes_spec es c keys n Hc) as [(H1 & ->)|(H1 & l & d & -> & _ & Hsl & Hl)]; [intros k; by rewrite Hks|..];
    destruct (connected_nodes_spec es' c' keys' n Hc') as [(H2 & ->)|(H2 & l' & d' & -> & _ & Hsl' & Hl')]; try (intros k; by rewrite Hks').
    + unfold known, cc_get_parent. by rewrite (ci_dom _ _ Hc).
    + by apply H1, Hs.
    + by apply H2, Hs.
    + apply NoDup_Permutation; [by eapply sublist_nodup|by eapply sublist_nodup|]. intros x. rewrite Hl, Hl', Hks, Hks', Hs, Hj. done.
Qed.

(** ** One more edge *)
Lemma joined_snoc es x y a b : joined (es ++ [(x, y)]) a b ↔
  joined es a b ∨ ((a = x ∨ a = y ∨ joined es x a ∨ joined es y a) ∧ (b = x ∨ b = y ∨ joined es x b ∨ joined es y b)).
Proof.
  set (near := λ n, n = x ∨ n = y ∨ joined es x n ∨ joined es y n). change (joined (es ++ [(x, y)]) a b ↔ joined es a b ∨ near a ∧ near b).
  assert (joined (es ++ [(x, y)]) x y) as Hxy. { apply joined_edge. rewrite elem_of_app, elem_of_list_singleton. by right. }
  assert (∀ n, near n → joined (es ++ [(x, y)]) x n) as Hnear.
  { intros n [->|[->|[H|H]]].
    - apply joined_refl. apply seen_app. auto.
    - done.
    - by apply joined_app.
    - eapply joined_trans; [exact Hxy|]. by apply joined_app. }
  assert (∀ n m, near n → joined es n m → near m) as Hext.
  { intros n m [->|[->|[H|H]]] Hnm; unfold near; [right; right; by left|right; right; by right|..].
    - right; right; left. by eapply joined_trans.
    - right; right; right. by eapply joined_trans. }
  split.
  - revert a b. apply (joined_ind (es ++ [(x, y)])).
    + intros n [H|H]%seen_app; [left; by apply joined_refl|]. right. split; unfold near; tauto.
    + intros n m [H|[H1 H2]]; [left; by apply joined_sym|by right].
    + intros n m k [H|[H1 H2]] [H'|[H1' H2']].
      * left. by eapply joined_trans.
      * right. split; [|done]. eapply Hext; [exact H1'|]. by apply joined_sym.
      * right. split; [done|]. by eapply Hext.
      * by right.
    + intros n m [H|H%elem_of_list_singleton]%elem_of_app; [left; by apply joined_edge|]. injection H as -> ->. right. split; unfold near; tauto.
  - intros [H|[H1 H2]]; [by apply joined_app|]. eapply joined_trans; [apply joined_sym; by apply Hnear|by apply Hnear].
Qed.
Global Instance known_dec c n : Decision (known c n) := is_Some_dec _.
Lemma connected_joined es c a b : cinv es c → connected c a b ↔ joined es a b.
Proof.
  intros Hc. unfold connected. destruct (is_connected_spec es c a b Hc) as (v & d & H & _ & Hv). rewrite H. rewrite <-Hv. split.
  - by intros [? [= -> _]].
  - intros ->. by eexists.
Qed.
Lemma known_seen es c n : cinv es c → known c n ↔ seen es n.
Proof. intros Hc. exact (ci_dom _ _ Hc n). Qed.
Lemma process_count es c x y c' : cinv es c → cc_process x y c = Ok c' →
  (known c x → known c y → connected c x y → cc_get_count c' = cc_get_count c) ∧
  (known c x → known c y → ¬ connected c x y → S (cc_get_count c') = cc_get_count c) ∧
  (known c x → ¬ known c y → cc_get_count c' = cc_get_count c) ∧
  (¬ known c x → known c y → cc_get_count c' = cc_get_count c) ∧
  (¬ known c x → ¬ known c y → cc_get_count c' = S (cc_get_count c)).
Proof.
  intros Hc Hp. unfold cc_process in Hp.
  assert (cinv' es (λ n, (False ∨ n = x) ∨ n = y) (cc_see y (cc_see x c))) as Hs.
  { apply cinv'_see. apply (cinv'_see es (λ _, False)). constructor; [|apply Hc| |apply Hc].
    - intros n. rewrite (ci_dom _ _ Hc). naive_solver.
    - intros a b. rewrite (ci_same _ _ Hc). naive_solver. }
  assert (cc_count (cc_see y (cc_see x c)) = cc_count c + (if decide (known c x) then 0 else 1) + (if decide (known c y) then 0 else if decide (x = y) then 0 else 1)) as Hn.
  { assert (∀ z d, (known d z → cc_see z d = d) ∧ (¬ known d z → cc_see z d = CC (<[z := z]> (cc_parent d)) (S (cc_count d)))) as Hsee.
    { intros z d. unfold known, cc_get_parent, cc_see. split; [by intros [? ->]|]. intros H. destruct (cc_parent d !! z); [by destruct H|done]. }
    destruct (decide (known c x)) as [Kx|Kx].
    - rewrite (proj1 (Hsee x c) Kx). destruct (decide (known c y)) as [Ky|Ky].
      + rewrite (proj1 (Hsee y c) Ky). lia.
      + rewrite (proj2 (Hsee y c) Ky). rewrite decide_False by congruence. cbn. lia.
    - rewrite (proj2 (Hsee x c) Kx). set (d := CC _ _). destruct (decide (x = y)) as [<-|Hxy].
      + rewrite (proj1 (Hsee x d)) by (unfold known, cc_get_parent, d; cbn; by rewrite lookup_insert). rewrite decide_False by done. cbn. lia.
      + assert (known d y ↔ known c y) as Hdy. { unfold known, cc_get_parent, d. cbn. by rewrite lookup_insert_ne. }
        destruct (decide (known c y)) as [Ky|Ky].
        * rewrite (proj1 (Hsee y d)) by (by apply Hdy). cbn. lia.
        * rewrite (proj2 (Hsee y d)) by (by rewrite Hdy). cbn. lia. }
  revert Hs Hn Hp. generalize (cc_see y (cc_see x c)). intros c1 Hs Hn Hp.
  destruct (get_root_spec c1 x) as (kx & rx & m1 & Hdx & Hrx & Hc1); [apply Hs|apply (cx_dom _ _ _ Hs); naive_solver|].
  rewrite Hrx in Hp. cbn [rbind unwrap] in Hp. destruct Hc1 as (Hdom1 & Hf1 & Hd1).
  destruct (get_root_spec (CC m1 (cc_count c1)) y) as (ky & ry & m2 & Hdy & Hry & Hc2).
  { done. } { cbn. apply elem_of_dom. rewrite Hdom1. apply elem_of_dom, (cx_dom _ _ _ Hs). naive_solver. }
  rewrite Hry in Hp. cbn [rbind unwrap cc_count cc_parent] in Hp, Hdy.
  assert (rx = ry ↔ joined es x y ∨ x = y) as Hr.
  { assert (rx = ry ↔ sameroot m1 x y) as ->.
    { destruct (Hd1 _ _ _ Hdx) as [k' Hx']. split.
      - intros ->. by exists ry, k', ky.
      - intros (r & k1 & k2 & H1 & H2). destruct (depth_fun _ _ _ _ _ _ H1 Hx') as [_ <-]. by destruct (depth_fun _ _ _ _ _ _ H2 Hdy) as [_ <-]. }
    rewrite (compresses_same (cc_parent c1) m1) by (done || apply Hs). rewrite (cx_same _ _ _ Hs). naive_solver. }
  rewrite !(connected_joined es c) by done.
  assert (∀ n, ¬ known c n → ¬ seen es n) as Hu. { intros n Hk. by rewrite <-(known_seen es c). }
  assert (cc_get_count c' = if decide (rx = ry) then cc_count c1 else cc_count c1 - 1) as Hcc.
  { destruct (decide (rx = ry)); [by injection Hp as <-|]. destruct (usub (cc_count c1) 1) as [k| |] eqn:Hk; [|done..]. injection Hp as <-. cbn.
    unfold usub in Hk. destruct (decide (1 ≤ cc_count c1)); [|done]. by injection Hk as <-. }
  assert (0 < cc_count c1 ∨ rx = ry) as Hpos.
  { destruct (decide (rx = ry)); [by right|left]. destruct (usub (cc_count c1) 1) as [k| |] eqn:Hk; [|done..]. unfold usub in Hk. destruct (decide (1 ≤ cc_count c1)); [lia|done]. }
  unfold cc_get_count in *. split_and!.
  - intros Hx Hy Hj. rewrite (decide_True (P := known c x)), (decide_True (P := known c y)) in Hn by done. rewrite decide_True in Hcc by (apply Hr; by left). lia.
  - intros Hx Hy Hj. rewrite (decide_True (P := known c x)), (decide_True (P := known c y)) in Hn by done.
    assert (rx ≠ ry) as Hne. { intros [H| ->]%Hr; [done|]. apply Hj, joined_refl. by apply (known_seen es c). }
    rewrite decide_False in Hcc by done. destruct Hpos as [Hpos|?]; [lia|done].
  - intros Hx Hy. rewrite (decide_True (P := known c x)), (decide_False (P := known c y)) in Hn by done.
    assert (x ≠ y) by congruence. rewrite decide_False in Hn by done.
    assert (rx ≠ ry) as Hne. { intros [(_ & Hss & _)| ->]%Hr; [by apply (Hu y)|done]. }
    rewrite decide_False in Hcc by done. lia.
  - intros Hx Hy. rewrite (decide_False (P := known c x)), (decide_True (P := known c y)) in Hn by done.
    assert (x ≠ y) by congruence.
    assert (rx ≠ ry) as Hne. { intros [(Hss & _)| ->]%Hr; [by apply (Hu x)|done]. }
    rewrite decide_False in Hcc by done. lia.
  - intros Hx Hy. rewrite (decide_False (P := known c x)), (decide_False (P := known c y)) in Hn by done.
    destruct (decide (x = y)) as [Heq|Hne].
    + rewrite decide_True in Hcc by (apply Hr; by right). lia.
    + assert (rx ≠ ry) as Hne'. { intros [(H & _)| ?]%Hr; [by apply (Hu x)|done]. }
      rewrite decide_False in Hcc by done. lia.
Qed.

(** ** On graphs *)
Definition link {NL EL} (A : agraph NL EL) (x y : N) : Prop := a_has_edge A x y ∨ a_has_edge A y x.
Lemma cc_feed {E} (es : list (N * N * E)) es0 c : cinv es0 c → ∃ c', rfold (λ c e, cc_process e.1.1 e.1.2 c) es c = Ok c' ∧ cinv (es0 ++ es.*1) c'.
Proof.
  intros Hc. apply (rfold_ind (λ es c, cinv (es0 ++ es.*1) c)); [by rewrite app_nil_r|].
  intros l1 [[x y] lid] l2 s _ Hs. destruct (process_spec _ s x y Hs) as (c' & Hc1 & Hc'). exists c'. split; [done|]. rewrite fmap_app, app_assoc. done.
Qed.
Lemma detect_links {NL EL} (V : gview NL EL) (A : agraph NL EL) es0 c : represents V A → iterates V → cinv es0 c →
  ∃ es c', cc_run_detection V c = Ok c' ∧ cinv (es0 ++ es) c' ∧ ∀ x y, linked es x y ↔ link A x y.
Proof.
  intros Hrep Hit Hc. destruct (edges_pairs V A Hrep Hit) as (es & Hes & _ & Hel). unfold cc_run_detection. rewrite Hes. cbn [rbind].
  destruct (cc_feed es es0 c Hc) as (c' & Hc' & Hi). exists es.*1, c'. split; [done|]. split; [done|].
  assert (∀ x y, (x, y) ∈ es.*1 → a_has_edge A x y) as H1. { intros x y He. apply Hel in He. by apply wf_stored in He as [He _]; [|apply Hrep]. }
  assert (∀ x y, a_has_edge A x y → linked es.*1 x y) as H2.
  { intros x y Hxy. unfold a_has_edge, a_edge_at in Hxy. apply Hel in Hxy. destruct (ekey_cases (ag_dir A) x y) as [Hk|[_ Hk]]; rewrite Hk in Hxy; [by left|by right]. }
  intros x y. unfold linked at 1, link. split.
  - intros [H|H]; apply H1 in H; auto.
  - intros [H|H]; apply H2 in H as [H|H]; auto.
Qed.
Lemma new_links {NL EL} (V : gview NL EL) (A : agraph NL EL) : represents V A → iterates V →
  ∃ es c, cc_new V = Ok c ∧ cinv es c ∧ ∀ x y, linked es x y ↔ link A x y.
Proof.
  intros H1 H2. destruct (detect_links V A [] cc_empty H1 H2 cinv_empty) as (es & c & ? & ? & ?). by exists es, c.
Qed.
Lemma linked_app es es' x y : linked (es ++ es') x y ↔ linked es x y ∨ linked es' x y.
Proof. unfold linked. rewrite !elem_of_app. tauto. Qed.

Section gm.
  Context {NL EL : Type} `{EqDecision NL, EqDecision EL} (dir : bool) (lt : idty).
  Notation PNt := (λ (_ : list NL) (_ : option N) (_ : option NL), True).
  Notation PEt := (λ (_ : list EL) (_ : option N) (_ : option EL), True).
  Notation skrel := (rel dir PNt PEt).
  Implicit Types (g : graphmap NL EL) (s : sstate NL EL).
  Lemma link_add_edge (A : agraph NL EL) (s t : N) l x y : link (a_add_edge s t l A) x y ↔ link A x y ∨ linked [(s, t)] x y.
  Proof.
    assert (∀ x y, a_has_edge (a_add_edge s t l A) x y ↔ a_has_edge A x y ∨ ((s = x ∧ t = y) ∨ (ag_dir A = false ∧ s = y ∧ t = x))) as H.
    { intros x0 y0. unfold a_has_edge. rewrite add_edge_edge_at. destruct (decide _) as [E|E]; rewrite ekey_eq in E.
      - split; [by right|by eexists].
      - tauto. }
    unfold link, linked. rewrite !H, !elem_of_list_singleton. split.
    - intros [[?|[[-> ->]|(_ & -> & ->)]]|[?|[[-> ->]|(_ & -> & ->)]]]; auto.
    - intros [[?|?]|[[= -> ->]|[= -> ->]]]; auto.
  Qed.
  Lemma spec_step_links (o : gop NL EL) s r s' : spec_step o s = SOk (r, s') →
    (removes o = false → ∀ x y, link (sp_g s') x y ↔ link (sp_g s) x y ∨ linked (edges_added [o]) x y) ∧
    (adds_edge o = false → ∀ x y, link (sp_g s') x y → link (sp_g s) x y).
  Proof.
    assert (∀ x y, ¬ linked [] x y) as Hnil. { intros x y [H|H]; by apply elem_of_nil in H. }
    assert (∀ n l (A : agraph NL EL) x y, link (a_add_node n l A) x y ↔ link A x y) as Hnode. { intros. unfold link, a_has_edge. by rewrite !add_node_edge_at. }
    destruct o as [n l|u v l|n|u v|n l|u v l|l|l| |n lid|u v lid]; cbn [spec_step removes adds_edge]; intros Hs.
    - injection Hs as _ <-. cbn. split; intros _ x y; rewrite Hnode; [|done]. split; [auto|]. by intros [?|?%Hnil].
    - injection Hs as _ <-. cbn. split; [|done]. intros _ x y. apply link_add_edge.
    - split; [done|]. intros _ x y. destruct (ag_nodes (sp_g s) !! n) as [l|]; [|by injection Hs as _ <-]. destruct (decide _); [done|]. injection Hs as _ <-. cbn.
      unfold link, a_has_edge. rewrite !remove_node_edge_at. intros [H|H]; destruct (decide _); try by destruct H. by left. by right.
    - split; [done|]. intros _ x y. destruct (a_edge_at (sp_g s) u v) as [l|]; [|by injection Hs as _ <-]. injection Hs as _ <-. cbn.
      unfold link, a_has_edge. rewrite !remove_edge_edge_at. intros [H|H]; destruct (decide _); try by destruct H. by left. by right.
    - destruct (ag_nodes (sp_g s) !! n); injection Hs as _ <-; cbn; (split; intros _ x y; rewrite ?Hnode; [|done]); (split; [auto|]); by intros [?|?%Hnil].
    - destruct (a_edge_at (sp_g s) u v) eqn:Huv; injection Hs as _ <-; cbn.
      + assert (∀ x y, linked [(u, v)] x y → link (sp_g s) x y) as Hl.
        { intros x y [E|E]; apply elem_of_list_singleton in E; injection E as -> ->; [left|right]; by eexists. }
        split; intros _ x y; rewrite link_add_edge; [|by intros [?|?%Hl]]. split; [intros [?|?%Hl]; auto|]. by intros [?|?%Hnil]; [left|].
      + split; [|done]. intros _ x y. split; [auto|]. by intros [?|?%Hnil].
    - injection Hs as _ <-. cbn. split; [|done]. intros _ x y. split; [auto|]. by intros [?|?%Hnil].
    - injection Hs as _ <-. cbn. split; [|done]. intros _ x y. split; [auto|]. by intros [?|?%Hnil].
    - injection Hs as _ <-. cbn. split; [|done]. intros _ x y. split; [auto|]. by intros [?|?%Hnil].
    - assert (∀ x y, link (sp_g s') x y ↔ link (sp_g s) x y) as He.
      { intros x y. repeat case_match; try done; injection Hs as _ <-; cbn; rewrite ?Hnode; done. }
      split; intros _ x y; rewrite He; [|done]. split; [auto|]. by intros [?|?%Hnil].
    - assert (∀ x y, link (sp_g s') x y ↔ link (sp_g s) x y) as He.
      { intros x y. destruct (a_edge_at (sp_g s) u v) as [l0|] eqn:Huv; [|by injection Hs as _ <-]. destruct (negb _ && _); [done|].
        assert (∀ l x y, a_has_edge (AG (ag_dir (sp_g s)) (ag_nodes (sp_g s)) (<[ekey (ag_dir (sp_g s)) u v:=l]> (ag_edges (sp_g s)))) x y ↔ a_has_edge (sp_g s) x y) as Hin.
        { intros l x0 y0. unfold a_has_edge, a_edge_at in Huv |- *. cbn. destruct (decide (ekey (ag_dir (sp_g s)) u v = ekey (ag_dir (sp_g s)) x0 y0)) as [E|E].
          - rewrite <-E, lookup_insert, Huv. done.
          - by rewrite lookup_insert_ne. }
        destruct lid as [i|]; [destruct (sp_els s !! N.to_nat i); [|done]|]; injection Hs as _ <-; unfold link; cbn; by rewrite !Hin. }
      split; intros _ x y; rewrite He; [|done]. split; [auto|]. by intros [?|?%Hnil].
  Qed.
  Lemma run_links h g s rs g' : skrel g s → gm_run dir lt h g = Ok (rs, g') → ∃ s', skrel g' s' ∧
    (Forall (λ o, removes o = false) h → ∀ x y, link (sp_g s') x y ↔ link (sp_g s) x y ∨ linked (edges_added h) x y) ∧
    (Forall (λ o, adds_edge o = false) h → ∀ x y, link (sp_g s') x y → link (sp_g s) x y).
  Proof.
    revert g s rs. induction h as [|o h IH]; intros g s rs H Hr.
    { cbn in Hr. injection Hr as _ <-. exists s. split; [done|]. split; [|done]. intros _ x y. split; [auto|]. intros [?|[E|E]]; [done|..]; by apply elem_of_nil in E. }
    cbn in Hr. destruct (skrel_step dir lt g s o H) as [(r & g1 & s1 & Hs & H1 & Hor)|(Hs & _)]; rewrite Hs in Hr; [|done]. cbn [rbind] in Hr.
    destruct (gm_run dir lt h g1) as [[rs' g2]| |] eqn:Hr1; [|done..]. cbn in Hr. injection Hr as _ <-.
    destruct (IH g1 s1 rs' H1 Hr1) as (s' & Hs' & Ha & Hb). exists s'. split; [done|].
    assert ((removes o = false → ∀ x y, link (sp_g s1) x y ↔ link (sp_g s) x y ∨ linked (edges_added [o]) x y) ∧
      (adds_edge o = false → ∀ x y, link (sp_g s1) x y → link (sp_g s) x y)) as [Hoa Hob].
    { destruct Hor as [[Hraw ->]|(_ & r0 & Ho & _)]; [|by eapply spec_step_links]. split; [|done]. intros _ x y. split; [auto|].
      intros [?|Hl]; [done|]. destruct o; try done; destruct Hl as [E|E]; by apply elem_of_nil in E. }
    split.
    - intros [Ho Hh]%Forall_cons x y. rewrite (Ha Hh), (Hoa Ho). change (o :: h) with ([o] ++ h). unfold edges_added at 3. rewrite omap_app.
      fold (edges_added [o]) (edges_added h). rewrite linked_app. tauto.
    - intros [Ho Hh]%Forall_cons x y Hl. by apply (Hob Ho), (Hb Hh).
  Qed.
  Lemma gm_new_links g s ord : skrel g s → hash_order g ord → ∃ es c, cc_new (gm_view dir ord g) = Ok c ∧ cinv es c ∧ ∀ x y, linked es x y ↔ link (sp_g s) x y.
  Proof.
    intros H Ho. destruct (skrel_view dir g s ord H Ho) as (Hrep & _ & Hit & _).
    assert (iterates (v_unlabelled (gm_view dir ord g))) as Hit'. { destruct Hit as [H1 H2]. by constructor. }
    destruct (new_links _ _ Hrep Hit') as (es & c & Hc & Hi & Hl). exists es, c. split; [exact Hc|]. split; [done|]. intros x y. rewrite Hl.
    unfold link. by rewrite !unlabelled_has_edge.
  Qed.
  (** A ConnComp kept up to date by hand. *)
  Lemma grown h g rs g' ord ord' c : gm_reachable dir lt g → hash_order g ord → cc_new (gm_view dir ord g) = Ok c →
    Forall (λ o, removes o = false) h → gm_run dir lt h g = Ok (rs, g') → hash_order g' ord' →
    ∃ c1 c2, cc_run ((λ e, CEdge e.1 e.2) <$> edges_added h) c = Ok c1 ∧ cc_new (gm_view dir ord' g') = Ok c2 ∧ cc_alike c1 c2.
  Proof.
    intros [s Hs]%reach_skrel Ho Hc Hh Hr Ho'. destruct (run_links h g s rs g' Hs Hr) as (s' & Hs' & Hl & _).
    destruct (gm_new_links g s ord Hs Ho) as (es & c0 & Hc0 & Hi & Hes). rewrite Hc in Hc0. injection Hc0 as <-.
    destruct (gm_new_links g' s' ord' Hs' Ho') as (es2 & c2 & Hc2 & Hi2 & Hes2).
    destruct (cc_feed ((λ e, (e, tt)) <$> edges_added h) es c Hi) as (c1 & Hc1 & Hi1). exists c1, c2.
    assert (rfold (λ c e, cc_process e.1.1 e.1.2 c) ((λ e, (e, tt)) <$> edges_added h) c = cc_run ((λ e, CEdge e.1 e.2) <$> edges_added h) c) as Heq.
    { generalize c, (edges_added h). intros d l. clear. revert d. unfold cc_run. induction l as [|[x y] l IH]; intros d; [done|]. cbn. destruct (cc_process x y d); [|done..]. cbn. apply IH. }
    rewrite Heq in Hc1. split; [done|]. split; [done|].
    assert (((λ e, (e, tt)) <$> edges_added h).*1 = edges_added h) as Hf. { generalize (edges_added h). intros l. clear. induction l as [|e l IH]; [done|]. cbn. by rewrite IH. }
    rewrite Hf in Hi1. assert (same_links (es ++ edges_added h) es2) as Hsl. { intros x y. rewrite linked_app, Hes, Hes2, (Hl Hh). done. }
    eapply cinv_alike; [exact Hi1|exact Hi2| |]; intros; [by apply links_seen|by apply links_joined].
  Qed.
  (** After removals a ConnComp made before may only say connected too often. *)
  Lemma shrunk h g rs g' ord ord' c : gm_reachable dir lt g → hash_order g ord → cc_new (gm_view dir ord g) = Ok c →
    Forall (λ o, adds_edge o = false) h → gm_run dir lt h g = Ok (rs, g') → hash_order g' ord' →
    ∃ c2, cc_new (gm_view dir ord' g') = Ok c2 ∧ (∀ a b, connected c2 a b → connected c a b) ∧ (∀ n, known c2 n → known c n).
  Proof.
    intros [s Hs]%reach_skrel Ho Hc Hh Hr Ho'. destruct (run_links h g s rs g' Hs Hr) as (s' & Hs' & _ & Hl).
    destruct (gm_new_links g s ord Hs Ho) as (es & c0 & Hc0 & Hi & Hes). rewrite Hc in Hc0. injection Hc0 as <-.
    destruct (gm_new_links g' s' ord' Hs' Ho') as (es2 & c2 & Hc2 & Hi2 & Hes2). exists c2. split; [done|].
    assert (∀ x y, linked es2 x y → linked es x y) as Hsub. { intros x y. rewrite Hes, Hes2. exact (Hl Hh x y). }
    assert (∀ n, seen es2 n → seen es n) as Hseen. { intros n. rewrite !seen_linked. intros [m Hm]. exists m. by apply Hsub. }
    split.
    - intros a b. rewrite (connected_joined es2), (connected_joined es) by done. intros (H1 & H2 & H3). split; [by apply Hseen|]. split; [by apply Hseen|].
      eapply rtc_subrel; [|exact H3]. intros x y Hxy. by apply Hsub.
    - intros n. rewrite (known_seen es2), (known_seen es) by done. apply Hseen.
  Qed.
End gm.
(** Several graphs fed to one ConnComp. *)
Lemma several {NL EL} (Vs : list (gview NL EL)) As : Forall2 (λ V A, represents V A ∧ iterates V) Vs As →
  ∃ c, rfold (λ c V, cc_run_detection V c) Vs cc_empty = Ok c ∧
    (∀ n, known c n ↔ ∃ m, any_edge As n m ∨ any_edge As m n) ∧
    (∀ a b, connected c a b ↔ known c a ∧ known c b ∧ rtsc (any_edge As) a b).
Proof.
  intros HF. assert (∀ es0 c0, cinv es0 c0 → ∃ es c, rfold (λ c V, cc_run_detection V c) Vs c0 = Ok c ∧ cinv (es0 ++ es) c ∧
    ∀ x y, linked es x y ↔ ∃ A, A ∈ As ∧ link A x y) as H.
  { induction HF as [|V A Vs As [HV1 HV2] HF IH]; intros es0 c0 Hc0.
    - exists [], c0. rewrite app_nil_r. split; [done|]. split; [done|]. intros x y. split; [intros [E|E]; by apply elem_of_nil in E|]. intros (A & HA & _). by apply elem_of_nil in HA.
    - destruct (detect_links V A es0 c0 HV1 HV2 Hc0) as (es & c & Hd & Hi & Hl). destruct (IH _ _ Hi) as (es' & c' & Hd' & Hi' & Hl').
      exists (es ++ es'), c'. split; [cbn; rewrite Hd; exact Hd'|]. split; [by rewrite app_assoc|].
      intros x y. rewrite linked_app, Hl, Hl'. setoid_rewrite elem_of_cons. naive_solver. }
  destruct (H [] cc_empty cinv_empty) as (es & c & Hc & Hi & Hl). exists c. split; [done|]. cbn [app] in Hi.
  assert (∀ n, seen es n ↔ ∃ m, any_edge As n m ∨ any_edge As m n) as Hs.
  { intros n. rewrite seen_linked. unfold any_edge. setoid_rewrite Hl. unfold link. naive_solver. }
  split; [intros n; by rewrite (known_seen es)|]. intros a b. rewrite (connected_joined es), !(known_seen es) by done. unfold joined, rtsc.
  assert (∀ x y, sc (λ x y, (x, y) ∈ es) x y ↔ sc (any_edge As) x y) as Hsc.
  { intros x y. change (linked es x y ↔ any_edge As x y ∨ any_edge As y x). rewrite Hl. unfold any_edge, link. naive_solver. }
  split; intros (H1 & H2 & H3); (split_and!; [done..|]); (eapply rtc_subrel; [|exact H3]); intros x y; by rewrite Hsc.
Qed.
(** Histories of calls. *)
Lemma hist_alike h h' c c' : cc_run h cc_empty = Ok c → cc_run h' cc_empty = Ok c' → same_links (processed h) (processed h') → cc_alike c c'.
Proof.
  intros H1%run_inv H2%run_inv Hl. eapply cinv_alike; [exact H1|exact H2| |]; intros; [by apply links_seen|by apply links_joined].
Qed.
Lemma hist_process h c x y : cc_run h cc_empty = Ok c → ∃ c', cc_process x y c = Ok c' ∧
  (∀ a b, let near n := n = x ∨ n = y ∨ connected c x n ∨ connected c y n in connected c' a b ↔ connected c a b ∨ (near a ∧ near b)) ∧
  (∀ n, known c' n ↔ known c n ∨ n = x ∨ n = y) ∧
  (known c x → known c y → connected c x y → cc_get_count c' = cc_get_count c) ∧
  (known c x → known c y → ¬ connected c x y → S (cc_get_count c') = cc_get_count c) ∧
  (known c x → ¬ known c y → cc_get_count c' = cc_get_count c) ∧
  (¬ known c x → known c y → cc_get_count c' = cc_get_count c) ∧
  (¬ known c x → ¬ known c y → cc_get_count c' = S (cc_get_count c)).
Proof.
  intros Hi%run_inv. destruct (process_spec _ c x y Hi) as (c' & Hp & Hi'). exists c'. split; [done|]. split; [|split].
  - intros a b. cbn zeta. rewrite (connected_joined _ c') by exact Hi'. rewrite !(connected_joined _ c) by exact Hi. apply joined_snoc.
  - intros n. rewrite (known_seen _ c') by exact Hi'. rewrite (known_seen _ c) by exact Hi. apply seen_app.
  - eapply process_count; [exact Hi|exact Hp].
Qed.
