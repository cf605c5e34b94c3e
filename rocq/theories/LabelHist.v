(** The label lists after a history. *)
From stdpp Require Import gmap.
From Verif Require Import Base BaseFacts Api Spec SpecLabelHist Map MapFacts GraphMap GraphMapFacts GraphMapRefine.

Section first.
  Context {X : Type} `{EqDecision X}.
  Implicit Types (l m : list X).
  Lemma first_uses_elem l x : x ∈ first_uses l ↔ x ∈ l.
  Proof.
    induction l as [|y l IH]; [done|]. cbn. rewrite !elem_of_cons, elem_of_list_filter, IH. destruct (decide (x = y)); naive_solver.
  Qed.
  Lemma first_uses_NoDup l : NoDup (first_uses l).
  Proof. induction l as [|y l IH]; cbn; constructor; [rewrite elem_of_list_filter; naive_solver|by apply NoDup_filter]. Qed.
  Lemma filter_filter_out (P : X → Prop) `{∀ x, Decision (P x)} (Q : X → Prop) `{∀ x, Decision (Q x)} l : filter P (filter Q l) = filter Q (filter P l).
  Proof.
    induction l as [|x l IH]; [done|]. rewrite !filter_cons. destruct (decide (Q x)), (decide (P x)); rewrite ?filter_cons, ?decide_True, ?decide_False by done; by rewrite ?IH.
  Qed.
  (** One more use at the end. *)
  Lemma first_uses_snoc l x : first_uses (l ++ [x]) = register (Some x) (first_uses l).
  Proof.
    induction l as [|y l IH]; [done|]. cbn [app first_uses]. rewrite IH. unfold register.
    destruct (decide (x ∈ first_uses l)) as [Hx|Hx].
    - rewrite decide_True; [done|]. apply elem_of_cons. destruct (decide (x = y)); [by left|right]. by apply elem_of_list_filter.
    - rewrite filter_app, filter_cons, filter_nil. destruct (decide (x ≠ y)) as [Hn|Hn].
      + rewrite decide_False; [done|]. rewrite elem_of_cons, elem_of_list_filter. naive_solver.
      + assert (x = y) as -> by (destruct (decide (x = y)); [done|by destruct Hn]). rewrite app_nil_r, decide_True; [done|by left].
  Qed.
  Lemma first_uses_id l : NoDup l → first_uses l = l.
  Proof.
    intros Hn. induction Hn as [|x l Hx Hn IH]; [done|]. cbn. rewrite IH. f_equal. clear IH Hn. induction l as [|y l IH]; [done|].
    rewrite filter_cons, decide_True by (intros ->; apply Hx; left). f_equal. apply IH. intros ?. apply Hx. by right.
  Qed.
End first.

Section hist.
  Context {NL EL : Type} `{EqDecision NL, EqDecision EL} (dir : bool) (lt : idty).
  Implicit Types g : graphmap NL EL.
  Definition maps_of g : list NL * list EL := (g_nlm g, g_elm g).
  Lemma upd_maps k f g g' : upd_node k f g = Ok g' → maps_of g' = maps_of g.
  Proof. unfold upd_node. intros (n & _ & [= <-])%rbind_Ok. done. Qed.
  Lemma upds_maps {Y} (k : Y → N) f (l : list Y) g g' : rfold (λ g y, upd_node (k y) (f y) g) l g = Ok g' → maps_of g' = maps_of g.
  Proof.
    revert g. induction l as [|y l IH]; intros g; cbn [rfold]; [by intros [= <-]|]. intros (g1 & H1 & H2)%rbind_Ok. rewrite (IH _ H2). by eapply upd_maps.
  Qed.
  Lemma node_label_maps l g i g' : gm_add_node_label lt l g = Ok (i, g') → maps_of g' = (register l (g_nlm g), g_elm g).
  Proof.
    destruct l as [x|]; cbn; [|by intros [= <- <-]]. destruct (register_snd (g_nlm g) x) as (j & -> & _). cbn [rbind]. by intros [= <- <-].
  Qed.
  Lemma edge_label_maps l g i g' : gm_add_edge_label lt l g = Ok (i, g') → maps_of g' = (g_nlm g, register l (g_elm g)).
  Proof.
    destruct l as [x|]; cbn; [|by intros [= <- <-]]. destruct (register_snd (g_elm g) x) as (j & -> & _). cbn [rbind]. by intros [= <- <-].
  Qed.
  Lemma add_node_maps n l g b g' : gm_add_node lt n l g = Ok (b, g') → maps_of g' = (register l (g_nlm g), g_elm g).
  Proof.
    unfold gm_add_node. intros ([i g1] & H1%node_label_maps & H2)%rbind_Ok. rewrite <-H1. destruct (gm_has_node g1 n).
    - apply rbind_Ok in H2 as (g2 & H2%upd_maps & [= <- <-]). done.
    - injection H2 as <- <-. cbn. destruct (g_max g1); [destruct (decide _)|]; done.
  Qed.
  Lemma add_edge_maps s t l g b g' : gm_add_edge dir lt s t l g = Ok (b, g') → maps_of g' = (g_nlm g, register l (g_elm g)).
  Proof.
    assert (∀ n g g', (if gm_has_node g n then Ok g else rmap snd (gm_add_node lt n None g)) = Ok g' → maps_of g' = maps_of g) as Hn.
    { intros n g0 g0'. destruct (gm_has_node g0 n); [by intros [= <-]|]. intros ([b0 g1] & H1%add_node_maps & <-)%rmap_Ok. done. }
    unfold gm_add_edge. intros (g1 & H1%Hn & (g2 & H2%Hn & ([i g3] & H3%edge_label_maps & (ns & _ & H4)%rbind_Ok)%rbind_Ok)%rbind_Ok)%rbind_Ok.
    destruct (nm_add_edge t i ns) as [r ns']. apply rbind_Ok in H4 as (g5 & H5 & [= <- <-]).
    assert (maps_of g5 = maps_of g3) as H6.
    { destruct dir; [by apply upd_maps in H5|]. destruct (decide (s = t)); [by injection H5 as <-|by apply upd_maps in H5]. }
    change (maps_of (set_nedges (S (g_nedges g5)) g5)) with (maps_of g5). rewrite H6, H3. unfold maps_of in *. congruence.
  Qed.
  Lemma step_maps o g r g' : gm_step dir lt o g = Ok (r, g') →
    maps_of g' = (foldl (λ m x, register (Some x) m) (g_nlm g) (gives_node (o, r)), foldl (λ m x, register (Some x) m) (g_elm g) (gives_edge (o, r))).
  Proof.
    assert (∀ X (l : option X) `{EqDecision X} m, register l m = foldl (λ m x, register (Some x) m) m (match l with Some x => [x] | None => [] end)) as Hreg
      by (by intros X [x|] ? m).
    destruct o as [n l|s t l|n|s t|n l|s t l|l|l| |n lid|s t lid]; cbn [gm_step].
    - intros ([b g1] & H1%add_node_maps & [= <- <-])%rmap_Ok. rewrite H1, Hreg. by destruct l.
    - intros ([b g1] & H1%add_edge_maps & [= <- <-])%rmap_Ok. rewrite H1, Hreg. by destruct l.
    - intros ([b g1] & H1 & [= <- <-])%rmap_Ok. unfold gm_remove_node in H1. destruct (g_nodes g !! n) as [node|]; [|by injection H1 as <- <-].
      apply rbind_Ok in H1 as (g2 & H2 & (k & _ & [= <- <-])%rbind_Ok). change (maps_of (set_nedges k g2)) with (maps_of g2).
      assert (maps_of g2 = maps_of g) as ->; [|done]. destruct dir.
      + apply rbind_Ok in H2 as (g3 & H3%(upds_maps (λ x, x) (λ _, nm_remove_in_edge n)) & H2%(upds_maps (λ x, x) (λ _ nd, (nm_remove_edge n nd).2))). rewrite H2, H3. done.
      + apply (upds_maps (λ x, x) (λ _ nd, (nm_remove_edge n nd).2)) in H2. rewrite H2. done.
    - intros ([b g1] & H1 & [= <- <-])%rmap_Ok. unfold gm_remove_edge in H1. destruct (gm_has_edge g s t); [|by injection H1 as <- <-].
      apply rbind_Ok in H1 as (ns & _ & H1). destruct (nm_remove_edge t ns) as [e ns']. apply rbind_Ok in H1 as (g2 & H2 & (k & _ & [= <- <-])%rbind_Ok).
      change (maps_of (set_nedges k g2)) with (maps_of g2). destruct dir; by apply upd_maps in H2.
    - intros ([b g1] & H1 & [= <- <-])%rmap_Ok. unfold gm_update_node_label in H1. destruct (gm_has_node g n).
      + apply rmap_Ok in H1 as ([b' g2] & H2%add_node_maps & [= <- <-]). rewrite H2, Hreg. by destruct l.
      + injection H1 as <- <-. by destruct l.
    - intros ([b g1] & H1 & [= <- <-])%rmap_Ok. unfold gm_update_edge_label in H1. destruct (gm_has_edge g s t).
      + apply rmap_Ok in H1 as ([b' g2] & H2%add_edge_maps & [= <- <-]). rewrite H2, Hreg. by destruct l.
      + injection H1 as <- <-. by destruct l.
    - intros ([b g1] & H1%node_label_maps & [= <- <-])%rmap_Ok. rewrite H1, Hreg. by destruct l.
    - intros ([b g1] & H1%edge_label_maps & [= <- <-])%rmap_Ok. rewrite H1, Hreg. by destruct l.
    - by intros [= <- <-].
    - intros [= <- <-]. unfold gm_set_node_label_id. by destruct (g_nodes g !! n).
    - intros ([b g1] & H1 & [= <- <-])%rmap_Ok. unfold gm_set_edge_label_id in H1. destruct (gm_has_edge g s t); [|by injection H1 as <- <-].
      apply rbind_Ok in H1 as (ns & _ & H1). destruct (nm_set_neighbor_label t lid ns); by injection H1 as <- <-.
  Qed.
  Lemma run_maps h : ∀ g rs g', gm_run dir lt h g = Ok (rs, g') →
    maps_of g' = (foldl (λ m x, register (Some x) m) (g_nlm g) (zip h rs ≫= gives_node), foldl (λ m x, register (Some x) m) (g_elm g) (zip h rs ≫= gives_edge)).
  Proof.
    induction h as [|o h IH]; intros g rs g'; cbn [gm_run]; [by intros [= <- <-]|].
    intros ([r g1] & H1%step_maps & ([rs' g2] & H2%IH & [= <- <-])%rmap_Ok)%rbind_Ok. rewrite H2. cbn [zip zip_with].
    change (((o, r) :: zip_with pair h rs') ≫= gives_node) with (gives_node (o, r) ++ (zip h rs' ≫= gives_node)).
    change (((o, r) :: zip_with pair h rs') ≫= gives_edge) with (gives_edge (o, r) ++ (zip h rs' ≫= gives_edge)).
    rewrite !foldl_app. unfold maps_of in H1. injection H1 as H1 H1'. rewrite H1, H1'. done.
  Qed.
  Lemma foldl_first {X} `{EqDecision X} (l m : list X) : foldl (λ m x, register (Some x) m) (first_uses m) l = first_uses (m ++ l).
  Proof.
    revert m. induction l as [|x l IH]; intros m; cbn [foldl]; [by rewrite app_nil_r|]. rewrite <-first_uses_snoc, IH. by rewrite <-app_assoc.
  Qed.
  Lemma label_lists h nls els rs g : NoDup nls → NoDup els → gm_run dir lt h (gm_with_label_map nls els) = Ok (rs, g) →
    g_nlm g = first_uses (nls ++ (zip h rs ≫= gives_node)) ∧ g_elm g = first_uses (els ++ (zip h rs ≫= gives_edge)).
  Proof.
    intros Hn He Hr%run_maps. cbn [gm_with_label_map g_nlm g_elm] in Hr. unfold maps_of in Hr. injection Hr as -> ->.
    split.
    - refine (eq_trans _ (foldl_first _ _)). by rewrite (first_uses_id nls).
    - refine (eq_trans _ (foldl_first _ _)). by rewrite (first_uses_id els).
  Qed.
End hist.

Section grow.
  Context {NL EL : Type} `{EqDecision NL, EqDecision EL} (dir : bool) (lt : idty).
  Lemma fold_prefix {X} `{EqDecision X} (l m : list X) : m `prefix_of` foldl (λ m x, register (Some x) m) m l.
  Proof.
    revert m. induction l as [|x l IH]; intros m; [done|]. cbn [foldl]. etrans; [|apply IH]. unfold register. destruct (decide _); [done|by eexists].
  Qed.
  Lemma run_grows h (g : graphmap NL EL) rs g' : gm_run dir lt h g = Ok (rs, g') → g_nlm g `prefix_of` g_nlm g' ∧ g_elm g `prefix_of` g_elm g'.
  Proof. intros Hr%run_maps. unfold maps_of in Hr. injection Hr as -> ->. split; apply fold_prefix. Qed.
End grow.
