(** Proofs for C119. *)
From Coq Require Import Ascii.
From stdpp Require Import gmap strings.
From Verif Require Import Base BaseFacts Api Spec SpecFacts Map MapFacts GraphMap GraphMapFacts Csv Ldbc SpecWidth.

(** [f'] does what [f] does, as long as the result is good. *)
Section same.
  Context {X : Type} (grows : relation X) `{!PreOrder grows} (good : X → Prop) (good_anti : ∀ x y, grows x y → good y → good x).
  Definition follows (f f' : X → res X) : Prop := ∀ x y, f x = Ok y → grows x y ∧ (good y → f' x = Ok y).
  Lemma rfold_follows {E} (f f' : X → E → res X) l : (∀ e, e ∈ l → follows (λ x, f x e) (λ x, f' x e)) → follows (rfold f l) (rfold f' l).
  Proof using All.
    induction l as [|e l IH]; intros Hf x y; cbn [rfold]; [by intros [= <-]|].
    destruct (f x e) as [x1| |] eqn:E1; cbn [rbind]; [|done|done]. intros E2. destruct (Hf e (elem_of_list_here _ _) x x1 E1) as [G1 H1].
    destruct (IH (λ e' He', Hf e' (elem_of_list_further _ _ _ He')) x1 y E2) as [G2 H2]. split; [by transitivity x1|]. intros Hy.
    rewrite H1 by (by eapply good_anti). cbn [rbind]. by apply H2.
  Qed.
End same.

Section width.
  Context {NL EL : Type} `{EqDecision NL, EqDecision EL} (dir : bool) (lt lt' : idty).
  Notation graph := (graphmap NL EL).
  Implicit Types g : graph.
  Definition lab_grows g g' : Prop := length (g_nlm g) ≤ length (g_nlm g') ∧ length (g_elm g) ≤ length (g_elm g').
  Definition lab_good g : Prop := (labels_fit lt (g_nlm g) ∧ labels_fit lt' (g_nlm g)) ∧ labels_fit lt (g_elm g) ∧ labels_fit lt' (g_elm g).
  Global Instance lab_grows_pre : PreOrder lab_grows.
  Proof. split; [by split|]. intros g1 g2 g3 [? ?] [? ?]. split; lia. Qed.
  Lemma lab_good_anti g g' : lab_grows g g' → lab_good g' → lab_good g.
  Proof. unfold lab_grows, lab_good, labels_fit. lia. Qed.
  Definition same_maps g g' : Prop := g_nlm g' = g_nlm g ∧ g_elm g' = g_elm g.
  Lemma same_maps_grows g g1 g2 : lab_grows g g1 → same_maps g1 g2 → lab_grows g g2.
  Proof. unfold lab_grows. intros ? [-> ->]. done. Qed.
  Lemma same_maps_good g1 g2 : same_maps g1 g2 → lab_good g2 → lab_good g1.
  Proof. unfold lab_good. by intros [-> ->]. Qed.
  Lemma upd_maps x f g g' : upd_node x f g = Ok g' → same_maps g g'.
  Proof. unfold upd_node. destruct (g_nodes g !! x); cbn; [|done]. by intros [= <-]. Qed.
  Lemma rfold_maps {X} (l : list X) (f : graph → X → res graph) : (∀ g x g', f g x = Ok g' → same_maps g g') → ∀ g g', rfold f l g = Ok g' → same_maps g g'.
  Proof.
    intros Hf. induction l as [|x l IH]; intros g g'; cbn [rfold]; [by intros [= <-]|].
    destruct (f g x) as [g1| |] eqn:E1; cbn [rbind]; [|done|done]. intros [M1 M2]%IH. apply Hf in E1 as [M3 M4]. split; congruence.
  Qed.
  Lemma node_label_width l g x g' : gm_add_node_label lt l g = Ok (x, g') →
    lab_grows g g' ∧ g_elm g' = g_elm g ∧ g_nodes g' = g_nodes g ∧ (lab_good g' → gm_add_node_label lt' l g = Ok (x, g')).
  Proof.
    destruct l as [v|]; cbn; [|by intros [= <- <-]]. destruct (register_snd (g_nlm g) v) as (i & -> & _ & Hi). cbn [rbind].
    intros [= <- <-]. apply lookup_lt_Some in Hi. split; [split; [|done]|split; [done|split; [done|]]].
    - cbn. destruct (decide (v ∈ g_nlm g)); [done|]. rewrite app_length. lia.
    - intros ([H1 H2] & _). change (labels_fit lt (register (Some v) (g_nlm g))) in H1. change (labels_fit lt' (register (Some v) (g_nlm g))) in H2.
      unfold labels_fit in H1, H2. rewrite !id_new_small; [done|lia|lia].
  Qed.
  Lemma edge_label_width l g x g' : gm_add_edge_label lt l g = Ok (x, g') →
    lab_grows g g' ∧ g_nlm g' = g_nlm g ∧ g_nodes g' = g_nodes g ∧ (lab_good g' → gm_add_edge_label lt' l g = Ok (x, g')).
  Proof.
    destruct l as [v|]; cbn; [|by intros [= <- <-]]. destruct (register_snd (g_elm g) v) as (i & -> & _ & Hi). cbn [rbind].
    intros [= <- <-]. apply lookup_lt_Some in Hi. split; [split; [done|]|split; [done|split; [done|]]].
    - cbn. destruct (decide (v ∈ g_elm g)); [done|]. rewrite app_length. lia.
    - intros (_ & H1 & H2). change (labels_fit lt (register (Some v) (g_elm g))) in H1. change (labels_fit lt' (register (Some v) (g_elm g))) in H2.
      unfold labels_fit in H1, H2. rewrite !id_new_small; [done|lia|lia].
  Qed.
  Lemma add_node_width n l g r g' : gm_add_node lt n l g = Ok (r, g') →
    lab_grows g g' ∧ (lab_good g' → gm_add_node lt' n l g = Ok (r, g')).
  Proof.
    unfold gm_add_node. destruct (gm_add_node_label lt l g) as [[x g1]| |] eqn:E1; cbn [rbind]; [|done|done].
    destruct (node_label_width l g x g1 E1) as (G1 & _ & _ & H1). intros E2.
    assert (same_maps g1 g') as Hm.
    { destruct (gm_has_node g1 n).
      - destruct (upd_node n (nm_set_label_id x) g1) as [g2| |] eqn:E3; cbn [rbind] in E2; [|done|done]. injection E2 as _ <-. by apply upd_maps in E3.
      - injection E2 as _ <-. cbn. destruct (g_max g1) as [i|]; [destruct (decide (i < n)%N)|]; done. }
    split; [by eapply same_maps_grows|]. intros Hg. rewrite H1 by (by eapply same_maps_good). exact E2.
  Qed.
  Lemma add_edge_width s t l g r g' : gm_add_edge dir lt s t l g = Ok (r, g') →
    lab_grows g g' ∧ (lab_good g' → gm_add_edge dir lt' s t l g = Ok (r, g')).
  Proof.
    unfold gm_add_edge.
    assert (∀ n g g', (if gm_has_node g n then Ok g else rmap snd (gm_add_node lt n None g)) = Ok g' →
      lab_grows g g' ∧ (lab_good g' → (if gm_has_node g n then Ok g else rmap snd (gm_add_node lt' n None g)) = Ok g')) as Ht.
    { clear. intros n g g'. destruct (gm_has_node g n); [by intros [= <-]|]. destruct (gm_add_node lt n None g) as [[b g1]| |] eqn:E; cbn [rmap]; [|done|done].
      intros [= <-]. apply add_node_width in E as [H1 H2]. split; [done|]. intros Hg. by rewrite H2. }
    destruct (if gm_has_node g s then Ok g else _) as [g1| |] eqn:E1; cbn [rbind]; [|done|done]. destruct (Ht s g g1 E1) as [G1 H1].
    destruct (if gm_has_node g1 t then Ok g1 else _) as [g2| |] eqn:E2; cbn [rbind]; [|done|done]. destruct (Ht t g1 g2 E2) as [G2 H2].
    destruct (gm_add_edge_label lt l g2) as [[x g3]| |] eqn:E3; cbn [rbind]; [|done|done]. destruct (edge_label_width l g2 x g3 E3) as (G3 & _ & _ & H3).
    intros E4. assert (same_maps g3 g') as Hm.
    { destruct (g_nodes g3 !! s) as [ns|]; cbn [unwrap rbind] in E4; [|done]. destruct (nm_add_edge t x ns) as [b ns']. revert E4.
      destruct (if dir then _ else _) as [g4| |] eqn:E5; cbn [rbind]; [|done|done]. intros [= _ <-].
      assert (same_maps (set_nodes (<[s := ns']> (g_nodes g3)) g3) g4) as [M1 M2].
      { destruct dir; [by apply upd_maps in E5|]. destruct (decide (s = t)); [by injection E5 as <-|by apply upd_maps in E5]. }
      split; [exact M1|exact M2]. }
    assert (lab_grows g3 g') as G4 by (by eapply same_maps_grows). split; [by rewrite G1, G2, G3|]. intros Hg.
    pose proof (same_maps_good _ _ Hm Hg) as Hg3. pose proof (lab_good_anti _ _ G3 Hg3) as Hg2. pose proof (lab_good_anti _ _ G2 Hg2) as Hg1.
    rewrite H3 by done. exact E4.
  Qed.
  Lemma remove_maps n g r g' : gm_remove_node dir n g = Ok (r, g') → same_maps g g'.
  Proof.
    unfold gm_remove_node. destruct (g_nodes g !! n) as [nd|]; [|by intros [= _ <-]]. cbn zeta.
    destruct (if dir then _ else _) as [g1| |] eqn:E; cbn [rbind]; [|done|done].
    assert (same_maps (set_nodes (delete n (g_nodes g)) g) g1) as [M1 M2].
    { destruct dir.
      - destruct (rfold _ (nm_neighbors nd) _) as [g2| |] eqn:E2; cbn [rbind] in E; [|done|done].
        apply rfold_maps in E2; [|intros ? ? ? ?; by eapply upd_maps]. apply rfold_maps in E; [|intros ? ? ? ?; by eapply upd_maps].
        destruct E2 as [E3 E4], E as [E5 E6]. split; congruence.
      - apply rfold_maps in E; [done|]. intros ? ? ? ?. by eapply upd_maps. }
    destruct (usub _ _) as [k| |]; cbn [rbind]; [|done|done]. intros [= _ <-]. split; [exact M1|exact M2].
  Qed.
  Lemma remove_edge_maps s t g r g' : gm_remove_edge dir s t g = Ok (r, g') → same_maps g g'.
  Proof.
    unfold gm_remove_edge. destruct (gm_has_edge g s t); [|by intros [= _ <-]]. destruct (g_nodes g !! s) as [ns|]; cbn [unwrap rbind]; [|done].
    destruct (nm_remove_edge t ns) as [e ns']. cbn zeta. destruct (if dir then _ else _) as [g1| |] eqn:E; cbn [rbind]; [|done|done].
    assert (same_maps (set_nodes (<[s := ns']> (g_nodes g)) g) g1) as [M1 M2] by (destruct dir; by apply upd_maps in E).
    destruct (usub _ _) as [k| |]; cbn [rbind]; [|done|done]. intros [= _ <-]. split; [exact M1|exact M2].
  Qed.
  Lemma step_width o g r g' : gm_step dir lt o g = Ok (r, g') → lab_grows g g' ∧ (lab_good g' → gm_step dir lt' o g = Ok (r, g')).
  Proof.
    assert (∀ g', same_maps g g' → lab_grows g g') as Hsame. { intros g1 Hm. by apply (same_maps_grows g g). }
    destruct o as [n l|x y l|n|x y|n l|x y l|l|l| |n lid|x y lid]; cbn [gm_step].
    - destruct (gm_add_node lt n l g) as [[b g1]| |] eqn:E; cbn [rmap]; [|done|done]. intros [= <- <-]. apply add_node_width in E as [G E].
      split; [done|]. intros Hg. by rewrite E.
    - destruct (gm_add_edge dir lt x y l g) as [[b g1]| |] eqn:E; cbn [rmap]; [|done|done]. intros [= <- <-]. apply add_edge_width in E as [G E].
      split; [done|]. intros Hg. by rewrite E.
    - intros E. split; [|by intros _]. destruct (gm_remove_node dir n g) as [[b g1]| |] eqn:E1; cbn [rmap] in E; [|done|done].
      injection E as _ <-. apply Hsame. by eapply remove_maps.
    - intros E. split; [|by intros _]. destruct (gm_remove_edge dir x y g) as [[b g1]| |] eqn:E1; cbn [rmap] in E; [|done|done].
      injection E as _ <-. apply Hsame. by eapply remove_edge_maps.
    - unfold gm_update_node_label. destruct (gm_has_node g n); [|by intros [= <- <-]].
      destruct (gm_add_node lt n l g) as [[b g1]| |] eqn:E; cbn [rmap]; [|done|done]. intros [= <- <-]. apply add_node_width in E as [G E].
      split; [done|]. intros Hg. by rewrite E.
    - unfold gm_update_edge_label. destruct (gm_has_edge g x y); [|by intros [= <- <-]].
      destruct (gm_add_edge dir lt x y l g) as [[b g1]| |] eqn:E; cbn [rmap]; [|done|done]. intros [= <- <-]. apply add_edge_width in E as [G E].
      split; [done|]. intros Hg. by rewrite E.
    - destruct (gm_add_node_label lt l g) as [[b g1]| |] eqn:E; cbn [rmap]; [|done|done]. intros [= <- <-]. apply node_label_width in E as (G & _ & _ & E).
      split; [done|]. intros Hg. by rewrite E.
    - destruct (gm_add_edge_label lt l g) as [[b g1]| |] eqn:E; cbn [rmap]; [|done|done]. intros [= <- <-]. apply edge_label_width in E as (G & _ & _ & E).
      split; [done|]. intros Hg. by rewrite E.
    - intros [= <- <-]. by split; [apply Hsame|].
    - intros E. split; [|by intros _]. injection E as _ <-. apply Hsame. unfold gm_set_node_label_id. by destruct (g_nodes g !! n).
    - intros E. split; [|by intros _]. revert E. unfold gm_set_edge_label_id. destruct (gm_has_edge g x y); [|by intros [= <- <-]].
      destruct (g_nodes g !! x) as [nd|]; cbn [unwrap rbind]; [|done]. destruct (nm_set_neighbor_label y lid nd); cbn [rmap]; by intros [= <- <-].
  Qed.
  Lemma run_width h g rs g' : gm_run dir lt h g = Ok (rs, g') → lab_grows g g' ∧ (lab_good g' → gm_run dir lt' h g = Ok (rs, g')).
  Proof.
    revert g rs. induction h as [|o h IH]; intros g rs; cbn [gm_run]; [by intros [= <- <-]|].
    destruct (gm_step dir lt o g) as [[r g1]| |] eqn:E1; cbn [rbind]; [|done|done]. destruct (step_width o g r g1 E1) as [G1 H1].
    destruct (gm_run dir lt h g1) as [[rs1 g2]| |] eqn:E2; cbn [rmap]; [|done|done]. intros [= <- <-]. destruct (IH g1 rs1 E2) as [G2 H2].
    split; [by rewrite G1|]. intros Hg. rewrite H1 by (by eapply lab_good_anti). cbn [rbind]. by rewrite H2.
  Qed.
  Lemma history_width h g rs g' : gm_run dir lt h g = Ok (rs, g') →
    labels_fit lt (g_nlm g') → labels_fit lt (g_elm g') → labels_fit lt' (g_nlm g') → labels_fit lt' (g_elm g') → gm_run dir lt' h g = Ok (rs, g').
  Proof. intros E H1 H2 H3 H4. apply (run_width h g rs g'); [done|]. by split. Qed.
End width.

(** CSV *)
Section csv.
  Context {NL EL : Type} `{EqDecision NL, EqDecision EL} (dir : bool) (it lt it' lt' : idty) (tn : text NL) (te : text EL).
  Notation graph := (graphmap NL EL).
  Lemma cell_parse c : cell_fits it c → cell_fits it' c → parse_uint (id_max it') c = parse_uint (id_max it) c.
  Proof.
    unfold cell_fits, parse_uint. intros H1 H2. destruct (match c with String "+"%char s => s | _ => c end) as [|a s]; [done|].
    destruct (parse_digits 0 (String a s)) as [x|] eqn:E; cbn; [|done].
    specialize (H1 x x). specialize (H2 x x). cbn in H1, H2. rewrite decide_True in H1, H2 by done.
    by rewrite !decide_True by auto.
  Qed.
  Definition row_fits (r : row) : Prop := ∀ c, c ∈ r → cell_fits it c ∧ cell_fits it' c.
  Lemma node_map_width {A} (tl : text A) h : ∀ r id l, row_fits r → node_map it' tl h r id l = node_map it tl h r id l.
  Proof.
    induction h as [|k h IH]; intros r id l Hr; cbn [node_map]; [done|]. destruct (decide (k = "nodeId:ID")%string).
    - destruct id, r as [|f fs]; [done..|]. cbn [t_id parse]. destruct (Hr f (elem_of_list_here _ _)). rewrite cell_parse by done.
      destruct (parse_uint (id_max it) f); cbn; [|done]. apply IH. intros c Hc. apply Hr. by right.
    - destruct (decide (k = ":LABEL")%string); [|done]. destruct l; [done|]. destruct r as [|f fs]; cbn [opt_field]; apply IH; [done|].
      intros c Hc. apply Hr. by right.
  Qed.
  Lemma edge_map_width {A} (tl : text A) h : ∀ r x y l, row_fits r → edge_map it' tl h r x y l = edge_map it tl h r x y l.
  Proof.
    induction h as [|k h IH]; intros r x y l Hr; cbn [edge_map]; [done|]. destruct (decide (k = ":START_ID")%string).
    - destruct x, r as [|f fs]; [done..|]. cbn [t_id parse]. destruct (Hr f (elem_of_list_here _ _)). rewrite cell_parse by done.
      destruct (parse_uint (id_max it) f); cbn; [|done]. apply IH. intros c Hc. apply Hr. by right.
    - destruct (decide (k = ":END_ID")%string).
      + destruct y, r as [|f fs]; [done..|]. cbn [t_id parse]. destruct (Hr f (elem_of_list_here _ _)). rewrite cell_parse by done.
        destruct (parse_uint (id_max it) f); cbn; [|done]. apply IH. intros c Hc. apply Hr. by right.
      + destruct (decide (k = ":TYPE")%string); [|done]. destruct l; [done|]. destruct r as [|f fs]; cbn [opt_field]; apply IH; [done|].
        intros c Hc. apply Hr. by right.
  Qed.
  Lemma node_record_width {A} (tl : text A) h r : row_fits r → node_record it' tl h r = node_record it tl h r.
  Proof.
    intros Hr. destruct h; cbn [node_record]; [by apply node_map_width|]. destruct r as [|f fs]; [done|]. cbn [node_seq t_id parse].
    destruct (Hr f (elem_of_list_here _ _)). by rewrite cell_parse by done.
  Qed.
  Lemma edge_record_width {A} (tl : text A) h r : row_fits r → edge_record it' tl h r = edge_record it tl h r.
  Proof.
    intros Hr. destruct h; cbn [edge_record]; [by apply edge_map_width|]. destruct r as [|f [|f' fs]]; [done..|]. cbn [edge_seq t_id parse].
    destruct (Hr f (elem_of_list_here _ _)). destruct (Hr f') as [? ?]; [right; left|]. by rewrite !cell_parse by done.
  Qed.
  Lemma read_rows_in fl k t r : Some r ∈ read_rows fl k t → r ∈ t.
  Proof.
    revert k. induction t as [|r0 t IH]; intros k; cbn [read_rows]; [by intros ?%elem_of_nil|]. destruct k as [k|].
    - intros [E|Hr]%elem_of_cons; [destruct (fl || _); [injection E as ->; by left|done]|right; by eapply IH].
    - intros [[= ->]|Hr]%elem_of_cons; [by left|right; by eapply IH].
  Qed.
  Lemma deserialize_width {A} (f f' : option row → row → option A) hd fl t : (∀ h r, r ∈ t → f' h r = f h r) → deserialize f' hd fl t = deserialize f hd fl t.
  Proof.
    intros Hf. unfold deserialize. destruct hd; [destruct t as [|h t]; [done|]|]; apply list_fmap_ext; intros i [r|] Hr%elem_of_list_lookup_2; cbn; try done;
      apply Hf; apply read_rows_in in Hr; [by right|done].
  Qed.
  Lemma add_rows_width {E} (f f' : graph → E → res graph) l : (∀ g e g', f g e = Ok g' → lab_grows g g' ∧ (lab_good lt lt' g' → f' g e = Ok g')) →
    ∀ g g', rfold f l g = Ok g' → lab_grows g g' ∧ (lab_good lt lt' g' → rfold f' l g = Ok g').
  Proof.
    intros Hf g g'. apply (rfold_follows lab_grows (lab_good lt lt')); [apply lab_good_anti|]. intros e _ x y. apply Hf.
  Qed.
  Lemma read_nodes_width R t (g g' : graph) : (∀ r, r ∈ t → row_fits r) → read_nodes it lt tn R t g = Ok g' →
    lab_grows g g' ∧ (lab_good lt lt' g' → read_nodes it' lt' tn R t g = Ok g').
  Proof.
    intros Hr. unfold read_nodes. rewrite (deserialize_width (node_record it tn) (node_record it' tn)) by (intros; by apply node_record_width, Hr).
    apply add_rows_width. clear. intros g [[n l]|] g'; [|by intros [= <-]]. destruct (gm_add_node lt n l g) as [[b g1]| |] eqn:E; cbn [rmap]; [|done|done].
    intros [= <-]. apply (add_node_width lt lt') in E as [H1 H2]. split; [done|]. intros Hg. by rewrite H2.
  Qed.
  Lemma read_edges_width R t (g g' : graph) : (∀ r, r ∈ t → row_fits r) → read_edges dir it lt te R t g = Ok g' →
    lab_grows g g' ∧ (lab_good lt lt' g' → read_edges dir it' lt' te R t g = Ok g').
  Proof.
    intros Hr. unfold read_edges. rewrite (deserialize_width (edge_record it te) (edge_record it' te)) by (intros; by apply edge_record_width, Hr).
    apply add_rows_width. clear. intros g [[[x y] l]|] g'; [|by intros [= <-]]. destruct (gm_add_edge dir lt x y l g) as [[b g1]| |] eqn:E; cbn [rmap]; [|done|done].
    intros [= <-]. apply (add_edge_width dir lt lt') in E as [H1 H2]. split; [done|]. intros Hg. by rewrite H2.
  Qed.
  Lemma csv_width R F (g g' : graph) ok : (∀ p t r c, F !! p = Some t → r ∈ t → c ∈ r → cell_fits it c ∧ cell_fits it' c) →
    csv_read dir it lt tn te R F g = Ok (g', ok) →
    labels_fit lt (g_nlm g') → labels_fit lt (g_elm g') → labels_fit lt' (g_nlm g') → labels_fit lt' (g_elm g') →
    csv_read dir it' lt' tn te R F g = Ok (g', ok).
  Proof.
    intros HF E H1 H2 H3 H4. assert (lab_good lt lt' g') as Hg by (by split). clear H1 H2 H3 H4. revert E. unfold csv_read.
    assert (∀ p t r, F !! p = Some t → r ∈ t → row_fits r) as HF'. { intros p t r Hp Hr c Hc. by eapply HF. }
    assert (∀ g1, match F !! rd_edges R with Some t => rmap (λ g : graph, (g, true)) (read_edges dir it lt te R t g1) | None => Ok (g1, false) end = Ok (g', ok) →
      lab_grows g1 g' ∧ match F !! rd_edges R with Some t => rmap (λ g : graph, (g, true)) (read_edges dir it' lt' te R t g1) | None => Ok (g1, false) end = Ok (g', ok)) as He.
    { intros g1. destruct (F !! rd_edges R) as [t|] eqn:Et; [|by intros [= <- <-]].
      destruct (read_edges dir it lt te R t g1) as [g2| |] eqn:E; cbn [rmap]; [|done|done]. intros [= <- <-].
      destruct (read_edges_width R t g1 g2 (λ r, HF' _ t r Et) E) as [G1 H1]. split; [done|]. by rewrite H1. }
    destruct (rd_nodes R) as [p|]; [|by apply He]. destruct (F !! p) as [t|] eqn:Et; [|done].
    destruct (read_nodes it lt tn R t g) as [g1| |] eqn:E; cbn [rbind]; [|done|done]. intros E2. destruct (He g1 E2) as [G H2].
    destruct (read_nodes_width R t g g1 (λ r, HF' p t r Et) E) as [_ H1]. rewrite H1; [exact H2|]. by eapply lab_good_anti.
  Qed.
End csv.
