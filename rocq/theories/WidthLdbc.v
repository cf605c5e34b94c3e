(** Proofs for C119: LDBC tables. *)
From Coq Require Import Ascii.
From stdpp Require Import gmap strings.
From Verif Require Import Base BaseFacts Api Spec SpecFacts Map MapFacts GraphMap GraphMapFacts Csv Ldbc SpecWidth WidthProps.

Section ldbc.
  Context (dir : bool) (it it' : idty) (Hit : it ≠ TUnit) (Hit' : it' ≠ TUnit).
  Notation graph := (graphmap string string).
  Notation state := (graph * gmap string N)%type.
  Definition has (g : graph) (x : N) : Prop := is_Some (g_nodes g !! x).
  Definition ggrows (g g' : graph) : Prop := lab_grows g g' ∧ ∀ x, has g x → has g' x.
  Definition ggood (g : graph) : Prop := lab_good it it' g ∧ ∀ x, has g x → (x < id_card it')%N.
  Global Instance ggrows_pre : PreOrder ggrows.
  Proof using. split; [split; [done|by auto]|]. intros g1 g2 g3 [A1 B1] [A2 B2]. split; [by rewrite A1|auto]. Qed.
  Lemma ggood_anti g g' : ggrows g g' → ggood g' → ggood g.
  Proof using. intros [A1 B1] [A2 B2]. split; [by eapply lab_good_anti|auto]. Qed.

  Lemma upd_has x f (g g' : graph) : upd_node x f g = Ok g' → ∀ y, has g y → has g' y.
  Proof using.
    unfold upd_node, has. destruct (g_nodes g !! x); cbn; [|done]. intros [= <-] y Hy. cbn.
    destruct (decide (y = x)) as [->|]; [by rewrite lookup_insert|by rewrite lookup_insert_ne].
  Qed.
  Lemma add_node_has n l (g : graph) r g' : gm_add_node it n l g = Ok (r, g') → (∀ y, has g y → has g' y) ∧ has g' n.
  Proof using.
    unfold gm_add_node. destruct (gm_add_node_label it l g) as [[x g1]| |] eqn:E1; cbn [rbind]; [|done|done].
    destruct (node_label_width it it l g x g1 E1) as (_ & _ & En & _). unfold has. rewrite <-En. clear E1 En.
    destruct (gm_has_node g1 n) eqn:Eh.
    - destruct (upd_node n (nm_set_label_id x) g1) as [g2| |] eqn:E3; cbn [rbind]; [|done|done]. intros [= _ <-].
      assert (is_Some (g_nodes g1 !! n)) as Hn. { unfold upd_node in E3. by destruct (g_nodes g1 !! n). }
      split; [by eapply upd_has|]. by eapply upd_has in Hn.
    - intros E. assert (g_nodes g' = <[n:=nm_new n x]> (g_nodes g1)) as ->.
      { injection E as _ <-. cbn. destruct (g_max g1) as [i|]; [destruct (decide (i < n)%N)|]; done. }
      split; [|by rewrite lookup_insert]. intros y Hy. destruct (decide (y = n)) as [->|]; [by rewrite lookup_insert|by rewrite lookup_insert_ne].
  Qed.
  Lemma add_edge_has s t l (g : graph) r g' : gm_add_edge dir it s t l g = Ok (r, g') → ∀ y, has g y → has g' y.
  Proof using.
    unfold gm_add_edge.
    assert (∀ n g g', (if gm_has_node g n then Ok g else rmap snd (gm_add_node it n None g)) = Ok g' → ∀ y, has g y → has g' y) as Ht.
    { clear g g'. intros n g g'. destruct (gm_has_node g n); [by intros [= <-]|]. destruct (gm_add_node it n None g) as [[b g1]| |] eqn:E; cbn [rmap]; [|done|done].
      intros [= <-]. by apply add_node_has in E as [H1 _]. }
    destruct (if gm_has_node g s then Ok g else _) as [g1| |] eqn:E1; cbn [rbind]; [|done|done]. pose proof (Ht s g g1 E1) as H1.
    destruct (if gm_has_node g1 t then Ok g1 else _) as [g2| |] eqn:E2; cbn [rbind]; [|done|done]. pose proof (Ht t g1 g2 E2) as H2.
    destruct (gm_add_edge_label it l g2) as [[x g3]| |] eqn:E3; cbn [rbind]; [|done|done]. destruct (edge_label_width it it l g2 x g3 E3) as (_ & _ & En & _).
    destruct (g_nodes g3 !! s) as [ns|] eqn:Es; cbn [unwrap rbind]; [|done]. destruct (nm_add_edge t x ns) as [b ns'].
    destruct (if dir then _ else _) as [g4| |] eqn:E5; cbn [rbind]; [|done|done]. intros [= _ <-] y Hy%H1%H2.
    assert (has (set_nodes (<[s := ns']> (g_nodes g3)) g3) y) as Hy'.
    { unfold has in *. rewrite <-En in Hy. cbn. destruct (decide (y = s)) as [->|]; [by rewrite lookup_insert|by rewrite lookup_insert_ne]. }
    assert (has g4 y) as Hy4; [|exact Hy4]. destruct dir; [by eapply upd_has in Hy'|]. destruct (decide (s = t)); [by injection E5 as <-|by eapply upd_has in Hy'].
  Qed.
  Lemma add_node_both n l (g : graph) r g' : gm_add_node it n l g = Ok (r, g') → ggrows g g' ∧ has g' n ∧ (ggood g' → gm_add_node it' n l g = Ok (r, g')).
  Proof using.
    intros E. destruct (add_node_has n l g r g' E) as [H1 H2]. destruct (add_node_width it it' n l g r g' E) as [H3 H4].
    split; [done|]. split; [done|]. intros [Hg _]. by apply H4.
  Qed.
  Lemma add_edge_both s t l (g : graph) r g' : gm_add_edge dir it s t l g = Ok (r, g') → ggrows g g' ∧ (ggood g' → gm_add_edge dir it' s t l g = Ok (r, g')).
  Proof using.
    intros E. pose proof (add_edge_has s t l g r g' E) as H1. destruct (add_edge_width dir it it' s t l g r g' E) as [H3 H4].
    split; [done|]. intros [Hg _]. by apply H4.
  Qed.
  Lemma next_id_both (g : graph) id : next_id it g = Ok id → (id < id_card it')%N → next_id it' g = Ok id.
  Proof using Hit Hit'.
    unfold next_id. destruct (gm_max_seen_id g) as [i|]; [|done]. intros E Hid.
    assert (id = i + 1)%N as -> by (destruct it; [done|..]; cbn [id_incr] in E; case_decide; by simplify_eq).
    assert (id_incr it' i = if decide (i + 1 < id_card it')%N then Ok (i + 1)%N else Panic) as -> by (by destruct it').
    by rewrite decide_True.
  Qed.

  (** The pairs of graph and map. *)
  Definition sgrows (st st' : state) : Prop := ggrows st.1 st'.1.
  Definition sgood (st : state) : Prop := ggood st.1.
  Lemma ldbc_node_both nd r st st' : ldbc_add_node it nd r st = Ok st' → sgrows st st' ∧ (sgood st' → ldbc_add_node it' nd r st = Ok st').
  Proof using Hit Hit'.
    destruct st as [g m]. unfold ldbc_add_node. destruct (field r (ln_id nd)) as [f| |]; cbn [rbind]; [|done|done].
    destruct (m !! (ln_name nd +:+ f)%string) as [id|].
    - cbn [rbind]. destruct (field r (ln_label nd)) as [l| |]; cbn [rbind]; [|done|done].
      destruct (gm_add_node it id (Some l) g) as [[b g1]| |] eqn:E; cbn [rmap rbind]; [|done|done]. intros [= <-].
      destruct (add_node_both _ _ _ _ _ E) as (G & _ & H). split; [exact G|]. intros Hg. by rewrite (H Hg).
    - destruct (next_id it g) as [id| |] eqn:En; cbn [rbind]; [|done|done]. destruct (field r (ln_label nd)) as [l| |]; cbn [rbind]; [|done|done].
      destruct (gm_add_node it id (Some l) g) as [[b g1]| |] eqn:E; cbn [rmap rbind]; [|done|done]. intros [= <-].
      destruct (add_node_both _ _ _ _ _ E) as (G & Hid & H). split; [exact G|]. intros Hg. rewrite (next_id_both g id En) by (by apply Hg). cbn [rbind].
      by rewrite (H Hg).
  Qed.
  Lemma entry_both key l st id st' : entry_or_add it key l st = Ok (id, st') → sgrows st st' ∧ (sgood st' → entry_or_add it' key l st = Ok (id, st')).
  Proof using Hit Hit'.
    destruct st as [g m]. unfold entry_or_add. destruct (m !! key) as [i|]; [by intros [= <- <-]|].
    destruct (next_id it g) as [i| |] eqn:En; cbn [rbind]; [|done|done].
    destruct (gm_add_node it i (Some l) g) as [[b g1]| |] eqn:E; cbn [rmap rbind]; [|done|done]. intros [= <- <-].
    destruct (add_node_both _ _ _ _ _ E) as (G & Hid & H). split; [exact G|]. intros Hg. rewrite (next_id_both g i En) by (by apply Hg). cbn [rbind].
    by rewrite (H Hg).
  Qed.
  Lemma ldbc_edge_both rl r st st' : ldbc_add_edge dir it rl r st = Ok st' → sgrows st st' ∧ (sgood st' → ldbc_add_edge dir it' rl r st = Ok st').
  Proof using Hit Hit'.
    unfold ldbc_add_edge. destruct (field r (lr_start_id rl)) as [fs| |]; cbn [rbind]; [|done|done].
    destruct (field r (lr_target_id rl)) as [ft| |]; cbn [rbind]; [|done|done].
    destruct (entry_or_add it _ (lr_start rl) st) as [[x st1]| |] eqn:E1; cbn [rbind]; [|done|done]. destruct (entry_both _ _ _ _ _ E1) as [G1 H1].
    destruct (entry_or_add it _ (lr_target rl) st1) as [[y [g2 m2]]| |] eqn:E2; cbn [rbind]; [|done|done]. destruct (entry_both _ _ _ _ _ E2) as [G2 H2].
    destruct (gm_add_edge dir it x y _ g2) as [[b g3]| |] eqn:E3; cbn [rmap rbind]; [|done|done]. destruct (add_edge_both _ _ _ _ _ _ E3) as [G3 H3].
    intros [= <-]. split; [unfold sgrows in *; cbn in *; by rewrite G1, G2|]. intros Hg. unfold sgood, sgrows in *. cbn in *.
    pose proof (ggood_anti _ _ G3 Hg) as Hg2. pose proof (ggood_anti _ _ G2 Hg2) as Hg1. rewrite H1 by done. cbn [rbind]. rewrite H2 by done. cbn [rbind].
    by rewrite H3.
  Qed.
  Definition ogrows (x y : option state) : Prop := match x, y with Some a, Some b => sgrows a b | _, None => True | None, Some _ => False end.
  Definition ogood (x : option state) : Prop := match x with Some a => sgood a | None => False end.
  Local Instance ogrows_pre : PreOrder ogrows.
  Proof using. split; [intros [?|]; cbn; [|done]; unfold sgrows; done|]. intros [a|] [b|] [c|]; cbn; try done. unfold sgrows. intros A1 A2. by rewrite A1. Qed.
  Lemma ogood_anti x y : ogrows x y → ogood y → ogood x.
  Proof using. destruct x, y; cbn; try done. apply ggood_anti. Qed.
  Notation ofollows := (follows ogrows ogood).
  Lemma each_record_both (f f' : row → state → res state) t : (∀ r st st', f r st = Ok st' → sgrows st st' ∧ (sgood st' → f' r st = Ok st')) →
    ofollows (each_record f t) (each_record f' t).
  Proof using.
    intros Hf. unfold each_record. apply rfold_follows; [apply _|apply ogood_anti|]. intros [r|] _ [st|] y; try (intros [= <-]; by split).
    destruct (f r st) as [st'| |] eqn:E; cbn [rmap]; [|done|done]. intros [= <-]. destruct (Hf r st st' E) as [G H]. split; [exact G|]. intros Hg. by rewrite (H Hg).
  Qed.
  Lemma each_file_both matches (f f' : row → state → res state) files : (∀ r st st', f r st = Ok st' → sgrows st st' ∧ (sgood st' → f' r st = Ok st')) →
    ofollows (each_file matches f files) (each_file matches f' files).
  Proof using.
    intros Hf. unfold each_file. apply rfold_follows; [apply _|apply ogood_anti|]. intros p _. destruct (matches p.1); [by apply each_record_both|].
    intros x y [= <-]. done.
  Qed.
  Lemma from_path_both S files g : from_path dir it S files = Ok (Some g) → ggood g → from_path dir it' S files = Ok (Some g).
  Proof using Hit Hit'.
    unfold from_path. destruct (rfold _ (sc_nodes S) _) as [st1| |] eqn:E1; cbn [rbind]; [|done|done].
    destruct (rfold _ (sc_relations S) st1) as [st2| |] eqn:E2; cbn [rbind]; [|done|done]. intros [= Eg] Hg.
    assert (ogood st2) as Hg2 by (destruct st2 as [[? ?]|]; [injection Eg as ->; exact Hg|done]).
    assert (ofollows (rfold (λ st nd, each_file (ln_match nd) (ldbc_add_node it nd) files st) (sc_nodes S)) (rfold (λ st nd, each_file (ln_match nd) (ldbc_add_node it' nd) files st) (sc_nodes S))) as F1.
    { apply rfold_follows; [apply _|apply ogood_anti|]. intros nd _. apply each_file_both. intros r st st'. apply ldbc_node_both. }
    assert (ofollows (rfold (λ st rl, each_file (lr_match rl) (ldbc_add_edge dir it rl) files st) (sc_relations S)) (rfold (λ st rl, each_file (lr_match rl) (ldbc_add_edge dir it' rl) files st) (sc_relations S))) as F2.
    { apply rfold_follows; [apply _|apply ogood_anti|]. intros rl _. apply each_file_both. intros r st st'. apply ldbc_edge_both. }
    destruct (F2 _ _ E2) as [G2 H2]. destruct (F1 _ _ E1) as [_ H1]. rewrite H1 by (by eapply ogood_anti). cbn [rbind]. rewrite H2 by done. cbn [rbind]. by rewrite Eg.
  Qed.
  Lemma ldbc_width files g : read_ldbc dir it files = Ok g → ggood g → read_ldbc dir it' files = Ok g.
  Proof using Hit Hit'.
    unfold read_ldbc. destruct (from_path dir it scheme_init files) as [[g1|]| |] eqn:E; cbn [rbind unwrap]; try done. intros [= <-] Hg.
    by rewrite (from_path_both _ _ _ E Hg).
  Qed.
End ldbc.
