(** Rewriting the files of an opened graph. *)
From stdpp Require Import gmap strings.
From Verif Require Import Base BaseFacts Api Bytes Spec SpecFacts SpecStatic Map GraphMap Static StaticFacts Serde SpecSerde SerdeFacts
  Mmap SpecMmap MmapFacts MmapProps MmapThms MmapMore MmapLive SpecLive LiveProps.

(** ** Edge vectors *)
Lemma lv_now_fuel page F e : lv_now page F e ≠ NoFuel.
Proof.
  unfold lv_now. assert (∀ m, lm_now page F m ≠ NoFuel) as Hm by (intros m; unfold lm_now; by destruct (decide _)).
  destruct (lm_now page F (lv_offsets e)) eqn:E1; [|done|by destruct (Hm _ E1)]. cbn [rbind].
  destruct (lm_now page F (lv_edges e)) eqn:E2; [|done|by destruct (Hm _ E2)]. cbn [rbind].
  destruct (lv_labels e) as [m|]; [|done]. destruct (lm_now page F m) eqn:E3; [done|done|by destruct (Hm _ E3)].
Qed.
Definition lev_of (it lt : idty) (e : evec) (p : string) : lev :=
  LEV (LMap (f_offsets p) TUsize (length (ev_offsets e) * id_size TUsize)) (LMap (f_edges p) it (length (ev_edges e) * id_size it))
    (match ev_labels e with [] => None | ls => Some (LMap (f_labels p) lt (length ls * id_size lt)) end).
Lemma lv_open_ok it lt F p e : it ≠ TUnit → (lt = TUnit → ev_label_vec e = None) → ev_offsets e ≠ [] → ev_edges e ≠ [] →
  F !! f_offsets p = Some (usize_bytes (ev_offsets e)) → F !! f_edges p = Some (typed_bytes it (ev_edges e)) →
  F !! f_labels p = match ev_labels e with [] => None | ls => Some (typed_bytes lt ls) end →
  lv_open it lt F p = Ok (lev_of it lt e p).
Proof.
  intros Hit Hlt Hno Hne H1 H2 H3. unfold lv_open, lev_of.
  assert (lm_open TUsize F (f_offsets p) = Ok (LMap (f_offsets p) TUsize (length (ev_offsets e) * id_size TUsize))) as ->.
  { rewrite (lm_open_ok TUsize F _ (N.of_nat <$> ev_offsets e)); [by rewrite fmap_length|done| |done]. by destruct (ev_offsets e). }
  rewrite (lm_open_ok it F _ _ Hit Hne H2). cbn [rbind]. unfold fs_exists. rewrite H3.
  destruct (ev_labels e) as [|x ls] eqn:E; [done|]. rewrite (lm_open_ok lt F _ (x :: ls)); [done| |done|done].
  intros El. unfold ev_labels in E. by rewrite (Hlt El) in E.
Qed.
Lemma lv_now_refit page it lt F p e x : 0 < page → it ≠ TUnit → Forall in_usize (ev_offsets x) → Forall (in_type it) (ev_edges x) →
  F !! f_offsets p = Some (usize_bytes (ev_offsets x)) → F !! f_edges p = Some (typed_bytes it (ev_edges x)) →
  (ev_labels e ≠ [] → lt ≠ TUnit ∧ Forall (in_type lt) (ev_labels x) ∧ F !! f_labels p = Some (typed_bytes lt (ev_labels x))) →
  (reach_ev page it lt e x → lv_now page F (lev_of it lt e p) = Ok (refit_ev e x)) ∧
  (¬ reach_ev page it lt e x → lv_now page F (lev_of it lt e p) = Panic).
Proof.
  intros Hp Hit To Te H1 H2 H3. unfold lv_now, lev_of, reach_ev, refit_ev. cbn [lv_offsets lv_edges lv_labels].
  rewrite !on_pages_span by done.
  assert (Forall (in_type TUsize) (N.of_nat <$> ev_offsets x)) as To'. { apply Forall_fmap. exact To. }
  rewrite (lm_now_typed page F (f_offsets p) TUsize _ (N.of_nat <$> ev_offsets x)) by done.
  rewrite (lm_now_typed page F (f_edges p) it _ (ev_edges x)) by done. rewrite fmap_length.
  destruct (decide (length (ev_offsets e) * _ ≤ _)) as [A1|A1]; cbn [rbind]; [|split; [intros [? _]; done|done]].
  destruct (decide (length (ev_edges e) * _ ≤ _)) as [A2|A2]; cbn [rbind]; [|split; [intros (_ & ? & _); done|done]].
  assert (N.to_nat <$> refit 0%N (length (ev_offsets e)) (N.of_nat <$> ev_offsets x) = refit 0 (length (ev_offsets e)) (ev_offsets x)) as ->.
  { rewrite refit_fmap. f_equal. rewrite <-list_fmap_compose. rewrite <-(list_fmap_id (ev_offsets x)) at 2.
    apply list_fmap_ext. intros _ y _. simpl. apply Nat2N.id. }
  destruct (ev_labels e) as [|y ls] eqn:E; cbn [non_empty].
  - split; [done|]. intros Hn. destruct Hn. split; [done|]. split; [done|]. cbn [length]. lia.
  - destruct (H3 ltac:(done)) as (Hlt & Tl & HF). rewrite (lm_now_typed page F _ lt _ (ev_labels x)) by done.
    destruct (decide (_ ≤ _)) as [A3|A3]; cbn [rbind]; split; try done.
    + intros Hn. by destruct Hn.
    + by intros (_ & _ & ?).
Qed.
Lemma overlay_labels e o : ev_labels (overlay_ev e o) = match ev_labels e with [] => match o with Some e' => ev_labels e' | None => [] end | ls => ls end.
Proof.
  unfold overlay_ev, ev_labels at 1. cbn [ev_label_vec]. destruct (ev_labels e); [|done]. cbn [non_empty or_old].
  destruct o as [e'|]; [|done]. cbn. by destruct (ev_labels e').
Qed.
Lemma typed_labels it lt e : typed_evec it lt e → Forall (in_type lt) (ev_labels e).
Proof. intros [_ _ Hl]. unfold ev_labels. destruct (ev_label_vec e); [apply Hl|constructor]. Qed.

Section graph.
  Context {NL EL : Type} `{EqDecision NL, EqDecision EL} (it lt : idty) (cn : codec NL) (ce : codec EL).
  Context (PN : NL → Prop) (PE : EL → Prop) (Hcn : faithful cn PN) (Hce : faithful ce PE) (page : nat) (Hpage : 0 < page).
  Notation dump g p F := (sg_dump_mmap it lt cn ce g p F).
  Definition lg_of (g : sgraph NL EL) (p : string) : lgraph NL EL :=
    LGraph (sg_num_nodes g) (sg_num_edges g) (lev_of it lt (sg_evec g) (p_out p)) ((λ e, lev_of it lt e (p_in p)) <$> sg_in g)
      ((λ ls, LMap (f_labels p) lt (length ls * id_size lt)) <$> sg_labels g) (sg_nlm g) (sg_elm g).
  Lemma lg_open_dumped dir g p F : mappable it lt PN PE dir g → no_stale F p g → lg_open it lt cn ce (dump g p F) p = Ok (lg_of g p).
  Proof using Hcn Hce.
    clear Hpage.
    intros [Ht Hcsr He Hin Hl Hit Hlt] Hst. destruct (dump_lookups_ok it lt cn ce g p F) as [D1 D2 D3 D4 D5 D6 D7 D8].
    assert (∀ f, (f, false) ∈ dump_parts g p → F !! f = None) as Hs by exact Hst. unfold dump_parts in Hs.
    destruct Ht as [[Hc1 Hc2] Hte Hti Htl Hn Hel]. unfold lg_open.
    rewrite (lv_open_ok it lt _ (p_out p) (sg_evec g)); [|done|intros E; by apply Hlt|apply (csr_nonempty _ _ Hcsr)|done|done|done|].
    2:{ rewrite D3. destruct (ev_labels (sg_evec g)) eqn:E; [|done]. rewrite n_out_labels. apply Hs.
        assert (has_edge_labels (sg_evec g) = false) as ->. { unfold has_edge_labels. unfold ev_labels in E. by destruct (ev_label_vec (sg_evec g)) as [[|]|]. }
        set_solver. }
    cbn [rbind].
    assert (fs_exists (dump g p F) (f_offsets (p_in p)) = match sg_in g with Some _ => true | None => false end) as ->.
    { unfold fs_exists. rewrite D4. destruct (sg_in g) eqn:E; [done|]. rewrite n_in_offsets, Hs; [done|]. set_solver. }
    assert ((if match sg_in g with Some _ => true | None => false end
       then let* e := lv_open it lt (dump g p F) (p_in p) in Ok (Some e) else Ok None) = Ok ((λ e, lev_of it lt e (p_in p)) <$> sg_in g)) as ->.
    { destruct (sg_in g) as [e|] eqn:E; [|done]. destruct Hin as (_ & Hce' & Hee).
      rewrite (lv_open_ok it lt _ (p_in p) e); [done|done|intros E'; by apply Hlt|apply (csr_nonempty _ _ Hce')|done|done|done|].
      rewrite D6. destruct (ev_labels e) eqn:E'; [|done]. rewrite n_in_labels. apply Hs.
      assert (has_edge_labels e = false) as ->. { unfold has_edge_labels. unfold ev_labels in E'. by destruct (ev_label_vec e) as [[|]|]. }
      set_solver. }
    cbn [rbind].
    assert (fs_exists (dump g p F) (f_labels p) = match sg_labels g with Some _ => true | None => false end) as ->.
    { unfold fs_exists. rewrite D7. destruct (sg_labels g) eqn:E; [done|]. rewrite n_labels, Hs; [done|].
      rewrite (bool_decide_eq_false_2 (is_Some (@None (list N)))) by (intros [? [=]]). set_solver. }
    assert ((if match sg_labels g with Some _ => true | None => false end
       then let* l := lm_open lt (dump g p F) (f_labels p) in Ok (Some l) else Ok None) =
       Ok ((λ ls, LMap (f_labels p) lt (length ls * id_size lt)) <$> sg_labels g)) as ->.
    { destruct (sg_labels g) as [ls|] eqn:E; [|done].
      rewrite (lm_open_ok lt _ _ ls); [done| |intros ->; done|by rewrite D7].
      intros E'. by destruct (Hlt E') as [? _]. }
    cbn [rbind]. assert (fs_exists (dump g p F) (f_aux p) = true) as ->. { unfold fs_exists. by rewrite D8. }
    assert (import (c_aux cn ce) (f_aux p) (dump g p F) = Some (sg_num_nodes g, (sg_num_edges g, (sg_nlm g, sg_elm g)))) as ->.
    { unfold import. rewrite D8. cbn [mbind option_bind]. unfold aux_bytes. pose proof (proj1 (SerdeFacts.f_aux cn ce PN PE Hcn Hce)) as Hr.
      specialize (Hr (sg_num_nodes g, (sg_num_edges g, (sg_nlm g, sg_elm g))) []). rewrite app_nil_r in Hr. by rewrite Hr. }
    done.
  Qed.
  (** What an opened graph shows when another one has been dumped over it. *)
  Lemma lg_rewritten dir dir' g g' p F : mappable it lt PN PE dir g → mappable it lt PN PE dir' g' →
    (in_reach page it lt g (overlay g' g) → lg_now page (dump g' p (dump g p F)) (lg_of g p) = Ok (refit_sg g (overlay g' g))) ∧
    (¬ in_reach page it lt g (overlay g' g) → lg_now page (dump g' p (dump g p F)) (lg_of g p) = Panic).
  Proof using Hpage.
    clear Hcn Hce.
    intros [Ht Hcsr He Hin Hl Hit Hlt] [Ht' _ _ _ _ _ _].
    destruct (dump_lookups_ok it lt cn ce g p F) as [D1 D2 D3 D4 D5 D6 D7 _].
    destruct (dump_lookups_ok it lt cn ce g' p (dump g p F)) as [D1' D2' D3' D4' D5' D6' D7' _].
    destruct Ht as [_ Hte Hti Htl _ _]. destruct Ht' as [_ Hte' Hti' Htl' _ _].
    set (F2 := dump g' p (dump g p F)) in *.
    destruct (lv_now_refit page it lt F2 (p_out p) (sg_evec g) (sg_evec (overlay g' g))) as [Ro Po]; [done|done|apply Hte'|apply Hte'|done|done| |].
    { intros Hne. cbn [overlay sg_evec]. rewrite overlay_labels. split; [intros E; apply Hne; unfold ev_labels; by destruct (Hlt E) as (_ & -> & _)|].
      rewrite D3', D3. destruct (ev_labels (sg_evec g')) as [|y ls] eqn:E.
      - split; [by eapply typed_labels|]. by destruct (ev_labels (sg_evec g)).
      - split; [|done]. rewrite <-E. by eapply typed_labels. }
    assert ((match sg_in g, sg_in (overlay g' g) with Some e, Some e' => reach_ev page it lt e e' | _, _ => True end →
        (match (λ e, lev_of it lt e (p_in p)) <$> sg_in g with Some e => let* e := lv_now page F2 e in Ok (Some e) | None => Ok None end) =
          Ok (match sg_in g, sg_in (overlay g' g) with Some e, Some e' => Some (refit_ev e e') | _, _ => None end)) ∧
      (¬ match sg_in g, sg_in (overlay g' g) with Some e, Some e' => reach_ev page it lt e e' | _, _ => True end →
        (match (λ e, lev_of it lt e (p_in p)) <$> sg_in g with Some e => let* e := lv_now page F2 e in Ok (Some e) | None => Ok None end) = Panic)) as [Ri Pi].
    { destruct (sg_in g) as [e|] eqn:E; [|split; [done|intros Hn; by destruct Hn]]. cbn [fmap option_fmap option_map].
      assert (∃ e', sg_in (overlay g' g) = Some e' ∧ Forall in_usize (ev_offsets e') ∧ Forall (in_type it) (ev_edges e') ∧
        F2 !! f_offsets (p_in p) = Some (usize_bytes (ev_offsets e')) ∧ F2 !! f_edges (p_in p) = Some (typed_bytes it (ev_edges e')) ∧
        (ev_labels e ≠ [] → lt ≠ TUnit ∧ Forall (in_type lt) (ev_labels e') ∧ F2 !! f_labels (p_in p) = Some (typed_bytes lt (ev_labels e'))))
        as (e' & -> & T1 & T2 & L1 & L2 & L3).
      { cbn [overlay sg_in]. rewrite E. destruct (sg_in g') as [e'|] eqn:E'.
        - eexists. split; [done|]. split; [apply Hti'|]. split; [apply Hti'|]. split; [done|]. split; [done|]. intros Hne. rewrite overlay_labels.
          split; [intros El; apply Hne; unfold ev_labels; destruct (Hlt El) as (_ & _ & Hx); cbn [opt_all] in Hx; by rewrite Hx|].
          rewrite D6', D6. destruct (ev_labels e') as [|y ls] eqn:E2.
          + split; [by eapply typed_labels|]. by destruct (ev_labels e).
          + split; [|done]. rewrite <-E2. by eapply typed_labels.
        - eexists. split; [done|]. split; [apply Hti|]. split; [apply Hti|]. rewrite D4', D5', D6', D4, D5, D6. split; [done|]. split; [done|].
          intros Hne. rewrite overlay_labels.
          split; [intros El; apply Hne; unfold ev_labels; destruct (Hlt El) as (_ & _ & Hx); cbn [opt_all] in Hx; by rewrite Hx|].
          destruct (ev_labels e) as [|y ls] eqn:E2; [done|]. split; [|done]. rewrite <-E2. by eapply typed_labels. }
      destruct (lv_now_refit page it lt F2 (p_in p) e e') as [R P]; [done..|]. split.
      - intros Hr. by rewrite (R Hr).
      - intros Hr. by rewrite (P Hr). }
    assert ((match sg_labels g, sg_labels (overlay g' g) with Some l, Some l' => on_pages page (length l * id_size lt) (length l' * id_size lt) | _, _ => True end →
        (match (λ ls, LMap (f_labels p) lt (length ls * id_size lt)) <$> sg_labels g with Some m => let* l := lm_now page F2 m in Ok (Some l) | None => Ok None end) =
          Ok (match sg_labels g, sg_labels (overlay g' g) with Some l, Some l' => Some (refit 0%N (length l) l') | _, _ => None end)) ∧
      (¬ match sg_labels g, sg_labels (overlay g' g) with Some l, Some l' => on_pages page (length l * id_size lt) (length l' * id_size lt) | _, _ => True end →
        (match (λ ls, LMap (f_labels p) lt (length ls * id_size lt)) <$> sg_labels g with Some m => let* l := lm_now page F2 m in Ok (Some l) | None => Ok None end) = Panic)) as [Rl Pl].
    { destruct (sg_labels g) as [l|] eqn:E; [|split; [done|intros Hn; by destruct Hn]]. cbn [fmap option_fmap option_map].
      assert (∃ l', sg_labels (overlay g' g) = Some l' ∧ Forall (in_type lt) l' ∧ F2 !! f_labels p = Some (typed_bytes lt l')) as (l' & -> & T1 & L1).
      { cbn [overlay sg_labels]. rewrite E. destruct (sg_labels g') as [l'|] eqn:E'.
        - exists l'. split; [done|]. split; [apply Htl'|]. done.
        - exists l. split; [done|]. split; [apply Htl|]. by rewrite D7', D7. }
      assert (lt ≠ TUnit) as Hu by (intros El; by destruct (Hlt El) as [? _]).
      rewrite (lm_now_typed page F2 (f_labels p) lt (length l) l' Hu L1 T1), on_pages_span by done.
      split; intros Hr; [by rewrite decide_True|by rewrite decide_False]. }
    unfold lg_now, lg_of. cbn [lg_evec lg_in lg_labels lg_num_nodes lg_num_edges lg_nlm lg_elm]. unfold in_reach. split.
    - intros (H1 & H2 & H3). rewrite (Ro H1). cbn [rbind]. rewrite (Ri H2). cbn [rbind]. rewrite (Rl H3). done.
    - intros Hn. destruct (lv_now page F2 (lev_of it lt (sg_evec g) (p_out p))) as [e1| |] eqn:E1.
      + cbn [rbind]. assert (reach_ev page it lt (sg_evec g) (sg_evec (overlay g' g))) as H1.
        { assert (Decision (reach_ev page it lt (sg_evec g) (sg_evec (overlay g' g)))) as [H1|H1].
          { unfold reach_ev. assert (∀ a b, Decision (on_pages page a b)) as Hd.
            { intros a b. destruct (decide (a ≤ page_span page b)); [left|right]; by rewrite on_pages_span. }
            apply and_dec; [apply Hd|apply and_dec; apply Hd]. }
          - done.
          - by specialize (Po H1). }
        destruct (match (λ e, lev_of it lt e (p_in p)) <$> sg_in g with Some e => let* e := lv_now page F2 e in Ok (Some e) | None => Ok None end) as [e2| |] eqn:E2.
        * cbn [rbind].
          rewrite Pl; [done|]. intros H3. apply Hn. split; [done|]. split; [|done].
          destruct (sg_in g) as [e|]; [|done]. destruct (sg_in (overlay g' g)) as [e'|]; [|done].
          assert (Decision (reach_ev page it lt e e')) as [H2|H2].
          { unfold reach_ev. assert (∀ a b, Decision (on_pages page a b)) as Hd.
            { intros a b. destruct (decide (a ≤ page_span page b)); [left|right]; by rewrite on_pages_span. }
            apply and_dec; [apply Hd|apply and_dec; apply Hd]. }
          -- done.
          -- by specialize (Pi H2).
        * done.
        * exfalso. clear -E2 Ri Pi Hpage. destruct (sg_in g) as [e|]; [|done]. cbn [fmap option_fmap option_map] in E2.
          destruct (lv_now page F2 (lev_of it lt e (p_in p))) eqn:E; try done. by destruct (lv_now_fuel page F2 (lev_of it lt e (p_in p))).
      + done.
      + by destruct (lv_now_fuel page F2 (lev_of it lt (sg_evec g) (p_out p))).
  Qed.
End graph.

(** ** What the rewritten graph answers *)
Lemma refit_take {X} (z : X) n t l : t ≤ n → t ≤ length l → take t (refit z n l) = take t l.
Proof. intros H1 H2. unfold refit. rewrite take_take, Nat.min_l by done. by rewrite take_app_le. Qed.
Lemma refit_neighbors e x n : csr_wf (ev_offsets x) (ev_edges x) → ev_offsets e ≠ [] →
  new_or_panic (ev_neighbors x n) (ev_neighbors (refit_ev e x) n).
Proof.
  intros Hwf Hne. unfold new_or_panic.
  destruct (ev_neighbors (refit_ev e x) n) as [nb| |] eqn:E; [|by left|].
  2:{ exfalso. revert E. unfold ev_neighbors, ev_bounds, ev_has_node, ev_num_nodes, usub. destruct (decide _); [|done]. cbn [rbind].
      destruct (negb _); [done|]. destruct (ev_offsets (refit_ev e x) !! id_id n); [|done]. destruct (ev_offsets (refit_ev e x) !! (id_id n + 1)); [|done].
      cbn [unwrap rbind]. by destruct (decide _). }
  right. revert E. unfold ev_neighbors at 1. unfold ev_bounds, ev_has_node, ev_num_nodes, usub. cbn [refit_ev ev_offsets ev_edges]. rewrite !refit_length.
  destruct (decide _) as [H1|]; [|done]. cbn [rbind].
  destruct (bool_decide (id_id n < length (ev_offsets e) - 1)) eqn:Hb; cbn [negb]; [|done]. apply bool_decide_eq_true in Hb.
  rewrite !refit_lookup by lia. unfold id_id in *. rewrite Nat.add_1_r in *.
  destruct (decide (S (N.to_nat n) < length (ev_offsets x))) as [H2|H2].
  - rewrite decide_True by lia. destruct (lookup_lt_is_Some_2 (ev_offsets x) (N.to_nat n) ltac:(lia)) as [s Hs].
    destruct (lookup_lt_is_Some_2 (ev_offsets x) (S (N.to_nat n)) H2) as [t Ht]. rewrite Hs, Ht. cbn [unwrap rbind].
    destruct (decide _) as [[H3 H4]|]; [|done]. intros [= <-]. left.
    assert (n < csr_nodes (ev_offsets x))%N as Hn by (unfold csr_nodes; lia).
    rewrite (neighbors_ok x Hwf n Hn). unfold row. rewrite Hs, Ht. f_equal. pose proof (csr_bound _ _ Hwf _ _ Ht) as Hl.
    rewrite !firstn_skipn_comm, !Nat.add_sub_assoc, !(Nat.add_comm s t), !Nat.add_sub by done. by rewrite refit_take.
  - intros E. right. split; [apply (neighbors_panic x Hwf); unfold csr_nodes; lia|]. revert E.
    destruct (if decide _ then _ else _) as [s|]; [|done]. cbn [unwrap rbind]. destruct (decide _) as [[H3 _]|]; [|done].
    intros [= <-]. by destruct s.
Qed.
Lemma new_or_panic_length new now : new_or_panic new now → rmap length now = Panic ∨ rmap length now = rmap length new ∨ (new = Panic ∧ rmap length now = Ok 0).
Proof. intros [->|[->|[H ->]]]; auto. Qed.

Section answers.
  Context {NL EL : Type} `{EqDecision NL, EqDecision EL} (it lt : idty) (PN : NL → Prop) (PE : EL → Prop) (dir : bool).
  Context (g g' : sgraph NL EL) (Hg : mappable it lt PN PE dir g) (Hg' : mappable it lt PN PE dir g') (Hs : same_parts g g').
  Lemma labels_none e : has_edge_labels e = false → ev_labels e = [].
  Proof using. clear Hs Hg Hg'. unfold has_edge_labels, ev_labels. by destruct (ev_label_vec e) as [[|]|]. Qed.
  Lemma labels_some e : has_edge_labels e = true → ev_labels e ≠ [].
  Proof using. clear Hs Hg Hg'. unfold has_edge_labels, ev_labels. by destruct (ev_label_vec e) as [[|]|]. Qed.
  (** With the same parts nothing of the old graph is needed. *)
  Lemma refit_overlay_ev e e' o : has_edge_labels e = has_edge_labels e' → refit_ev e (overlay_ev e' o) = refit_ev e e'.
  Proof using.
    clear Hs Hg Hg'. intros Hl. unfold refit_ev. rewrite overlay_labels. cbn [overlay_ev ev_offsets ev_edges]. f_equal.
    destruct (has_edge_labels e') eqn:E.
    - apply labels_some in E. by destruct (ev_labels e').
    - apply labels_none in Hl as ->. done.
  Qed.
  Lemma refit_overlay : refit_sg g (overlay g' g) = refit_sg g g'.
  Proof using Hs.
    clear Hg Hg'. destruct Hs as (S1 & S2 & S3 & S4). unfold refit_sg, overlay. cbn [sg_evec sg_in sg_labels]. rewrite refit_overlay_ev by done. f_equal.
    - destruct (sg_in g) as [e|], (sg_in g') as [e'|]; try done. f_equal. by apply refit_overlay_ev.
    - by destruct (sg_labels g), (sg_labels g').
  Qed.
  Lemma refit_mixture : mixture (sg_view it lt dir g) (sg_view it lt dir g') (mm_view it lt (refit_sg g g')).
  Proof using Hg Hg' Hs.
    destruct Hs as (S1 & S2 & S3 & S4). split; cbn [sg_view mm_view v_directed v_node_count v_edge_count v_has_node v_node_indices v_node_label_map
      v_edge_label_map v_neighbors v_get_node v_in_neighbors]; try done.
    - unfold mm_directed, refit_sg. cbn [sg_in]. pose proof (mp_in _ _ _ _ _ _ Hg) as Hi.
      destruct (sg_in g) as [e|]; [|done]. destruct Hi as [-> _]. by destruct (sg_in g').
    - intros n. cbn [refit_sg sg_evec]. apply refit_neighbors; [apply Hg'|]. apply (csr_nonempty _ _ (mp_csr _ _ _ _ _ _ Hg)).
    - intros n x y. unfold sg_get_node, sg_has_node. cbn [refit_sg sg_num_nodes sg_labels].
      destruct (bool_decide (id_id n < sg_num_nodes g)); cbn [negb]; [|done].
      destruct (bool_decide (id_id n < sg_num_nodes g')); cbn [negb]; [|done].
      destruct (sg_labels g) as [l|], (sg_labels g') as [l'|]; try done.
      destruct (l !! id_id n) as [a|] eqn:Ea; [|done]. destruct (l' !! id_id n) as [a'|] eqn:Ea'; [|done]. cbn [unwrap rbind]. intros _ Hy.
      rewrite refit_lookup by (by eapply lookup_lt_Some). rewrite decide_True by (by eapply lookup_lt_Some). rewrite Ea'. exact Hy.
    - intros Hd n. pose proof (mp_in _ _ _ _ _ _ Hg) as Hi. pose proof (mp_in _ _ _ _ _ _ Hg') as Hi'. unfold mm_in_neighbors, sg_in_neighbors. cbn [refit_sg sg_in].
      destruct (sg_in g) as [e|], (sg_in g') as [e'|]; try done.
      + apply refit_neighbors; [apply Hi'|]. destruct Hi as (_ & Hw & _). apply (csr_nonempty _ _ Hw).
      + by rewrite Hd in Hi.
  Qed.
End answers.

(** ** Arrays of the same lengths *)
Lemma refit_same_ev e e' : same_lengths_ev e e' → refit_ev e e' = norm_ev e'.
Proof.
  intros (H1 & H2 & H3). unfold refit_ev, norm_ev. rewrite H1, H2, !refit_same. f_equal.
  destruct (ev_labels e) as [|x ls] eqn:E, (ev_labels e') as [|y ls'] eqn:E'; try done. cbn [non_empty]. by rewrite H3, refit_same.
Qed.
Lemma reach_same page it lt e e' : 0 < page → same_lengths_ev e e' → reach_ev page it lt e e'.
Proof.
  intros Hp (H1 & H2 & H3). unfold reach_ev. rewrite !on_pages_span, H1, H2, H3 by done.
  split; [|split]; by apply page_span_le.
Qed.
Lemma has_edge_labels_length e e' : length (ev_labels e) = length (ev_labels e') → has_edge_labels e = has_edge_labels e'.
Proof. unfold has_edge_labels, ev_labels. by destruct (ev_label_vec e) as [[|]|], (ev_label_vec e') as [[|]|]. Qed.
Section same.
  Context {NL EL : Type} `{EqDecision NL, EqDecision EL} (it lt : idty) (page : nat) (Hp : 0 < page).
  Context (g g' : sgraph NL EL) (Hs : same_lengths g g').
  Lemma same_lengths_parts : same_parts g g'.
  Proof using Hs.
    clear Hp. destruct Hs as ((_ & _ & H1) & H2 & H3). unfold same_parts. split_and!.
    - by destruct (sg_in g), (sg_in g').
    - by destruct (sg_labels g), (sg_labels g').
    - by apply has_edge_labels_length.
    - destruct (sg_in g), (sg_in g'); try done. apply has_edge_labels_length, H2.
  Qed.
  Lemma same_lengths_overlay : same_lengths g (overlay g' g).
  Proof using Hs.
    clear Hp. destruct Hs as ((Ha & Hb & Hc) & H2 & H3). unfold same_lengths, overlay. cbn [sg_evec sg_in sg_labels]. split_and!.
    - unfold same_lengths_ev. rewrite overlay_labels. cbn [overlay_ev ev_offsets ev_edges]. split; [done|]. split; [done|].
      by destruct (ev_labels (sg_evec g')) eqn:E.
    - destruct (sg_in g) as [e|], (sg_in g') as [e'|]; try done. destruct H2 as (Ia & Ib & Ic).
      unfold same_lengths_ev. rewrite overlay_labels. cbn [overlay_ev ev_offsets ev_edges]. split; [done|]. split; [done|].
      by destruct (ev_labels e') eqn:E.
    - by destruct (sg_labels g), (sg_labels g').
  Qed.
  Lemma same_lengths_reach : in_reach page it lt g (overlay g' g).
  Proof using Hs Hp.
    destruct same_lengths_overlay as (H1 & H2 & H3). split; [by apply reach_same|]. split.
    - destruct (sg_in g), (sg_in (overlay g' g)); try done. by apply reach_same.
    - destruct (sg_labels g), (sg_labels (overlay g' g)); try done. rewrite on_pages_span, H3 by done. by apply page_span_le.
  Qed.
  Lemma refit_same_sg : refit_sg g g' = SGraph (sg_num_nodes g) (sg_num_edges g) (norm_ev (sg_evec g')) (norm_ev <$> sg_in g') (sg_labels g') (sg_nlm g) (sg_elm g).
  Proof using Hs.
    clear Hp. destruct Hs as (H1 & H2 & H3). unfold refit_sg. rewrite refit_same_ev by done. f_equal.
    - destruct (sg_in g), (sg_in g'); try done. cbn. by rewrite refit_same_ev.
    - destruct (sg_labels g), (sg_labels g'); try done. by rewrite H3, refit_same.
  Qed.
End same.

Section live.
  Context {NL EL : Type} `{EqDecision NL, EqDecision EL} (it lt : idty) (cn : codec NL) (ce : codec EL) (page : nat).
  Lemma prefix_files_names p : prefix_files p = all_names p.
  Proof using. unfold prefix_files, all_names. names. done. Qed.
  Lemma map_names_files p f : f ∈ map_names p → f ∈ prefix_files p.
  Proof using. rewrite prefix_files_names. unfold map_names, all_names. set_solver. Qed.
  Lemma op_target_file o : op_target o = op_file o.
  Proof using. by destruct o. Qed.
  Lemma live_elsewhere F0 p h F ops : lg_open it lt cn ce F0 p = Ok h → (∀ o, o ∈ ops → op_target o ∉ prefix_files p) →
    lg_now page (fs_run F ops) h = lg_now page F h.
  Proof using.
    intros Ho Hops. apply (lg_frame it lt cn ce page F0 p h _ _ Ho). intros f Hf%map_names_files. apply run_other.
    intros (o & -> & Hin)%elem_of_list_fmap. apply (Hops o Hin). by rewrite op_target_file.
  Qed.
  Lemma crash_ops F ops F' : crash_state F ops F' → ∃ ops', F' = fs_run F ops' ∧ ∀ o, o ∈ ops' → ∃ o', o' ∈ ops ∧ op_target o = op_target o'.
  Proof using.
    intros (done & rest & -> & [->|(f & b & b' & rest' & -> & _ & ->)]).
    - exists done. split; [reflexivity|]. intros o Hin. exists o. split; [set_solver|reflexivity].
    - exists (done ++ [FWrite f b']). split; [reflexivity|]. intros o [Hin| ->%elem_of_list_singleton]%elem_of_app.
      + exists o. split; [set_solver|reflexivity].
      + exists (FWrite f b). split; [set_solver|reflexivity].
  Qed.
  Lemma ev_ops_names it' lt' e p o : o ∈ ev_dump_ops it' lt' e p → op_file o ∈ [f_offsets p; f_edges p; f_labels p].
  Proof using.
    unfold ev_dump_ops. rewrite !elem_of_app. intros [Ho|[Ho|Ho]].
    - apply dump_ops_file in Ho as ->. set_solver.
    - apply dump_ops_file in Ho as ->. set_solver.
    - destruct (ev_labels e); [by apply elem_of_nil in Ho|]. apply dump_ops_file in Ho as ->. set_solver.
  Qed.
  Lemma dump_ops_names {NL' EL'} `{EqDecision NL', EqDecision EL'} (cn' : codec NL') (ce' : codec EL') it' lt' (g : sgraph NL' EL') p o :
    o ∈ sg_dump_ops it' lt' cn' ce' g p → op_target o ∈ prefix_files p.
  Proof using.
    rewrite op_target_file, prefix_files_names. unfold sg_dump_ops, all_names. rewrite !elem_of_app. intros [Ho|[Ho|[Ho|Ho]]].
    - apply ev_ops_names in Ho. set_solver.
    - destruct (sg_in g); [|by apply elem_of_nil in Ho]. apply ev_ops_names in Ho. set_solver.
    - destruct (sg_labels g); [|by apply elem_of_nil in Ho]. apply dump_ops_file in Ho as ->. set_solver.
    - unfold export_ops in Ho. assert (op_file o = f_aux p) as ->; [|set_solver].
      repeat (apply elem_of_cons in Ho as [->|Ho]; [done|]). by apply elem_of_nil in Ho.
  Qed.
  Lemma live_apart {NL' EL'} `{EqDecision NL', EqDecision EL'} (cn' : codec NL') (ce' : codec EL') it' lt' (g : sgraph NL' EL') F0 p h F p' F' :
    lg_open it lt cn ce F0 p = Ok h → apart p p' → crash_state F (sg_dump_ops it' lt' cn' ce' g p') F' → lg_now page F' h = lg_now page F h.
  Proof using.
    intros Ho Ha (ops & -> & Hops)%crash_ops. apply (live_elsewhere F0 p h F ops Ho). intros o Hin Hf.
    destruct (Hops o Hin) as (o' & Hin' & E). apply dump_ops_names in Hin'. rewrite <-E in Hin'. rewrite !prefix_files_names in *.
    by destruct (apart_names p p' _ Ha Hf).
  Qed.
  Lemma lg_open_size F0 p h : lg_open it lt cn ce F0 p = Ok h → 0 < lm_size (lv_offsets (lg_evec h)) ∧ lm_file (lv_offsets (lg_evec h)) = f_offsets (p_out p).
  Proof using.
    intros H. unfold lg_open in H. destruct (lv_open it lt F0 (p_out p)) as [e| |] eqn:E; [|done..]. cbn [rbind] in H.
    destruct (if fs_exists F0 (f_offsets (p_in p)) then _ else _) as [i| |]; [|done..]. cbn [rbind] in H.
    destruct (if fs_exists F0 (f_labels p) then _ else _) as [l| |]; [|done..]. cbn [rbind] in H.
    destruct (if fs_exists F0 (f_aux p) then _ else _) as [a| |]; [|done..]. cbn [rbind] in H. injection H as <-. cbn [lg_evec].
    unfold lv_open in E. assert (∃ m, lm_open TUsize F0 (f_offsets (p_out p)) = Ok m ∧ lv_offsets e = m) as (m & Em & ->).
    { destruct (lm_open TUsize F0 (f_offsets (p_out p))) as [m| |]; [|by destruct (fs_exists _ _)|by destruct (fs_exists _ _)]. exists m. split; [done|]. cbn [rbind] in E.
      destruct (lm_open it F0 (f_edges (p_out p))) as [m2| |]; [|by destruct (fs_exists _ _)|by destruct (fs_exists _ _)]. cbn [rbind] in E.
      destruct (fs_exists F0 (f_labels (p_out p))); [|by injection E as <-]. destruct (lm_open lt F0 (f_labels (p_out p))); [|done..]. by injection E as <-. }
    unfold lm_open, tm_new in Em. destruct (F0 !! f_offsets (p_out p)) as [b|]; [|done]. cbn [unwrap rbind] in Em.
    destruct (decide (b = [])) as [|Hb]; [done|]. destruct (decide (id_size TUsize = 0)); [done|]. cbn [rbind tm_map] in Em. injection Em as <-.
    cbn [lm_size lm_file]. split; [|done]. destruct b; [done|]. cbn [length]. lia.
  Qed.
  Lemma live_fault {NL' EL'} `{EqDecision NL', EqDecision EL'} (cn' : codec NL') (ce' : codec EL') it' lt' (g : sgraph NL' EL') F0 p h F : lg_open it lt cn ce F0 p = Ok h →
    ∃ F', crash_state F (sg_dump_ops it' lt' cn' ce' g p) F' ∧ lg_now page F' h = Panic.
  Proof using.
    intros Ho. exists (fs_run F [FCreate (f_offsets (p_out p))]). split.
    - exists [FCreate (f_offsets (p_out p))]. eexists. split; [|by left]. unfold sg_dump_ops, ev_dump_ops, dump_ops at 1. cbn [app]. done.
    - destruct (lg_open_size _ _ _ Ho) as [H1 H2]. unfold lg_now, lv_now.
      assert (lm_now page (fs_run F [FCreate (f_offsets (p_out p))]) (lv_offsets (lg_evec h)) = Panic) as ->; [|done].
      unfold lm_now. rewrite H2. cbn [fs_run foldl fs_step]. rewrite lookup_insert.
      cbn [default from_option id length]. rewrite page_span_0, decide_False by lia. done.
  Qed.
End live.

Section rewritten.
  Context {NL EL : Type} `{EqDecision NL, EqDecision EL} (it lt : idty) (cn : codec NL) (ce : codec EL).
  Context (PN : NL → Prop) (PE : EL → Prop) (Hcn : faithful cn PN) (Hce : faithful ce PE) (page : nat) (Hpage : 0 < page).
  Notation dump g p F := (sg_dump_mmap it lt cn ce g p F).
  Lemma live_rewritten dir dir' g g' p F h : mappable it lt PN PE dir g → mappable it lt PN PE dir' g' → no_stale F p g →
    lg_open it lt cn ce (dump g p F) p = Ok h →
    (in_reach page it lt g (overlay g' g) → lg_now page (dump g' p (dump g p F)) h = Ok (refit_sg g (overlay g' g))) ∧
    (¬ in_reach page it lt g (overlay g' g) → lg_now page (dump g' p (dump g p F)) h = Panic).
  Proof using Hcn Hce Hpage.
    intros Hg Hg' Hst Ho. rewrite (lg_open_dumped it lt cn ce PN PE Hcn Hce dir g p F Hg Hst) in Ho. injection Ho as <-.
    by apply (lg_rewritten it lt cn ce PN PE page Hpage dir dir').
  Qed.
  Lemma live_mixture dir g g' p F h m : mappable it lt PN PE dir g → mappable it lt PN PE dir g' → no_stale F p g → same_parts g g' →
    lg_open it lt cn ce (dump g p F) p = Ok h → lg_now page (dump g' p (dump g p F)) h = Ok m →
    mixture (sg_view it lt dir g) (sg_view it lt dir g') (mm_view it lt m).
  Proof using Hcn Hce Hpage.
    intros Hg Hg' Hst Hs Ho Hm. destruct (live_rewritten dir dir g g' p F h Hg Hg' Hst Ho) as [R P].
    assert (m = refit_sg g g') as ->; [|by apply (refit_mixture it lt PN PE)].
    assert (Decision (in_reach page it lt g (overlay g' g))) as [Hr|Hr].
    { assert (∀ a b, Decision (on_pages page a b)) as Hd.
      { intros a b. destruct (decide (a ≤ page_span page b)); [left|right]; by rewrite on_pages_span. }
      assert (∀ e e', Decision (reach_ev page it lt e e')) as He. { intros e e'. apply and_dec; [apply Hd|apply and_dec; apply Hd]. }
      apply and_dec; [apply He|apply and_dec].
      - destruct (sg_in g); [|apply _]. destruct (sg_in (overlay g' g)); [apply He|apply _].
      - destruct (sg_labels g); [|apply _]. destruct (sg_labels (overlay g' g)); [apply Hd|apply _]. }
    - rewrite (R Hr) in Hm. injection Hm as <-. by apply refit_overlay.
    - by rewrite (P Hr) in Hm.
  Qed.
  Lemma live_same dir g g' p F h : mappable it lt PN PE dir g → mappable it lt PN PE dir g' → no_stale F p g → same_lengths g g' →
    sg_num_nodes g = sg_num_nodes g' → sg_num_edges g = sg_num_edges g' → sg_nlm g = sg_nlm g' → sg_elm g = sg_elm g' →
    lg_open it lt cn ce (dump g p F) p = Ok h →
    ∃ m, lg_now page (dump g' p (dump g p F)) h = Ok m ∧ same_answers (sg_view it lt dir g') (mm_view it lt m).
  Proof using Hcn Hce Hpage.
    intros Hg Hg' Hst Hs E1 E2 E3 E4 Ho. destruct (live_rewritten dir dir g g' p F h Hg Hg' Hst Ho) as [R _].
    exists (norm_sg g'). split; [|by apply (norm_answers it lt dir PN PE)].
    rewrite R by (by apply same_lengths_reach). rewrite refit_overlay by (by apply same_lengths_parts). rewrite refit_same_sg by done.
    rewrite E1, E2, E3, E4. done.
  Qed.
End rewritten.
