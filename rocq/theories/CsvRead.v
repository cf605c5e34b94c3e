(** CSV: the graph a read gives. *)
From Coq Require Import Ascii.
From stdpp Require Import gmap strings.
From Verif Require Import Base BaseFacts Api Spec SpecFacts SpecOps SpecSerde Map GraphMap ViewFacts GraphOps GraphOpsFacts GraphOpsProps Csv SpecCsv CsvFacts CsvProps.

Section adds.
  Context {NL EL : Type} `{EqDecision NL, EqDecision EL}.
  Implicit Types (A : agraph NL EL) (s : sstate NL EL).
  Lemma touch_nodes n A k : a_has_node (a_touch n A) k ↔ a_has_node A k ∨ k = n.
  Proof.
    unfold a_has_node, a_touch. destruct (ag_nodes A !! n) eqn:E.
    - split; [by left|]. intros [?| ->]; [done|by rewrite E].
    - cbn. destruct (decide (k = n)) as [->|Hne]; [rewrite lookup_insert; naive_solver|]. rewrite lookup_insert_ne by done. naive_solver.
  Qed.
  Lemma touch_label n A k : a_has_node A k → ag_nodes (a_touch n A) !! k = ag_nodes A !! k.
  Proof.
    intros [l Hl]. unfold a_touch. destruct (ag_nodes A !! n) eqn:E; [done|]. cbn. rewrite lookup_insert_ne; [done|]. congruence.
  Qed.
  Lemma touch_new n A : ¬ a_has_node A n → ag_nodes (a_touch n A) !! n = Some None.
  Proof.
    intros Hn. unfold a_touch. destruct (ag_nodes A !! n) eqn:E; [destruct Hn; by eexists|]. cbn. by rewrite lookup_insert.
  Qed.
  Lemma touch_edges n A : ag_edges (a_touch n A) = ag_edges A ∧ ag_dir (a_touch n A) = ag_dir A.
  Proof. unfold a_touch. by destruct (ag_nodes A !! n). Qed.

  Lemma adds_nodes nls els (ns : list (N * option NL)) : ∀ s, within s nls els → (∀ n l, (n, Some l) ∈ ns → l ∈ nls) →
    ∃ rs s', spec_run ((λ p, OAddNode p.1 p.2) <$> ns) s = SOk (rs, s') ∧ within s' nls els ∧
      ag_dir (sp_g s') = ag_dir (sp_g s) ∧ ag_edges (sp_g s') = ag_edges (sp_g s) ∧ sp_count s' = sp_count s ∧
      (∀ n, (∀ l, (n, l) ∉ ns) → ag_nodes (sp_g s') !! n = ag_nodes (sp_g s) !! n) ∧
      (∀ n l, (n, l) ∈ ns → a_has_node (sp_g s') n) ∧
      ∀ ns1 n l ns2, ns = ns1 ++ (n, l) :: ns2 → (∀ l', (n, l') ∉ ns2) → ag_nodes (sp_g s') !! n = Some l.
  Proof.
    induction ns as [|[n l] ns IH]; intros s (Hw1 & Hw2 & Hw3 & Hw4) Hf.
    - exists [], s. split_and!; try done; [intros n l H; by apply elem_of_nil in H|by intros []].
    - destruct (IH (s_add_node n l s)) as (rs & s' & Hr & Hw & Hd & He & Hc & Ho & Hi & Hl).
      { destruct (register_within l (sp_nls s) nls Hw1 Hw3) as [? ?]; [intros x ->; apply (Hf n); left|]. done. }
      { intros k x Hk. apply (Hf k). by right. }
      eexists _, s'. cbn [fmap list_fmap spec_run spec_step fst snd]. change (list_fmap _ _ ?f ns) with (f <$> ns). rewrite Hr. split; [done|].
      split; [done|]. split; [by rewrite Hd|]. split; [by rewrite He|]. split; [by rewrite Hc|]. split; [|split].
      + intros k Hk. rewrite Ho; [|intros l' Hin; apply (Hk l'); by right]. cbn. rewrite lookup_insert_ne; [done|].
        intros ->. apply (Hk l). left.
      + intros k l' Hin. destruct (decide (k ∈ ns.*1)) as [([k' l'']&->&Hk)%elem_of_list_fmap|Hk]; [by apply (Hi _ l'')|].
        apply elem_of_cons in Hin as [[= -> ->]|Hin]; [|destruct Hk; apply elem_of_list_fmap; by exists (k, l')].
        unfold a_has_node. rewrite Ho; [cbn; by rewrite lookup_insert|]. intros l' Hin. apply Hk. apply elem_of_list_fmap. by exists (n, l').
      + intros [|p ns1] k l' ns2 Heq Hnew; simplify_eq/=.
        * rewrite Ho by done. cbn. by rewrite lookup_insert.
        * by apply (Hl ns1 k l' ns2).
  Qed.
  Lemma adds_edges nls els dir (es : list (N * N * option EL)) : ∀ s, within s nls els → ag_dir (sp_g s) = dir →
    (∀ e l, (e, Some l) ∈ es → l ∈ els) →
    ∃ rs s', spec_run ((λ e, OAddEdge e.1.1 e.1.2 e.2) <$> es) s = SOk (rs, s') ∧ within s' nls els ∧
      ag_dir (sp_g s') = dir ∧ sp_count s' = sp_count s + length es ∧
      (∀ n, a_has_node (sp_g s') n ↔ a_has_node (sp_g s) n ∨ ∃ x y l, (x, y, l) ∈ es ∧ (n = x ∨ n = y)) ∧
      (∀ n, a_has_node (sp_g s) n → ag_nodes (sp_g s') !! n = ag_nodes (sp_g s) !! n) ∧
      (∀ n, ¬ a_has_node (sp_g s) n → a_has_node (sp_g s') n → ag_nodes (sp_g s') !! n = Some None) ∧
      (∀ k, (∀ x y l, (x, y, l) ∈ es → ekey dir x y ≠ k) → ag_edges (sp_g s') !! k = ag_edges (sp_g s) !! k) ∧
      (∀ x y l, (x, y, l) ∈ es → is_Some (ag_edges (sp_g s') !! ekey dir x y)) ∧
      ∀ es1 x y l es2, es = es1 ++ (x, y, l) :: es2 → (∀ x' y' l', (x', y', l') ∈ es2 → ekey dir x' y' ≠ ekey dir x y) →
        ag_edges (sp_g s') !! ekey dir x y = Some l.
  Proof.
    induction es as [|[[x y] l] es IH]; intros s (Hw1 & Hw2 & Hw3 & Hw4) Hdir Hf.
    - exists [], s. split; [done|]. split; [done|]. split; [done|]. split; [cbn; lia|]. split.
      { intros n. split; [by left|]. intros [?|(?&?&?&[]%elem_of_nil&_)]. done. }
      split; [done|]. split; [done|]. split; [done|]. split; [by intros ??? ?%elem_of_nil|]. by intros [].
    - destruct (touch_edges x (sp_g s)) as [Hex Hdx]. destruct (touch_edges y (a_touch x (sp_g s))) as [Hey Hdy].
      destruct (IH (s_add_edge x y l s)) as (rs & s' & Hr & Hw & Hd & Hc & Hn & Ho & Hnew & He & Hi & Hl).
      { destruct (register_within l (sp_els s) els Hw2 Hw4) as [? ?]; [intros z ->; apply (Hf (x, y)); left|]. done. }
      { cbn. by rewrite Hdy, Hdx. } { intros k z Hk. apply (Hf k). by right. }
      assert (∀ n, a_has_node (sp_g (s_add_edge x y l s)) n ↔ a_has_node (sp_g s) n ∨ n = x ∨ n = y) as Ha.
      { intros n. change (a_has_node (a_touch y (a_touch x (sp_g s))) n ↔ a_has_node (sp_g s) n ∨ n = x ∨ n = y).
        rewrite !touch_nodes. tauto. }
      assert (∀ n, a_has_node (sp_g s) n → ag_nodes (sp_g (s_add_edge x y l s)) !! n = ag_nodes (sp_g s) !! n) as Hal.
      { intros n Hin. change (ag_nodes (a_touch y (a_touch x (sp_g s))) !! n = ag_nodes (sp_g s) !! n).
        rewrite touch_label by (apply touch_nodes; by left). by apply touch_label. }
      assert (∀ k, ag_edges (sp_g (s_add_edge x y l s)) !! k = if decide (k = ekey dir x y) then Some l else ag_edges (sp_g s) !! k) as Hae.
      { intros k. cbn. rewrite Hdir, Hey, Hex. destruct (decide _) as [->|]; [by rewrite lookup_insert|by rewrite lookup_insert_ne]. }
      eexists _, s'. cbn [fmap list_fmap spec_run spec_step fst snd]. change (list_fmap _ _ ?f es) with (f <$> es). rewrite Hr.
      split; [done|]. split; [done|]. split; [done|]. split; [rewrite Hc; cbn; lia|].
      assert (∀ x' y', (∀ l', (x', y', l') ∉ es) ∨ ∃ l', (x', y', l') ∈ es) as Hdec.
      { intros x' y'. destruct (decide ((x', y') ∈ es.*1)) as [([e l']&->&Hk)%elem_of_list_fmap|Hk]; [right; by exists l'|left].
        intros l' Hin. apply Hk. apply elem_of_list_fmap. by exists (x', y', l'). }
      split_and!.
      + intros n. rewrite Hn, Ha. split.
        * intros [[?|?]|(x'&y'&l'&Hin&?)]; [by left|right; exists x, y, l; split; [left|done]|]. right. exists x', y', l'. split; [by right|done].
        * intros [?|(x'&y'&l'&[[= -> -> ->]|Hin]%elem_of_cons&?)]; [by left; left|by left; right|]. right. by exists x', y', l'.
      + intros n Hin. rewrite Ho by (apply Ha; by left). by apply Hal.
      + intros n Hno Hin. destruct (decide (is_Some (ag_nodes (sp_g (s_add_edge x y l s)) !! n))) as [Hs|Hs]; [|by apply Hnew].
        rewrite Ho by done. change (ag_nodes (a_touch y (a_touch x (sp_g s))) !! n = Some None).
        apply Ha in Hs as [?|Hs]; [done|]. destruct (decide (n = x)) as [->|Hne].
        * rewrite touch_label by (apply touch_nodes; by right). by apply touch_new.
        * destruct Hs as [?| ->]; [done|]. apply touch_new. rewrite touch_nodes. naive_solver.
      + intros k Hk. rewrite He; [|intros x' y' l' Hin; apply (Hk x' y' l'); by right]. rewrite Hae, decide_False; [done|].
        intros ->. by apply (Hk x y l); [left|].
      + intros x' y' l' Hin. destruct (decide (ekey dir x' y' ∈ (λ e : N * N * option EL, ekey dir e.1.1 e.1.2) <$> es)) as [([[x'' y''] l'']&Hk&Hk')%elem_of_list_fmap|Hk].
        * rewrite Hk. by apply (Hi x'' y'' l'').
        * rewrite He. { apply elem_of_cons in Hin as [[= -> -> ->]|Hin]; [rewrite Hae, decide_True by done; by eexists|].
            destruct Hk. apply elem_of_list_fmap. by exists (x', y', l'). }
          intros x'' y'' l'' Hin' Heq. apply Hk. apply elem_of_list_fmap. by exists (x'', y'', l'').
      + intros [|p es1] x' y' l' es2 Heq Hlast; simplify_eq/=.
        * rewrite He by done. by rewrite Hae, decide_True.
        * by apply (Hl es1 x' y' l' es2).
  Qed.
  Lemma adds_run dir nls els ns es : (∀ n l, (n, Some l) ∈ ns → l ∈ nls) → (∀ e l, (e, Some l) ∈ es → l ∈ els) →
    ∃ rs s, spec_run (add_calls ns es) (s_init dir [] []) = SOk (rs, s) ∧ within s nls els ∧ built_from dir ns es (sp_g s) ∧ sp_count s = length es.
  Proof.
    intros Hn He. destruct (adds_nodes nls els ns (s_init dir [] [])) as (rs1 & s1 & Hr1 & Hw1 & Hd1 & He1 & Hc1 & Ho1 & Hi1 & Hl1); [|done|].
    { unfold within. simpl. split_and!; [constructor|constructor|set_solver|set_solver]. }
    cbn in Hd1, He1, Hc1, Ho1.
    destruct (adds_edges nls els dir es s1 Hw1 Hd1 He) as (rs2 & s2 & Hr2 & Hw2 & Hd2 & Hc2 & Hn2 & Ho2 & Hnew2 & He2 & Hi2 & Hl2).
    eexists _, s2. split; [exact (run_app2 Hr1 Hr2)|]. split; [done|]. split; [|by rewrite Hc2, Hc1].
    assert (∀ n, a_has_node (sp_g s1) n ↔ ∃ l, (n, l) ∈ ns) as Hns.
    { intros n. split; [|intros [l Hl]; by apply (Hi1 n l)]. intros Hin. destruct (decide (n ∈ ns.*1)) as [([k l]&->&Hk)%elem_of_list_fmap|Hk]; [by exists l|].
      unfold a_has_node in Hin. rewrite Ho1, lookup_empty in Hin; [by destruct Hin|]. intros l Hl. apply Hk. apply elem_of_list_fmap. by exists (n, l). }
    split; [done|..].
    - intros n. by rewrite Hn2, Hns.
    - intros ns1 n l ns2 Heq Hlast. rewrite Ho2; [by apply (Hl1 ns1 n l ns2)|]. apply Hns. exists l. rewrite Heq. set_solver.
    - intros n Hno. apply Hnew2. rewrite Hns. intros [l Hl]. by apply (Hno l).
    - intros x y. unfold a_has_edge, a_edge_at. rewrite Hd2. split.
      + intros Hs. destruct (decide (ekey dir x y ∈ (λ e : N * N * option EL, ekey dir e.1.1 e.1.2) <$> es)) as [([[x'' y''] l'']&Hk&Hk')%elem_of_list_fmap|Hk].
        * by exists x'', y'', l''.
        * rewrite He2 in Hs; [rewrite He1, lookup_empty in Hs; by destruct Hs|]. intros x' y' l' Hin Heq. apply Hk. apply elem_of_list_fmap. by exists (x', y', l').
      + intros (x' & y' & l & Hin & <-). by apply (Hi2 x' y' l).
    - intros es1 x y l es2 Heq Hlast. unfold a_edge_at. rewrite Hd2. by apply (Hl2 es1 x y l es2).
  Qed.
  Lemma adds_gm lt dir nls els ns es : (∀ n l, (n, Some l) ∈ ns → l ∈ nls) → (∀ e l, (e, Some l) ∈ es → l ∈ els) →
    labels_fit lt nls → labels_fit lt els →
    ∃ g A, rmap snd (gm_run dir lt (add_calls ns es) (gm_new : graphmap NL EL)) = Ok g ∧ built_from dir ns es A ∧
      ∀ o, hash_order g o → let V := gm_view dir o g in
        represents V A ∧ answers_missing V A ∧ iterates V ∧ v_edge_count V = length es.
  Proof.
    intros Hn He HN HE. destruct (adds_run dir nls els ns es Hn He) as (rs & s & Hr & Hw & Hb & Hc).
    destruct (built lt dir _ rs s nls els Hr Hw HN HE) as (g & Hg & Hv). exists g, (sp_g s). split; [done|]. split; [done|].
    intros o Ho. rewrite <-Hc. by apply Hv.
  Qed.
End adds.

Section cols.
  Context {NL EL : Type} `{EqDecision NL, EqDecision EL} (it lt : idty) (tn : text NL) (te : text EL).
  Fixpoint edge_pairs {X} (tl : text X) (l : list (string * string)) (s t : option N) (label : option (option X)) : option (N * N * option X) :=
    match l with
    | [] => x ← s; y ← t; Some (x, y, default None label)
    | (k, f) :: l =>
        if decide (k = ":START_ID") then
          match s with None => x ← parse (t_id it) f; edge_pairs tl l (Some x) t label | Some _ => None end
        else if decide (k = ":END_ID") then
          match t with None => y ← parse (t_id it) f; edge_pairs tl l s (Some y) label | Some _ => None end
        else if decide (k = ":TYPE") then
          match label with None => edge_pairs tl l s t (Some (opt_field tl [f]).1) | Some _ => None end
        else None
    end.
  Lemma edge_map_pairs {X} (tl : text X) h r s t label : length r = length h → edge_map it tl h r s t label = edge_pairs tl (zip h r) s t label.
  Proof.
    revert r s t label. induction h as [|k h IH]; intros [|f r] s t label Hl; try done. cbn [edge_map zip zip_with edge_pairs].
    injection Hl as Hl. destruct (decide _); [|destruct (decide _)].
    - destruct s; [done|]. destruct (parse _ f); [|done]. cbn [mbind option_bind]. by apply IH.
    - destruct t; [done|]. destruct (parse _ f); [|done]. cbn [mbind option_bind]. by apply IH.
    - destruct (decide _); [|done]. destruct label; [done|]. cbn [opt_field fst]. by apply IH.
  Qed.
  Lemma edge_pairs_perm {X} (tl : text X) l l' s t label : l ≡ₚ l' → edge_pairs tl l s t label = edge_pairs tl l' s t label.
  Proof.
    intros Hp. revert s t label. induction Hp as [|[k f] l l' Hp IH|[k f] [k' f'] l|l1 l2 l3 _ IH1 _ IH2]; intros s t label; [done| | |].
    - cbn [edge_pairs]. destruct (decide _); [|destruct (decide _)].
      + destruct s; [done|]. destruct (parse _ f); [|done]. cbn [mbind option_bind]. apply IH.
      + destruct t; [done|]. destruct (parse _ f); [|done]. cbn [mbind option_bind]. apply IH.
      + destruct (decide _); [|done]. destruct label; [done|]. apply IH.
    - cbn [edge_pairs]. destruct s, t, label, (parse (t_id it) f), (parse (t_id it) f'); cbn [mbind option_bind];
        repeat case_decide; subst; done.
    - by rewrite IH1.
  Qed.
  Lemma deserialize_columns {B} (record : option row → row → option B) (pairs : list (string * string) → option B) flex t t' :
    (∀ h r, length r = length h → record (Some h) r = pairs (zip h r)) → (∀ l l', l ≡ₚ l' → pairs l = pairs l') →
    same_columns t t' → deserialize record true flex t = deserialize record true flex t'.
  Proof.
    intros Hr Hp (h & rows & h' & rows' & -> & -> & Hrows & Hh). rewrite !deserialize_headers.
    induction Hrows as [|r r' rows rows' (H1 & H2 & H3) _ IH]; [done|]. cbn [fmap list_fmap]. f_equal; [|done].
    unfold row_result. rewrite !bool_decide_eq_true_2, !orb_true_r, !Hr by done. by apply Hp.
  Qed.
  Lemma node_columns flex t t' : same_columns t t' →
    deserialize (node_record it tn) true flex t = deserialize (node_record it tn) true flex t'.
  Proof.
    apply (deserialize_columns _ (λ l, node_pairs it tn l None None)).
    - intros h r Hl. by apply node_map_pairs.
    - intros l l' Hp. by apply node_pairs_perm.
  Qed.
  Lemma edge_columns flex t t' : same_columns t t' →
    deserialize (edge_record it te) true flex t = deserialize (edge_record it te) true flex t'.
  Proof.
    apply (deserialize_columns _ (λ l, edge_pairs te l None None None)).
    - intros h r Hl. by apply edge_map_pairs.
    - intros l l' Hp. by apply edge_pairs_perm.
  Qed.
  Lemma columns_thm dir R F F' g : rd_headers R = true → (∀ p, rd_nodes R = Some p ∨ rd_edges R = p → alike F F' p) →
    csv_node_iter it tn R F' = csv_node_iter it tn R F ∧ csv_edge_iter it te R F' = csv_edge_iter it te R F ∧
    csv_read dir it lt tn te R F' g = csv_read dir it lt tn te R F g.
  Proof.
    intros HR HF. assert (csv_node_iter it tn R F' = csv_node_iter it tn R F) as H1.
    { unfold csv_node_iter. destruct (rd_nodes R) as [p|] eqn:E; [|done]. destruct (HF p) as [->|(t & t' & -> & -> & Hc)]; [by left|done|].
      cbn [mbind option_bind]. by rewrite HR, (node_columns _ t t'). }
    assert (csv_edge_iter it te R F' = csv_edge_iter it te R F) as H2.
    { unfold csv_edge_iter. destruct (HF (rd_edges R)) as [->|(t & t' & -> & -> & Hc)]; [by right|done|].
      cbn [mbind option_bind]. by rewrite HR, (edge_columns _ t t'). }
    split; [done|]. split; [done|]. by apply read_same_items.
  Qed.
  (** A column of another name. *)
  Lemma node_unknown h r i l k : k ∈ h → k ≠ "nodeId:ID"%string → k ≠ ":LABEL"%string → node_map it tn h r i l = None.
  Proof.
    intros Hk H1 H2. revert r i l. induction Hk as [k h|k k' h Hk IH]; intros r i l; cbn [node_map].
    - by rewrite !decide_False by done.
    - case_decide; [destruct i, r as [|f r]; try done; destruct (parse _ f); [|done]; by apply IH|].
      case_decide; [|done]. destruct l; [done|]. destruct (opt_field _ r). by apply IH.
  Qed.
  Lemma edge_unknown h r i j l k : k ∈ h → k ≠ ":START_ID"%string → k ≠ ":END_ID"%string → k ≠ ":TYPE"%string → edge_map it te h r i j l = None.
  Proof.
    intros Hk H1 H2 H3. revert r i j l. induction Hk as [k h|k k' h Hk IH]; intros r i j l; cbn [edge_map].
    - by rewrite !decide_False by done.
    - case_decide; [destruct i, r as [|f r]; try done; destruct (parse _ f); [|done]; by apply IH|].
      case_decide; [destruct j, r as [|f r]; try done; destruct (parse _ f); [|done]; by apply IH|].
      case_decide; [|done]. destruct l; [done|]. destruct (opt_field _ r). by apply IH.
  Qed.
  Lemma all_none {B} (record : option row → row → option B) flex h t : (∀ r, record (Some h) r = None) →
    omap id (deserialize record true flex (h :: t)) = [].
  Proof.
    intros Hr. rewrite deserialize_headers. induction t as [|r t IH]; [done|]. cbn [fmap list_fmap omap list_omap]. unfold row_result at 1.
    rewrite Hr. destruct (_ || _); apply IH.
  Qed.

  (** Reading a headed file without headers: the fields in order; an empty label is parsed too. *)
  Lemma csv_read_graph dir R F ns es nls els :
    csv_node_iter it tn R F = Some ns → csv_edge_iter it te R F = Some es →
    (∀ n l, (n, Some l) ∈ ns → l ∈ nls) → (∀ e l, (e, Some l) ∈ es → l ∈ els) → labels_fit lt nls → labels_fit lt els →
    ∃ g A, csv_read dir it lt tn te R F gm_new = Ok (g, true) ∧ built_from dir ns es A ∧
      ∀ o, hash_order g o → let V := gm_view dir o g in
        represents V A ∧ answers_missing V A ∧ iterates V ∧ v_edge_count V = length es.
  Proof.
    intros Hns Hes Hn He HN HE. destruct (adds_gm lt dir nls els ns es Hn He HN HE) as (g & A & Hg & Hb & Hv).
    exists g, A. split; [|done]. rewrite (read_calls dir it lt tn te R F gm_new ns es Hns Hes).
    destruct (gm_run _ _ _ _) as [[o g']| |]; [|done|done]. by injection Hg as ->.
  Qed.

  (** ** Skipped rows *)
  Lemma some_nil {B} (l : list B) : Some l ≠ Some [] ↔ l ≠ [].
  Proof. naive_solver. Qed.
  Lemma node_iter_single R p (t : table) : rd_nodes R = Some p →
    csv_node_iter it tn R {[p := t]} = Some (omap id (deserialize (node_record it tn) (rd_headers R) (rd_flexible R) t)).
  Proof. intros Hp. unfold csv_node_iter. by rewrite Hp, lookup_singleton. Qed.
  Lemma edge_iter_single R (t : table) :
    csv_edge_iter it te R {[rd_edges R := t]} = Some (omap id (deserialize (edge_record it te) (rd_headers R) (rd_flexible R) t)).
  Proof. unfold csv_edge_iter. by rewrite lookup_singleton. Qed.
  Lemma node_replace dir R p t t' F g : rd_nodes R = Some p → p ≠ rd_edges R → F !! p = Some t →
    omap id (deserialize (node_record it tn) (rd_headers R) (rd_flexible R) t) = omap id (deserialize (node_record it tn) (rd_headers R) (rd_flexible R) t') →
    csv_read dir it lt tn te R (<[p := t']> F) g = csv_read dir it lt tn te R F g.
  Proof.
    intros Hp Hne Ht Heq. apply read_same_items.
    - unfold csv_node_iter. rewrite Hp, lookup_insert, Ht. cbn [mbind option_bind]. by rewrite Heq.
    - unfold csv_edge_iter. by rewrite lookup_insert_ne.
  Qed.
  Lemma edge_replace dir R t t' F g : rd_nodes R ≠ Some (rd_edges R) → F !! rd_edges R = Some t →
    omap id (deserialize (edge_record it te) (rd_headers R) (rd_flexible R) t) = omap id (deserialize (edge_record it te) (rd_headers R) (rd_flexible R) t') →
    csv_read dir it lt tn te R (<[rd_edges R := t']> F) g = csv_read dir it lt tn te R F g.
  Proof.
    intros Hne Ht Heq. apply read_same_items.
    - unfold csv_node_iter. destruct (rd_nodes R) as [p|]; [|done]. rewrite lookup_insert_ne; [done|]. congruence.
    - unfold csv_edge_iter. rewrite lookup_insert, Ht. cbn [mbind option_bind]. by rewrite Heq.
  Qed.
  Lemma filter_ext {B} (P Q : B → Prop) `{∀ x, Decision (P x), ∀ x, Decision (Q x)} (l : list B) : (∀ x, P x ↔ Q x) → filter P l = filter Q l.
  Proof.
    intros Hpq. induction l as [|x l IH]; [done|]. destruct (decide (P x)) as [Hp|Hp].
    - rewrite !filter_cons_True by (done || by apply Hpq). by rewrite IH.
    - rewrite !filter_cons_False by (done || by rewrite <-Hpq). done.
  Qed.
  Lemma skip_node_rows dir R p h t F g : rd_nodes R = Some p → p ≠ rd_edges R → rd_headers R = true → F !! p = Some (h :: t) →
    csv_read dir it lt tn te R (<[p := h :: filter (λ r, csv_node_iter it tn R {[p := [h; r]]} ≠ Some []) t]> F) g = csv_read dir it lt tn te R F g.
  Proof.
    intros Hp Hne Hh Ht. apply (node_replace dir R p (h :: t)); [done..|]. rewrite Hh. etransitivity; [apply (skip_headers _)|]. do 3 f_equal. apply filter_ext.
    intros r. rewrite node_iter_single, some_nil, Hh by done. done.
  Qed.
  Lemma skip_edge_rows dir R h t F g : rd_nodes R ≠ Some (rd_edges R) → rd_headers R = true → F !! rd_edges R = Some (h :: t) →
    csv_read dir it lt tn te R (<[rd_edges R := h :: filter (λ r, csv_edge_iter it te R {[rd_edges R := [h; r]]} ≠ Some []) t]> F) g = csv_read dir it lt tn te R F g.
  Proof.
    intros Hne Hh Ht. apply (edge_replace dir R (h :: t)); [done..|]. rewrite Hh. etransitivity; [apply (skip_headers _)|]. do 3 f_equal. apply filter_ext.
    intros r. rewrite edge_iter_single, some_nil, Hh by done. done.
  Qed.
  Lemma skip_node_rows_flexible dir R p t F g : rd_nodes R = Some p → p ≠ rd_edges R → rd_headers R = false → rd_flexible R = true → F !! p = Some t →
    csv_read dir it lt tn te R (<[p := filter (λ r, csv_node_iter it tn R {[p := [r]]} ≠ Some []) t]> F) g = csv_read dir it lt tn te R F g.
  Proof.
    intros Hp Hne Hh Hf Ht. apply (node_replace dir R p t); [done..|]. rewrite Hh, Hf. etransitivity; [apply (skip_flexible _)|]. do 2 f_equal. apply filter_ext.
    intros r. rewrite node_iter_single, some_nil, Hh, Hf by done. done.
  Qed.
  Lemma skip_edge_rows_flexible dir R t F g : rd_nodes R ≠ Some (rd_edges R) → rd_headers R = false → rd_flexible R = true → F !! rd_edges R = Some t →
    csv_read dir it lt tn te R (<[rd_edges R := filter (λ r, csv_edge_iter it te R {[rd_edges R := [r]]} ≠ Some []) t]> F) g = csv_read dir it lt tn te R F g.
  Proof.
    intros Hne Hh Hf Ht. apply (edge_replace dir R t); [done..|]. rewrite Hh, Hf. etransitivity; [apply (skip_flexible _)|]. do 2 f_equal. apply filter_ext.
    intros r. rewrite edge_iter_single, some_nil, Hh, Hf by done. done.
  Qed.
  (** Without headers the first row fixes the number of fields. *)
  Lemma skip_node_rows_bare dir R p r0 t F g : rd_nodes R = Some p → p ≠ rd_edges R → rd_headers R = false → F !! p = Some (r0 :: t) →
    csv_read dir it lt tn te R (<[p := r0 :: filter (λ r, csv_node_iter it tn R {[p := [r0; r]]} ≠ csv_node_iter it tn R {[p := [r0]]}) t]> F) g = csv_read dir it lt tn te R F g.
  Proof.
    intros Hp Hne Hh Ht. apply (node_replace dir R p (r0 :: t)); [done..|]. rewrite Hh. etransitivity; [apply (skip_bare _)|]. do 3 f_equal. apply filter_ext.
    intros r. rewrite !node_iter_single, Hh by done. split; intros H1 H2; apply H1; [by injection H2|by rewrite H2].
  Qed.
  Lemma skip_edge_rows_bare dir R r0 t F g : rd_nodes R ≠ Some (rd_edges R) → rd_headers R = false → F !! rd_edges R = Some (r0 :: t) →
    csv_read dir it lt tn te R (<[rd_edges R := r0 :: filter (λ r, csv_edge_iter it te R {[rd_edges R := [r0; r]]} ≠ csv_edge_iter it te R {[rd_edges R := [r0]]}) t]> F) g = csv_read dir it lt tn te R F g.
  Proof.
    intros Hne Hh Ht. apply (edge_replace dir R (r0 :: t)); [done..|]. rewrite Hh. etransitivity; [apply (skip_bare _)|]. do 3 f_equal. apply filter_ext.
    intros r. rewrite !edge_iter_single, Hh by done. split; intros H1 H2; apply H1; [by injection H2|by rewrite H2].
  Qed.
  (** ** Which rows are read *)
  Lemma node_row_read R p f x n : rd_nodes R = Some p → parse (t_id it) f = Some n → parse tn x = None →
    csv_node_iter it tn R {[p := if rd_headers R then [node_header; [f; x]] else [[f; x]]]} = Some [(n, None)].
  Proof.
    intros Hp Hf Hx. rewrite node_iter_single by done. f_equal. destruct (rd_headers R).
    - rewrite deserialize_headers. cbn [fmap list_fmap]. unfold row_result. rewrite bool_decide_eq_true_2, orb_true_r by done.
      transitivity (omap id [i ← parse (t_id it) f; Some (i, (opt_field tn [x]).1)]); [done|]. rewrite Hf. cbn. rewrite Hx. by destruct (decide _).
    - rewrite deserialize_bare. cbn [fmap list_fmap node_record node_seq]. rewrite Hf. cbn. by rewrite Hx.
  Qed.
  Lemma edge_row_read R f f' x n m : parse (t_id it) f = Some n → parse (t_id it) f' = Some m → parse te x = None →
    csv_edge_iter it te R {[rd_edges R := if rd_headers R then [edge_header; [f; f'; x]] else [[f; f'; x]]]} = Some [(n, m, None)].
  Proof.
    intros Hf Hf' Hx. rewrite edge_iter_single by done. f_equal. destruct (rd_headers R).
    - rewrite deserialize_headers. cbn [fmap list_fmap]. unfold row_result. rewrite bool_decide_eq_true_2, orb_true_r by done.
      transitivity (omap id [i ← parse (t_id it) f; j ← parse (t_id it) f'; Some (i, j, (opt_field te [x]).1)]); [done|].
      rewrite Hf, Hf'. cbn. rewrite Hx. by destruct (decide _).
    - rewrite deserialize_bare. cbn [fmap list_fmap edge_record edge_seq]. rewrite Hf, Hf'. cbn. by rewrite Hx.
  Qed.
  Lemma unknown_node_column R p F h t k : rd_nodes R = Some p → rd_headers R = true → F !! p = Some (h :: t) →
    k ∈ h → k ≠ "nodeId:ID"%string → k ≠ ":LABEL"%string → csv_node_iter it tn R F = Some [].
  Proof.
    intros Hp Hh Ht Hk H1 H2. unfold csv_node_iter. rewrite Hp, Ht, Hh. cbn [mbind option_bind]. f_equal. apply all_none.
    intros r. by apply (node_unknown h r None None k).
  Qed.
  Lemma unknown_edge_column R F h t k : rd_headers R = true → F !! rd_edges R = Some (h :: t) →
    k ∈ h → k ≠ ":START_ID"%string → k ≠ ":END_ID"%string → k ≠ ":TYPE"%string → csv_edge_iter it te R F = Some [].
  Proof.
    intros Hh Ht Hk H1 H2 H3. unfold csv_edge_iter. rewrite Ht, Hh. cbn [mbind option_bind]. f_equal. apply all_none.
    intros r. by apply (edge_unknown h r None None None k).
  Qed.
End cols.
(** ** Separators *)
Lemma separator_ok s c : csv_separator s = Ok c ↔
  s = "comma"%string ∧ c = ","%char ∨ s = "space"%string ∧ c = " "%char ∨ s = "tab"%string ∧ c = "009"%char ∨ s = String c "".
Proof.
  unfold csv_separator. destruct (decide (s = "comma"%string)) as [->|H1]; [|destruct (decide (s = "space"%string)) as [->|H2]; [|destruct (decide (s = "tab"%string)) as [->|H3]]].
  1-3: split; [intros [= <-]; tauto|]; intros [[? ->]|[[? ->]|[[? ->]|?]]]; done.
  split.
  - destruct s as [|a [|b s]]; [done| |done]. intros [= ->]. tauto.
  - intros [[? _]|[[? _]|[[? _]| ->]]]; done.
Qed.
