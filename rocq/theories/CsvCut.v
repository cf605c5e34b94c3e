(** CSV texts cut short. *)
From Coq Require Import Ascii.
From stdpp Require Import gmap strings.
From Verif Require Import Base BaseFacts Api Spec SpecFacts SpecOps SpecSerde Map GraphMap ViewFacts GraphOpsFacts Csv SpecCsv CsvFacts CsvProps CsvRead CsvText SpecCsvText CsvTextProps CsvTextGraph SpecCsvCut CsvCrash.

Lemma begins_refl s : begins s s.
Proof. exists ""%string. by rewrite sapp_nil. Qed.
Lemma begins_nil s : begins "" s.
Proof. by exists s. Qed.
Lemma begins_cons c p s : begins (String c p) s ↔ ∃ s', s = String c s' ∧ begins p s'.
Proof.
  split; [intros [r ->]; exists (p +:+ r); split; [done|by exists r]|]. intros (s' & -> & r & ->). by exists r.
Qed.
Lemma begins_empty p : begins p "" → p = ""%string.
Proof. destruct p as [|c p]; [done|]. intros (s' & ? & _)%begins_cons. done. Qed.
Lemma begins_String p c s : begins p (String c s) → p = ""%string ∨ ∃ p', p = String c p' ∧ begins p' s.
Proof. destruct p as [|d p]; [by left|]. intros (s' & [= -> ->] & H)%begins_cons. right. by exists p. Qed.
Lemma begins_app p a b : begins p (a +:+ b) → begins p a ∨ ∃ p', p = a +:+ p' ∧ begins p' b.
Proof.
  revert p. induction a as [|c a IH]; intros p H; [right; by exists p|]. rewrite scons_app in H. apply begins_String in H as [->|(p' & -> & H)]; [left; apply begins_nil|].
  apply IH in H as [H|(p'' & -> & H)]; [left; apply begins_cons; by exists a|right; by exists p''].
Qed.
Lemma begins_add c p s : begins p s → begins (String c p) (String c s).
Proof. intros H. apply begins_cons. by exists s. Qed.

Section scan.
  Context (sep : ascii) (Hu : usual sep).
  Lemma cut_quotes f : ∀ cur rec q, begins q (double_quotes f +:+ String c_quote "") → ∃ f', begins f' f ∧ scan sep InQuotes cur rec q = [rec ++ [cur +:+ f']].
  Proof using Hu.
    induction f as [|c f IH]; intros cur rec q Hq.
    - exists ""%string. split; [apply begins_refl|]. rewrite sapp_nil. change (begins q (String c_quote "")) in Hq. apply begins_String in Hq as [->|(q' & -> & ->%begins_empty)]; done.
    - cbn [double_quotes] in Hq. destruct (decide (c = c_quote)) as [->|Hc].
      + rewrite !scons_app in Hq. apply begins_String in Hq as [->|(q' & -> & Hq)]; [exists ""%string; split; [apply begins_nil|by rewrite sapp_nil]|].
        apply begins_String in Hq as [->|(q'' & -> & Hq)]; [exists ""%string; split; [apply begins_nil|by rewrite sapp_nil]|].
        destruct (IH (cur +:+ String c_quote "") rec q'' Hq) as (f' & Hf' & E). exists (String c_quote f'). split; [by apply begins_add|].
        cbn [scan]. rewrite !decide_True by done. rewrite E. by rewrite sapp_assoc.
      + rewrite scons_app in Hq. apply begins_String in Hq as [->|(q' & -> & Hq)]; [exists ""%string; split; [apply begins_nil|by rewrite sapp_nil]|].
        destruct (IH (cur +:+ String c "") rec q' Hq) as (f' & Hf' & E). exists (String c f'). split; [by apply begins_add|].
        cbn [scan]. rewrite decide_False by done. rewrite E. by rewrite sapp_assoc.
  Qed.
  Lemma begins_plain p f : needs_quotes sep f = false → begins p f → needs_quotes sep p = false.
  Proof.
    revert f. induction p as [|c p IH]; intros f Hf Hb; [done|]. apply begins_cons in Hb as (f' & -> & Hb). cbn in *. apply orb_false_iff in Hf as [H1 H2]. rewrite H1. by apply (IH f').
  Qed.
  Lemma cut_field f rec p : begins p (field_text sep f) → ∃ f', begins f' f ∧ scan sep AtField "" rec p = [rec ++ [f']].
  Proof using Hu.
    unfold field_text. destruct (needs_quotes sep f) eqn:Hf.
    - intros [->|(q & -> & Hq)]%begins_String; [exists ""%string; split; [apply begins_nil|done]|].
      destruct (cut_quotes f "" rec q Hq) as (f' & Hf' & E). exists f'. split; [done|]. cbn [scan]. by rewrite decide_True.
    - intros Hb. exists p. split; [done|]. pose proof (begins_plain p f Hf Hb) as Hp. destruct p as [|c p]; [done|].
      rewrite <-(sapp_nil (String c p)) at 1. rewrite scan_first by done. done.
  Qed.
  Lemma cut_fields r : r ≠ [] → ∀ rec p, begins p (fields_text sep r) → ∃ r', cut_row r r' ∧ scan sep AtField "" rec p = [rec ++ r'].
  Proof using Hu.
    induction r as [|f r IH]; [done|]. intros _ rec p Hp. destruct r as [|f2 r].
    - cbn [fields_text] in Hp. destruct (cut_field f rec p Hp) as (f' & Hf & E). exists [f']. split; [by exists 0, f, f'|done].
    - change (begins p (field_text sep f +:+ String sep (fields_text sep (f2 :: r)))) in Hp.
      apply begins_app in Hp as [Hp|(p' & -> & Hp)].
      { destruct (cut_field f rec p Hp) as (f' & Hf & E). exists [f']. split; [by exists 0, f, f'|done]. }
      apply begins_String in Hp as [->|(p'' & -> & Hp)].
      { rewrite sapp_nil. destruct (cut_field f rec (field_text sep f) (begins_refl _)) as (f' & Hf & E). exists [f']. split; [by exists 0, f, f'|done]. }
      rewrite scan_field_sep by (left; apply Hu). destruct (IH ltac:(done) (rec ++ [f]) p'' Hp) as (r' & (j & g & g' & H1 & H2 & ->) & E).
      exists (f :: take j (f2 :: r) ++ [g']). split; [by exists (S j), g, g'|]. rewrite E. by rewrite <-(assoc_L (++)).
  Qed.
  Lemma usual_ok r : r ≠ [] → row_ok sep r.
  Proof using Hu. intros Hr. split; [done|]. left. destruct Hu as (? & ? & ?). done. Qed.
  Lemma cut_record r p : r ≠ [] → begins p (record_text sep r) → p = ""%string ∨ read_table sep p = [r] ∧ p = record_text sep r ∨ ∃ r', cut_row r r' ∧ read_table sep p = [r'].
  Proof using Hu.
    intros Hr Hp. destruct (decide (p = ""%string)) as [->|Hne]; [by left|]. right. unfold record_text in Hp.
    set (s := if decide (fields_text sep r = ""%string) then String c_quote (String c_quote "") else fields_text sep r) in *.
    apply begins_app in Hp as [Hp|(p' & -> & Hp)].
    - right. unfold read_table. destruct (decide (fields_text sep r = ""%string)) as [He|He].
      + subst s. exists [""%string]. rewrite (fields_empty sep r Hr He). split; [exists 0, ""%string, ""%string; split; [done|split; [apply begins_nil|done]]|].
        apply begins_String in Hp as [->|(q & -> & Hp)]; [done|]. apply begins_String in Hp as [->|(q' & -> & ->%begins_empty)]; done.
      + subst s. destruct (cut_fields r Hr [] p Hp) as (r' & Hc & E). exists r'. split; [done|]. destruct p as [|c p]; [done|].
        rewrite at_record_field; [exact E|]. destruct Hp as [t Ht]. rewrite scons_app in Ht. eapply (fields_start sep r c); [by apply usual_ok|apply Hu|exact Ht].
    - apply begins_String in Hp as [->|(q & -> & ->%begins_empty)].
      + right. rewrite sapp_nil. unfold read_table. destruct (decide (fields_text sep r = ""%string)) as [He|He]; subst s.
        * exists [""%string]. rewrite (fields_empty sep r Hr He). split; [exists 0, ""%string, ""%string; split; [done|split; [apply begins_nil|done]]|]. done.
        * destruct (cut_fields r Hr [] (fields_text sep r) (begins_refl _)) as (r' & Hc & E). exists r'. split; [done|]. destruct (fields_text sep r) as [|c t] eqn:Ht; [done|].
          rewrite at_record_field; [exact E|]. eapply (fields_start sep r c); [by apply usual_ok|apply Hu|exact Ht].
      + left. split; [|done]. pose proof (scan_record sep r "" ltac:(apply Hu) (usual_ok r Hr)) as H. rewrite sapp_nil in H. exact H.
  Qed.
  Lemma cut_table t : ∀ p, Forall (λ r, r ≠ []) t → begins p (table_text sep t) → cut_list cut_row t (read_table sep p).
  Proof using Hu.
    induction t as [|r t IH]; intros p Ht Hp.
    - apply begins_empty in Hp as ->. exists 0. by left.
    - apply Forall_cons in Ht as [Hr Ht]. change (begins p (record_text sep r +:+ table_text sep t)) in Hp. apply begins_app in Hp as [Hp|(p' & -> & Hp)].
      + apply cut_record in Hp as [->|[[Hp _]|(r' & Hc & Hp)]]; [exists 0; by left|exists 1; left; by rewrite Hp|exists 0; right; by exists r, r'|done].
      + unfold read_table. rewrite scan_record; [|apply Hu|by apply usual_ok]. fold (read_table sep p'). destruct (IH p' Ht Hp) as (k & Hk). exists (S k).
        destruct Hk as [->|(x & x' & H1 & H2 & ->)]; [by left|]. right. by exists x, x'.
  Qed.
End scan.

Section records.
  Context {B X : Type} (record : option row → row → option B) (wr : X → row) (item : X → B) (h : row) (near : B → B → Prop).
  Lemma headed_rows (l : list X) : (∀ x, x ∈ l → length (wr x) = length h ∧ record (Some h) (wr x) = Some (item x)) →
    omap id (deserialize record true false (h :: (wr <$> l))) = item <$> l.
  Proof.
    intros Hl. destruct l as [|x l]; [done|]. rewrite <-(headed_items record wr item false h) by done. done.
  Qed.
  Lemma cut_deserialize (l : list X) (T : table) : (∀ x, x ∈ l → length (wr x) = length h ∧ record (Some h) (wr x) = Some (item x)) →
    (∀ x r' b, x ∈ l → cut_row (wr x) r' → length r' = length h → record (Some h) r' = Some b → near (item x) b) →
    cut_list cut_row (with_header h (wr <$> l)) T → cut_list near (item <$> l) (omap id (deserialize record true false T)).
  Proof.
    intros Hl Hn (k & HT). destruct (decide (l = [])) as [->|Hne].
    { exists 0. left. cbn in HT. destruct HT as [->|(x & x' & Hx & _)]; [|by rewrite lookup_nil in Hx]. by destruct k. }
    assert (with_header h (wr <$> l) = h :: (wr <$> l)) as Hw by (by destruct l). rewrite Hw in HT.
    destruct k as [|k].
    { exists 0. left. cbn in HT. destruct HT as [->|(x & x' & _ & _ & ->)]; done. }
    cbn [take] in HT. rewrite <-fmap_take in HT.
    assert (∀ x, x ∈ take k l → length (wr x) = length h ∧ record (Some h) (wr x) = Some (item x)) as Hlk.
    { intros x Hx. apply Hl. eapply elem_of_submseteq; [exact Hx|]. apply sublist_submseteq, sublist_take. }
    destruct HT as [->|(x & x' & Hx & Hc & ->)].
    { exists k. left. rewrite headed_rows by done. by rewrite fmap_take. }
    cbn in Hx. apply list_lookup_fmap_inv in Hx as (y & -> & Hy). apply elem_of_list_lookup_2 in Hy as Hin.
    rewrite <-app_comm_cons, (rows_independent record), headed_rows by done.
    rewrite deserialize_headers. cbn [fmap list_fmap omap list_omap]. unfold row_result. cbn [orb]. destruct (bool_decide (length x' = length h)) eqn:Hb.
    - apply bool_decide_eq_true in Hb. unfold id at 1. destruct (record (Some h) x') as [b|] eqn:Hr.
      + exists k. right. exists (item y), b. split; [by rewrite list_lookup_fmap, Hy|]. split; [by eapply Hn|]. by rewrite fmap_take.
      + exists k. left. by rewrite app_nil_r, fmap_take.
    - exists k. left. unfold id at 1. by rewrite app_nil_r, fmap_take.
  Qed.
End records.

Section near.
  Context {L : Type} (it : idty) (tl : text L).
  Lemma cut_opt l f' fs : begins f' (show_label tl l) → ∃ l', cut_label tl l l' ∧ opt_field tl (f' :: fs) = (l', fs).
  Proof.
    intros Hb. unfold opt_field. destruct (decide (f' = ""%string)) as [He|He]; [exists None; split; [by left|done]|].
    destruct (parse tl f') as [y|] eqn:E; [|exists None; split; [by left|done]]. exists (Some y). split; [|done]. right.
    destruct l as [x|]; [|by apply begins_empty in Hb]. by exists x, y, f'.
  Qed.
  Lemma last_cut (r r' : row) n : length r = S n → cut_row r r' → length r' = S n → ∃ f', r' = take n r ++ [f'] ∧ ∃ f, r !! n = Some f ∧ begins f' f.
  Proof.
    intros Hl (j & f & f' & H1 & H2 & ->) Hlen. rewrite app_length, take_length in Hlen. cbn in Hlen. apply lookup_lt_Some in H1 as Hj.
    assert (j = n) as -> by lia. exists f'. split; [done|]. by exists f.
  Qed.
  Lemma near_node_row n l r' b : in_type it n → cut_row (node_row it tl n l) r' → length r' = 2 → node_record it tl (Some node_header) r' = Some b → near_node tl (n, l) b.
  Proof.
    intros Hn Hc Hlen Hr. destruct (last_cut (node_row it tl n l) r' 1 eq_refl Hc Hlen) as (f' & -> & f & Hf & Hb). cbn in Hf. injection Hf as <-.
    change (take 1 (node_row it tl n l) ++ [f']) with [show (t_id it) n; f'] in Hr.
    change (node_record it tl (Some node_header) [show (t_id it) n; f']) with
      (x ← parse (t_id it) (show (t_id it) n); let '(l, fs) := opt_field tl [f'] in Some (x, l)) in Hr.
    rewrite id_text in Hr by done. cbn [mbind option_bind] in Hr. destruct (cut_opt l f' [] Hb) as (l' & Hl' & E). rewrite E in Hr. injection Hr as <-.
    done.
  Qed.
  Lemma near_edge_row s t l r' b : in_type it s → in_type it t → cut_row (edge_row it tl s t l) r' → length r' = 3 → edge_record it tl (Some edge_header) r' = Some b → near_edge tl (s, t, l) b.
  Proof.
    intros Hs Ht Hc Hlen Hr. destruct (last_cut (edge_row it tl s t l) r' 2 eq_refl Hc Hlen) as (f' & -> & f & Hf & Hb). cbn in Hf. injection Hf as <-.
    change (take 2 (edge_row it tl s t l) ++ [f']) with [show (t_id it) s; show (t_id it) t; f'] in Hr.
    change (edge_record it tl (Some edge_header) [show (t_id it) s; show (t_id it) t; f']) with
      (x ← parse (t_id it) (show (t_id it) s); y ← parse (t_id it) (show (t_id it) t); let '(l, fs) := opt_field tl [f'] in Some (x, y, l)) in Hr.
    rewrite !id_text in Hr by done. cbn [mbind option_bind] in Hr. destruct (cut_opt l f' [] Hb) as (l' & Hl' & E). rewrite E in Hr. injection Hr as <-.
    done.
  Qed.
End near.

Section crash.
  Context {NL EL : Type} `{EqDecision NL, EqDecision EL} (it lt : idty) (tn : text NL) (te : text EL).
  Context (V : gview NL EL) (A : agraph NL EL) (nls : list NL) (els : list EL) (HV : represents V A) (Hids : ∀ n, a_has_node A n → in_type it n)
    (Hu : uses_labels A nls els) (Hn : Forall (readable tn) nls) (He : Forall (readable te) els).
  Lemma full_nodes : nodes_of A ((λ n, (n, nlab A n)) <$> v_node_indices V).
  Proof using HV.
    destruct (rp_node_indices _ _ HV) as [H1 H2]. split.
    - rewrite <-list_fmap_compose. unfold compose. cbn. by rewrite list_fmap_id.
    - intros n o. rewrite elem_of_list_fmap. split.
      + intros (n' & [= -> ->] & Hin). apply H2 in Hin as [l Hl]. unfold nlab. by rewrite Hl.
      + intros Hl. exists n. split; [unfold nlab; by rewrite Hl|]. apply H2. by exists o.
  Qed.
  Lemma full_edges es : v_edge_indices V = Ok es → edges_of A ((λ e, (e.1, e.2, elab A e)) <$> es).
  Proof using HV.
    intros Hes. destruct (rp_edge_indices _ _ HV) as (es' & Hes' & H1 & H2). rewrite Hes in Hes'. injection Hes' as <-. split.
    - rewrite <-list_fmap_compose. replace (fst ∘ (λ e, (e.1, e.2, elab A e)) <$> es) with es; [done|]. rewrite <-(list_fmap_id es) at 1. apply list_fmap_ext. by intros i [] _.
    - intros x y o. rewrite elem_of_list_fmap. assert (∀ l, ag_edges A !! (x, y) = Some l → a_edge_at A x y = Some l) as Hk.
      { intros l Hl. unfold a_edge_at. destruct (rp_wf _ _ HV x y) as (-> & _); [by eexists|done]. }
      split.
      + intros ([x' y'] & [= -> -> ->] & Hin). apply H2 in Hin as [l Hl]. cbn. unfold elab. cbn. by rewrite (Hk l Hl).
      + intros Hl. exists (x, y). split; [unfold elab; cbn; by rewrite (Hk o Hl)|]. apply H2. by exists o.
  Qed.
  Lemma rows_nodes ns : rmapl (λ n, let* l := v_node_label V n in Ok (node_row it tn n l)) (v_node_indices V) = Ok ns →
    ns = (λ n, node_row it tn n (nlab A n)) <$> v_node_indices V.
  Proof using HV.
    rewrite (rmapl_ext _ (λ n, Ok (node_row it tn n (nlab A n)))); [|intros n Hin; by rewrite (rep_node_label V A n HV) by (by apply (rp_node_indices _ _ HV))].
    rewrite rmapl_ok_fmap. by intros [= <-].
  Qed.
  Lemma rows_edges ix es : v_edge_indices V = Ok ix → rmapl (λ e, let* l := v_edge_label V e.1 e.2 in Ok (edge_row it te e.1 e.2 l)) ix = Ok es →
    es = (λ e, edge_row it te e.1 e.2 (elab A e)) <$> ix.
  Proof using HV.
    intros Hes. rewrite (rmapl_ext _ (λ e, Ok (edge_row it te e.1 e.2 (elab A e)))); [rewrite rmapl_ok_fmap; by intros [= <-]|].
    intros e Hin. destruct (rp_edge_indices _ _ HV) as (es' & Hes' & Hl). rewrite Hes in Hes'. injection Hes' as <-.
    apply Hl in Hin. apply wf_stored in Hin as [Hin _]; [|apply HV]. by rewrite (rep_edge_label V A _ _ HV Hin).
  Qed.
  Lemma cut_nodes sep a : usual sep → begins a (table_text sep (with_header node_header ((λ n, node_row it tn n (nlab A n)) <$> v_node_indices V))) →
    cut_list (near_node tn) ((λ n, (n, nlab A n)) <$> v_node_indices V) (omap id (deserialize (node_record it tn) true false (read_table sep a))).
  Proof using HV Hids Hu Hn.
    intros Hs Ha. apply (cut_deserialize (node_record it tn) (λ n, node_row it tn n (nlab A n)) (λ n, (n, nlab A n)) node_header).
    - intros n Hin. split; [done|]. apply node_row_ok; [by apply Hids, (rp_node_indices _ _ HV)|].
      intros x Hx. rewrite Forall_forall in Hn. apply Hn. by apply (nlab_uses V A HV nls els n).
    - intros n r' b Hin. apply near_node_row. by apply Hids, (rp_node_indices _ _ HV).
    - apply cut_table; [done| |done]. apply (ok_nonempty sep). apply header_ok; [by apply usual_ok|]. apply Forall_fmap, Forall_forall. intros n _. by apply usual_ok.
  Qed.
  Lemma cut_edges sep b es : usual sep → v_edge_indices V = Ok es → begins b (table_text sep (with_header edge_header ((λ e, edge_row it te e.1 e.2 (elab A e)) <$> es))) →
    cut_list (near_edge te) ((λ e, (e.1, e.2, elab A e)) <$> es) (omap id (deserialize (edge_record it te) true false (read_table sep b))).
  Proof using HV Hids Hu He.
    intros Hs Hes Hb. destruct (rp_edge_indices _ _ HV) as (es' & Hes' & Hl). rewrite Hes in Hes'. injection Hes' as <-.
    assert (∀ e, e ∈ es → in_type it e.1 ∧ in_type it e.2) as Hin.
    { intros [x y] Hk. apply (proj2 Hl) in Hk. apply (rp_wf _ _ HV) in Hk as (_ & Hx & Hy). split; by apply Hids. }
    apply (cut_deserialize (edge_record it te) (λ e, edge_row it te e.1 e.2 (elab A e)) (λ e, (e.1, e.2, elab A e)) edge_header).
    - intros e Hk. split; [done|]. destruct (Hin e Hk). apply edge_row_ok; [done|done|].
      intros l Hlab. rewrite Forall_forall in He. apply He. destruct e as [x y]. by apply (elab_uses V A HV nls els es (x, y)).
    - intros e r' b' Hk. destruct (Hin e Hk). by apply near_edge_row.
    - apply cut_table; [done| |done]. apply (ok_nonempty sep). apply header_ok; [by apply usual_ok|]. apply Forall_fmap, Forall_forall. intros n _. by apply usual_ok.
  Qed.

  Context (Hfn : (N.of_nat (length nls) < id_card lt)%N) (Hfe : (N.of_nat (length els) < id_card lt)%N).
  Lemma cut_split {X} (near : X → X → Prop) full got : cut_list near full got →
    (∀ x', x' ∈ got → x' ∈ full) ∨ ∃ x c, x ∈ full ∧ near x c ∧ ∀ x', x' ∈ got → x' ∈ full ∨ x' = c.
  Proof using.
    assert (∀ k (x : X), x ∈ take k full → x ∈ full) as Hk by (intros k x Hx; rewrite <-(take_drop k full); apply elem_of_app; by left).
    intros (k & [->|(x & c & Hx & Hc & ->)]); [left; intros x'; apply Hk|]. right. exists x, c. split; [by eapply elem_of_list_lookup_2|]. split; [done|].
    intros x' [H|H]%elem_of_app; [left; by eapply Hk|]. right. by apply elem_of_list_singleton.
  Qed.
  Lemma cut_keys {X K} (key : X → K) (near : X → X → Prop) full got : (∀ x x', near x x' → key x' = key x) → cut_list near full got → NoDup (key <$> full) → NoDup (key <$> got).
  Proof using.
    intros Hk (k & [->|(x & c & Hx & Hc & ->)]) Hd.
    all: assert (∀ m, NoDup (take m (key <$> full))) as Ht by (intros m; rewrite <-(take_drop m (key <$> full)) in Hd; by apply NoDup_app in Hd as [Hd _]).
    - rewrite fmap_take. apply Ht.
    - assert (key <$> take k full ++ [c] = take (S k) (key <$> full)) as ->; [|apply Ht].
      rewrite fmap_app, <-fmap_take, (take_S_r full k x Hx), fmap_app. cbn. by rewrite (Hk x c Hc).
  Qed.
  Lemma cut_room {X K} (near : K * option X → K * option X → Prop) full got (ls : list X) : cut_list near full got → (∀ k l, (k, Some l) ∈ full → l ∈ ls) →
    (N.of_nat (length ls) < id_card lt)%N → ∃ ls', (∀ k l, (k, Some l) ∈ got → l ∈ ls') ∧ labels_fit lt ls'.
  Proof using.
    clear Hfn Hfe. intros Hc Hl Hf. apply cut_split in Hc as [Hc|(x & [kc [lc|]] & _ & _ & Hc)].
    - exists ls. split; [intros k l H; by eapply Hl, Hc|]. unfold labels_fit. lia.
    - exists (lc :: ls). split; [|unfold labels_fit; cbn; lia]. intros k l H. apply Hc in H as [H|[= -> ->]]; [right; by eapply Hl|left].
    - exists ls. split; [|unfold labels_fit; lia]. intros k l H. apply Hc in H as [H|[=]]. by eapply Hl.
  Qed.
  Lemma in_split {X K} (key : X → K) (l : list X) x : x ∈ l → NoDup (key <$> l) → ∃ l1 l2, l = l1 ++ x :: l2 ∧ ∀ x', x' ∈ l2 → key x' ≠ key x.
  Proof using.
    intros Hx Hd. apply elem_of_list_split in Hx as (l1 & l2 & ->). exists l1, l2. split; [done|]. intros x' Hx' Hke.
    rewrite fmap_app in Hd. apply NoDup_app in Hd as (_ & _ & Hd). cbn in Hd. apply NoDup_cons in Hd as [Hd _]. apply Hd. rewrite <-Hke. by apply elem_of_list_fmap_1.
  Qed.
  Lemma cut_part nsf esf ns es B : nodes_of A nsf → edges_of A esf → cut_list (near_node tn) nsf ns → cut_list (near_edge te) esf es →
    built_from (ag_dir A) ns es B → nearly_part tn te B A.
  Proof using HV.
    intros [Hn1 Hn2] [He1 He2] Hcn Hce HB. pose proof (rp_wf _ _ HV) as Hwf.
    assert (NoDup ns.*1) as Hdn by (eapply cut_keys; [|exact Hcn|done]; by intros x x' []).
    assert (NoDup es.*1) as Hde by (eapply cut_keys; [|exact Hce|done]; by intros x x' []).
    assert (∀ n l, (n, l) ∈ ns → a_has_node A n) as HnA.
    { intros n l H. apply cut_split in Hcn as [Hc|([n' l'] & c & Hx & Hnear & Hc)].
      - apply Hc, Hn2 in H. by exists l.
      - apply Hc in H as [H| <-]; [apply Hn2 in H; by exists l|]. destruct Hnear as [E _]. cbn in E. subst n'. apply Hn2 in Hx. by exists l'. }
    assert (∀ x y l, (x, y, l) ∈ es → is_Some (ag_edges A !! (x, y))) as HeA.
    { intros x y l H. apply cut_split in Hce as [Hc|([[x' y'] l'] & c & Hx & Hnear & Hc)].
      - apply Hc, He2 in H. by exists l.
      - apply Hc in H as [H| <-]; [apply He2 in H; by exists l|]. destruct Hnear as [E _]. cbn in E. injection E as <- <-. apply He2 in Hx. by exists l'. }
    split.
    - apply HB.
    - intros n H. apply (bf_nodes _ _ _ _ HB) in H as [[l H]|(x & y & l & H & Hxy)]; [by eapply HnA|]. apply HeA, Hwf in H as (_ & Hx & Hy). by destruct Hxy as [-> | ->].
    - intros x y H. apply (bf_edges _ _ _ _ HB) in H as (x' & y' & l & H & Hk). apply HeA in H as H'. apply wf_stored in H' as [H' _]; [|done].
      unfold a_has_edge, a_edge_at in *. cbn in H'. by rewrite <-Hk.
    - assert (∀ n l, ag_nodes B !! n = Some (Some l) → (n, Some l) ∈ ns) as Hlab.
      { intros n l H. destruct (decide (n ∈ ns.*1)) as [Hi|Hi].
        - apply elem_of_list_fmap in Hi as ([n' l'] & E & Hi). cbn in E. subst n'. destruct (in_split fst ns _ Hi Hdn) as (l1 & l2 & -> & Hd).
          rewrite (bf_node_label _ _ _ _ HB l1 n l' l2 eq_refl) in H; [|intros l'' H''; by apply Hd in H'']. injection H as ->. apply elem_of_app. right. left.
        - exfalso. rewrite (bf_other_label _ _ _ _ HB n) in H; [done| |by eexists]. intros l' Hl'. apply Hi. by apply (elem_of_list_fmap_1 fst) in Hl'. }
      apply cut_split in Hcn as [Hc|([n0 o] & [nc c] & Hx & [E Hnear] & Hc)].
      + exists 0%N. intros n l H. left. by apply Hn2, Hc, Hlab.
      + exists n0. intros n l H. apply Hlab, Hc in H as [H|[= -> <-]]; [left; by apply Hn2|]. right. cbn in E. subst nc. split; [done|]. exists o. split; [by apply Hn2|done].
    - assert (∀ x y l, a_edge_at B x y = Some l → ∃ x' y', (x', y', l) ∈ es ∧ ekey (ag_dir A) x' y' = ekey (ag_dir A) x y) as Hlab.
      { intros x y l H. assert (a_has_edge B x y) as H' by (by exists l). apply (bf_edges _ _ _ _ HB) in H' as (x' & y' & l' & Hi & Hk). exists x', y'. split; [|done].
        destruct (in_split fst es _ Hi Hde) as (l1 & l2 & -> & Hd).
        assert (a_edge_at B x' y' = Some l') as Hl'.
        { apply (bf_edge_label _ _ _ _ HB l1 x' y' l' l2 eq_refl). intros x'' y'' l'' H'' Hk''. apply (Hd _ H''). cbn.
          assert (is_Some (ag_edges A !! (x'', y''))) as (K1 & _)%Hwf by (eapply HeA, elem_of_app; right; right; exact H'').
          assert (is_Some (ag_edges A !! (x', y'))) as (K2 & _)%Hwf by (by eapply HeA). congruence. }
        unfold a_edge_at in Hl', H. rewrite (bf_dir _ _ _ _ HB) in Hl', H. rewrite Hk, H in Hl'. by injection Hl' as ->. }
      assert (∀ x y x' y' o, ag_edges A !! (x', y') = Some o → ekey (ag_dir A) x' y' = ekey (ag_dir A) x y → a_edge_at A x y = Some o) as Hat.
      { intros x y x' y' o H Hk. unfold a_edge_at. rewrite <-Hk. destruct (Hwf x' y') as (-> & _); [by exists o|done]. }
      apply cut_split in Hce as [Hc|([[x0 y0] o] & [[xc yc] c] & Hx & [E Hnear] & Hc)].
      + exists 0%N, 0%N. intros x y l H. left. apply Hlab in H as (x' & y' & H & Hk). apply Hc, He2 in H. by eapply Hat.
      + exists x0, y0. cbn in E. injection E as -> ->. intros x y l H. apply Hlab in H as (x' & y' & H & Hk). apply Hc in H as [H|H].
        * left. apply He2 in H. by eapply Hat.
        * right. injection H as -> -> ->. split; [done|]. exists o. split; [|done]. apply He2 in Hx. by eapply Hat.
  Qed.
  Definition cut_reader (pn pe : string) : reader := Reader (Some pn) pe true false.
  Lemma crash_nodes sep pn pe F F' : usual sep → pn ≠ pe → text_crash it tn te V pn pe sep F F' →
    F' !! pn = F !! pn ∨ ∃ full got, nodes_of A full ∧ text_node_iter it tn (Reader (Some pn) pe true false) sep F' = Some got ∧ cut_list (near_node tn) full got.
  Proof using HV Hids Hu Hn.
    intros Hs Hp [->|(a & (ns & Ha & Hns) & Hc)]; [by left|]. right. apply rows_nodes in Hns. subst ns.
    assert (F' !! pn = Some a) as HF. { destruct Hc as [->|(b & _ & ->)]; [by rewrite lookup_insert|]. by rewrite lookup_insert_ne, lookup_insert. }
    eexists _, _. split; [exact full_nodes|]. split; [|by apply (cut_nodes sep a)]. unfold text_node_iter, csv_node_iter. cbn [rd_nodes]. by rewrite lookup_fmap, HF.
  Qed.
  Lemma crash_edges sep pn pe F F' R : usual sep → pn ≠ pe → text_crash it tn te V pn pe sep F F' → rd_edges R = pe → rd_headers R = true → rd_flexible R = false →
    F' !! pe = F !! pe ∨ ∃ full got, edges_of A full ∧ text_edge_iter it te R sep F' = Some got ∧ cut_list (near_edge te) full got.
  Proof using HV Hids Hu He.
    intros Hs Hp Hcr <- HR1 HR2. destruct Hcr as [->|(a & _ & Hc)]; [by left|]. destruct Hc as [->|(b & (ix & es & Hix & Hes & Hb) & ->)]; [left; by rewrite lookup_insert_ne|].
    right. apply (rows_edges ix) in Hes; [|done]. subst es. eexists _, _. split; [by apply (full_edges ix)|]. split; [|by apply (cut_edges sep b ix)].
    unfold text_edge_iter, csv_edge_iter. by rewrite lookup_fmap, lookup_insert, HR1, HR2.
  Qed.
  Lemma crash_graph sep pn pe F F' : usual sep → pn ≠ pe → F !! pn = None → F !! pe = None → text_crash it tn te V pn pe sep F F' →
    ∃ g B, text_read (ag_dir A) it lt tn te (Reader (Some pn) pe true false) sep F' gm_new = Ok (g, bool_decide (is_Some (F' !! pe))) ∧ nearly_part tn te B A ∧
      ∀ o, hash_order g o → represents (gm_view (ag_dir A) o g) B.
  Proof using HV Hids Hu Hn He Hfn Hfe.
    intros Hs Hp HFn HFe Hcr. set (R := Reader (Some pn) pe true false).
    assert (∃ full, nodes_of A full) as [fn Hfulln] by (by eexists; exact full_nodes).
    assert (∃ full, edges_of A full) as [fe Hfulle].
    { destruct (rp_edge_indices _ _ HV) as (es & Hes & _). eexists. by apply (full_edges es). }
    assert (∀ {X} near (l : list X), cut_list near l []) as Hnil by (intros X near l; exists 0; by left).
    assert (∀ full n l, nodes_of A full → (n, Some l) ∈ full → l ∈ nls) as Hln by (intros full n l [_ H] Hi; apply H in Hi; by apply Hu in Hi).
    assert (∀ full e l, edges_of A full → (e, Some l) ∈ full → l ∈ els) as Hle by (intros full [x y] l [_ H] Hi; apply H in Hi; by apply Hu in Hi).
    pose proof (crash_nodes sep pn pe F F' Hs Hp Hcr) as HN. pose proof (crash_edges sep pn pe F F' R Hs Hp Hcr eq_refl eq_refl eq_refl) as HE.
    destruct (F' !! pn) as [a|] eqn:Ha.
    - destruct HN as [HN|(full & ns & Hfull & Hns & Hcut)]; [congruence|].
      destruct (cut_room _ _ _ nls Hcut (λ k l H, Hln full k l Hfull H) Hfn) as (nls' & Hn1 & Hn2).
      destruct (F' !! pe) as [b|] eqn:Hb.
      + destruct HE as [HE|(fulle & es & Hfe' & Hes & Hcute)]; [congruence|].
        destruct (cut_room _ _ _ els Hcute (λ k l H, Hle fulle k l Hfe' H) Hfe) as (els' & He1 & He2).
        destruct (csv_read_graph it lt tn te (ag_dir A) R (read_table sep <$> F') ns es nls' els' Hns Hes Hn1 He1 Hn2 He2) as (g & B & Hg & HB & Hrep).
        exists g, B. split; [exact Hg|]. split; [by eapply cut_part|]. intros o Ho. apply (Hrep o Ho).
      + destruct (adds_gm lt (ag_dir A) nls' ([] : list EL) ns [] Hn1) as (g & B & Hg & HB & Hrep); [by intros ???%elem_of_nil|done|unfold labels_fit; cbn; lia|].
        exists g, B. split; [|split; [by eapply cut_part|]; intros o Ho; apply (Hrep o Ho)].
        unfold text_node_iter, csv_node_iter in Hns. cbn [rd_nodes R] in Hns. rewrite lookup_fmap, Ha in Hns. cbn [fmap option_fmap option_map mbind option_bind] in Hns. apply (inj Some) in Hns.
        unfold text_read, csv_read. cbn [rd_nodes rd_edges R]. rewrite !lookup_fmap, Ha, Hb. cbn [fmap option_fmap option_map].
        rewrite (read_nodes_run (ag_dir A)). subst R. cbn [rd_headers rd_flexible] in Hns |- *. rewrite Hns. unfold add_calls in Hg. cbn [fmap list_fmap] in Hg. rewrite app_nil_r in Hg. rewrite Hg. done.
    - assert (F' = F) as ->.
      { destruct Hcr as [->|(a & _ & [->|(b & _ & ->)])]; [done|by rewrite lookup_insert in Ha|]. by rewrite lookup_insert_ne, lookup_insert in Ha. }
      destruct (adds_gm lt (ag_dir A) ([] : list NL) ([] : list EL) [] []) as (g & B & Hg & HB & Hrep); [by intros ??; set_solver..|unfold labels_fit; cbn; lia|unfold labels_fit; cbn; lia|].
      cbn in Hg. injection Hg as <-. exists gm_new, B. split; [|split; [by eapply cut_part|]; intros o Ho; apply (Hrep o Ho)].
      rewrite HFe. unfold text_read. rewrite (read_missing_nodes (ag_dir A) it lt tn te R _ gm_new pn eq_refl); [done|]. by rewrite lookup_fmap, Ha.
  Qed.
End crash.
