(** CSV: round trip, skipped rows, columns. *)
From Coq Require Import Ascii.
From stdpp Require Import gmap strings.
From Verif Require Import Base BaseFacts Api Spec SpecFacts SpecOps SpecSerde Map GraphMap ViewFacts GraphOps GraphOpsFacts GraphOpsProps Csv SpecCsv CsvFacts.

Section props.
  Context {NL EL : Type} `{EqDecision NL, EqDecision EL} (it lt : idty) (tn : text NL) (te : text EL).
  Implicit Types (V : gview NL EL) (A : agraph NL EL) (g : graphmap NL EL).

  (** ** What is written is read back *)
  Lemma headed_items {X B} (record : option row → row → option B) (wr : X → row) (item : X → B) flex h (l : list X) :
    (∀ x, x ∈ l → length (wr x) = length h ∧ record (Some h) (wr x) = Some (item x)) →
    omap id (deserialize record true flex (with_header h (wr <$> l))) = item <$> l.
  Proof.
    intros Hl. destruct l as [|x l]; [done|]. change (with_header h (wr <$> x :: l)) with (h :: (wr <$> x :: l)).
    rewrite deserialize_headers. revert Hl. generalize (x :: l). clear x l. intros l Hl. induction l as [|x l IH]; [done|].
    cbn [fmap list_fmap omap list_omap]. destruct (Hl x) as [H1 H2]; [left|]. unfold row_result at 1. rewrite H1, bool_decide_eq_true_2 by done.
    rewrite orb_true_r, H2. cbn [id]. f_equal. apply IH. intros y Hy. apply Hl. by right.
  Qed.
  Lemma write_ok V A es pn pe F : represents V A → v_edge_indices V = Ok es →
    csv_write it tn te V pn pe F = Ok (<[pe := with_header edge_header ((λ e, edge_row it te e.1 e.2 (elab A e)) <$> es)]>
      (<[pn := with_header node_header ((λ n, node_row it tn n (nlab A n)) <$> v_node_indices V)]> F)).
  Proof.
    intros HV Hes. unfold csv_write.
    rewrite (rmapl_ext _ (λ n, Ok (node_row it tn n (nlab A n)))); [|intros n Hn; by rewrite (rep_node_label V A n HV) by (by apply (rp_node_indices _ _ HV))].
    rewrite rmapl_ok_fmap. cbn [rbind]. rewrite Hes. cbn [rbind].
    rewrite (rmapl_ext _ (λ e, Ok (edge_row it te e.1 e.2 (elab A e)))); [by rewrite rmapl_ok_fmap|].
    intros e He. destruct (rp_edge_indices _ _ HV) as (es' & Hes' & Hl). rewrite Hes in Hes'. injection Hes' as <-.
    apply Hl in He. apply wf_stored in He as [He _]; [|apply HV]. by rewrite (rep_edge_label V A _ _ HV He).
  Qed.
  Section written.
    Context V A (HV : represents V A) (Hids : ∀ n, a_has_node A n → in_type it n) nls els (Hu : uses_labels A nls els)
      (Hn : Forall (readable tn) nls) (He : Forall (readable te) els).
    Lemma written_nodes flex : omap id (deserialize (node_record it tn) true flex
        (with_header node_header ((λ n, node_row it tn n (nlab A n)) <$> v_node_indices V))) = (λ n, (n, nlab A n)) <$> v_node_indices V.
    Proof using HV Hids Hu Hn.
      apply (headed_items (node_record it tn) (λ n, node_row it tn n (nlab A n))). intros n Hin. split; [done|]. apply node_row_ok.
      - by apply Hids, (rp_node_indices _ _ HV).
      - intros x Hx. rewrite Forall_forall in Hn. apply Hn. by apply (nlab_uses V A HV nls els n).
    Qed.
    Lemma written_edges flex es : v_edge_indices V = Ok es → omap id (deserialize (edge_record it te) true flex
        (with_header edge_header ((λ e, edge_row it te e.1 e.2 (elab A e)) <$> es))) = (λ e, (e.1, e.2, elab A e)) <$> es.
    Proof using HV Hids Hu He.
      intros Hes. apply (headed_items (edge_record it te) (λ e, edge_row it te e.1 e.2 (elab A e))). intros e Hin. split; [done|].
      destruct (rp_edge_indices _ _ HV) as (es' & Hes' & Hl). rewrite Hes in Hes'. injection Hes' as <-. pose proof (proj1 (proj2 Hl e) Hin) as Hk.
      destruct e as [x y]. apply (rp_wf _ _ HV) in Hk as (_ & Hx & Hy). apply edge_row_ok; [by apply Hids|by apply Hids|].
      intros l Hlab. rewrite Forall_forall in He. apply He. by apply (elab_uses V A HV nls els es (x, y)).
    Qed.
  End written.
  Lemma add_calls_copy A ns es : add_calls ((λ n, (n, nlab A n)) <$> ns) ((λ e, (e.1, e.2, elab A e)) <$> es) = node_ops (nlab A) ns ++ edge_ops (elab A) es.
  Proof. unfold add_calls, node_ops, edge_ops. by rewrite <-!list_fmap_compose. Qed.

  Lemma csv_roundtrip V A nls els pn pe flex F :
    represents V A → pn ≠ pe → (∀ n, a_has_node A n → in_type it n) → uses_labels A nls els →
    Forall (readable tn) nls → Forall (readable te) els → labels_fit lt nls → labels_fit lt els →
    ∃ F' g, csv_write it tn te V pn pe F = Ok F' ∧ (∀ p, p ≠ pn → p ≠ pe → F' !! p = F !! p) ∧
      csv_read (ag_dir A) it lt tn te (Reader (Some pn) pe true flex) F' gm_new = Ok (g, true) ∧
      ∀ o, hash_order g o → shows (gm_view (ag_dir A) o g) A.
  Proof.
    intros HV Hp Hids Hu Hn He HN HE. destruct (rp_edge_indices _ _ HV) as (es & Hes & Hl).
    destruct (build_copy V A es nls els HV Hes Hu) as (rs & s & Hrun & Hw & Hg & Hc).
    destruct (built lt (ag_dir A) _ rs s nls els Hrun Hw HN HE) as (g & Hgr & Hshow).
    eexists _, g. split; [by apply (write_ok V A es)|]. split; [intros p H1 H2; by rewrite !lookup_insert_ne|]. split.
    - rewrite (read_calls _ _ _ _ _ _ _ _ ((λ n, (n, nlab A n)) <$> v_node_indices V) ((λ e, (e.1, e.2, elab A e)) <$> es)).
      + rewrite add_calls_copy. destruct (gm_run _ _ _ _) as [[o g']| |]; [|done|done]. by injection Hgr as ->.
      + unfold csv_node_iter. cbn [rd_nodes rd_headers rd_flexible]. rewrite lookup_insert_ne, lookup_insert by done. cbn [mbind option_bind].
        by rewrite (written_nodes V A HV Hids nls els Hu Hn).
      + unfold csv_edge_iter. cbn [rd_edges rd_headers rd_flexible]. rewrite lookup_insert. cbn [mbind option_bind].
        by rewrite (written_edges V A HV Hids nls els Hu He).
    - intros o Ho. destruct (Hshow o Ho) as (H1 & H2 & H3 & H4). rewrite Hg in *. split; [done|]. split; [done|]. split; [done|].
      unfold exact_count. by rewrite H4, Hc.
  Qed.
  (** The empty text is read as no label. *)
  Lemma csv_empty_label n l flex h : in_type it n → show tn l = ""%string → h = node_header →
    csv_node_iter it tn (Reader (Some "n") "e" true flex) {["n" := [h; node_row it tn n (Some l)]]} = Some [(n, None)].
  Proof.
    intros Hn Hl ->. unfold csv_node_iter. cbn [rd_nodes rd_headers rd_flexible]. rewrite lookup_singleton. cbn [mbind option_bind]. f_equal.
    rewrite deserialize_headers. cbn [fmap list_fmap]. unfold row_result. rewrite bool_decide_eq_true_2, orb_true_r by done.
    transitivity (omap id [x ← parse (t_id it) (show (t_id it) n); Some (x, (opt_field tn [show tn l]).1)]); [done|].
    rewrite id_text by done. cbn [mbind option_bind omap list_omap id]. by rewrite Hl.
  Qed.

  (** ** Rows that fail *)
  Section skip.
    Context {B : Type} (record : option row → row → option B) `{EqDecision B}.
    Lemma skip_headers flex h t : omap id (deserialize record true flex (h :: t)) =
      omap id (deserialize record true flex (h :: filter (λ r, omap id (deserialize record true flex [h; r]) ≠ []) t)).
    Proof.
      rewrite !deserialize_headers. symmetry. apply (omap_filter (row_result (record (Some h)) flex (length h))). intros r.
      rewrite deserialize_headers. cbn [fmap list_fmap omap list_omap]. destruct (row_result _ _ _ r); [right|by left]. done.
    Qed.
    Lemma read_rows_flexible e t : read_rows true e t = Some <$> t.
    Proof. revert e. induction t as [|r t IH]; intros [k|]; [done|done| |]; cbn [read_rows orb]; by rewrite IH. Qed.
    Lemma skip_flexible t : omap id (deserialize record false true t) =
      omap id (deserialize record false true (filter (λ r, omap id (deserialize record false true [r]) ≠ []) t)).
    Proof.
      unfold deserialize. rewrite !read_rows_flexible, <-!list_fmap_compose. symmetry.
      apply (omap_filter ((λ r, r ≫= record None) ∘ Some)). intros r. cbn. destruct (record None r); [by right|by left].
    Qed.
    Lemma skip_bare flex r0 t : omap id (deserialize record false flex (r0 :: t)) =
      omap id (deserialize record false flex (r0 :: filter (λ r, omap id (deserialize record false flex [r0; r]) ≠ omap id (deserialize record false flex [r0])) t)).
    Proof.
      rewrite !deserialize_bare.
      assert (∀ l, omap id (record None r0 :: l) = omap id [record None r0] ++ omap id l) as Ha.
      { intros l. cbn. by destruct (record None r0). }
      rewrite (Ha (_ <$> t)), (Ha (_ <$> filter _ t)). f_equal. symmetry.
      apply (omap_filter (row_result (record None) flex (length r0))). intros r. rewrite !deserialize_bare. cbn [fmap list_fmap].
      destruct (row_result _ _ _ r) as [b|] eqn:E; [right|by left]. rewrite (Ha [Some b]), (Ha []). cbn [omap list_omap id].
      rewrite app_nil_r. intros E'. apply (f_equal length) in E'. rewrite app_length in E'. simpl in E'. lia.
    Qed.
    (** Deleting one row. *)
    Lemma rows_independent flex h t1 t2 : omap id (deserialize record true flex (h :: t1 ++ t2)) =
      omap id (deserialize record true flex (h :: t1)) ++ omap id (deserialize record true flex (h :: t2)).
    Proof. rewrite !deserialize_headers, fmap_app. apply omap_app. Qed.
  End skip.

  (** ** Columns *)
  Section columns.
    Context {X : Type} (tl : text X).
    Fixpoint node_pairs (l : list (string * string)) (id : option N) (label : option (option X)) : option (N * option X) :=
      match l with
      | [] => i ← id; Some (i, default None label)
      | (k, f) :: l =>
          if decide (k = "nodeId:ID") then
            match id with None => i ← parse (t_id it) f; node_pairs l (Some i) label | Some _ => None end
          else if decide (k = ":LABEL") then
            match label with None => node_pairs l id (Some (opt_field tl [f]).1) | Some _ => None end
          else None
      end.
    Lemma node_map_pairs h r id label : length r = length h → node_map it tl h r id label = node_pairs (zip h r) id label.
    Proof.
      revert r id label. induction h as [|k h IH]; intros [|f r] id label Hl; try done. cbn [node_map zip zip_with node_pairs].
      injection Hl as Hl. destruct (decide _).
      - destruct id; [done|]. destruct (parse _ f); [|done]. cbn [mbind option_bind]. by apply IH.
      - destruct (decide _); [|done]. destruct label; [done|]. cbn [opt_field fst]. by apply IH.
    Qed.
    Lemma node_pairs_perm l l' id label : l ≡ₚ l' → node_pairs l id label = node_pairs l' id label.
    Proof.
      intros Hp. revert id label. induction Hp as [|[k f] l l' Hp IH|[k f] [k' f'] l|l1 l2 l3 _ IH1 _ IH2]; intros id label; [done| | |].
      - cbn [node_pairs]. destruct (decide _); [destruct id; [done|]; destruct (parse _ f); [|done]; cbn [mbind option_bind]; apply IH|].
        destruct (decide _); [|done]. destruct label; [done|]. apply IH.
      - cbn [node_pairs]. destruct id, label, (parse (t_id it) f), (parse (t_id it) f'); cbn [mbind option_bind];
          repeat case_decide; subst; done.
      - by rewrite IH1.
    Qed.
  End columns.
End props.
