(** Calls on different nodes commute; insertions may come in any order. *)
From Verif Require Import Base BaseFacts Api Spec SpecFacts SpecHist.

Section act.
  Context {NL EL : Type} `{EqDecision NL, EqDecision EL}.
  Implicit Types (A : agraph NL EL) (o : gop NL EL) (h : list (gop NL EL)).

  (** What a call does to the graph. *)
  Inductive prim := PId | PNode (n : N) (l : option NL) | PEdge (x y : N) (l : option EL) | PRemN (n : N) | PRemE (x y : N).
  Definition papply (p : prim) A : agraph NL EL :=
    match p with
    | PId => A
    | PNode n l => a_add_node n l A
    | PEdge x y l => a_add_edge x y l A
    | PRemN n => a_remove_node n A
    | PRemE x y => a_remove_edge x y A
    end.
  Definition pnamed (p : prim) : list N :=
    match p with PId => [] | PNode n _ | PRemN n => [n] | PEdge x y _ | PRemE x y => [x; y] end.
  Definition act o A : option (gout NL EL * prim) :=
    match o with
    | OAddNode n l => Some (RBool (bool_decide (ag_nodes A !! n = None)), PNode n l)
    | OAddEdge x y l => Some (RBool (bool_decide (a_edge_at A x y = None)), PEdge x y l)
    | ORemoveNode n =>
        match ag_nodes A !! n with
        | None => Some (RNode None, PId)
        | Some l => if decide (a_has_edge A n n) then None else Some (RNode (Some (n, l)), PRemN n)
        end
    | ORemoveEdge x y =>
        match a_edge_at A x y with
        | None => Some (REdge None, PId)
        | Some l => Some (REdge (Some (x, y, l)), PRemE x y)
        end
    | OUpdateNodeLabel n l =>
        match ag_nodes A !! n with None => Some (RBool false, PId) | Some _ => Some (RBool true, PNode n l) end
    | OUpdateEdgeLabel x y l =>
        match a_edge_at A x y with None => Some (RBool false, PId) | Some _ => Some (RBool true, PEdge x y l) end
    | _ => None
    end.
  Fixpoint arun h A : option (list (gout NL EL) * agraph NL EL) :=
    match h with
    | [] => Some ([], A)
    | o :: h =>
        match act o A with
        | None => None
        | Some (r, p) => match arun h (papply p A) with None => None | Some (rs, A') => Some (r :: rs, A') end
        end
    end.
  (** The label a call registers, given what it returned. *)
  Definition reg_n (q : gop NL EL * gout NL EL) : option NL :=
    match q with (OAddNode _ l, _) | (OUpdateNodeLabel _ l, RBool true) => l | _ => None end.
  Definition reg_e (q : gop NL EL * gout NL EL) : option EL :=
    match q with (OAddEdge _ _ l, _) | (OUpdateEdgeLabel _ _ l, RBool true) => l | _ => None end.
  Definition reg_all {L} `{EqDecision L} (ls : list L) (new : list (option L)) : list L := foldl (λ acc l, register l acc) ls new.

  Lemma run_act h (s : sstate NL EL) : Forall (λ o, on_graph o = true) h →
    match arun h (sp_g s) with
    | Some (rs, A) => ∃ s', spec_run h s = SOk (rs, s') ∧ sp_g s' = A ∧ length rs = length h ∧
        sp_nls s' = reg_all (sp_nls s) (reg_n <$> zip h rs) ∧ sp_els s' = reg_all (sp_els s) (reg_e <$> zip h rs)
    | None => spec_run h s = SPanic
    end.
  Proof.
    intros Hf. revert s. induction Hf as [|o h Ho Hf IH]; intros s; [by exists s|]. cbn [arun spec_run].
    assert (match act o (sp_g s) with
            | Some (r, p) => ∃ s', spec_step o s = SOk (r, s') ∧ sp_g s' = papply p (sp_g s) ∧
                sp_nls s' = register (reg_n (o, r)) (sp_nls s) ∧ sp_els s' = register (reg_e (o, r)) (sp_els s)
            | None => spec_step o s = SPanic
            end) as Hstep.
    { destruct o; try discriminate Ho; cbn [act spec_step];
        repeat (case_match || case_decide); simplify_eq; try done; (eexists; split; [reflexivity|]; split_and!); done. }
    destruct (act o (sp_g s)) as [[r p]|]; [|by rewrite Hstep]. destruct Hstep as (s1 & Hs & Hg & Hn & He). rewrite Hs.
    specialize (IH s1). rewrite Hg in IH. destruct (arun h (papply p (sp_g s))) as [[rs A]|]; [|by rewrite IH].
    destruct IH as (s' & Hs' & HA & Hl & Hn' & He'). rewrite Hs'. exists s'. split; [done|]. split; [done|]. split; [simpl; lia|].
    cbn [zip zip_with fmap list_fmap reg_all foldl]. rewrite <- Hn, <- He. done.
  Qed.

  Lemma arun_app h1 h2 A : arun (h1 ++ h2) A =
    match arun h1 A with
    | Some (rs1, A1) => match arun h2 A1 with Some (rs2, A2) => Some (rs1 ++ rs2, A2) | None => None end
    | None => None
    end.
  Proof.
    revert A. induction h1 as [|o h1 IH]; intros A; simpl; [by destruct (arun h2 A) as [[??]|]|].
    destruct (act o A) as [[r p]|]; [|done]. rewrite IH. destruct (arun h1 _) as [[rs1 A1]|]; [|done].
    by destruct (arun h2 A1) as [[rs2 A2]|].
  Qed.
  Lemma arun_length h A rs A' : arun h A = Some (rs, A') → length rs = length h.
  Proof.
    revert A rs. induction h as [|o h IH]; intros A rs Hr; simpl in Hr; [by simplify_eq|].
    destruct (act o A) as [[r p]|]; [|done]. destruct (arun h _) as [[rs1 A1]|] eqn:Hh; [|done]. simplify_eq. simpl. f_equal. by eapply IH.
  Qed.

  Definition papart (l l' : list N) : Prop := ∀ n, n ∈ l → n ∈ l' → False.
  Lemma papart_cons n l l' : papart (n :: l) l' ↔ n ∉ l' ∧ papart l l'.
  Proof. unfold papart. set_solver. Qed.
  Lemma papart_sym l l' : papart l l' → papart l' l.
  Proof. unfold papart. naive_solver. Qed.

  (** The calls work pointwise. *)
  Definition pn (p : prim) (k : N) (v : option (option NL)) : option (option NL) :=
    match p with
    | PNode n l => if decide (k = n) then Some l else v
    | PEdge x y _ => if decide (k = x ∨ k = y) then Some (default None v) else v
    | PRemN n => if decide (k = n) then None else v
    | _ => v
    end.
  Definition pe (dir : bool) (p : prim) (e : N * N) (v : option (option EL)) : option (option EL) :=
    match p with
    | PEdge x y l => if decide (ekey dir x y = e) then Some l else v
    | PRemN n => if decide (touches n e) then None else v
    | PRemE x y => if decide (ekey dir x y = e) then None else v
    | _ => v
    end.
  Lemma papart_app_l l1 l2 l : papart (l1 ++ l2) l → papart l1 l ∧ papart l2 l.
  Proof. intros Ha. split; intros n H1 H2; apply (Ha n); [apply elem_of_app; by left|done|apply elem_of_app; by right|done]. Qed.
  Lemma prim_dir p A : ag_dir (papply p A) = ag_dir A.
  Proof. destruct p; simpl; try done. by rewrite !touch_dir. Qed.
  Lemma prim_nodes p A k : ag_nodes (papply p A) !! k = pn p k (ag_nodes A !! k).
  Proof.
    destruct p as [|m l|x y l|m|x y]; simpl; try done.
    - case_decide; subst; [by rewrite lookup_insert|by rewrite lookup_insert_ne].
    - rewrite !touch_nodes. repeat case_decide; subst; try tauto; simpl; try done; naive_solver.
    - case_decide; subst; [by rewrite lookup_delete|by rewrite lookup_delete_ne].
  Qed.
  Lemma prim_edges p A e : ag_edges (papply p A) !! e = pe (ag_dir A) p e (ag_edges A !! e).
  Proof.
    destruct p as [|m l|x y l|m|x y]; cbn [papply pe]; try done.
    - rewrite add_edge_edges. case_decide as He; [rewrite He; by rewrite lookup_insert|by rewrite lookup_insert_ne].
    - cbn [a_remove_node ag_edges]. destruct (ag_edges A !! e) as [v|] eqn:He; case_decide as Ht.
      + apply map_filter_lookup_None. right. intros v' _. simpl. tauto.
      + by apply map_filter_lookup_Some.
      + apply map_filter_lookup_None. by left.
      + apply map_filter_lookup_None. by left.
    - cbn [a_remove_edge ag_edges]. case_decide as He; [rewrite He; by rewrite lookup_delete|by rewrite lookup_delete_ne].
  Qed.
  Lemma agraph_eq A B : ag_dir A = ag_dir B → (∀ k, ag_nodes A !! k = ag_nodes B !! k) → (∀ e, ag_edges A !! e = ag_edges B !! e) → A = B.
  Proof.
    destruct A as [d n e], B as [d' n' e']. simpl. intros -> Hn He. f_equal; by apply map_eq.
  Qed.
  Lemma prim_comm p q A : (∀ k v, pn p k (pn q k v) = pn q k (pn p k v)) →
    (∀ e v, pe (ag_dir A) p e (pe (ag_dir A) q e v) = pe (ag_dir A) q e (pe (ag_dir A) p e v)) →
    papply p (papply q A) = papply q (papply p A).
  Proof.
    intros Hn He. apply agraph_eq.
    - by rewrite !prim_dir.
    - intros k. by rewrite !prim_nodes.
    - intros e. by rewrite !prim_edges, !prim_dir.
  Qed.
  Lemma apart_pn p q k v : papart (pnamed p) (pnamed q) → pn p k (pn q k v) = pn q k (pn p k v).
  Proof.
    intros Ha. pose proof (Ha k) as Hk.
    destruct p, q; simpl in *; try done; repeat case_decide; subst; try done; exfalso; apply Hk; set_solver.
  Qed.
  Lemma apart_pe dir p q e v : papart (pnamed p) (pnamed q) → pe dir p e (pe dir q e v) = pe dir q e (pe dir p e v).
  Proof.
    intros Ha. destruct p, q; simpl in *; try done; repeat case_decide; subst; try done; exfalso;
      repeat match goal with
      | H : touches _ (ekey _ _ _) |- _ => apply ekey_touches in H
      | H : ekey _ _ _ = ekey _ _ _ |- _ => apply ekey_eq in H
      end; unfold papart in Ha; set_unfold in Ha; naive_solver.
  Qed.
  Lemma apart_comm p q A : papart (pnamed p) (pnamed q) → papply p (papply q A) = papply q (papply p A).
  Proof. intros Ha. apply prim_comm; intros; [by apply apart_pn|by apply apart_pe]. Qed.

  Lemma prim_node p A n : n ∉ pnamed p → ag_nodes (papply p A) !! n = ag_nodes A !! n.
  Proof. intros Hn. rewrite prim_nodes. destruct p; simpl in *; try done; case_decide; set_solver. Qed.
  Lemma prim_edge p A x y : x ∉ pnamed p → y ∉ pnamed p → a_edge_at (papply p A) x y = a_edge_at A x y.
  Proof.
    intros Hx Hy. unfold a_edge_at. rewrite prim_edges, prim_dir. destruct p; simpl in *; try done; case_decide as Hd; try done.
    - apply ekey_eq in Hd. set_solver.
    - apply ekey_touches in Hd. set_solver.
    - apply ekey_eq in Hd. set_solver.
  Qed.
  Lemma act_apart o p A : papart (named o) (pnamed p) → act o (papply p A) = act o A.
  Proof.
    intros Ha. assert (∀ n, n ∈ named o → n ∉ pnamed p) as Hn by (intros n H1 H2; by apply (Ha n)).
    destruct o as [n l|x y l|n|x y|n l|x y l|l|l| |n i|x y i]; cbn [act named] in *; try done.
    - by rewrite prim_node by (apply Hn; set_solver).
    - by rewrite prim_edge by (apply Hn; set_solver).
    - rewrite prim_node by (apply Hn; set_solver). destruct (ag_nodes A !! n) as [l|]; [|done].
      assert (a_has_edge (papply p A) n n ↔ a_has_edge A n n) as Hiff.
      { unfold a_has_edge. by rewrite prim_edge by (apply Hn; set_solver). }
      destruct (decide (a_has_edge (papply p A) n n)), (decide (a_has_edge A n n)); tauto.
    - by rewrite prim_edge by (apply Hn; set_solver).
    - by rewrite prim_node by (apply Hn; set_solver).
    - by rewrite prim_edge by (apply Hn; set_solver).
  Qed.
  Lemma act_named o A r p n : act o A = Some (r, p) → n ∈ pnamed p → n ∈ named o.
  Proof.
    destruct o; cbn [act named]; intros Ha Hn; repeat (case_match || case_decide); simplify_eq; simpl in *; done || set_solver.
  Qed.

  Lemma run_prim h p A : papart (h ≫= named) (pnamed p) →
    arun h (papply p A) = match arun h A with Some (rs, A') => Some (rs, papply p A') | None => None end.
  Proof.
    revert A. induction h as [|o h IH]; intros A Ha; [done|]. cbn [mbind list_bind] in Ha. cbn [arun].
    rewrite act_apart by (clear -Ha; first [exact (proj1 (papart_app_l _ _ _ Ha))|exact (proj2 (papart_app_l _ _ _ Ha))]). destruct (act o A) as [[r q]|] eqn:Ho; [|done].
    rewrite (apart_comm q p).
    2:{ intros n Hn Hn'. apply (Ha n); [|done]. apply elem_of_app. left. by eapply act_named. }
    rewrite IH by (clear -Ha; first [exact (proj1 (papart_app_l _ _ _ Ha))|exact (proj2 (papart_app_l _ _ _ Ha))]). by destruct (arun h (papply q A)) as [[rs A']|].
  Qed.
  Lemma act_run o h A rs A' : papart (named o) (h ≫= named) → arun h A = Some (rs, A') → act o A' = act o A.
  Proof.
    revert A rs. induction h as [|o' h IH]; intros A rs Ha Hr; [simpl in Hr; by simplify_eq|]. cbn [mbind list_bind] in Ha. cbn [arun] in Hr.
    destruct (act o' A) as [[r p]|] eqn:Ho'; [|done]. destruct (arun h (papply p A)) as [[rs' A'']|] eqn:Hh; [|done]. simplify_eq.
    rewrite (IH _ _ (papart_sym _ _ (proj2 (papart_app_l _ _ _ (papart_sym _ _ Ha)))) Hh). apply act_apart. intros n Hn Hn'. apply (Ha n Hn), elem_of_app. left. by eapply act_named.
  Qed.
  Lemma run_comm h1 h2 A : papart (h1 ≫= named) (h2 ≫= named) →
    match arun h1 A, arun h2 A with
    | Some (rs1, A1), Some (rs2, A2) => ∃ A', arun h2 A1 = Some (rs2, A') ∧ arun h1 A2 = Some (rs1, A')
    | Some (_, A1), None => arun h2 A1 = None
    | None, Some (_, A2) => arun h1 A2 = None
    | None, None => True
    end.
  Proof.
    revert A. induction h1 as [|o h1 IH]; intros A Ha; cbn [arun].
    - destruct (arun h2 A) as [[rs2 A2]|]; [|done]. by exists A2.
    - cbn [mbind list_bind] in Ha.
      assert (papart (named o) (h2 ≫= named)) as Ha1 by (clear -Ha; first [exact (proj1 (papart_app_l _ _ _ Ha))|exact (proj2 (papart_app_l _ _ _ Ha))]).
      assert (papart (h1 ≫= named) (h2 ≫= named)) as Ha2 by (clear -Ha; first [exact (proj1 (papart_app_l _ _ _ Ha))|exact (proj2 (papart_app_l _ _ _ Ha))]).
      destruct (act o A) as [[r p]|] eqn:Ho.
      + specialize (IH (papply p A) Ha2). rewrite (run_prim h2 p A) in IH.
        2:{ intros n Hn Hn'. apply (Ha1 n); [|done]. by eapply act_named. }
        destruct (arun h2 A) as [[rs2 A2]|] eqn:H2.
        * rewrite (act_run o h2 A rs2 A2 Ha1 H2), Ho. destruct (arun h1 (papply p A)) as [[rs1 A1]|].
          -- destruct IH as (A' & H & H'). exists A'. split; [done|]. by rewrite H'.
          -- by rewrite IH.
        * by destruct (arun h1 (papply p A)) as [[rs1 A1]|].
      + destruct (arun h2 A) as [[rs2 A2]|] eqn:H2; [|done]. by rewrite (act_run o h2 A rs2 A2 Ha1 H2), Ho.
  Qed.
  (** Both orders return the same values and the same graph, or both panic. *)
  Lemma run_swap h1 h2 A : papart (h1 ≫= named) (h2 ≫= named) →
    match arun (h1 ++ h2) A with
    | Some (rs, A') => ∃ rs1 rs2, rs = rs1 ++ rs2 ∧ length rs1 = length h1 ∧ arun (h2 ++ h1) A = Some (rs2 ++ rs1, A')
    | None => arun (h2 ++ h1) A = None
    end.
  Proof.
    intros Ha. pose proof (run_comm h1 h2 A Ha) as Hc. rewrite !arun_app.
    destruct (arun h1 A) as [[rs1 A1]|] eqn:H1, (arun h2 A) as [[rs2 A2]|] eqn:H2.
    - destruct Hc as (A' & -> & ->). exists rs1, rs2. split; [done|]. split; [by eapply arun_length|done].
    - by rewrite Hc.
    - by rewrite Hc.
    - done.
  Qed.

  (** Insertions. *)
  Definition add_prim o : prim := match o with OAddNode n l => PNode n l | OAddEdge x y l => PEdge x y l | _ => PId end.
  Lemma act_add o A : is_add o = true → ∃ r, act o A = Some (r, add_prim o).
  Proof. destruct o; try discriminate; intros _; by eexists. Qed.
  Lemma agree_comm dir o o' A : ag_dir A = dir → is_add o = true → is_add o' = true → agree dir o o' →
    papply (add_prim o) (papply (add_prim o') A) = papply (add_prim o') (papply (add_prim o) A).
  Proof.
    intros Hd Ho Ho' Hag. apply prim_comm; rewrite ?Hd.
    - intros k v. destruct o, o'; try discriminate; simpl in *; repeat case_decide; subst; try done; try naive_solver.
    - intros e v. destruct o, o'; try discriminate; simpl in *; repeat case_decide; subst; try done. f_equal. by apply Hag.
  Qed.
  Definition adds (h : list (gop NL EL)) A : agraph NL EL := foldl (λ A o, papply (add_prim o) A) A h.
  Lemma adds_perm dir h h' A : ag_dir A = dir → Forall (λ o, is_add o = true) h →
    (∀ o o', o ∈ h → o' ∈ h → agree dir o o') → h ≡ₚ h' → adds h A = adds h' A.
  Proof.
    intros Hd Hf Hag Hp. revert A Hd. induction Hp as [|o h h' Hp IH|o o' h|h1 h2 h3 Hp1 IH1 Hp2 IH2]; intros A Hd.
    - done.
    - inversion Hf; subst. simpl. apply IH; [done| |by rewrite prim_dir]. intros ????. apply Hag; by right.
    - inversion Hf as [|?? Ho' Hf']; subst. inversion Hf' as [|?? Ho Hf'']; subst. simpl. f_equal.
      apply (agree_comm (ag_dir A)); [done..|]. apply Hag; [right; by left|by left].
    - rewrite IH1 by done. apply IH2; [by rewrite <- Hp1| |done]. intros o o' Ho Ho'. apply Hag; by rewrite Hp1.
  Qed.
  Lemma arun_adds h A : Forall (λ o, is_add o = true) h → ∃ rs, arun h A = Some (rs, adds h A).
  Proof.
    intros Hf. revert A. induction Hf as [|o h Ho Hf IH]; intros A; [by exists []|]. cbn [arun].
    destruct (act_add o A Ho) as [r ->]. destruct (IH (papply (add_prim o) A)) as [rs Hrs]. exists (r :: rs). by rewrite Hrs.
  Qed.
  Definition edge_add o : bool := match o with OAddEdge _ _ _ => true | _ => false end.
  Lemma spec_adds_count h (s : sstate NL EL) rs s' : Forall (λ o, is_add o = true) h → spec_run h s = SOk (rs, s') →
    sp_count s' = sp_count s + length (filter (λ o, edge_add o = true) h).
  Proof.
    intros Hf. revert s rs. induction Hf as [|o h Ho Hf IH]; intros s rs Hr; simpl in Hr; [simplify_eq; simpl; lia|].
    destruct (spec_step o s) as [[r s1]| |] eqn:Hs; [|done..]. destruct (spec_run h s1) as [[rs1 s2]| |] eqn:Hh; [|done..]. simplify_eq.
    rewrite (IH _ _ Hh). destruct o; try discriminate; simpl in Hs; simplify_eq; rewrite filter_cons; simpl.
    - done.
    - lia.
  Qed.

  (** Label lists. *)
  Lemma register_elem {L} `{EqDecision L} (l : option L) ls x : x ∈ register l ls ↔ x ∈ ls ∨ l = Some x.
  Proof. unfold register. destruct l as [y|]; [|naive_solver]. case_decide; set_solver. Qed.
  Lemma register_NoDup {L} `{EqDecision L} (l : option L) ls : NoDup ls → NoDup (register l ls).
  Proof.
    intros Hn. unfold register. destruct l as [y|]; [|done]. case_decide; [done|]. apply NoDup_app. split; [done|]. split; [set_solver|apply NoDup_singleton].
  Qed.
  Lemma reg_all_elem {L} `{EqDecision L} new (ls : list L) x : x ∈ reg_all ls new ↔ x ∈ ls ∨ Some x ∈ new.
  Proof.
    revert ls. induction new as [|l new IH]; intros ls; simpl; [set_solver|]. rewrite IH, register_elem, elem_of_cons. naive_solver.
  Qed.
  Lemma reg_all_NoDup {L} `{EqDecision L} new (ls : list L) : NoDup ls → NoDup (reg_all ls new).
  Proof. revert ls. induction new as [|l new IH]; intros ls Hn; simpl; [done|]. by apply IH, register_NoDup. Qed.
  Lemma reg_all_perm {L} `{EqDecision L} new new' (ls : list L) : NoDup ls → (∀ l, l ∈ new ↔ l ∈ new') → reg_all ls new ≡ₚ reg_all ls new'.
  Proof.
    intros Hn Hin. apply NoDup_Permutation; [by apply reg_all_NoDup..|]. intros x. by rewrite !reg_all_elem, Hin.
  Qed.
End act.
