From stdpp Require Import gmap strings.
From Verif Require Import Base BaseFacts Api Spec SpecFacts Map MapFacts GraphMap GraphMapFacts GraphMapRefine GraphMapQueries GraphMapSim GraphMapThms
  GraphMapMore Static IntoStatic SpecConn ConnComp ConnCompFacts ConnCompProps Csv Ldbc Release SpecRelease.

Lemma b_sub_checked a b : b_sub true a b = usub a b.
Proof. done. Qed.
Lemma b_incr_checked t x : b_incr true t x = id_incr t x.
Proof. by destruct t. Qed.
Lemma b_sub_ok ch a b c : usub a b = Ok c → b_sub ch a b = Ok c.
Proof. unfold usub, b_sub. by destruct (decide (b ≤ a)). Qed.
Lemma b_incr_ok ch t x y : id_incr t x = Ok y → b_incr ch t x = Ok y.
Proof. unfold id_incr, b_incr. by destruct t; try case_decide. Qed.

Section gm.
  Context {NL EL : Type} `{EqDecision NL, EqDecision EL}.
  Context (ch dir : bool) (lt : idty).
  Implicit Types g : graphmap NL EL.
  Lemma b_step_checked o g : b_step true dir lt o g = gm_step dir lt o g.
  Proof. by destruct o. Qed.
  Lemma b_step_ok o g r g' : gm_step dir lt o g = Ok (r, g') → b_step ch dir lt o g = Ok (r, g').
  Proof.
    destruct o; try done; cbn [gm_step b_step].
    - unfold gm_remove_node, b_remove_node. destruct (g_nodes g !! n) as [node|]; [|done].
      match goal with |- context [rbind _ ?r] => destruct r as [g1| |]; cbn [rbind]; [|done|done] end.
      destruct (usub _ _) as [k| |] eqn:E; cbn [rbind]; [|done|done]. by rewrite (b_sub_ok ch _ _ _ E).
    - unfold gm_remove_edge, b_remove_edge. destruct (gm_has_edge g s t); [|done].
      destruct (g_nodes g !! s) as [ns|]; cbn [unwrap rbind]; [|done]. destruct (nm_remove_edge t ns) as [e ns'].
      match goal with |- context [rbind _ ?r] => destruct r as [g1| |]; cbn [rbind]; [|done|done] end.
      destruct (usub _ _) as [k| |] eqn:E; cbn [rbind]; [|done|done]. by rewrite (b_sub_ok ch _ _ _ E).
  Qed.
  Lemma b_step_panic g n : gm_has_edge g n n = true → b_step ch dir lt (ORemoveNode n) g = Panic.
  Proof.
    intros He. cbn [b_step]. unfold b_remove_node. unfold gm_has_edge in He. destruct (g_nodes g !! n) as [node|] eqn:Hn; [|done].
    assert (n ∈ nm_neighbors node) as Hin.
    { unfold nm_neighbors. apply elem_of_bt_keys. unfold nm_has_neighbor in He. by apply bool_decide_eq_true in He. }
    destruct dir; rewrite (rfold_upd_panic _ (nm_neighbors node) _ n); try done; simpl; apply lookup_delete.
  Qed.
  Lemma b_run_same (h : list (gop NL EL)) : ∀ g s, rel dir (λ _ _ _, True) (λ _ _ _, True) g s → b_run ch dir lt h g = gm_run dir lt h g.
  Proof.
    induction h as [|o h IH]; intros g s Hs; [done|]. cbn [b_run gm_run].
    destruct (skrel_step dir lt g s o Hs) as [(r & g' & s' & E & Hs' & _)|(E & n & -> & Hn)].
    - rewrite E, (b_step_ok o g r g' E). cbn [rbind]. by rewrite (IH g' s' Hs').
    - rewrite E, (b_step_panic g n Hn). done.
  Qed.
  Lemma b_run_init (h : list (gop NL EL)) (nls : list NL) (els : list EL) : NoDup nls → NoDup els →
    b_run ch dir lt h (gm_with_label_map nls els) = gm_run dir lt h (gm_with_label_map nls els).
  Proof. intros Hn He. eapply b_run_same. by apply skrel_init. Qed.
  Lemma b_run_checked (h : list (gop NL EL)) : ∀ g, b_run true dir lt h g = gm_run dir lt h g.
  Proof.
    induction h as [|o h IH]; intros g; [done|]. cbn [b_run gm_run]. rewrite b_step_checked.
    destruct (gm_step dir lt o g) as [[r g']| |]; cbn [rbind]; [|done|done]. by rewrite IH.
  Qed.
End gm.

Section static.
  Context {NL EL : Type} (dir : bool) (lt it : idty).
  Implicit Types (g : graphmap NL EL) (s : isst).
  Lemma b_loop_same ch fuel fuel' max nid s : (max < id_max it)%N → (nid ≤ max + 1)%N →
    N.to_nat (max + 1 - nid) ≤ fuel → N.to_nat (max + 1 - nid) ≤ fuel' →
    b_is_loop ch lt it fuel max nid s = is_loop it lt fuel' max nid s.
  Proof.
    intros Hm. assert (max + 1 < id_card it)%N as Hc. { unfold id_max in Hm. lia. }
    revert fuel' nid s. induction fuel as [|fuel IH]; intros fuel' nid s Hn Hf Hf'.
    - cbn [b_is_loop]. rewrite decide_False by lia. destruct fuel'; cbn [is_loop]; by rewrite decide_False by lia.
    - cbn [b_is_loop]. destruct (decide (nid ≤ max)%N) as [Hl|Hl].
      + destruct fuel' as [|fuel']; [lia|]. cbn [is_loop]. rewrite decide_True by done.
        assert (id_incr it nid = Ok (nid + 1)%N) as E.
        { unfold id_incr. destruct it; [unfold id_card in Hc; lia|..]; by rewrite decide_True by lia. }
        rewrite E, (b_incr_ok ch _ _ _ E). cbn [rbind]. apply IH; lia.
      + destruct fuel'; cbn [is_loop]; by rewrite decide_False by lia.
  Qed.
  Lemma b_loop_forever fuel : ∀ nid s, (nid ≤ id_max it)%N → b_is_loop false lt it fuel (id_max it) nid s = NoFuel.
  Proof.
    assert (0 < id_card it)%N as Hz by (by destruct it).
    induction fuel as [|fuel IH]; intros nid s Hn; cbn [b_is_loop]; rewrite decide_True by done; [done|].
    destruct (b_incr false it nid) as [nid'| |] eqn:E; cbn [rbind].
    - apply IH. unfold b_incr in E. unfold id_max. destruct it; simplify_eq; [lia|..]; case_decide; simplify_eq; lia.
    - unfold b_incr in E. destruct it; try done; by case_decide.
    - unfold b_incr in E. destruct it; try done; by case_decide.
  Qed.
  Lemma b_loop_panic fuel : ∀ nid s, it ≠ TUnit → (nid ≤ id_max it)%N → N.to_nat (id_max it - nid) < fuel →
    b_is_loop true lt it fuel (id_max it) nid s = Panic.
  Proof.
    assert (0 < id_card it)%N as Hz by (by destruct it).
    induction fuel as [|fuel IH]; intros nid s Hu Hn Hf; [lia|]. cbn [b_is_loop]. rewrite decide_True by done.
    destruct (decide (nid = id_max it)) as [->|Hne].
    - assert (b_incr true it (id_max it) = Panic) as ->; [|done]. unfold b_incr, id_max. destruct it; [done|..]; rewrite decide_False; lia || done.
    - assert (b_incr true it nid = Ok (nid + 1)%N) as ->.
      { unfold b_incr. unfold id_max in *. destruct it; [done|..]; rewrite decide_True; lia || done. }
      cbn [rbind]. apply IH; [done|lia|lia].
  Qed.
  Lemma zero_id : id_new it 0 = 0%N.
  Proof. unfold id_new. apply N.mod_0_l. by destruct it. Qed.
  Lemma b_into_same ch g fuel : (∀ n, is_Some (g_nodes g !! n) → (n < id_max it)%N) →
    (∀ n, is_Some (g_nodes g !! n) → N.to_nat n < fuel) →
    b_into_static ch dir lt it fuel g = gm_into_static it lt dir g.
  Proof.
    intros Hn Hf. unfold b_into_static, gm_into_static. pose proof (max_key_spec (g_nodes g)) as Hm.
    destruct (max_key (g_nodes g)) as [max|]; cbn [unwrap rbind]; [|done]. destruct Hm as [Hmax _].
    rewrite zero_id. erewrite b_loop_same; [done|by apply Hn|lia| |lia]. pose proof (Hf max Hmax). lia.
  Qed.
  Lemma max_is g : (∀ n, is_Some (g_nodes g !! n) → (n ≤ id_max it)%N) → is_Some (g_nodes g !! id_max it) →
    max_key (g_nodes g) = Some (id_max it).
  Proof.
    intros Hn Hi. pose proof (max_key_spec (g_nodes g)) as Hm. destruct (max_key (g_nodes g)) as [max|].
    - destruct Hm as [Hmax Hle]. f_equal. apply N.le_antisymm; [by apply Hn|by apply Hle].
    - rewrite Hm in Hi. rewrite lookup_empty in Hi. by destruct Hi.
  Qed.
  Lemma b_into_forever g fuel : (∀ n, is_Some (g_nodes g !! n) → (n ≤ id_max it)%N) → is_Some (g_nodes g !! id_max it) →
    b_into_static false dir lt it fuel g = NoFuel.
  Proof.
    intros Hn Hi. unfold b_into_static. rewrite (max_is g Hn Hi). cbn [unwrap rbind]. rewrite zero_id.
    rewrite b_loop_forever by lia. done.
  Qed.
  Lemma b_into_panic g fuel : it ≠ TUnit → (∀ n, is_Some (g_nodes g !! n) → (n ≤ id_max it)%N) → is_Some (g_nodes g !! id_max it) →
    N.to_nat (id_max it) < fuel → b_into_static true dir lt it fuel g = Panic.
  Proof.
    intros Hu Hn Hi Hf. unfold b_into_static. rewrite (max_is g Hn Hi). cbn [unwrap rbind]. rewrite zero_id.
    rewrite b_loop_panic; [done|done|lia|]. by rewrite N.sub_0_r.
  Qed.
  Lemma b_max_seen (g : sgraph NL EL) :
    b_max_seen_id true it g = sg_max_seen_id it g ∧
    b_max_seen_id false it g = if decide (sg_num_nodes g = 0) then Ok (Some (id_max it)) else sg_max_seen_id it g.
  Proof.
    split; [done|]. unfold b_max_seen_id, sg_max_seen_id, b_sub, usub. destruct (decide (sg_num_nodes g = 0)) as [E0|E0].
    - rewrite E0. rewrite decide_False by lia. cbn [rbind]. do 2 f_equal. unfold id_new, id_max.
      assert (∀ X : N, (0 < X)%N → N.of_nat (N.to_nat X + 0 - 1) = (X - 1)%N) as Hx by (intros; lia).
      rewrite Hx by done. by destruct it.
    - by rewrite !decide_True by lia.
  Qed.
End static.

Section cc.
  Context (ch : bool).
  Lemma b_cc_ok o c c' : cc_step o c = Ok c' → b_cc_step ch o c = Ok c'.
  Proof.
    destruct o as [x y| | | |]; try done. cbn [cc_step b_cc_step]. unfold cc_process, b_cc_process.
    destruct (cc_get_root x _) as [[o c1]| |]; cbn [rbind]; [|done|done]. destruct o as [rx|]; cbn [unwrap rbind]; [|done].
    destruct (cc_get_root y _) as [[o c2]| |]; cbn [rbind]; [|done|done]. destruct o as [ry|]; cbn [unwrap rbind]; [|done].
    case_decide; [done|]. destruct (usub _ _) as [k| |] eqn:E; cbn [rbind]; [|done|done]. by rewrite (b_sub_ok ch _ _ _ E).
  Qed.
  Lemma b_cc_same h : ∀ es c, cinv es c → b_cc_run ch h c = cc_run h c.
  Proof.
    induction h as [|o h IH]; intros es c Hc; [done|]. unfold b_cc_run, cc_run. cbn [rfold].
    change (rbind (λ c, b_cc_run ch h c) (b_cc_step ch o c) = rbind (λ c, cc_run h c) (cc_step o c)).
    assert (b_cc_step ch o c = cc_step o c) as ->.
    { destruct o as [x y| | | |]; try done. destruct (process_spec es c x y Hc) as (c1 & E & _).
      change (cc_step (CEdge x y) c = Ok c1) in E. rewrite E. by apply b_cc_ok. }
    destruct (cc_step o c) as [c'| |] eqn:E; cbn [rbind]; [|done|done].
    eapply (IH (processed_from es [o])).
    destruct (run_inv_from [o] es c Hc) as [_ Hr]. apply Hr. unfold cc_run. cbn [rfold]. by rewrite E.
  Qed.
  Lemma b_cc_same_empty h : b_cc_run ch h cc_empty = cc_run h cc_empty.
  Proof. exact (b_cc_same h [] cc_empty cinv_empty). Qed.
End cc.

Section ldbc.
  Context (it : idty) (nd : ldbc_node).
  Notation state := (graphmap string string * gmap string N)%type.
  Implicit Types (g : graphmap string string) (m : gmap string N).
  Lemma b_ldbc_checked r (st : state) : b_ldbc_add_node true it nd r st = ldbc_add_node it nd r st.
  Proof.
    destruct st as [g m]. unfold b_ldbc_add_node, ldbc_add_node, b_next_id, next_id. by destruct (gm_max_seen_id g) as [i|]; rewrite ?b_incr_checked.
  Qed.
  Lemma add_existing id l g : gm_has_node g id = true →
    ∃ g', gm_add_node it id (Some l) g = Ok (false, g') ∧ (∀ x, gm_has_node g' x = gm_has_node g x) ∧ g_max g' = g_max g ∧
      gm_node_count g' = gm_node_count g.
  Proof.
    intros Hn. unfold gm_add_node, gm_add_node_label.
    destruct (register_snd (g_nlm g) l) as (i & -> & _). cbn [rbind].
    unfold gm_has_node in Hn |- *. cbn [set_nlm g_nodes]. rewrite Hn. apply bool_decide_eq_true in Hn as [x Hx].
    unfold upd_node. cbn [set_nlm g_nodes]. rewrite Hx. cbn [unwrap rbind]. eexists. split; [done|]. cbn [set_nodes g_nodes g_max set_nlm].
    split_and!; [|done|].
    - intros y. apply bool_decide_ext. destruct (decide (y = id)) as [->|Hy]; [by rewrite lookup_insert, Hx|by rewrite lookup_insert_ne].
    - unfold gm_node_count. cbn [set_nodes g_nodes set_nlm]. rewrite map_size_insert, Hx. done.
  Qed.
  Lemma full_next ch g : it ≠ TUnit → gm_max_seen_id g = Some (id_max it) → b_next_id ch it g = if ch then Panic else Ok 0%N.
  Proof.
    intros Hu Hm. unfold b_next_id. rewrite Hm. unfold b_incr, id_max. destruct it; [done|..]; by rewrite decide_False by done.
  Qed.
  Lemma full_row r g m : it ≠ TUnit → all_used it g m → has_fields nd r →
    ∃ key g', key_of nd r = Some key ∧
      b_ldbc_add_node false it nd r (g, m) = Ok (g', match m !! key with Some _ => m | None => <[key := 0%N]> m end) ∧
      all_used it g' (match m !! key with Some _ => m | None => <[key := 0%N]> m end) ∧
      gm_node_count g' = gm_node_count g ∧ (∀ x, gm_has_node g' x = gm_has_node g x).
  Proof.
    intros Hu (Hm & H0 & Hk) [[f Hf] [l Hl]]. unfold key_of, b_ldbc_add_node, field. rewrite Hf, Hl. cbn [fmap option_fmap option_map unwrap rbind].
    rewrite (full_next false g Hu Hm). exists (ln_name nd +:+ f)%string.
    destruct (m !! (ln_name nd +:+ f)%string) as [id|] eqn:Ek; cbn [rbind].
    - destruct (add_existing id l g (Hk _ _ Ek)) as (g' & -> & Hh & Hmx & Hc). cbn [rmap rbind snd]. exists g'.
      split_and!; [done|done| |done|done]. unfold all_used, gm_max_seen_id. rewrite Hmx, !Hh. split_and!; [done|done|]. intros k i Hi. rewrite Hh. by eapply Hk.
    - destruct (add_existing 0%N l g H0) as (g' & -> & Hh & Hmx & Hc). cbn [rmap rbind snd]. exists g'.
      split_and!; [done|done| |done|done]. unfold all_used, gm_max_seen_id. rewrite Hmx, !Hh. split_and!; [done|done|].
      intros k i Hi. rewrite Hh. apply lookup_insert_Some in Hi as [[_ <-]|[_ Hi]]; [done|by eapply Hk].
  Qed.
  Lemma full_rows rs : ∀ g m, it ≠ TUnit → all_used it g m → Forall (has_fields nd) rs →
    ∃ g' m', b_ldbc_add_nodes false it nd rs (g, m) = Ok (g', m') ∧
      gm_node_count g' = gm_node_count g ∧ (∀ x, gm_has_node g' x = gm_has_node g x) ∧
      (∀ k id, m !! k = Some id → m' !! k = Some id) ∧
      (∀ r k, r ∈ rs → key_of nd r = Some k → m !! k = None → m' !! k = Some 0%N).
  Proof.
    induction rs as [|r rs IH]; intros g m Hu Ha Hf.
    - exists g, m. split_and!; [done..|]. intros r k Hr. by apply elem_of_nil in Hr.
    - apply Forall_cons in Hf as [Hr Hf]. destruct (full_row r g m Hu Ha Hr) as (key & g1 & Hkey & E & Ha1 & Hc & Hh).
      destruct (IH _ _ Hu Ha1 Hf) as (g' & m' & E' & Hc' & Hh' & Hk & Hn). exists g', m'.
      unfold b_ldbc_add_nodes in *. cbn [rfold]. rewrite E. cbn [rbind]. rewrite E'. split_and!; [done|congruence| | |].
      + intros x. by rewrite Hh', Hh.
      + intros k id Hi. apply Hk. destruct (m !! key) eqn:Ek; [done|]. rewrite lookup_insert_ne; [done|]. intros ->. congruence.
      + intros r' k Hr' Hk' Hno. apply elem_of_cons in Hr' as [->|Hr'].
        * assert (k = key) as -> by congruence. apply Hk. rewrite Hno. apply lookup_insert.
        * destruct (decide (k = key)) as [->|Hne]; [apply Hk; rewrite Hno; apply lookup_insert|].
          apply (Hn r' k Hr' Hk'). destruct (m !! key); [done|]. by rewrite lookup_insert_ne.
  Qed.
  Lemma full_checked r g m key : it ≠ TUnit → gm_max_seen_id g = Some (id_max it) → key_of nd r = Some key → m !! key = None →
    b_ldbc_add_node true it nd r (g, m) = Panic.
  Proof.
    intros Hu Hm Hk Hno. unfold key_of in Hk. destruct (r !! ln_id nd) as [f|] eqn:Hf; [|done]. cbn in Hk. injection Hk as <-.
    unfold b_ldbc_add_node, field. rewrite Hf. cbn [unwrap rbind]. rewrite Hno, (full_next true g Hu Hm). done.
  Qed.
End ldbc.
