(** Proofs about vary_density (Examples.v). *)
From Coq Require Import Ascii.
From stdpp Require Import gmap strings.
From Verif Require Import Base BaseFacts Api Bytes Spec SpecFacts Map MapFacts GraphMap GraphMapFacts
  GraphMapRefine GraphMapQueries GraphMapSim GraphMapThms GraphMapMore GraphMapFrame ViewFacts Serde SpecSerde SerdeFacts
  Gen GenFacts GraphOpsFacts Csv CsvFacts Pipeline SpecExamples Examples ExamplesFacts Paths PathProps.

(** ** File names *)
Definition no_underscore (s : string) : Prop := Forall (λ c, c ≠ "_"%char) (list_ascii_of_string s).
Lemma digits_no_underscore fuel : ∀ x acc, no_underscore acc → no_underscore (digits fuel x acc).
Proof.
  induction fuel as [|fuel IH]; intros x acc Ha; cbn [digits]; [done|].
  assert (no_underscore (String (ascii_of_N (48 + x mod 10)) acc)) as Hs.
  { unfold no_underscore. cbn [list_ascii_of_string]. constructor; [|done].
    assert (x mod 10 < 10)%N as Hx by (apply N.mod_lt; lia). revert Hx. generalize (x mod 10)%N. intros y Hy.
    assert (y = 0 ∨ y = 1 ∨ y = 2 ∨ y = 3 ∨ y = 4 ∨ y = 5 ∨ y = 6 ∨ y = 7 ∨ y = 8 ∨ y = 9)%N as Hc by lia.
    by repeat (destruct Hc as [->|Hc]; [done|]); subst y. }
  destruct (decide _); [done|]. by apply IH.
Qed.
Lemma split_underscore s : ∀ s' r r', no_underscore s → no_underscore s' → (s +:+ "_" +:+ r = s' +:+ "_" +:+ r')%string → s = s'.
Proof.
  induction s as [|c s IH]; intros [|c' s'] r r' Hs Hs' He; cbn [String.append] in He; [done|..].
  - injection He as He _. unfold no_underscore in Hs'. cbn [list_ascii_of_string] in Hs'. apply Forall_cons in Hs' as [Hs' _]. by rewrite He in Hs'.
  - injection He as He _. unfold no_underscore in Hs. cbn [list_ascii_of_string] in Hs. apply Forall_cons in Hs as [Hs _]. by rewrite He in Hs.
  - injection He as -> He. unfold no_underscore in Hs, Hs'. cbn [list_ascii_of_string] in Hs, Hs'. apply Forall_cons in Hs as [_ Hs]. apply Forall_cons in Hs' as [_ Hs'].
    f_equal. by eapply IH.
Qed.
Lemma show_uint_inj x y : show_uint x = show_uint y → x = y.
Proof.
  intros He. destruct (uint_ok (N.max x y) x) as [_ H1]; [lia|]. destruct (uint_ok (N.max x y) y) as [_ H2]; [lia|]. rewrite He in H1. congruence.
Qed.
Lemma vd_path_inj i o n c c' d d' : vd_path i o n c d = vd_path i o n c' d' → c = c'.
Proof.
  unfold vd_path. intros H. apply join_inj in H; [|by destruct i]. do 4 (apply (inj (String.append _)) in H). apply split_underscore in H; [|apply digits_no_underscore; constructor..].
  apply show_uint_inj in H. lia.
Qed.

(** ** Denser graphs *)
Section denser.
  Context {NL EL : Type}.
  Implicit Types A B : agraph NL EL.
  Lemma denser_refl A : denser 0 A A.
  Proof. split; try done; lia. Qed.
  Lemma denser_trans i j A B C : denser i A B → denser j B C → denser (i + j) A C.
  Proof.
    intros [a1 a2 a3 a4 a5] [b1 b2 b3 b4 b5]. split; try congruence; [| |lia].
    - intros x y Hx. rewrite b3; [by apply a3|]. unfold a_has_edge. by rewrite a3.
    - intros x y Hx Hn. destruct (decide (is_Some (a_edge_at B x y))) as [Hb|Hb]; [|by apply b4].
      rewrite b3 by done. by apply a4.
  Qed.
  Lemma touch_id A x : a_has_node A x → a_touch x A = A.
  Proof. intros [l Hl]. unfold a_touch. by rewrite Hl. Qed.
  Lemma add_edge_denser A x y : ag_dir A = false → a_has_node A x → a_has_node A y → x ≠ y → ¬ a_has_edge A x y → denser 1 A (a_add_edge x y None A).
  Proof.
    intros Hd Hx Hy Hxy Hn. assert (a_add_edge x y None A = AG (ag_dir A) (ag_nodes A) (<[ekey (ag_dir A) x y := None]> (ag_edges A))) as ->.
    { unfold a_add_edge. by rewrite (touch_id A x), (touch_id A y). }
    unfold a_has_edge, a_edge_at in *. rewrite Hd in *. split; cbn [ag_dir ag_nodes ag_edges]; try done; unfold a_has_edge, a_edge_at; cbn [ag_dir ag_edges]; rewrite ?Hd.
    - intros u v Hu. rewrite lookup_insert_ne; [done|]. intros He. by rewrite He in Hn.
    - intros u v Hu Hv. destruct (decide (ekey false x y = ekey false u v)) as [He|He].
      + rewrite He, lookup_insert. split; [done|]. unfold ekey in He. injection He. lia.
      + by rewrite lookup_insert_ne in Hu.
    - unfold a_num_edges. cbn [ag_edges]. rewrite map_size_insert_None; [lia|]. by apply eq_None_not_Some.
  Qed.
  Lemma denser_links i A B : denser i A B → a_links B = a_links A + i.
  Proof.
    intros [h1 h2 h3 h4 h5]. unfold a_links, a_num_edges in *.
    assert (∀ m : gmap (N * N) (option EL), size m = size (filter (λ kv : N * N * option EL, kv.1.1 ≠ kv.1.2) m) + size (filter (λ kv : N * N * option EL, kv.1.1 = kv.1.2) m)) as Hsz.
    { intros m. induction m as [|[x y] v m Hv IH] using map_ind; [done|]. rewrite map_size_insert_None by done. destruct (decide (x = y)) as [E|E].
      - rewrite map_filter_insert_False by (cbn; congruence). rewrite map_filter_insert_True by done. rewrite map_size_insert_None; [rewrite ?(delete_notin m) by done; lia|].
        apply map_filter_lookup_None. by left.
      - rewrite map_filter_insert_True by done. rewrite (map_filter_insert_False (λ kv : N * N * option EL, kv.1.1 = kv.1.2)) by done.
        rewrite map_size_insert_None by (apply map_filter_lookup_None; by left).
        rewrite !(delete_notin m) by done. lia. }
    rewrite (Hsz (ag_edges B)), (Hsz (ag_edges A)) in h5.
    assert (filter (λ kv : N * N * option EL, kv.1.1 = kv.1.2) (ag_edges B) = filter (λ kv : N * N * option EL, kv.1.1 = kv.1.2) (ag_edges A)) as Heq.
    { apply map_eq. intros [x y]. destruct (decide (x = y)) as [->|Hne].
      - assert (∀ m : gmap (N * N) (option EL), filter (λ kv : N * N * option EL, kv.1.1 = kv.1.2) m !! (y, y) = m !! (y, y)) as Hl.
        { intros m. destruct (m !! (y, y)) as [l|] eqn:E; [by apply map_filter_lookup_Some|]. apply map_filter_lookup_None. by left. }
        rewrite !Hl. assert (∀ C : agraph NL EL, ag_edges C !! (y, y) = a_edge_at C y y) as Hc.
        { intros C. unfold a_edge_at, ekey. destruct (ag_dir C); [done|]. by rewrite N.min_id, N.max_id. }
        rewrite !Hc. destruct (decide (is_Some (a_edge_at A y y))) as [Ha|Ha]; [by apply h3|].
        destruct (a_edge_at B y y) as [l|] eqn:E; [|symmetry; by apply eq_None_not_Some].
        exfalso. destruct (h4 y y) as [_ ?]; [by eexists|done|done].
      - rewrite !(proj2 (map_filter_lookup_None _ _ _)); [done|right; intros; cbn; congruence..]. }
    rewrite Heq in h5. lia.
  Qed.

  Context (n : nat) (A : agraph NL EL) (Hwf : ag_wf A) (Hd : ag_dir A = false) (Hn : numbered_below n A).
  Local Notation L := (map_to_list (filter (λ kv : N * N * option EL, kv.1.1 ≠ kv.1.2) (ag_edges A))).*1.
  Lemma link_key x y : (x, y) ∈ L ↔ is_Some (ag_edges A !! (x, y)) ∧ x ≠ y.
  Proof using.
    rewrite elem_of_list_fmap. split.
    - intros ([[u v] l] & [= -> ->] & Hin). apply elem_of_map_to_list in Hin. apply map_filter_lookup_Some in Hin as [Hin Hne]. split; [by eexists|done].
    - intros [[l Hl] Hne]. exists ((x, y), l). split; [done|]. apply elem_of_map_to_list, map_filter_lookup_Some. done.
  Qed.
  Lemma link_lt x y : is_Some (ag_edges A !! (x, y)) → x ≠ y → (x < y ∧ y < N.of_nat n)%N.
  Proof using All.
    intros Hs Hne. destruct (Hwf x y Hs) as (Hk & _ & Hy). rewrite Hd in Hk. unfold ekey in Hk. injection Hk. apply Hn in Hy. lia.
  Qed.
  Lemma links_bound : 2 * a_links A ≤ n * (n - 1).
  Proof using All.
    rewrite <-combos_length. unfold a_links, size, map_size. rewrite <-(fmap_length fst). apply Nat.mul_le_mono_l.
    rewrite <-(fmap_length (λ p, (N.of_nat p.1, N.of_nat p.2)) (tuple_combinations n)). apply submseteq_length, NoDup_submseteq; [apply NoDup_fst_map_to_list|].
    intros [x y] [Hs Hne]%link_key. destruct (link_lt x y Hs Hne) as [H1 H2]. apply elem_of_list_fmap. exists (N.to_nat x, N.to_nat y). cbn [fst snd].
    rewrite !N2Nat.id. split; [done|]. apply elem_of_combos. lia.
  Qed.
  Lemma links_room : 2 * a_links A < n * (n - 1) → ∃ x y, x < n ∧ y < n ∧ x ≠ y ∧ ¬ a_has_edge A (N.of_nat x) (N.of_nat y).
  Proof using Hd.
    intros Hlt. destruct (decide (Forall (λ p, is_Some (ag_edges A !! (N.of_nat p.1, N.of_nat p.2))) (tuple_combinations n))) as [Hall|Hall].
    - exfalso. rewrite <-combos_length in Hlt. assert (length (tuple_combinations n) ≤ a_links A); [|lia].
      unfold a_links, size, map_size. rewrite <-(fmap_length fst (map_to_list (filter _ _))). rewrite <-(fmap_length (λ p, (N.of_nat p.1, N.of_nat p.2)) (tuple_combinations n)).
      apply submseteq_length, NoDup_submseteq; [apply NoDup_fmap; [|apply combos_NoDup]|].
      + intros [a b] [c d] [= ?%Nat2N.inj ?%Nat2N.inj]. congruence.
      + intros [x y] ([a b] & [= -> ->] & Hin)%elem_of_list_fmap. apply link_key. pose proof (proj1 (Forall_forall _ _) Hall _ Hin) as Hs. split; [done|].
        apply elem_of_combos in Hin. lia.
    - apply not_Forall_Exists in Hall; [|apply _]. apply Exists_exists in Hall as ([a b] & Hin & Hno). apply elem_of_combos in Hin. exists a, b. split_and!; [lia..|].
      unfold a_has_edge, a_edge_at. rewrite Hd. unfold ekey. by rewrite N.min_l, N.max_r by lia.
  Qed.
End denser.

(** ** The runs *)
Lemma pigeonhole (n : nat) (M : gset N) : size M = n → (∀ x, x ∈ M → (x < N.of_nat n)%N) → ∀ x, (x < N.of_nat n)%N → x ∈ M.
Proof.
  intros Hs HM x Hx. set (U := list_to_set (N.of_nat <$> seq 0 n) : gset N).
  assert (∀ y, y ∈ U ↔ (y < N.of_nat n)%N) as HU.
  { intros y. unfold U. rewrite elem_of_list_to_set, elem_of_list_fmap. split.
    - intros (k & -> & Hk%elem_of_seq). lia.
    - intros Hy. exists (N.to_nat y). rewrite elem_of_seq. lia. }
  assert (size U = n) as HsU.
  { unfold U. rewrite size_list_to_set; [by rewrite fmap_length, seq_length|]. apply NoDup_fmap; [apply _|apply NoDup_seq]. }
  destruct (decide (x ∈ M)) as [|Hno]; [done|]. exfalso.
  assert ({[x]} ∪ M ⊆ U) as Hsub%subseteq_size by (intros y [->%elem_of_singleton|Hy]%elem_of_union; [by apply HU|apply HU, HM, Hy]).
  rewrite size_union, size_singleton in Hsub by set_solver. lia.
Qed.

Section density.
  Context (h : list (gop string string)) (nls els : list string) (rs : list (gout string string)) (s : sstate string string).
  Context (Hnd : NoDup nls) (Hed : NoDup els) (Hs : spec_run h (s_init false nls els) = SOk (rs, s)).
  Context (HN : labels_fit TU32 (sp_nls s)) (HE : labels_fit TU32 (sp_els s)) (Hid : Forall (in_type TU32) (h ≫= inserted)).
  Context (HPN : vec_of text_fits (sp_nls s)) (HPE : vec_of text_fits (sp_els s)) (Hus : in_usize (a_num_nodes (sp_g s))).
  Local Notation n := (a_num_nodes (sp_g s)).
  Local Notation m := (sp_count s).
  Local Notation lrel := (rel false (@lab_rel string) (@lab_rel string)).

  Record reached (i : nat) (g : dgraph) (s' : sstate string string) : Prop := {
    re_run : ∃ h' rs', spec_run h' (s_init false nls els) = SOk (rs', s') ∧ gm_run false TU32 h' (gm_with_label_map nls els) = Ok (rs', g) ∧
      Forall (in_type TU32) (h' ≫= inserted);
    re_rel : lrel g s';
    re_nls : sp_nls s' = sp_nls s;
    re_els : sp_els s' = sp_els s;
    re_count : sp_count s' = m + i;
    re_denser : denser i (sp_g s) (sp_g s');
  }.
  Lemma reached_0 g : gm_run false TU32 h (gm_with_label_map nls els) = Ok (rs, g) → reached 0 g s.
  Proof using All.
    intros Hg. destruct (label_sim false TU32 h (gm_with_label_map nls els) (s_init false nls els) rs s) as (g1 & Hg1 & H); [by apply rel_init|done..|].
    rewrite Hg in Hg1. injection Hg1 as <-. split; [by exists h, rs|done..|lia|apply denser_refl].
  Qed.
  Lemma reached_view i g s' o : reached i g s' → hash_order g o → represents (gm_view false o g) (sp_g s') ∧ gm_edge_count g = m + i ∧ gm_node_count g = n.
  Proof using.
    intros H Ho. destruct (lrel_view false g s' o (re_rel _ _ _ H) Ho) as (HA & _ & _ & Hc & _). split; [done|].
    split; [rewrite <-(re_count _ _ _ H); exact Hc|]. pose proof (rp_node_count _ _ HA) as Hnc. change (gm_node_count g = a_num_nodes (sp_g s')) in Hnc.
    rewrite Hnc. unfold a_num_nodes. by rewrite (dn_nodes _ _ _ (re_denser _ _ _ H)).
  Qed.
  Lemma reached_order (g : dgraph) : ∃ o, hash_order g o.
  Proof using. exists (map_to_list (g_nodes g)).*1. by unfold hash_order. Qed.
  Lemma reached_wf i g s' : reached i g s' → ag_wf (sp_g s') ∧ ag_dir (sp_g s') = false.
  Proof using.
    intros H. split; [exact (ar_wf _ _ _ _ _ (r_abs _ _ _ _ _ (re_rel _ _ _ H)))|exact (ar_dir _ _ _ _ _ (r_abs _ _ _ _ _ (re_rel _ _ _ H)))].
  Qed.
  Lemma reached_has_edge i g s' x y : reached i g s' → a_has_node (sp_g s') x → gm_has_edge g x y = true ↔ a_has_edge (sp_g s') x y.
  Proof using.
    intros H Hx. destruct (reached_order g) as [o Ho]. destruct (reached_view i g s' o H Ho) as [HA _].
    destruct (rp_has_edge _ _ HA x y Hx) as (b & Hb & Hiff). cbn in Hb. injection Hb as ->. done.
  Qed.
  Lemma reached_node i g s' x : reached i g s' → a_has_node (sp_g s') x ↔ a_has_node (sp_g s) x.
  Proof using. intros H. unfold a_has_node. by rewrite (dn_nodes _ _ _ (re_denser _ _ _ H)). Qed.

  (** Adding one edge. *)
  Lemma reached_add i g s' x y : reached i g s' → a_has_node (sp_g s) x → a_has_node (sp_g s) y → x ≠ y → ¬ a_has_edge (sp_g s') x y →
    ∃ r g' s'', gm_add_edge false TU32 x y None g = Ok (r, g') ∧ reached (S i) g' s'' ∧ denser 1 (sp_g s') (sp_g s'').
  Proof using All.
    intros H Hx Hy Hne Hno. set (s'' := s_add_edge x y None s').
    destruct (re_run _ _ _ H) as (h' & rs' & Hsp & Hgm & Hin).
    assert (spec_run [OAddEdge x y None] s' = SOk ([RBool (bool_decide (a_edge_at (sp_g s') x y = None))], s'')) as H1 by done.
    destruct (label_sim false TU32 [OAddEdge x y None] g s' _ s'' (re_rel _ _ _ H) H1) as (g' & Hg' & Hrel).
    { unfold s'', s_add_edge. cbn [sp_nls]. by rewrite (re_nls _ _ _ H). }
    { unfold s'', s_add_edge. cbn [sp_els register]. by rewrite (re_els _ _ _ H). }
    pose proof Hg' as Hg''. cbn [gm_run gm_step] in Hg''. destruct (gm_add_edge false TU32 x y None g) as [[r g1]| |] eqn:E; [|done..].
    cbn [rmap rbind fst snd] in Hg''. injection Hg'' as _ ->. exists r, g', s''. split; [done|].
    destruct (reached_wf _ _ _ H) as [_ Hd]. assert (denser 1 (sp_g s') (sp_g s'')) as Hden.
    { unfold s'', s_add_edge. cbn [sp_g]. apply add_edge_denser; [done|by apply (reached_node _ _ _ x H)|by apply (reached_node _ _ _ y H)|done|done]. }
    split; [|done]. split.
    - exists (h' ++ [OAddEdge x y None]). eexists. split_and!.
      + rewrite (spec_run_app h' _ _ _ _ Hsp), H1. done.
      + rewrite GraphMapFrame.gm_run_app, Hgm. cbn [rbind]. rewrite Hg'. done.
      + rewrite bind_app, Forall_app. split; [done|]. cbn. destruct (label_sim false TU32 h (gm_with_label_map nls els) (s_init false nls els) rs s) as (g0 & Hg0 & H0); [by apply rel_init|done..|].
        pose proof (history_ids h nls els rs s Hnd Hed Hid g0 Hg0 H0) as Hty. repeat constructor; by apply Hty.
    - done.
    - unfold s'', s_add_edge. cbn [sp_nls]. apply (re_nls _ _ _ H).
    - unfold s'', s_add_edge. cbn [sp_els register]. apply (re_els _ _ _ H).
    - unfold s'', s_add_edge. cbn [sp_count]. rewrite (re_count _ _ _ H). lia.
    - replace (S i) with (i + 1) by lia. eapply denser_trans; [apply (re_denser _ _ _ H)|done].
  Qed.

  Context (Hall : numbered_below n (sp_g s)) (Hpos : n ≠ 0).
  Lemma draw_node R k : a_has_node (sp_g s) (N.of_nat (rng_int R k mod n)).
  Proof using Hall Hpos. apply Hall. pose proof (Nat.mod_upper_bound (rng_int R k) n Hpos). lia. Qed.
  (** The inner loop. *)
  Lemma edge_cases fuel : ∀ R k i g s', reached i g s' →
    vd_edge fuel R n k g = NoFuel ∨ ∃ k' g' s'', vd_edge fuel R n k g = Ok (k', g') ∧ reached (S i) g' s'' ∧ denser 1 (sp_g s') (sp_g s'').
  Proof using All.
    induction fuel as [|fuel IH]; intros R k i g s' H; cbn [vd_edge]; [by left|]. unfold gen_range.
    destruct (negb (bool_decide _) && negb _) eqn:E; [|by apply IH]. right. apply andb_prop in E as [E1 E2].
    apply negb_true_iff, bool_decide_eq_false in E1. apply negb_true_iff in E2.
    destruct (reached_add i g s' _ _ H (draw_node R k) (draw_node R (S k)) E1) as (r & g' & s'' & -> & H2 & H3).
    { intros He. apply (reached_has_edge _ _ _ _ _ H) in He; [congruence|]. apply (reached_node _ _ _ _ H), draw_node. }
    cbn [rbind]. by exists (S (S k)), g', s''.
  Qed.
  Lemma edge_found R j : ∀ k i g s', reached i g s' → let x := rng_int R (k + 2 * j) mod n in let y := rng_int R (k + 2 * j + 1) mod n in
    x ≠ y → ¬ a_has_edge (sp_g s') (N.of_nat x) (N.of_nat y) → vd_edge (S j) R n k g ≠ NoFuel.
  Proof using All.
    induction j as [|j IH]; intros k i g s' H x y Hxy Hno; subst x y; cbn [vd_edge]; unfold gen_range.
    - rewrite Nat.mul_0_r, Nat.add_0_r in *. replace (k + 1) with (S k) in * by lia.
      assert (gm_has_edge g (N.of_nat (rng_int R k mod n)) (N.of_nat (rng_int R (S k) mod n)) = false) as Hg.
      { apply not_true_iff_false. rewrite (reached_has_edge _ _ _ _ _ H); [done|]. apply (reached_node _ _ _ _ H), draw_node. }
      rewrite Hg, bool_decide_false by (intros ?%Nat2N.inj; done). cbn [negb andb].
      destruct (reached_add i g s' _ _ H (draw_node R k) (draw_node R (S k))) as (r & g' & s'' & -> & _); [by intros ?%Nat2N.inj|done|done].
    - destruct (negb (bool_decide _) && negb _) eqn:E.
      + apply andb_prop in E as [E1 E2]. apply negb_true_iff, bool_decide_eq_false in E1. apply negb_true_iff in E2.
        destruct (reached_add i g s' _ _ H (draw_node R k) (draw_node R (S k)) E1) as (r & g' & s'' & -> & _); [|done].
        intros He. apply (reached_has_edge _ _ _ _ _ H) in He; [congruence|]. apply (reached_node _ _ _ _ H), draw_node.
      + apply (IH (S (S k)) i g s' H).
        * by replace (S (S k) + 2 * j) with (k + 2 * S j) by lia.
        * by replace (S (S k) + 2 * j) with (k + 2 * S j) by lia.
  Qed.
  Lemma edges_cases c : ∀ fuel R k i g s', reached i g s' →
    vd_edges c fuel R n (k, g) = NoFuel ∨
    ∃ k' g' s'', vd_edges c fuel R n (k, g) = Ok (k', g') ∧ reached (i + c) g' s'' ∧ denser c (sp_g s') (sp_g s'').
  Proof using All.
    induction c as [|c IH]; intros fuel R k i g s' H; cbn [vd_edges].
    - right. exists k, g, s'. rewrite Nat.add_0_r. split; [done|]. split; [done|apply denser_refl].
    - cbn [fst snd]. destruct (edge_cases fuel R k i g s' H) as [->|(k1 & g1 & s1 & -> & H1 & D1)]; [by left|]. cbn [rbind].
      destruct (IH fuel R k1 (S i) g1 s1 H1) as [->|(k2 & g2 & s2 & -> & H2 & D2)]; [by left|right]. exists k2, g2, s2. split; [done|].
      split; [by replace (i + S c) with (S i + c) by lia|]. change (S c) with (1 + c). by eapply denser_trans.
  Qed.

  (** More attempts do not change a result. *)
  Lemma edge_mono fuel : ∀ fuel' R k (g : dgraph), fuel ≤ fuel' → vd_edge fuel R n k g ≠ NoFuel → vd_edge fuel' R n k g = vd_edge fuel R n k g.
  Proof using Hpos.
    induction fuel as [|fuel IH]; intros [|fuel'] R k g Hle; cbn [vd_edge]; [done..|lia|]. unfold gen_range.
    destruct (negb (bool_decide _) && negb _); [done|]. apply IH. lia.
  Qed.
  Lemma edges_mono c : ∀ fuel fuel' R st, fuel ≤ fuel' → vd_edges c fuel R n st ≠ NoFuel → vd_edges c fuel' R n st = vd_edges c fuel R n st.
  Proof using Hpos.
    induction c as [|c IH]; intros fuel fuel' R [k g] Hle; cbn [vd_edges]; [done|]. cbn [fst snd]. intros Hne.
    destruct (vd_edge fuel R n k g) as [st| |] eqn:E; [| |done].
    - rewrite (edge_mono fuel fuel') by (done || by rewrite E). rewrite E in *. cbn [rbind] in *. by apply IH.
    - rewrite (edge_mono fuel fuel') by (done || by rewrite E). by rewrite E.
  Qed.
  Lemma edges_found c : ∀ R k i g s', reached i g s' → fair R n → 2 * (a_links (sp_g s') + c) ≤ n * (n - 1) → ∃ fuel, vd_edges c fuel R n (k, g) ≠ NoFuel.
  Proof using All.
    induction c as [|c IH]; intros R k i g s' H Hf Hroom; [by exists 0|]. destruct (reached_wf _ _ _ H) as [_ Hd].
    destruct (links_room n (sp_g s') Hd) as (x & y & Hx & Hy & Hxy & Hno); [lia|]. destruct (Hf k x y Hx Hy) as (j & Hj1 & Hj2).
    assert (vd_edge (S j) R n k g ≠ NoFuel) as He by (apply (edge_found R j k i g s' H); rewrite Hj1, Hj2; done).
    destruct (edge_cases (S j) R k i g s' H) as [?|(k1 & g1 & s1 & E & H1 & D1)]; [done|].
    destruct (IH R k1 (S i) g1 s1 H1 Hf) as [fuel Hfuel]. { rewrite (denser_links _ _ _ D1). lia. }
    exists (S j + fuel). cbn [vd_edges fst snd]. rewrite (edge_mono (S j)) by (done || lia). rewrite E. cbn [rbind].
    rewrite (edges_mono c fuel) by (done || lia). done.
  Qed.

  (** The loop over the degrees. *)
  Context (R : rng) (ord : dgraph → list N) (Hord : ∀ g, hash_order g (ord g)) (in_graph name out_dir : string) (Hname : last_component in_graph = Some name).
  Local Notation file := (vd_path name out_dir n).
  Definition written (F : fs) (c d : nat) (B : agraph string string) : Prop :=
    ∃ g', import (c_graphmap TU32 TU32 c_text c_text []) (file c d) F = Some g' ∧
      ∀ o, hash_order g' o → represents (gm_view false o g') B ∧ v_edge_count (gm_view false o g') = c.
  Local Notation step fuel := (vd_step fuel R ord in_graph out_dir n m).
  Lemma step_cases fuel k i g s' F d : reached i g s' → m < wanted n d → in_usize (m + i + (wanted n d - m)) →
    step fuel (k, g, F) d = NoFuel ∨
    ∃ k' g' s'' F', step fuel (k, g, F) d = Ok (k', g', F') ∧ reached (i + (wanted n d - m)) g' s'' ∧ denser (wanted n d - m) (sp_g s') (sp_g s'') ∧
      (∀ p, p ≠ file (m + i + (wanted n d - m)) d → F' !! p = F !! p) ∧ written F' (m + i + (wanted n d - m)) d (sp_g s'').
  Proof using All.
    intros H Hw Hc. unfold vd_step. cbn [fst snd]. fold (wanted n d). rewrite (proj2 (Nat.ltb_lt _ _) Hw). cbn [negb].
    destruct (edges_cases (wanted n d - m) fuel R k i g s' H) as [->|(k' & g' & s'' & -> & H2 & D2)]; [by left|right]. cbn [rbind]. rewrite Hname. cbn [unwrap rbind].
    destruct (reached_order g') as [o Ho]. destruct (reached_view _ _ _ o H2 Ho) as (HA & Hec & Hnc). rewrite Hec, Hnc, Nat.add_assoc.
    eexists k', g', s'', _. split; [done|]. split; [done|]. split; [done|]. split; [intros p Hp; by apply export_other|].
    destruct (re_run _ _ _ H2) as (h' & rs' & Hsp & Hgm & Hin).
    destruct (history_export false TU32 TU32 c_text c_text text_fits text_fits f_text f_text nls els h' rs' s'') as (g1 & Hg1 & Himp); try done.
    { by rewrite (re_nls _ _ _ H2). } { by rewrite (re_els _ _ _ H2). } { by rewrite (re_nls _ _ _ H2). } { by rewrite (re_els _ _ _ H2). }
    { unfold a_num_nodes. by rewrite (dn_nodes _ _ _ (re_denser _ _ _ H2)). } { rewrite (re_count _ _ _ H2). by rewrite Nat.add_assoc. }
    rewrite Hgm in Hg1. injection Hg1 as <-. exists g'. split; [by apply Himp|]. intros o' Ho'. destruct (reached_view _ _ _ o' H2 Ho') as (HA' & Hec' & _).
    split; [done|]. rewrite <-Nat.add_assoc. exact Hec'.
  Qed.
  Lemma step_low fuel st d : ¬ m < wanted n d → step fuel st d = Panic.
  Proof using Hpos. intros Hw. unfold vd_step. fold (wanted n d). by rewrite (proj2 (Nat.ltb_ge _ _)) by lia. Qed.
  Lemma outputs_gt c ds p : Forall (λ d, m < wanted n d) ds → p ∈ outputs file n m c ds → ∃ c' d', c < c' ∧ p = file c' d'.
  Proof using Hpos.
    revert c. induction ds as [|d ds IH]; intros c Hw Hp; cbn [outputs] in Hp; [by apply elem_of_nil in Hp|]. apply Forall_cons in Hw as [Hd Hw].
    apply elem_of_cons in Hp as [->|Hp]; [exists (c + (wanted n d - m)), d; split; [lia|done]|]. destruct (IH _ Hw Hp) as (c' & d' & Hc & ->). exists c', d'. split; [lia|done].
  Qed.
  Lemma written_frame F F' c d B : F' !! file c d = F !! file c d → written F c d B → written F' c d B.
  Proof using Hpos. intros Hf (g' & Hi & Hr). exists g'. split; [|done]. unfold import in *. by rewrite Hf. Qed.
  Lemma added_cons d ds : added n m (d :: ds) = (wanted n d - m) + added n m ds.
  Proof using Hpos. done. Qed.

  Lemma loop_cases fuel ds : ∀ k i g s' F, reached i g s' → Forall (λ d, m < wanted n d) ds → in_usize (m + i + added n m ds) →
    rfold (step fuel) ds (k, g, F) = NoFuel ∨
    ∃ k' g' s'' F', rfold (step fuel) ds (k, g, F) = Ok (k', g', F') ∧ reached (i + added n m ds) g' s'' ∧
      grows (written F') n m (m + i) (sp_g s') ds ∧ ∀ p, p ∉ outputs file n m (m + i) ds → F' !! p = F !! p.
  Proof using All.
    induction ds as [|d ds IH]; intros k i g s' F H Hw Hc; cbn [rfold].
    - right. exists k, g, s', F. split; [done|]. split; [by rewrite Nat.add_0_r|]. split; [constructor|done].
    - apply Forall_cons in Hw as [Hd Hw]. rewrite added_cons in *.
      destruct (step_cases fuel k i g s' F d H Hd) as [->|(k1 & g1 & s1 & F1 & -> & H1 & D1 & HF1 & HW)]; [eapply in_usize_le; [|exact Hc]; lia|by left|]. cbn [rbind].
      destruct (IH k1 (i + (wanted n d - m)) g1 s1 F1 H1 Hw) as [->|(k2 & g2 & s2 & F2 & -> & H2 & G2 & HF2)]; [eapply in_usize_le; [|exact Hc]; lia|by left|right].
      rewrite Nat.add_assoc in G2, HF2. exists k2, g2, s2, F2. split; [done|]. split; [by rewrite Nat.add_assoc|]. split.
      + econstructor; [done|exact D1| |exact G2]. eapply written_frame; [|exact HW]. apply HF2. intros Hp.
        destruct (outputs_gt _ _ _ Hw Hp) as (c' & d' & Hlt & Heq). apply vd_path_inj in Heq. lia.
      + cbn [outputs]. intros p Hp. apply not_elem_of_cons in Hp as [Hp1 Hp2]. rewrite HF2 by done. by apply HF1.
  Qed.
  Lemma loop_low fuel ds : ∀ k i g s' F, reached i g s' → in_usize (m + i + added n m ds) → ¬ Forall (λ d, m < wanted n d) ds →
    ∀ r, rfold (step fuel) ds (k, g, F) ≠ Ok r.
  Proof using All.
    induction ds as [|d ds IH]; intros k i g s' F H Hc Hw r; cbn [rfold]; [by destruct Hw|]. rewrite added_cons in Hc.
    destruct (decide (m < wanted n d)) as [Hd|Hd]; [|by rewrite step_low].
    destruct (step_cases fuel k i g s' F d H Hd) as [->|(k1 & g1 & s1 & F1 & -> & H1 & _)]; [eapply in_usize_le; [|exact Hc]; lia|done|]. cbn [rbind].
    apply (IH k1 (i + (wanted n d - m)) g1 s1 F1 H1); [eapply in_usize_le; [|exact Hc]; lia|]. intros Hw'. apply Hw. by constructor.
  Qed.
  Lemma step_mono fuel fuel' st d : fuel ≤ fuel' → step fuel st d ≠ NoFuel → step fuel' st d = step fuel st d.
  Proof using Hpos.
    intros Hle. unfold vd_step. destruct (negb _); [done|]. intros Hne. rewrite (edges_mono _ fuel fuel'); [done|done|]. intros E. by rewrite E in Hne.
  Qed.
  Lemma loop_mono ds : ∀ fuel fuel' st, fuel ≤ fuel' → rfold (step fuel) ds st ≠ NoFuel → rfold (step fuel') ds st = rfold (step fuel) ds st.
  Proof using Hpos.
    induction ds as [|d ds IH]; intros fuel fuel' st Hle; cbn [rfold]; [done|]. intros Hne.
    rewrite (step_mono fuel fuel') by (done || by intros E; rewrite E in Hne). destruct (step fuel st d); [|done..]. cbn [rbind] in *. by apply IH.
  Qed.
  Lemma loop_found ds : ∀ k i g s' F, reached i g s' → Forall (λ d, m < wanted n d) ds → in_usize (m + i + added n m ds) → fair R n →
    2 * (a_links (sp_g s') + added n m ds) ≤ n * (n - 1) → ∃ fuel, rfold (step fuel) ds (k, g, F) ≠ NoFuel.
  Proof using All.
    induction ds as [|d ds IH]; intros k i g s' F H Hw Hc Hf Hroom; [by exists 0|]. apply Forall_cons in Hw as [Hd Hw]. rewrite added_cons in *.
    destruct (edges_found (wanted n d - m) R k i g s' H Hf) as [fuel1 Hf1]; [lia|].
    assert (step fuel1 (k, g, F) d ≠ NoFuel) as Hs1.
    { unfold vd_step. cbn [fst snd]. fold (wanted n d). rewrite (proj2 (Nat.ltb_lt _ _) Hd). cbn [negb]. rewrite Hname. by destruct (vd_edges _ fuel1 R n (k, g)) as [[]| |]. }
    destruct (step_cases fuel1 k i g s' F d H Hd) as [?|(k1 & g1 & s1 & F1 & E & H1 & D1 & _)]; [eapply in_usize_le; [|exact Hc]; lia|done|].
    destruct (IH k1 (i + (wanted n d - m)) g1 s1 F1 H1 Hw) as [fuel2 Hf2]; [eapply in_usize_le; [|exact Hc]; lia|done|rewrite (denser_links _ _ _ D1); lia|].
    exists (fuel1 + fuel2). cbn [rfold]. rewrite (step_mono fuel1) by (done || lia). rewrite E. cbn [rbind]. rewrite (loop_mono ds fuel2) by (done || lia). done.
  Qed.
End density.

Lemma grows_wanted ok n m c (A : agraph string string) ds : grows ok n m c A ds → Forall (λ d, m < wanted n d) ds.
Proof. induction 1; by constructor. Qed.

Section program.
  Context (h : list (gop string string)) (nls els : list string) (rs : list (gout string string)) (s : sstate string string).
  Context (Hnd : NoDup nls) (Hed : NoDup els) (Hs : spec_run h (s_init false nls els) = SOk (rs, s)).
  Context (HN : labels_fit TU32 (sp_nls s)) (HE : labels_fit TU32 (sp_els s)) (Hid : Forall (in_type TU32) (h ≫= inserted)).
  Context (HPN : vec_of text_fits (sp_nls s)) (HPE : vec_of text_fits (sp_els s)) (Hus : in_usize (a_num_nodes (sp_g s))) (Hcus : in_usize (sp_count s)).
  Local Notation n := (a_num_nodes (sp_g s)).
  Local Notation m := (sp_count s).
  Context (R : rng) (ord : dgraph → list N) (Hord : ∀ g, hash_order g (ord g)) (in_graph out_dir : string).
  Context (ord0 : list N) (g : dgraph) (Hg : gm_run false TU32 h (gm_with_label_map nls els) = Ok (rs, g)) (Hord0 : hash_order g ord0).
  Local Notation start F := (export in_graph (enc (c_graphmap TU32 TU32 c_text c_text ord0) g) F).

  Lemma start_import F o : import (c_graphmap TU32 TU32 c_text c_text o) in_graph (start F) = Some g.
  Proof using All.
    destruct (history_export false TU32 TU32 c_text c_text text_fits text_fits f_text f_text nls els h rs s) as (g0 & Hg0 & Himp); try done.
    rewrite Hg in Hg0. injection Hg0 as <-. by apply Himp.
  Qed.
  Lemma start_facts : gm_node_count g = n ∧ gm_edge_count g = m ∧ g_max g = sp_max s ∧ ∀ x, a_has_node (sp_g s) x → ∃ k, sp_max s = Some k ∧ (x ≤ k)%N.
  Proof using All.
    destruct (label_sim false TU32 h (gm_with_label_map nls els) (s_init false nls els) rs s) as (g1 & Hg1 & H); [by apply rel_init|done..|].
    rewrite Hg in Hg1. injection Hg1 as <-. destruct (lrel_view false g s ord0 H Hord0) as (HA & _ & _ & Hc & Hm & _).
    split; [exact (rp_node_count _ _ HA)|]. split; [exact Hc|]. split; [by injection Hm|].
    intros x Hx. exact (r_bound _ _ _ _ _ H x Hx).
  Qed.
  Lemma start_dense : n ≠ 0 → sp_max s = Some (N.of_nat (n - 1)) → numbered_below n (sp_g s).
  Proof using All.
    intros Hn Hmax. destruct start_facts as (_ & _ & _ & Hb).
    assert (∀ x, a_has_node (sp_g s) x → (x < N.of_nat n)%N) as Hlt. { intros x Hx. destruct (Hb x Hx) as (k & Hk & Hle). rewrite Hmax in Hk. injection Hk as <-. lia. }
    intros x. split; [apply Hlt|]. intros Hx. apply elem_of_dom, (pigeonhole n (dom (ag_nodes (sp_g s)))); [apply size_dom| |done].
    intros y Hy%elem_of_dom. by apply Hlt.
  Qed.
  Lemma density_unfold fuel ds F : n ≠ 0 → sp_max s = Some (N.of_nat (n - 1)) →
    vary_density fuel R ord in_graph out_dir ds (start F) = rmap snd (rfold (vd_step fuel R ord in_graph out_dir n m) ds (0, g, start F)).
  Proof using All.
    intros Hn Hmax. unfold vary_density. rewrite start_import. cbn [unwrap rbind]. destruct start_facts as (-> & -> & -> & _).
    rewrite decide_False, Hmax by done. cbn [unwrap rbind]. unfold usub. rewrite decide_True by lia. cbn [rbind].
    rewrite decide_False; [done|]. unfold id_id. rewrite Nat2N.id. tauto.
  Qed.
  Lemma density_rejects fuel ds F : n = 0 ∨ sp_max s ≠ Some (N.of_nat (n - 1)) → vary_density fuel R ord in_graph out_dir ds (start F) = Panic.
  Proof using All.
    intros Hbad. unfold vary_density. rewrite start_import. cbn [unwrap rbind]. destruct start_facts as (-> & -> & -> & _).
    destruct (decide (n = 0)) as [?|Hn]; [done|]. destruct Hbad as [?|Hbad]; [done|]. destruct (sp_max s) as [k|]; [|done]. cbn [unwrap rbind].
    unfold usub. rewrite decide_True by lia. cbn [rbind]. rewrite decide_True; [done|]. unfold id_id. intros Hk. apply Hbad. f_equal. lia.
  Qed.
  Context (name : string) (Hname : last_component in_graph = Some name) (Hn : n ≠ 0) (Hmax : sp_max s = Some (N.of_nat (n - 1))).
  Local Notation file := (vd_path name out_dir n).
  Local Notation written := (written s name out_dir).

  Lemma density_ok fuel ds F F' : in_usize (m + added n m ds) → vary_density fuel R ord in_graph out_dir ds (start F) = Ok F' →
    grows (written F') n m m (sp_g s) ds ∧ ∀ p, p ∉ outputs file n m m ds → F' !! p = start F !! p.
  Proof using All.
    intros Hc Hv. rewrite density_unfold in Hv by done. pose proof (start_dense Hn Hmax) as Hall.
    pose proof (reached_0 h nls els rs s Hnd Hed Hs HN HE Hid HPN HPE Hus g Hg) as H0.
    destruct (decide (Forall (λ d, m < wanted n d) ds)) as [Hw|Hw].
    - destruct (loop_cases h nls els rs s Hnd Hed Hs HN HE Hid HPN HPE Hus Hall Hn R ord Hord in_graph name out_dir Hname fuel ds 0 0 g s (start F) H0 Hw)
        as [E|(k' & g' & s'' & F2 & E & _ & G & HF)]; [by rewrite Nat.add_0_r|by rewrite E in Hv|].
      rewrite E in Hv. cbn in Hv. injection Hv as <-. by rewrite Nat.add_0_r in G, HF.
    - exfalso. destruct (rfold _ ds (0, g, start F)) as [r| |] eqn:E; [|done..].
      eapply (loop_low h nls els rs s Hnd Hed Hs HN HE Hid HPN HPE Hus Hall Hn R ord Hord in_graph name out_dir Hname fuel ds 0 0 g s (start F) H0); [by rewrite Nat.add_0_r|done|exact E].
  Qed.
  Lemma density_cases fuel ds F : in_usize (m + added n m ds) → Forall (λ d, m < wanted n d) ds →
    vary_density fuel R ord in_graph out_dir ds (start F) = NoFuel ∨ ∃ F', vary_density fuel R ord in_graph out_dir ds (start F) = Ok F'.
  Proof using All.
    intros Hc Hw. rewrite density_unfold by done. pose proof (start_dense Hn Hmax) as Hall.
    pose proof (reached_0 h nls els rs s Hnd Hed Hs HN HE Hid HPN HPE Hus g Hg) as H0.
    destruct (loop_cases h nls els rs s Hnd Hed Hs HN HE Hid HPN HPE Hus Hall Hn R ord Hord in_graph name out_dir Hname fuel ds 0 0 g s (start F) H0 Hw)
      as [->|(k' & g' & s'' & F2 & -> & _)]; [by rewrite Nat.add_0_r|by left|right]. by exists F2.
  Qed.
  Lemma density_mono fuel fuel' ds F F' : fuel ≤ fuel' → vary_density fuel R ord in_graph out_dir ds (start F) = Ok F' →
    vary_density fuel' R ord in_graph out_dir ds (start F) = Ok F'.
  Proof using All.
    intros Hle. rewrite !density_unfold by done. intros Hv. rewrite (loop_mono s Hn R ord in_graph out_dir ds fuel fuel'); [done|done|]. intros E. by rewrite E in Hv.
  Qed.
  Lemma density_finishes ds F : in_usize (m + added n m ds) → Forall (λ d, m < wanted n d) ds → fair R n →
    2 * (a_links (sp_g s) + added n m ds) ≤ n * (n - 1) → ∃ fuel F', vary_density fuel R ord in_graph out_dir ds (start F) = Ok F'.
  Proof using All.
    intros Hc Hw Hf Hroom. pose proof (start_dense Hn Hmax) as Hall.
    pose proof (reached_0 h nls els rs s Hnd Hed Hs HN HE Hid HPN HPE Hus g Hg) as H0.
    destruct (loop_found h nls els rs s Hnd Hed Hs HN HE Hid HPN HPE Hus Hall Hn R ord Hord in_graph name out_dir Hname ds 0 0 g s (start F) H0 Hw) as [fuel Hfuel]; [by rewrite Nat.add_0_r|done|done|].
    exists fuel. destruct (density_cases fuel ds F Hc Hw) as [E|[F' E]]; [|by exists F']. rewrite density_unfold in E by done.
    by destruct (rfold _ ds (0, g, start F)) as [[]| |].
  Qed.
  Lemma grows_denser ok c A ds : grows (NL:=string) (EL:=string) ok n m c A ds → ∃ B, denser (added n m ds) A B.
  Proof using.
    induction 1 as [c A|c A d ds B Hw HD Hok HG [C HC]]; [exists A; apply denser_refl|]. exists C. unfold added. cbn [fmap list_fmap sum_list]. by eapply denser_trans.
  Qed.
  Lemma density_room fuel ds F F' : in_usize (m + added n m ds) → vary_density fuel R ord in_graph out_dir ds (start F) = Ok F' →
    Forall (λ d, m < wanted n d) ds ∧ 2 * (a_links (sp_g s) + added n m ds) ≤ n * (n - 1).
  Proof using All.
    intros Hc Hv. pose proof (start_dense Hn Hmax) as Hall.
    pose proof (reached_0 h nls els rs s Hnd Hed Hs HN HE Hid HPN HPE Hus g Hg) as H0.
    destruct (decide (Forall (λ d, m < wanted n d) ds)) as [Hw|Hw].
    - split; [done|]. rewrite density_unfold in Hv by done.
      destruct (loop_cases h nls els rs s Hnd Hed Hs HN HE Hid HPN HPE Hus Hall Hn R ord Hord in_graph name out_dir Hname fuel ds 0 0 g s (start F) H0 Hw)
        as [E|(k' & g' & s'' & F2 & E & H2 & _)]; [by rewrite Nat.add_0_r|by rewrite E in Hv|]. destruct (reached_wf _ _ _ _ _ _ H2) as [Hwf Hd].
      cbn [plus] in H2. pose proof (re_denser _ _ _ _ _ _ H2) as HD. rewrite <-(denser_links _ _ _ HD). apply links_bound; [done|done|].
      intros x. unfold a_has_node. rewrite (dn_nodes _ _ _ HD). apply Hall.
    - exfalso. destruct (density_ok fuel ds F F' Hc Hv) as [HG _]. by apply Hw, (grows_wanted _ _ _ _ _ _ HG).
  Qed.
  Lemma density_stuck fuel ds F : in_usize (m + added n m ds) → Forall (λ d, m < wanted n d) ds → n * (n - 1) < 2 * (a_links (sp_g s) + added n m ds) →
    vary_density fuel R ord in_graph out_dir ds (start F) = NoFuel.
  Proof using All.
    intros Hc Hw Hfull. destruct (density_cases fuel ds F Hc Hw) as [?|[F' E]]; [done|]. destruct (density_room fuel ds F F' Hc E) as [_ ?]. lia.
  Qed.
End program.

Section one.
  Context (h : list (gop string string)) (nls els : list string) (rs : list (gout string string)) (s : sstate string string).
  Context (Hnd : NoDup nls) (Hed : NoDup els) (Hs : spec_run h (s_init false nls els) = SOk (rs, s)).
  Context (HN : labels_fit TU32 (sp_nls s)) (HE : labels_fit TU32 (sp_els s)) (Hid : Forall (in_type TU32) (h ≫= inserted)).
  Context (HPN : vec_of text_fits (sp_nls s)) (HPE : vec_of text_fits (sp_els s)) (Hus : in_usize (a_num_nodes (sp_g s))) (Hcus : in_usize (sp_count s)).
  Local Notation n := (a_num_nodes (sp_g s)).
  Context (R : rng) (ord : dgraph → list N) (Hord : ∀ g, hash_order g (ord g)) (in_graph out_dir : string).
  Context (ord0 : list N) (g : dgraph) (Hg : gm_run false TU32 h (gm_with_label_map nls els) = Ok (rs, g)) (Hord0 : hash_order g ord0).
  Context (name : string) (Hname : last_component in_graph = Some name) (Hn : n ≠ 0) (Hmax : sp_max s = Some (N.of_nat (n - 1))) (Hcnt : sp_count s = a_num_edges (sp_g s)).
  Lemma density_one fuel d F F' : in_usize (wanted n d) →
    vary_density fuel R ord in_graph out_dir [d] (export in_graph (enc (c_graphmap TU32 TU32 c_text c_text ord0) g) F) = Ok F' →
    ∃ i g' B, denser i (sp_g s) B ∧ a_num_edges B = wanted n d ∧
      import (c_graphmap TU32 TU32 c_text c_text []) (vd_path name out_dir n (wanted n d) d) F' = Some g' ∧
      ∀ o, hash_order g' o → represents (gm_view false o g') B ∧ v_edge_count (gm_view false o g') = a_num_edges B.
  Proof using All.
    intros Hw Hv. assert (in_usize (sp_count s + added n (sp_count s) [d])) as Hu.
    { assert (added n (sp_count s) [d] = wanted n d - sp_count s) as -> by (unfold added; simpl; apply Nat.add_0_r).
      destruct (Nat.le_ge_cases (sp_count s) (wanted n d)) as [Hle|Hle].
      - assert (sp_count s + (wanted n d - sp_count s) = wanted n d) as -> by lia. exact Hw.
      - assert (sp_count s + (wanted n d - sp_count s) = sp_count s) as -> by lia. exact Hcus. }
    destruct (density_ok h nls els rs s Hnd Hed Hs HN HE Hid HPN HPE Hus Hcus R ord Hord in_graph out_dir ord0 g Hg Hord0 name Hname Hn Hmax fuel [d] F F' Hu Hv) as [HG _].
    inversion HG as [|? ? ? ? B Hlt HD (g' & Hi & Hr) _]; clear HG; subst.
    replace (sp_count s + (wanted n d - sp_count s)) with (wanted n d) in * by lia.
    assert (a_num_edges B = wanted n d) as HB by (rewrite (dn_count _ _ _ HD), <-Hcnt; lia).
    exists (wanted n d - sp_count s), g', B. split; [done|]. split; [done|]. split; [done|]. by rewrite HB.
  Qed.
End one.
