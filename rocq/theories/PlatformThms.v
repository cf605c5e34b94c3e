(** Dumps opened on the same and on other machines. *)
From stdpp Require Import gmap strings.
From Verif Require Import Base BaseFacts Api Bytes Spec SpecStatic Map GraphMap Static StaticFacts Serde SpecSerde SerdeFacts Mmap SpecMmap MmapFacts MmapProps MmapThms
  Platform SpecPlatform PlatformProps.

(** ** The same machine *)
Section cases.
  Context {NL EL : Type} `{EqDecision NL, EqDecision EL} (it lt : idty) (cn : codec NL) (ce : codec EL).
  Context (PN : NL → Prop) (PE : EL → Prop) (Hcn : faithful cn PN) (Hce : faithful ce PE).
  Lemma arrays_sized M dir (g : sgraph NL EL) t l : m_usize M ≠ 0 → mappable it lt PN PE dir g → (t, l) ∈ arrays it lt g → l ≠ [] → size_on M t ≠ 0.
  Proof using.
    intros HM [_ _ _ _ Hl Hit Hlt] Hin Hne. assert (t ≠ TUnit) as Ht; [|by destruct t].
    intros ->. assert (lt = TUnit → ∀ e, ev_label_vec e = None → ev_labels e = []) as Hno. { intros _ e E. unfold ev_labels. by rewrite E. }
    unfold arrays, ev_arrays in Hin. rewrite !elem_of_app in Hin. destruct Hin as [Hin|[Hin|Hin]].
    - rewrite !elem_of_cons, elem_of_nil in Hin. destruct Hin as [[=]|[[=]|[[=]|[]]]]; [by subst|]. subst. destruct (Hlt eq_refl) as (_ & E & _). by rewrite Hno in Hne.
    - destruct (sg_in g) as [e|]; [|by apply elem_of_nil in Hin]. rewrite !elem_of_cons, elem_of_nil in Hin.
      destruct Hin as [[=]|[[=]|[[=]|[]]]]; [by subst|]. subst. destruct (Hlt eq_refl) as (_ & _ & E). by rewrite (Hno eq_refl e E) in Hne.
    - destruct (sg_labels g) as [ls|] eqn:E; [|by apply elem_of_nil in Hin]. apply elem_of_list_singleton in Hin as [= <- <-]. by destruct (Hlt eq_refl) as [[=] _].
  Qed.
  Lemma to_of_nat (l : list nat) : N.to_nat <$> (N.of_nat <$> l) = l.
  Proof using. rewrite <-list_fmap_compose. rewrite <-(list_fmap_id l) at 2. apply list_fmap_ext. intros _ x _. simpl. apply Nat2N.id. Qed.
  Lemma reread_id (g : sgraph NL EL) : reread (λ _ l, l) it lt g = norm_sg g.
  Proof using.
    assert (∀ e, reread_ev (λ _ l, l) it lt e = norm_ev e) as He. { intros e. unfold reread_ev, norm_ev. by rewrite to_of_nat. }
    unfold reread, norm_sg. rewrite He. assert (reread_ev (λ _ l, l) it lt <$> sg_in g = norm_ev <$> sg_in g) as -> by (destruct (sg_in g); simpl; by rewrite ?He).
    by destruct (sg_labels g).
  Qed.
  Lemma fmap_same (f : N → N) (l : list N) : (∀ x, x ∈ l → f x = x) → f <$> l = l.
  Proof using. intros H1. rewrite <-(list_fmap_id l) at 2. apply list_fmap_ext. intros i x Hx. apply H1. by eapply elem_of_list_lookup_2. Qed.
  Lemma open_native M dir g p F : m_usize M ≠ 0 → mappable it lt PN PE dir g → no_stale F p g → fits_on M it lt g →
    mm_open_on M it lt cn ce (sg_dump_on M it lt cn ce g p F) p = Ok (norm_sg g).
  Proof using Hcn Hce.
    intros HM Hg Hs (Hf & Hn & He). rewrite <-reread_id. apply (open_reread M M it lt cn ce PN PE Hcn Hce _ dir); [done|done| |done|done].
    intros t l Ha Hne G f HG. rewrite (map_on_read M M t G f l); [|done|by eapply arrays_sized|done|done]. f_equal. apply fmap_same.
    intros x Hx. apply word_roundtrip. by eapply Hf.
  Qed.
  Lemma native_answers M dir g p F : m_usize M ≠ 0 → mappable it lt PN PE dir g → no_stale F p g → fits_on M it lt g →
    ∃ m, mm_open_on M it lt cn ce (sg_dump_on M it lt cn ce g p F) p = Ok m ∧ same_answers (sg_view it lt dir g) (mm_view it lt m).
  Proof using Hcn Hce. intros HM Hg Hs Hf. exists (norm_sg g). split; [by apply (open_native M dir)|by eapply norm_answers]. Qed.

  (** ** Another byte order *)
  Lemma open_swapped b dir g p F : mappable it lt PN PE dir g → no_stale F p g →
    mm_open_on (Machine (negb b) 8) it lt cn ce (sg_dump_on (Machine b 8) it lt cn ce g p F) p = Ok (reread swapped it lt g).
  Proof using Hcn Hce.
    intros Hg Hs. destruct (mp_typed _ _ _ _ _ _ Hg) as [[Hn He] _ _ _ _ _].
    apply (open_reread _ _ it lt cn ce PN PE Hcn Hce _ dir); [done|done| |exact Hn|exact He].
    intros t l Ha Hne G f HG. rewrite (map_on_read (Machine b 8) (Machine (negb b) 8) t G f l); [|by destruct t|by eapply (arrays_sized (Machine b 8))|done|done].
    f_equal. unfold swapped. apply list_fmap_ext. intros _ x _. unfold word_value, word_bytes. cbn [m_big].
    assert (size_on (Machine b 8) t = id_size t) as -> by (by destruct t). by destruct b.
  Qed.
End cases.
Lemma le_bytes_app a b x : le_bytes (a + b) x = le_bytes a x ++ le_bytes b (x / 256 ^ N.of_nat a).
Proof.
  revert x. induction a as [|a IH]; intros x; [by rewrite N.div_1_r|]. cbn [Nat.add le_bytes app]. rewrite IH. do 3 f_equal.
  rewrite Nat2N.inj_succ, N.pow_succ_r', N.div_div; [done|lia|]. apply N.pow_nonzero. lia.
Qed.
Lemma le_bytes_mod k x : le_bytes k x = le_bytes k (x mod 256 ^ N.of_nat k).
Proof.
  revert x. induction k as [|k IH]; intros x; [done|]. cbn [le_bytes]. rewrite Nat2N.inj_succ, N.pow_succ_r'.
  assert (256 ^ N.of_nat k ≠ 0)%N as Hk by (apply N.pow_nonzero; lia).
  rewrite N.mod_mul_r by lia. f_equal.
  - rewrite N.mul_comm, N.mod_add by lia. by rewrite N.mod_mod by lia.
  - rewrite IH. rewrite (IH ((x mod 256 + _) / 256)%N). f_equal. rewrite (N.mul_comm 256), N.div_add by lia.
    rewrite (N.div_small (x mod 256)) by (apply N.mod_lt; lia). rewrite N.add_0_l. by rewrite N.mod_mod.
Qed.
Lemma le_value_mod k x : le_value (le_bytes k x) = (x mod 256 ^ N.of_nat k)%N.
Proof. rewrite le_bytes_mod. apply le_value_bytes. apply N.mod_lt, N.pow_nonzero. lia. Qed.
Lemma le_value_app a b : le_value (a ++ b) = (le_value a + 256 ^ N.of_nat (length a) * le_value b)%N.
Proof.
  induction a as [|x a IH]; [change (le_value []) with 0%N; cbn [length app]; rewrite N.pow_0_r; lia|]. change (le_value ((x :: a) ++ b)) with (x + 256 * le_value (a ++ b))%N.
  change (le_value (x :: a)) with (x + 256 * le_value a)%N. rewrite IH. cbn [length]. rewrite Nat2N.inj_succ, N.pow_succ_r'. lia.
Qed.
Lemma le_value_0 b : le_value b = 0%N → Forall (λ x, x = 0%N) b.
Proof.
  induction b as [|x b IH]; intros Hb; [done|]. change (le_value (x :: b)) with (x + 256 * le_value b)%N in Hb.
  apply Forall_cons. split; [lia|]. apply IH. lia.
Qed.
(** A small number becomes a large one. *)
Lemma swap_large x : (0 < x < 2 ^ 32)%N → (2 ^ 32 ≤ le_value (reverse (le_bytes 8 x)))%N.
Proof.
  intros [H0 H1]. change 8 with (4 + 4). rewrite le_bytes_app. assert (x / 256 ^ N.of_nat 4 = 0)%N as -> by (apply N.div_small; exact H1).
  rewrite reverse_app, le_value_app. change (length (reverse (le_bytes 4 0))) with 4. change (256 ^ N.of_nat 4)%N with (2 ^ 32)%N.
  assert (le_value (reverse (le_bytes 4 x)) ≠ 0)%N as Hn; [|nia].
  intros E. apply le_value_0 in E. rewrite Forall_forall in E. assert (le_value (le_bytes 4 x) = x) as Hx by (by apply le_value_bytes).
  assert (∀ b, (∀ y, y ∈ b → y = 0%N) → le_value b = 0%N) as Hz.
  { intros b. induction b as [|y b IH]; intros Hb; [done|]. change (le_value (y :: b)) with (y + 256 * le_value b)%N.
    rewrite (Hb y) by set_solver. rewrite IH; [done|]. intros z Hin. apply Hb. set_solver. }
  rewrite Hz in Hx; [lia|]. intros y Hy. apply E. by apply elem_of_reverse.
Qed.
Lemma swapped_panics it lt e n nb : (N.of_nat (length (ev_edges e)) < 2 ^ 32)%N → ev_neighbors e n = Ok nb → nb ≠ [] →
  ev_neighbors (reread_ev swapped it lt e) n = Panic.
Proof.
  intros Hl Hn Hne. unfold ev_neighbors, ev_bounds in *. unfold reread_ev. cbn [ev_offsets ev_edges]. unfold swapped. rewrite !list_lookup_fmap.
  assert (ev_has_node (reread_ev swapped it lt e) n = ev_has_node e n) as Hh.
  { unfold ev_has_node, ev_num_nodes, reread_ev, swapped. cbn [ev_offsets]. by rewrite !fmap_length. }
  unfold reread_ev, swapped in Hh. rewrite Hh. clear Hh. destruct (ev_has_node e n) as [[]| |]; [|done|done|done]. cbn [rbind negb] in *.
  destruct (ev_offsets e !! id_id n) as [s|] eqn:Es; [|by cbn [unwrap rbind] in Hn]. cbn [unwrap rbind] in Hn.
  destruct (ev_offsets e !! (id_id n + 1)) as [t|] eqn:Et; [|by cbn [unwrap rbind] in Hn]. cbn [unwrap rbind] in Hn.
  destruct (decide (s ≤ t ∧ t ≤ length (ev_edges e))) as [[H1 H2]|]; [|done]. injection Hn as <-.
  cbn [fmap option_fmap option_map unwrap rbind]. rewrite fmap_length. rewrite decide_False; [done|]. intros [_ Hle].
  assert (0 < t). { destruct (decide (t = 0)) as [->|]; [|lia]. assert (s = 0) as -> by lia. done. }
  pose proof (swap_large (N.of_nat t) ltac:(lia)) as Hs. change (id_size TUsize) with 8 in Hle. lia.
Qed.
(** ** A smaller usize *)
Lemma items_halved M' l : m_big M' = false → (∀ x, x ∈ l → x < 2 ^ 64)%N → items_on M' 4 (length l * 2) (l ≫= le_bytes 8) = halved TUsize l.
Proof.
  intros HM. induction l as [|x l IH]; intros Hl; [done|]. cbn [length Nat.mul]. unfold halved in *. rewrite !bind_cons. cbn [Nat.add items_on app].
  assert (x < 2 ^ 64)%N as Hx by (apply Hl; set_solver).
  assert (le_bytes 8 x = le_bytes 4 x ++ le_bytes 4 (x / 2 ^ 32)) as -> by exact (le_bytes_app 4 4 x). rewrite <-!app_assoc.
  rewrite (take_app_alt (le_bytes 4 x)), (drop_app_alt (le_bytes 4 x)) by (by rewrite le_bytes_length).
  rewrite (take_app_alt (le_bytes 4 (x / 2 ^ 32))), (drop_app_alt (le_bytes 4 (x / 2 ^ 32))) by (by rewrite le_bytes_length).
  rewrite IH by (intros y Hy; apply Hl; set_solver). unfold word_value. rewrite HM. rewrite !le_value_mod. f_equal. f_equal.
  change (256 ^ N.of_nat 4)%N with (2 ^ 32)%N. apply N.mod_small. apply N.div_lt_upper_bound; [done|]. exact Hx.
Qed.
Section half.
  Context {NL EL : Type} `{EqDecision NL, EqDecision EL} (it lt : idty) (cn : codec NL) (ce : codec EL).
  Context (PN : NL → Prop) (PE : EL → Prop) (Hcn : faithful cn PN) (Hce : faithful ce PE).
  Lemma open_halved dir g p F : it ≠ TUsize → lt ≠ TUsize → mappable it lt PN PE dir g → no_stale F p g →
    (N.of_nat (sg_num_nodes g) < 2 ^ 32)%N → (N.of_nat (sg_num_edges g) < 2 ^ 32)%N →
    mm_open_on (Machine false 4) it lt cn ce (sg_dump_on (Machine false 8) it lt cn ce g p F) p = Ok (reread halved it lt g).
  Proof using Hcn Hce.
    intros Hi Hl Hg Hs Hn He. pose proof (mp_typed _ _ _ _ _ _ Hg) as [_ T1 T2 T3 _ _].
    apply (open_reread _ _ it lt cn ce PN PE Hcn Hce _ dir); [done|done| |exact Hn|exact He].
    intros t l Ha Hne G f HG. assert (∀ x, x ∈ l → in_type t x) as Hty.
    { unfold arrays in Ha. rewrite !elem_of_app in Ha. assert (∀ e, typed_evec it lt e → (t, l) ∈ ev_arrays it lt e → ∀ x, x ∈ l → in_type t x) as Hev.
      { intros e [[_ E1] [_ E2] E3] Hin x Hx. unfold ev_arrays in Hin. rewrite !elem_of_cons, elem_of_nil in Hin. destruct Hin as [[= -> ->]|[[= -> ->]|[[= -> ->]|[]]]].
        - apply elem_of_list_fmap in Hx as (y & -> & Hy). exact (proj1 (Forall_forall _ _) E1 y Hy).
        - exact (proj1 (Forall_forall _ _) E2 x Hx).
        - unfold ev_labels in Hx. destruct (ev_label_vec e) as [ls|]; [|by apply elem_of_nil in Hx]. exact (proj1 (Forall_forall _ _) (proj2 E3) x Hx). }
      destruct Ha as [Ha|[Ha|Ha]]; [by apply (Hev _ T1)| |].
      - destruct (sg_in g) as [e|]; [by apply (Hev _ T2)|by apply elem_of_nil in Ha].
      - destruct (sg_labels g) as [ls|]; [|by apply elem_of_nil in Ha]. apply elem_of_list_singleton in Ha as [= -> ->]. intros x Hx. exact (proj1 (Forall_forall _ _) (proj2 T3) x Hx). }
    destruct (decide (t = TUsize)) as [->|Ht].
    - unfold map_on. rewrite HG. cbn [unwrap rbind]. change (size_on (Machine false 4) TUsize) with 4.
      rewrite decide_False by (intros E; apply (f_equal length) in E; rewrite bytes_on_length in E; destruct l; [done|]; cbn in E; lia).
      rewrite decide_False by done. f_equal. rewrite bytes_on_length. change (size_on (Machine false 8) TUsize) with 8.
      assert (length l * 8 / 4 = length l * 2) as ->. { replace (length l * 8) with (length l * 2 * 4) by lia. by rewrite Nat.div_mul. }
      rewrite <-(items_halved (Machine false 4) l); [done|done|]. exact Hty.
    - rewrite (map_on_read (Machine false 8) (Machine false 4) t G f l); [|by destruct t|by eapply (arrays_sized it lt PN PE (Machine false 8))|done|done].
      f_equal. assert (halved t l = l) as -> by (by destruct t). apply fmap_same. intros x Hx.
      assert (word_value (Machine false 4) = word_value (Machine false 8)) as -> by done. apply word_roundtrip.
      assert (size_on (Machine false 8) t = id_size t) as -> by (by destruct t). rewrite <-id_card_pow. by apply Hty.
  Qed.
End half.
Lemma halved_offsets (l : list nat) i : Forall (λ o, N.of_nat o < 2 ^ 32)%N l →
  (N.to_nat <$> halved TUsize (N.of_nat <$> l)) !! (2 * i) = l !! i ∧ (N.to_nat <$> halved TUsize (N.of_nat <$> l)) !! (2 * i + 1) = (λ _, 0) <$> l !! i.
Proof.
  intros Hl. revert i. induction Hl as [|x l Hx Hl IH]; intros i; [by rewrite !lookup_nil|]. unfold halved in *. rewrite fmap_cons, bind_cons. rewrite fmap_app.
  rewrite N.mod_small, N.div_small by done. cbn [fmap list_fmap app]. destruct i as [|i].
  - cbn [Nat.mul Nat.add lookup list_lookup fmap option_fmap option_map]. by rewrite Nat2N.id.
  - replace (2 * S i) with (S (S (2 * i))) by lia. cbn [Nat.add lookup list_lookup]. apply IH.
Qed.
Lemma halved_shows it lt e : it ≠ TUsize → Forall (λ o, N.of_nat o < 2 ^ 32)%N (ev_offsets e) → head (ev_offsets e) = Some 0 → 2 ≤ length (ev_offsets e) →
  ev_neighbors (reread_ev halved it lt e) 0 = Ok [] ∧ ev_neighbors (reread_ev halved it lt e) 1 = ev_neighbors e 0.
Proof.
  intros Hit Hf H0 Hlen. unfold ev_neighbors, ev_bounds, reread_ev. cbn [ev_offsets ev_edges]. assert (halved it (ev_edges e) = ev_edges e) as -> by (by destruct it).
  assert (length (N.to_nat <$> halved TUsize (N.of_nat <$> ev_offsets e)) = length (ev_offsets e) * 2) as Hl2.
  { rewrite fmap_length. unfold halved. clear. induction (ev_offsets e) as [|x l IH]; [done|]. rewrite fmap_cons, bind_cons, app_length, IH. cbn [length]. lia. }
  unfold ev_has_node, ev_num_nodes, usub. cbn [ev_offsets]. rewrite Hl2. rewrite !decide_True by lia. cbn [rbind]. rewrite !bool_decide_eq_true_2 by (unfold id_id; lia). cbn [negb].
  destruct (halved_offsets (ev_offsets e) 0 Hf) as [A0 A1]. destruct (halved_offsets (ev_offsets e) 1 Hf) as [B0 _].
  change (2 * 0) with 0 in *. change (0 + 1) with 1 in *. change (2 * 1) with 2 in *.
  change (id_id 0%N) with 0. change (id_id 1%N) with 1. change (0 + 1) with 1. change (1 + 1) with 2.
  rewrite A0, A1, B0. destruct (ev_offsets e) as [|o0 [|o1 l]]; [done|cbn in Hlen; lia|]. injection H0 as ->.
  cbn [lookup list_lookup fmap option_fmap option_map unwrap rbind]. split; [|done]. rewrite decide_True by lia. done.
Qed.
