(** Facts about the CSV model. *)
From Coq Require Import Ascii.
From stdpp Require Import gmap strings.
From Verif Require Import Base BaseFacts Api Spec SpecFacts SpecOps SpecSerde Map GraphMap ViewFacts GraphOps GraphOpsFacts GraphOpsProps Csv SpecCsv.

(** ** Decimal numbers *)
Lemma digit_ok d : (d < 10)%N → digit_value (digit d) = Some d.
Proof.
  intros Hd. unfold digit_value, digit. rewrite N_ascii_embedding by lia. rewrite decide_True by lia. f_equal. lia.
Qed.
Lemma digit_not_plus d : (d < 10)%N → digit d ≠ "+"%char.
Proof. intros Hd H. apply digit_ok in Hd. rewrite H in Hd. done. Qed.
Lemma digits_ok fuel x acc : (0 < fuel) → (x < 2 ^ N.of_nat fuel)%N → parse_digits 0 (digits fuel x acc) = parse_digits x acc.
Proof.
  revert x acc. induction fuel as [|fuel IH]; intros x acc H0 Hf; [lia|]. cbn [digits].
  pose proof (N.div_mod' x 10) as Hx. assert (x mod 10 < 10)%N as Hm by (by apply N.mod_upper_bound).
  destruct (decide (x / 10 = 0)%N) as [E|E].
  - cbn [parse_digits]. rewrite digit_ok by lia. cbn [mbind option_bind]. f_equal. lia.
  - rewrite Nat2N.inj_succ, N.pow_succ_r' in Hf. rewrite IH.
    + cbn [parse_digits]. rewrite digit_ok by lia. cbn [mbind option_bind]. f_equal. lia.
    + destruct fuel; [|lia]. exfalso. change (x < 2)%N in Hf. apply E, N.div_small. lia.
    + apply N.div_lt_upper_bound; [done|]. clear Hx Hm. lia.
Qed.
Lemma digits_cons fuel x acc : 0 < fuel → ∃ c s, digits fuel x acc = String c s ∧ c ≠ "+"%char.
Proof.
  revert x acc. induction fuel as [|fuel IH]; intros x acc H0; [lia|]. cbn [digits].
  assert (digit (x mod 10) ≠ "+"%char) as Hd by (apply digit_not_plus; pose proof (N.mod_upper_bound x 10); lia).
  destruct (decide _); [by eexists _, _|]. destruct fuel as [|fuel]; [by eexists _, _|]. apply IH. lia.
Qed.
Lemma uint_ok max x : (x ≤ max)%N → show_uint x ≠ ""%string ∧ parse_uint max (show_uint x) = Some x.
Proof.
  intros Hx. unfold parse_uint. destruct (digits_cons (S (N.to_nat (N.log2 x))) x "") as (c & s & E & Hc); [lia|].
  assert (parse_digits 0 (show_uint x) = Some x) as Hp.
  { unfold show_uint. rewrite digits_ok; [done|lia|]. rewrite Nat2N.inj_succ, N2Nat.id. destruct (N.eq_dec x 0) as [->|]; [done|].
    apply N.log2_spec. lia. }
  change (digits _ x "") with (show_uint x) in E. split; [by rewrite E|].
  assert (match show_uint x with String "+" s => s | _ => show_uint x end = show_uint x) as ->.
  { rewrite E. destruct c as [[] [] [] [] [] [] [] []]; done. }
  rewrite Hp, E. cbn [mbind option_bind]. by rewrite decide_True.
Qed.
Lemma id_text it n : in_type it n → parse (t_id it) (show (t_id it) n) = Some n.
Proof. intros Hn. apply uint_ok. unfold in_type, id_max in *. lia. Qed.
Lemma id_readable it n : in_type it n → readable (t_id it) n.
Proof. intros Hn. apply uint_ok. unfold in_type, id_max in *. lia. Qed.

(** ** Written records *)
Section written.
  Context {A : Type} (it : idty) (tl : text A).
  Lemma opt_field_ok l fs : (∀ x, l = Some x → readable tl x) → opt_field tl (show_label tl l :: fs) = (l, fs).
  Proof.
    intros Hl. unfold opt_field. destruct l as [x|]; cbn [show_label]; [|done]. destruct (Hl x eq_refl) as [H1 H2].
    by rewrite decide_False, H2.
  Qed.
  Lemma node_row_ok n l : in_type it n → (∀ x, l = Some x → readable tl x) →
    node_record it tl (Some node_header) (node_row it tl n l) = Some (n, l).
  Proof.
    intros Hn Hl.
    transitivity (x ← parse (t_id it) (show (t_id it) n); let '(l, fs) := opt_field tl [show_label tl l] in Some (x, l)); [done|].
    rewrite id_text by done. cbn [mbind option_bind]. by rewrite opt_field_ok.
  Qed.
  Lemma edge_row_ok s t l : in_type it s → in_type it t → (∀ x, l = Some x → readable tl x) →
    edge_record it tl (Some edge_header) (edge_row it tl s t l) = Some (s, t, l).
  Proof.
    intros Hs Ht Hl.
    transitivity (x ← parse (t_id it) (show (t_id it) s); y ← parse (t_id it) (show (t_id it) t);
      let '(l, fs) := opt_field tl [show_label tl l] in Some (x, y, l)); [done|].
    rewrite !id_text by done. cbn [mbind option_bind]. by rewrite opt_field_ok.
  Qed.
End written.

(** ** Rows *)
Lemma read_rows_known flex k t : read_rows flex (Some k) t = (λ r, if flex || bool_decide (length r = k) then Some r else None) <$> t.
Proof. induction t as [|r t IH]; [done|]. cbn [read_rows]. by rewrite IH. Qed.
(** What one row below a header (or below the first row) gives. *)
Definition row_result {A} (record : row → option A) (flex : bool) (k : nat) (r : row) : option A :=
  if flex || bool_decide (length r = k) then record r else None.
Lemma deserialize_headers {A} (record : option row → row → option A) flex h t :
  deserialize record true flex (h :: t) = row_result (record (Some h)) flex (length h) <$> t.
Proof.
  unfold deserialize. rewrite read_rows_known, <-list_fmap_compose. apply list_fmap_ext. intros _ r _. unfold row_result. simpl.
  by destruct (_ || _).
Qed.
Lemma deserialize_bare {A} (record : option row → row → option A) flex r t :
  deserialize record false flex (r :: t) = record None r :: (row_result (record None) flex (length r) <$> t).
Proof.
  unfold deserialize. cbn [read_rows]. rewrite read_rows_known, fmap_cons, <-list_fmap_compose. f_equal.
  apply list_fmap_ext. intros _ r' _. unfold row_result. simpl. by destruct (_ || _).
Qed.
Lemma omap_filter {A} (f : row → option A) (P : row → Prop) `{∀ r, Decision (P r)} (t : table) : (∀ r, f r = None ∨ P r) →
  omap id (f <$> filter P t) = omap id (f <$> t).
Proof.
  intros Hp. induction t as [|r t IH]; [done|]. destruct (Hp r) as [E|E].
  - cbn [fmap list_fmap]. cbn [omap list_omap]. rewrite E. cbn [id]. destruct (decide (P r)).
    + rewrite filter_cons_True by done. cbn [fmap list_fmap omap list_omap]. by rewrite E.
    + by rewrite filter_cons_False.
  - rewrite filter_cons_True by done. cbn [fmap list_fmap omap list_omap]. by rewrite IH.
Qed.

(** ** Reading is adding *)
Section read.
  Context {NL EL : Type} `{EqDecision NL, EqDecision EL} (dir : bool) (it lt : idty) (tn : text NL) (te : text EL).
  Implicit Types g : graphmap NL EL.
  Lemma rfold_history_opt {X} (f : graphmap NL EL → option X → res (graphmap NL EL)) (op : X → gop NL EL) l g :
    (∀ g, f g None = Ok g) → (∀ x g, f g (Some x) = rmap snd (gm_step dir lt (op x) g)) →
    rfold f l g = rmap snd (gm_run dir lt (op <$> omap id l) g).
  Proof.
    intros Hn Hs. rewrite <-(rfold_history dir lt (λ g x, f g (Some x)) op) by done. revert g.
    induction l as [|[x|] l IH]; intros g; [done| |]; cbn [rfold omap list_omap id].
    - destruct (f g (Some x)); [apply IH|done|done].
    - rewrite Hn. apply IH.
  Qed.
  Lemma read_nodes_run R t g : read_nodes it lt tn R t g =
    rmap snd (gm_run dir lt ((λ p, OAddNode p.1 p.2) <$> omap id (deserialize (node_record it tn) (rd_headers R) (rd_flexible R) t)) g).
  Proof. unfold read_nodes. apply rfold_history_opt; [done|]. intros [n l] g'. cbn [gm_step fst snd]. by destruct (gm_add_node lt n l g') as [[]| |]. Qed.
  Lemma read_edges_run R t g : read_edges dir it lt te R t g =
    rmap snd (gm_run dir lt ((λ e, OAddEdge e.1.1 e.1.2 e.2) <$> omap id (deserialize (edge_record it te) (rd_headers R) (rd_flexible R) t)) g).
  Proof. unfold read_edges. apply rfold_history_opt; [done|]. intros [[x y] l] g'. cbn [gm_step fst snd]. by destruct (gm_add_edge dir lt x y l g') as [[]| |]. Qed.
  (** read makes the calls for what the iterators yield. *)
  Lemma read_calls R F g ns es : csv_node_iter it tn R F = Some ns → csv_edge_iter it te R F = Some es →
    csv_read dir it lt tn te R F g = rmap (λ x, (x.2, true)) (gm_run dir lt (add_calls ns es) g).
  Proof.
    intros Hn He. unfold csv_edge_iter in He. destruct (F !! rd_edges R) as [te'|] eqn:Ee; [|done]. injection He as <-.
    assert (∀ r : res (list (gout NL EL) * graphmap NL EL), rmap (λ x, (x.2, true)) r = rmap (λ g, (g, true)) (rmap snd r)) as Hr by (by intros [[]| |]).
    rewrite Hr. unfold add_calls. rewrite gm_run_app. unfold csv_read. rewrite Ee. unfold csv_node_iter in Hn.
    destruct (rd_nodes R) as [p|].
    - destruct (F !! p) as [tn'|]; [|done]. injection Hn as <-. rewrite read_nodes_run. destruct (rmap snd (gm_run _ _ _ g)) as [g'| |]; [|done|done].
      cbn [rbind]. by rewrite read_edges_run.
    - injection Hn as <-. cbn [fmap list_fmap gm_run rmap rbind]. cbn. by rewrite read_edges_run.
  Qed.
  (** ... and nothing but that. *)
  Lemma read_missing_nodes R F g p : rd_nodes R = Some p → F !! p = None → csv_read dir it lt tn te R F g = Ok (g, false).
  Proof. intros Hp Hf. unfold csv_read. by rewrite Hp, Hf. Qed.
  Lemma read_same_items R F F' g : csv_node_iter it tn R F = csv_node_iter it tn R F' → csv_edge_iter it te R F = csv_edge_iter it te R F' →
    csv_read dir it lt tn te R F g = csv_read dir it lt tn te R F' g.
  Proof.
    intros Hn He. destruct (csv_node_iter it tn R F) as [ns|] eqn:En.
    - destruct (csv_edge_iter it te R F) as [es|] eqn:Ee; [by rewrite (read_calls R F g ns es), (read_calls R F' g ns es)|].
      unfold csv_edge_iter in *. destruct (F !! rd_edges R) eqn:E1; [done|]. destruct (F' !! rd_edges R) eqn:E2; [done|].
      unfold csv_read. rewrite E1, E2. unfold csv_node_iter in *. destruct (rd_nodes R) as [p|]; [|done].
      destruct (F !! p) as [t|]; [|done]. destruct (F' !! p) as [t'|]; [|done]. rewrite !read_nodes_run. cbn [mbind option_bind] in *.
      injection En as <-. injection Hn as <-. done.
    - unfold csv_node_iter in *. destruct (rd_nodes R) as [p|] eqn:Ep; [|done]. destruct (F !! p) eqn:E1; [done|]. destruct (F' !! p) eqn:E2; [done|].
      by rewrite !(read_missing_nodes R _ g p).
  Qed.
End read.
