(** Rows of a CSV file and what they mean. *)
From Coq Require Import Ascii.
From stdpp Require Import gmap strings.
From Verif Require Import Base BaseFacts Api Spec SpecSerde Csv SpecCsv SpecCsvRows CsvFacts CsvRead.

(** ** Numbers *)
Lemma digit_value_spec c d : digit_value c = Some d ↔ digit_of d c.
Proof.
  unfold digit_value, digit_of. split.
  - case_decide as H; [|done]. intros [= <-].
    assert (∀ x, (48 ≤ x ∧ x ≤ 57)%N → String.get (N.to_nat (x - 48)) "0123456789" = Some (ascii_of_N x)) as G.
    { intros x Hx. assert (∃ k : nat, k < 10 ∧ x = (48 + N.of_nat k)%N) as (k & Hk & ->) by (exists (N.to_nat (x - 48)); lia).
      do 10 (destruct k as [|k]; [done|]). lia. }
    rewrite G by done. by rewrite ascii_N_embedding.
  - intros H. assert (N.to_nat d < 10) as Hd.
    { destruct (decide (N.to_nat d < 10)); [done|]. exfalso. assert (∃ k, N.to_nat d = 10 + k) as [k Ek] by (exists (N.to_nat d - 10); lia). rewrite Ek in H. by destruct k. }
    assert (∃ k : nat, k < 10 ∧ d = N.of_nat k) as (k & Hk & ->) by (exists (N.to_nat d); lia). rewrite Nat2N.id in H.
    do 10 (destruct k as [|k]; [injection H as <-; done|]). lia.
Qed.
Lemma parse_digits_spec s : ∀ v x, parse_digits v s = Some x ↔
  ∃ ds cs, s = string_of_list_ascii cs ∧ Forall2 digit_of ds cs ∧ x = foldl (λ v d, (10 * v + d)%N) v ds.
Proof.
  induction s as [|c s IH]; intros v x; cbn [parse_digits].
  - split; [intros [= <-]; by exists [], []|]. intros (ds & cs & Hs & Hd & ->). destruct cs; [|done]. apply Forall2_nil_inv_r in Hd. by subst.
  - split.
    + intros H. apply bind_Some in H as (d & Hd & Hx). apply IH in Hx as (ds & cs & -> & Hds & ->). apply digit_value_spec in Hd.
      exists (d :: ds), (c :: cs). split; [done|]. split; [by constructor|done].
    + intros (ds & cs & Hs & Hd & ->). destruct cs as [|c' cs]; [done|]. cbn [string_of_list_ascii] in Hs. injection Hs as <- ->.
      apply Forall2_cons_inv_r in Hd as (d & ds' & Hd & Hds & ->). apply digit_value_spec in Hd. rewrite Hd. cbn [mbind option_bind].
      apply IH. by exists ds', cs.
Qed.
Lemma digit_of_plus d : ¬ digit_of d "+".
Proof. intros H. by apply digit_value_spec in H. Qed.
Lemma parse_uint_spec max s x : parse_uint max s = Some x ↔ decimal s x ∧ (x ≤ max)%N.
Proof.
  unfold parse_uint, decimal.
  assert (∀ s', match s' with EmptyString => None | _ => y ← parse_digits 0 s'; if decide (y ≤ max)%N then Some y else None end = Some x ↔
    (∃ ds cs, ds ≠ [] ∧ Forall2 digit_of ds cs ∧ x = foldl (λ v d, (10 * v + d)%N) 0%N ds ∧ s' = string_of_list_ascii cs) ∧ (x ≤ max)%N) as G.
  { intros s'. trans (s' ≠ ""%string ∧ parse_digits 0 s' = Some x ∧ (x ≤ max)%N).
    - destruct s' as [|c s']; [naive_solver|]. split.
      + intros H. apply bind_Some in H as (y & Hy & H). case_decide; [|done]. injection H as <-. done.
      + intros (_ & H & Hm). rewrite H. cbn [mbind option_bind]. by rewrite decide_True.
    - rewrite parse_digits_spec. split.
      + intros (Hn & (ds & cs & -> & Hd & ->) & Hm). split; [|done]. exists ds, cs. split; [|done]. intros ->. apply Forall2_nil_inv_l in Hd. by subst.
      + intros [(ds & cs & Hn & Hd & -> & ->) Hm]. split; [|split; [by exists ds, cs|done]].
        destruct ds as [|d ds]; [done|]. apply Forall2_cons_inv_l in Hd as (c & cs' & _ & _ & ->). done. }
  assert ((∃ s', s = String "+" s') ∨ ¬ ∃ s', s = String "+" s') as [[s' ->]|Hp].
  { destruct s as [|c s]; [right; by intros [? ?]|]. destruct (decide (c = "+"%char)) as [->|Hc]; [left; by exists s|].
    right. intros [s' [= ? _]]. done. }
  - cbn [parse_uint]. rewrite G. split; intros [(ds & cs & Hn & Hd & -> & Hs) Hm]; (split; [|done]); exists ds, cs; (split; [done|]); (split; [done|]); (split; [done|]).
    + right. by rewrite Hs.
    + destruct Hs as [Hs|Hs]; [|by injection Hs]. exfalso. destruct cs as [|c cs]; [done|]. cbn [string_of_list_ascii] in Hs. injection Hs as <- _.
      apply Forall2_cons_inv_r in Hd as (d & ds' & Hd & _ & _). by apply digit_of_plus in Hd.
  - assert (match s with String "+" s0 => s0 | _ => s end = s) as ->.
    { destruct s as [|c s]; [done|]. destruct c as [[] [] [] [] [] [] [] []]; try done. exfalso. apply Hp. by exists s. }
    rewrite G. split; intros [(ds & cs & Hn & Hd & -> & Hs) Hm]; (split; [|done]); exists ds, cs; (split; [done|]); (split; [done|]); (split; [done|]).
    + by left.
    + destruct Hs as [Hs|Hs]; [done|]. exfalso. apply Hp. by exists (string_of_list_ascii cs).
Qed.
Lemma id_field_spec it s x : parse (t_id it) s = Some x ↔ id_field it s x.
Proof.
  unfold id_field, t_id. cbn [parse]. rewrite parse_uint_spec. unfold in_type, id_max.
  assert (0 < id_card it)%N by (destruct it; done). split; intros [? ?]; (split; [done|]); lia.
Qed.
Lemma decimal_fun s x y : decimal s x → decimal s y → x = y.
Proof.
  intros H1 H2. assert (parse_uint (N.max x y) s = Some x) as E1 by (apply parse_uint_spec; split; [done|lia]).
  assert (parse_uint (N.max x y) s = Some y) as E2 by (apply parse_uint_spec; split; [done|lia]). congruence.
Qed.

(** ** Rows *)
Lemma readings_omap {B} (means : row → B → Prop) (f : row → option B) rows : (∀ r x, f r = Some x ↔ means r x) →
  readings means rows (omap id (f <$> rows)).
Proof.
  intros Hf. induction rows as [|r rows IH]; cbn; [constructor|]. unfold id at 1. destruct (f r) as [x|] eqn:E.
  - constructor; [by apply Hf|done].
  - apply r_skip; [|done]. intros x Hx. apply Hf in Hx. congruence.
Qed.
Lemma readings_fun {B} (means : row → B → Prop) rows l l' : (∀ r x y, means r x → means r y → x = y) →
  readings means rows l → readings means rows l' → l = l'.
Proof.
  intros Hf H. revert l'. induction H as [|r rows x items Hx H IH|r rows items Hx H IH]; intros l' H'; inversion H'; subst; try done.
  - f_equal; [by eapply Hf|by apply IH].
  - naive_solver.
  - naive_solver.
  - by apply IH.
Qed.
Lemma in_column_nil r k f : ¬ in_column [] r k f.
Proof. by intros (j & ? & _). Qed.
Lemma in_column_empty h k f : ¬ in_column h [] k f.
Proof. by intros (j & _ & ?). Qed.
Lemma in_column_cons k0 h f0 r k f : in_column (k0 :: h) (f0 :: r) k f ↔ (k = k0 ∧ f = f0) ∨ in_column h r k f.
Proof.
  split.
  - intros ([|j] & H1 & H2); [left; simpl in *; split; congruence|right; by exists j].
  - intros [[-> ->]|(j & H1 & H2)]; [by exists 0|by exists (S j)].
Qed.
Lemma in_column_elem h r k f : in_column h r k f → k ∈ h.
Proof. intros (j & H & _). by eapply elem_of_list_lookup_2. Qed.
Section label.
  Context {A : Type} (t : text A).
  (** The label after the columns of [h], when [label] has been found before. *)
  Definition label_from (k : string) (h r : row) (label : option (option A)) (l : option A) : Prop :=
    match label with Some l' => l' = l ∧ k ∉ h | None => label_below t h r k l end.
  Lemma label_from_nil k r label l : label_from k [] r label l ↔ default None label = l.
  Proof.
    destruct label as [l'|]; cbn; [set_solver|]. split.
    - intros H. destruct l as [x|]; [|done]. destruct (proj1 (H x) eq_refl) as (f & Hf & _). by apply in_column_nil in Hf.
    - intros <-. intros x. split; [done|]. intros (f & Hf & _). by apply in_column_nil in Hf.
  Qed.
  Lemma label_from_skip k k' h r label l : k ≠ k' → label_from k (k' :: h) r label l ↔ label_from k h (drop 1 r) label l.
  Proof.
    intros Hk. destruct label as [l'|]; cbn.
    - rewrite not_elem_of_cons. naive_solver.
    - assert (∀ f, in_column (k' :: h) r k f ↔ in_column h (drop 1 r) k f) as E.
      { intros f. destruct r as [|f0 r]; [split; intros H; by apply in_column_empty in H|]. cbn [drop]. rewrite in_column_cons. naive_solver. }
      unfold label_below. by setoid_rewrite E.
  Qed.
  Lemma label_from_here k h r l : k ∉ h → label_from k (k :: h) r None l ↔ label_from k h (drop 1 r) (Some (opt_field t r).1) l.
  Proof.
    intros Hk. cbn. destruct r as [|f0 r]; cbn [opt_field fst].
    - split.
      + intros H. split; [|done]. destruct l as [x|]; [|done]. destruct (proj1 (H x) eq_refl) as (f & Hf & _). by apply in_column_empty in Hf.
      + intros [<- _] x. split; [done|]. intros (f & Hf & _). by apply in_column_empty in Hf.
    - assert (∀ f, in_column (k :: h) (f0 :: r) k f ↔ f = f0) as E.
      { intros f. rewrite in_column_cons. split; [|naive_solver]. intros [[_ ->]|H]; [done|]. by apply in_column_elem in H. }
      unfold label_below. setoid_rewrite E. case_decide as He.
      + split.
        * intros H. split; [|done]. destruct l as [x|]; [|done]. destruct (proj1 (H x) eq_refl) as (f & -> & Hn & _). done.
        * intros [<- _] x. naive_solver.
      + split.
        * intros H. split; [|done]. destruct (parse t f0) as [y|] eqn:Ey.
          -- symmetry. apply H. by exists f0.
          -- destruct l as [x|]; [|done]. destruct (proj1 (H x) eq_refl) as (f & -> & _ & ?). congruence.
        * intros [<- _] x. naive_solver.
  Qed.
End label.
(** The id after the columns of [h], when [id] has been found before. *)
Definition id_from (it : idty) (k : string) (h r : row) (id : option N) (n : N) : Prop :=
  match id with Some n' => n' = n ∧ k ∉ h | None => ∃ f, in_column h r k f ∧ id_field it f n end.
Lemma id_from_nil it k r id n : id_from it k [] r id n ↔ id = Some n.
Proof.
  destruct id as [n'|]; cbn; [set_solver|]. split; [|done]. intros (f & Hf & _). by apply in_column_nil in Hf.
Qed.
Lemma id_from_skip it k k' h r id n : k ≠ k' → id_from it k (k' :: h) r id n ↔ id_from it k h (drop 1 r) id n.
Proof.
  intros Hk. destruct id as [n'|]; cbn.
  - rewrite not_elem_of_cons. naive_solver.
  - assert (∀ f, in_column (k' :: h) r k f ↔ in_column h (drop 1 r) k f) as E.
    { intros f. destruct r as [|f0 r]; [split; intros H; by apply in_column_empty in H|]. cbn [drop]. rewrite in_column_cons. naive_solver. }
    by setoid_rewrite E.
Qed.
Lemma id_from_here it k h f r n : k ∉ h → id_from it k (k :: h) (f :: r) None n ↔ parse (t_id it) f = Some n.
Proof.
  intros Hk. unfold id_from. rewrite id_field_spec. split.
  - intros (f' & Hf & H). apply in_column_cons in Hf as [[_ ->]|Hf]; [done|]. by apply in_column_elem in Hf.
  - intros H. exists f. split; [by apply in_column_cons; left|done].
Qed.
Lemma id_from_empty it k h n : ¬ id_from it k h [] None n.
Proof. intros (f & Hf & _). by apply in_column_empty in Hf. Qed.

Lemma all_cons (P : string → Prop) k0 h : P k0 → (∀ k, k ∈ h → P k) → ∀ k, k ∈ k0 :: h → P k.
Proof. intros H0 H k Hk. apply elem_of_cons in Hk as [->|Hk]; [done|by apply H]. Qed.
Lemma all_tail (P : string → Prop) k0 h : (∀ k, k ∈ k0 :: h → P k) → ∀ k, k ∈ h → P k.
Proof. intros H k Hk. apply H. by apply elem_of_cons; right. Qed.

Section node_rows.
  Context {A : Type} (it : idty) (t : text A).
  Lemma node_map_spec h : ∀ r id label n l, node_map it t h r id label = Some (n, l) ↔
    NoDup h ∧ (∀ k, k ∈ h → k = "nodeId:ID" ∨ k = ":LABEL")%string ∧
    id_from it "nodeId:ID" h r id n ∧ label_from t ":LABEL" h r label l.
  Proof.
    induction h as [|k h IH]; intros r id label n l; cbn [node_map].
    - rewrite id_from_nil, label_from_nil. destruct id as [i|]; cbn [mbind option_bind]; [|naive_solver].
      split; [intros [= -> ->]; split; [constructor|set_solver]|]. by intros (_ & _ & [= ->] & ->).
    - destruct (decide (k = "nodeId:ID"%string)) as [->|Hk1]; [|destruct (decide (k = ":LABEL"%string)) as [->|Hk2]].
      + trans ("nodeId:ID"%string ∉ h ∧ id = None ∧ ∃ f fs i, r = f :: fs ∧ parse (t_id it) f = Some i ∧ node_map it t h fs (Some i) label = Some (n, l)).
        * destruct id as [i|]; [naive_solver|]. destruct r as [|f fs]; [naive_solver|]. split.
          -- intros H. apply bind_Some in H as (i & Hi & H). pose proof H as H'. apply IH in H as (_ & _ & [_ Hn] & _). by eauto 10.
          -- intros (_ & _ & f' & fs' & i & [= -> ->] & Hi & H). by rewrite Hi.
        * split.
          -- intros (Hn & -> & f & fs & i & -> & Hi & H). apply IH in H as (Hnd & Hk & [-> _] & Hl).
             split; [by constructor|]. split; [apply (all_cons (λ k, _)); [tauto|done]|]. split; [by apply id_from_here|]. by apply label_from_skip.
          -- intros (Hnd & Hk & Hid & Hl). inversion Hnd as [|? ? Hn Hnd']; subst.
             split; [done|]. destruct id as [i|]; [destruct Hid as [_ Hid]; by destruct Hid; left|]. split; [done|].
             destruct r as [|f fs]; [by apply id_from_empty in Hid|]. apply id_from_here in Hid; [|done]. exists f, fs, n. split; [done|]. split; [done|].
             apply IH. split; [done|]. split; [by apply (all_tail (λ k, _) _ _ Hk)|]. split; [done|]. by apply label_from_skip in Hl.
      + trans (":LABEL"%string ∉ h ∧ label = None ∧ node_map it t h (drop 1 r) id (Some (opt_field t r).1) = Some (n, l)).
        * destruct label as [l'|]; [naive_solver|]. assert (drop 1 r = (opt_field t r).2) as -> by (by destruct r).
          destruct (opt_field t r) as [l' fs]. cbn [fst snd]. split; [|by intros (_ & _ & ?)]. intros H. split; [|done].
          apply IH in H as (_ & _ & _ & [_ ?]). done.
        * rewrite IH. split.
          -- intros (Hn & -> & Hnd & Hk & Hid & Hl). split; [by constructor|]. split; [apply (all_cons (λ k, _)); [tauto|done]|]. split; [by apply id_from_skip|]. by apply label_from_here.
          -- intros (Hnd & Hk & Hid & Hl). inversion Hnd as [|? ? Hn Hnd']; subst. split; [done|].
             destruct label as [l'|]; [destruct Hl as [_ Hl]; by destruct Hl; left|]. split; [done|]. split; [done|]. split; [by apply (all_tail (λ k, _) _ _ Hk)|].
             split; [by apply id_from_skip in Hid|]. by apply label_from_here.
      + split; [done|]. intros (_ & Hk & _). destruct (Hk k) as [?|?]; [by left|done|done].
  Qed.
  Lemma node_line_spec flex h r n l : row_result (node_record it t (Some h)) flex (length h) r = Some (n, l) ↔ node_line it t flex h r n l.
  Proof.
    unfold row_result, node_line, right_length. cbn [node_record]. destruct (flex || bool_decide (length r = length h)) eqn:E.
    - rewrite node_map_spec. apply orb_true_iff in E. rewrite bool_decide_eq_true in E. tauto.
    - apply orb_false_iff in E as [E1 E2]. rewrite bool_decide_eq_false in E2. split; [done|]. intros [[?|?] _]; [congruence|done].
  Qed.
  Lemma bare_node_spec r n l : node_record it t None r = Some (n, l) ↔ bare_node_line it t r n l.
  Proof.
    unfold bare_node_line. cbn [node_record node_seq]. destruct r as [|f fs]; cbn [lookup list_lookup].
    { split; [done|]. by intros ((f & ? & _) & _). }
    trans (parse (t_id it) f = Some n ∧ seq_label t fs = l).
    { split.
      - intros H. apply bind_Some in H as (i & Hi & [= -> ->]). done.
      - intros [Hi <-]. cbn [node_record node_seq]. by rewrite Hi. }
    setoid_rewrite id_field_spec. assert (seq_label t fs = l ↔ label_in_place t (f :: fs) 1 l) as ->.
    { unfold label_in_place. cbn. destruct fs as [|f' fs]; cbn.
      - split; [intros <-; naive_solver|]. intros H. destruct l as [x|]; [|done]. destruct (proj1 (H x) eq_refl) as (? & ? & _). done.
      - split; [intros <-; naive_solver|]. intros H. destruct (parse t f') as [y|] eqn:E.
        + symmetry. apply H. by exists f'.
        + destruct l as [x|]; [|done]. destruct (proj1 (H x) eq_refl) as (? & [= <-] & ?). congruence. }
    naive_solver.
  Qed.
  Lemma node_iter_readings R p F h rows : rd_nodes R = Some p → rd_headers R = true → F !! p = Some (h :: rows) →
    ∃ ns, csv_node_iter it t R F = Some ns ∧ readings (λ r x, node_line it t (rd_flexible R) h r x.1 x.2) rows ns.
  Proof.
    intros Hp Hh HF. unfold csv_node_iter. rewrite Hp, HF, Hh. cbn [mbind option_bind]. eexists. split; [done|].
    rewrite deserialize_headers. apply readings_omap. intros r [n l]. apply node_line_spec.
  Qed.
  Lemma node_iter_bare R p F rows : rd_nodes R = Some p → rd_headers R = false → F !! p = Some rows →
    ∃ ns, csv_node_iter it t R F = Some ns ∧
      readings (λ r x, right_length (rd_flexible R) (length (default [] (head rows))) r ∧ bare_node_line it t r x.1 x.2) rows ns.
  Proof.
    intros Hp Hh HF. unfold csv_node_iter. rewrite Hp, HF, Hh. cbn [mbind option_bind]. eexists. split; [done|].
    destruct rows as [|r0 rows]; [constructor|]. rewrite deserialize_bare.
    assert (node_record it t None r0 = row_result (node_record it t None) (rd_flexible R) (length r0) r0) as ->.
    { unfold row_result. rewrite bool_decide_eq_true_2 by done. by rewrite orb_true_r. }
    rewrite <-fmap_cons. apply readings_omap. intros r [n l]. cbn [fst snd head default from_option].
    rewrite <-bare_node_spec. unfold row_result, right_length. destruct (rd_flexible R || bool_decide (length r = length r0)) eqn:E.
    - apply orb_true_iff in E. rewrite bool_decide_eq_true in E. tauto.
    - apply orb_false_iff in E as [E1 E2]. rewrite bool_decide_eq_false in E2. split; [done|]. intros [[?|?] _]; [congruence|done].
  Qed.
End node_rows.
Section edge_rows.
  Context {A : Type} (it : idty) (t : text A).
  Lemma edge_map_spec h : ∀ r s e label x y l, edge_map it t h r s e label = Some (x, y, l) ↔
    NoDup h ∧ (∀ k, k ∈ h → k = ":START_ID" ∨ k = ":END_ID" ∨ k = ":TYPE")%string ∧
    id_from it ":START_ID" h r s x ∧ id_from it ":END_ID" h r e y ∧ label_from t ":TYPE" h r label l.
  Proof.
    induction h as [|k h IH]; intros r s e label x y l; cbn [edge_map].
    - rewrite !id_from_nil, label_from_nil. destruct s as [i|], e as [j|]; cbn [mbind option_bind]; [|naive_solver..].
      split; [intros [= -> -> ->]; split; [constructor|set_solver]|]. by intros (_ & _ & [= ->] & [= ->] & ->).
    - destruct (decide (k = ":START_ID"%string)) as [->|Hk1];
        [|destruct (decide (k = ":END_ID"%string)) as [->|Hk2]; [|destruct (decide (k = ":TYPE"%string)) as [->|Hk3]]].
      + trans (":START_ID"%string ∉ h ∧ s = None ∧ ∃ f fs i, r = f :: fs ∧ parse (t_id it) f = Some i ∧ edge_map it t h fs (Some i) e label = Some (x, y, l)).
        * destruct s as [i|]; [naive_solver|]. destruct r as [|f fs]; [naive_solver|]. split.
          -- intros H. apply bind_Some in H as (i & Hi & H). pose proof H as H'. apply IH in H as (_ & _ & [_ Hn] & _). by eauto 10.
          -- intros (_ & _ & f' & fs' & i & [= -> ->] & Hi & H). by rewrite Hi.
        * split.
          -- intros (Hn & -> & f & fs & i & -> & Hi & H). apply IH in H as (Hnd & Hk & [-> _] & He & Hl).
             split; [by constructor|]. split; [apply (all_cons (λ k, _)); [tauto|done]|]. split; [by apply id_from_here|]. split; [by apply id_from_skip|]. by apply label_from_skip.
          -- intros (Hnd & Hk & Hid & He & Hl). inversion Hnd as [|? ? Hn Hnd']; subst.
             split; [done|]. destruct s as [i|]; [destruct Hid as [_ Hid]; by destruct Hid; left|]. split; [done|].
             destruct r as [|f fs]; [by apply id_from_empty in Hid|]. apply id_from_here in Hid; [|done]. exists f, fs, x. split; [done|]. split; [done|].
             apply IH. split; [done|]. split; [by apply (all_tail (λ k, _) _ _ Hk)|]. split; [done|]. split; [by apply id_from_skip in He|]. by apply label_from_skip in Hl.
      + trans (":END_ID"%string ∉ h ∧ e = None ∧ ∃ f fs i, r = f :: fs ∧ parse (t_id it) f = Some i ∧ edge_map it t h fs s (Some i) label = Some (x, y, l)).
        * destruct e as [i|]; [naive_solver|]. destruct r as [|f fs]; [naive_solver|]. split.
          -- intros H. apply bind_Some in H as (i & Hi & H). pose proof H as H'. apply IH in H as (_ & _ & _ & [_ Hn] & _). by eauto 10.
          -- intros (_ & _ & f' & fs' & i & [= -> ->] & Hi & H). by rewrite Hi.
        * split.
          -- intros (Hn & -> & f & fs & i & -> & Hi & H). apply IH in H as (Hnd & Hk & Hs & [-> _] & Hl).
             split; [by constructor|]. split; [apply (all_cons (λ k, _)); [tauto|done]|]. split; [by apply id_from_skip|]. split; [by apply id_from_here|]. by apply label_from_skip.
          -- intros (Hnd & Hk & Hs & Hid & Hl). inversion Hnd as [|? ? Hn Hnd']; subst.
             split; [done|]. destruct e as [i|]; [destruct Hid as [_ Hid]; by destruct Hid; left|]. split; [done|].
             destruct r as [|f fs]; [by apply id_from_empty in Hid|]. apply id_from_here in Hid; [|done]. exists f, fs, y. split; [done|]. split; [done|].
             apply IH. split; [done|]. split; [by apply (all_tail (λ k, _) _ _ Hk)|]. split; [by apply id_from_skip in Hs|]. split; [done|]. by apply label_from_skip in Hl.
      + trans (":TYPE"%string ∉ h ∧ label = None ∧ edge_map it t h (drop 1 r) s e (Some (opt_field t r).1) = Some (x, y, l)).
        * destruct label as [l'|]; [naive_solver|]. assert (drop 1 r = (opt_field t r).2) as -> by (by destruct r).
          destruct (opt_field t r) as [l' fs]. cbn [fst snd]. split; [|by intros (_ & _ & ?)]. intros H. split; [|done].
          apply IH in H as (_ & _ & _ & _ & [_ ?]). done.
        * rewrite IH. split.
          -- intros (Hn & -> & Hnd & Hk & Hs & He & Hl). split; [by constructor|]. split; [apply (all_cons (λ k, _)); [tauto|done]|].
             split; [by apply id_from_skip|]. split; [by apply id_from_skip|]. by apply label_from_here.
          -- intros (Hnd & Hk & Hs & He & Hl). inversion Hnd as [|? ? Hn Hnd']; subst. split; [done|].
             destruct label as [l'|]; [destruct Hl as [_ Hl]; by destruct Hl; left|]. split; [done|]. split; [done|]. split; [by apply (all_tail (λ k, _) _ _ Hk)|].
             split; [by apply id_from_skip in Hs|]. split; [by apply id_from_skip in He|]. by apply label_from_here.
      + split; [done|]. intros (_ & Hk & _). destruct (Hk k) as [?|[?|?]]; [by left|done|done|done].
  Qed.
  Lemma edge_line_spec flex h r x y l : row_result (edge_record it t (Some h)) flex (length h) r = Some (x, y, l) ↔ edge_line it t flex h r x y l.
  Proof.
    unfold row_result, edge_line, right_length. cbn [edge_record]. destruct (flex || bool_decide (length r = length h)) eqn:E.
    - rewrite edge_map_spec. apply orb_true_iff in E. rewrite bool_decide_eq_true in E. tauto.
    - apply orb_false_iff in E as [E1 E2]. rewrite bool_decide_eq_false in E2. split; [done|]. intros [[?|?] _]; [congruence|done].
  Qed.
  Lemma bare_edge_spec r x y l : edge_record it t None r = Some (x, y, l) ↔ bare_edge_line it t r x y l.
  Proof.
    unfold bare_edge_line. cbn [edge_record edge_seq]. destruct r as [|f [|f' fs]]; cbn [lookup list_lookup].
    { split; [done|]. by intros ((f & ? & _) & _). }
    { split; [done|]. by intros (_ & (f' & ? & _) & _). }
    trans (parse (t_id it) f = Some x ∧ parse (t_id it) f' = Some y ∧ seq_label t fs = l).
    { split.
      - intros H. apply bind_Some in H as (i & Hi & H). apply bind_Some in H as (j & Hj & [= -> -> ->]). done.
      - intros (Hi & Hj & <-). cbn [edge_record edge_seq]. rewrite Hi. cbn [mbind option_bind]. by rewrite Hj. }
    setoid_rewrite id_field_spec. assert (seq_label t fs = l ↔ label_in_place t (f :: f' :: fs) 2 l) as ->.
    { unfold label_in_place. cbn. destruct fs as [|f'' fs]; cbn.
      - split; [intros <-; naive_solver|]. intros H. destruct l as [z|]; [|done]. destruct (proj1 (H z) eq_refl) as (? & ? & _). done.
      - split; [intros <-; naive_solver|]. intros H. destruct (parse t f'') as [z|] eqn:E.
        + symmetry. apply H. by exists f''.
        + destruct l as [z|]; [|done]. destruct (proj1 (H z) eq_refl) as (? & [= <-] & ?). congruence. }
    naive_solver.
  Qed.
  Lemma edge_iter_readings R F h rows : rd_headers R = true → F !! rd_edges R = Some (h :: rows) →
    ∃ es, csv_edge_iter it t R F = Some es ∧ readings (λ r e, edge_line it t (rd_flexible R) h r e.1.1 e.1.2 e.2) rows es.
  Proof.
    intros Hh HF. unfold csv_edge_iter. rewrite HF, Hh. cbn [mbind option_bind]. eexists. split; [done|].
    rewrite deserialize_headers. apply readings_omap. intros r [[x y] l]. apply edge_line_spec.
  Qed.
  Lemma edge_iter_bare R F rows : rd_headers R = false → F !! rd_edges R = Some rows →
    ∃ es, csv_edge_iter it t R F = Some es ∧
      readings (λ r e, right_length (rd_flexible R) (length (default [] (head rows))) r ∧ bare_edge_line it t r e.1.1 e.1.2 e.2) rows es.
  Proof.
    intros Hh HF. unfold csv_edge_iter. rewrite HF, Hh. cbn [mbind option_bind]. eexists. split; [done|].
    destruct rows as [|r0 rows]; [constructor|]. rewrite deserialize_bare.
    assert (edge_record it t None r0 = row_result (edge_record it t None) (rd_flexible R) (length r0) r0) as ->.
    { unfold row_result. rewrite bool_decide_eq_true_2 by done. by rewrite orb_true_r. }
    rewrite <-fmap_cons. apply readings_omap. intros r [[x y] l]. cbn [fst snd head default from_option].
    rewrite <-bare_edge_spec. unfold row_result, right_length. destruct (rd_flexible R || bool_decide (length r = length r0)) eqn:E.
    - apply orb_true_iff in E. rewrite bool_decide_eq_true in E. tauto.
    - apply orb_false_iff in E as [E1 E2]. rewrite bool_decide_eq_false in E2. split; [done|]. intros [[?|?] _]; [congruence|done].
  Qed.
  Lemma edge_iter_missing R F : F !! rd_edges R = None → csv_edge_iter it t R F = None.
  Proof. intros H. unfold csv_edge_iter. by rewrite H. Qed.
End edge_rows.

(** ** Missing and empty files *)
Section missing.
  Context {NL EL : Type} `{EqDecision NL, EqDecision EL} (dir : bool) (it lt : idty) (tn : text NL) (te : text EL) (R : reader) (F : csvfs).
  Lemma node_iter_none : rd_nodes R = None → csv_node_iter it tn R F = Some [].
  Proof. intros H. unfold csv_node_iter. by rewrite H. Qed.
  Lemma node_file_missing p g : rd_nodes R = Some p → F !! p = None →
    csv_node_iter it tn R F = None ∧ csv_read dir it lt tn te R F g = Ok (g, false).
  Proof. intros Hp HF. split; [unfold csv_node_iter; by rewrite Hp, HF|by eapply read_missing_nodes]. Qed.
  Lemma edge_file_missing g : F !! rd_edges R = None →
    csv_edge_iter it te R F = None ∧ ∀ g' b, csv_read dir it lt tn te R F g = Ok (g', b) → b = false.
  Proof.
    intros HF. split; [unfold csv_edge_iter; by rewrite HF|]. intros g' b. unfold csv_read. rewrite HF.
    destruct (rd_nodes R) as [p|]; [|congruence]. destruct (F !! p) as [t|]; [|congruence].
    destruct (read_nodes it lt tn R t g) as [g1| |]; cbn; congruence.
  Qed.
  Lemma empty_files : (∀ p, rd_nodes R = Some p → F !! p = Some [] → csv_node_iter it tn R F = Some []) ∧
    (F !! rd_edges R = Some [] → csv_edge_iter it te R F = Some []).
  Proof.
    split.
    - intros p Hp HF. unfold csv_node_iter. rewrite Hp, HF. cbn [mbind option_bind]. unfold deserialize. by destruct (rd_headers R).
    - intros HF. unfold csv_edge_iter. rewrite HF. cbn [mbind option_bind]. unfold deserialize. by destruct (rd_headers R).
  Qed.
End missing.
Lemma node_line_fun {NL} (it : idty) (tn : text NL) flexible h r n l n' l' :
  node_line it tn flexible h r n l → node_line it tn flexible h r n' l' → n = n' ∧ l = l'.
Proof. intros H1%node_line_spec H2%node_line_spec. rewrite H1 in H2. by injection H2. Qed.
Lemma edge_line_fun {EL} (it : idty) (te : text EL) flexible h r x y l x' y' l' :
  edge_line it te flexible h r x y l → edge_line it te flexible h r x' y' l' → x = x' ∧ y = y' ∧ l = l'.
Proof. intros H1%edge_line_spec H2%edge_line_spec. rewrite H1 in H2. by injection H2. Qed.
