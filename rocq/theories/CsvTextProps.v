(** Facts about the text layer. *)
From Coq Require Import Ascii.
From stdpp Require Import gmap strings.
From Verif Require Import Base BaseFacts Api Spec Map GraphMap Csv SpecCsv CsvText SpecCsvText.

Lemma sapp_nil (s : string) : s +:+ "" = s.
Proof. induction s as [|c s IH]; [done|]. change (String c (s +:+ "") = String c s). by rewrite IH. Qed.
Lemma sapp_assoc (a b c : string) : (a +:+ b) +:+ c = a +:+ (b +:+ c).
Proof. induction a as [|x a IH]; [done|]. change (String x ((a +:+ b) +:+ c) = String x (a +:+ (b +:+ c))). by rewrite IH. Qed.
Lemma scons_app x (a b : string) : String x a +:+ b = String x (a +:+ b).
Proof. done. Qed.

Lemma special_false sep c : is_special sep c = false ↔ c ≠ sep ∧ c ≠ c_quote ∧ c ≠ c_lf ∧ c ≠ c_cr.
Proof. unfold is_special, is_end. rewrite !orb_false_iff, !bool_decide_eq_false. naive_solver. Qed.
Lemma end_false c : is_end c = false ↔ c ≠ c_lf ∧ c ≠ c_cr.
Proof. unfold is_end. by rewrite orb_false_iff, !bool_decide_eq_false. Qed.
Lemma plain_needs sep f : plain sep f ↔ needs_quotes sep f = false.
Proof.
  induction f as [|c f IH]; [split; [done|by intros _ c]|]. cbn. rewrite orb_false_iff, special_false, <-IH. split.
  - intros H. split; [apply H; by left|]. intros d Hd. apply H. by right.
  - intros [H1 H2] d [->|Hd]; [exact H1|by apply H2].
Qed.

Section scan.
  Context (sep : ascii).
  (** The steps of the automaton. *)
  Lemma scan_sep_in cur rec s : scan sep InField cur rec (String sep s) = scan sep AtField "" (rec ++ [cur]) s.
  Proof. cbn. by rewrite decide_True. Qed.
  Lemma scan_sep_at cur rec s : sep ≠ c_quote → scan sep AtField cur rec (String sep s) = scan sep AtField "" (rec ++ [cur]) s.
  Proof. intros H. cbn. rewrite decide_False by done. by rewrite decide_True. Qed.
  Lemma scan_sep_after cur rec s : sep ≠ c_quote → scan sep AfterQuote cur rec (String sep s) = scan sep AtField "" (rec ++ [cur]) s.
  Proof. intros H. cbn. rewrite decide_False by done. by rewrite decide_True. Qed.
  Lemma scan_lf m cur rec s : sep ≠ c_lf → m = InField ∨ m = AtField ∨ m = AfterQuote →
    scan sep m cur rec (String c_lf s) = (rec ++ [cur]) :: scan sep AtRecord "" [] s.
  Proof. intros H Hm. destruct Hm as [-> |[-> | ->]]; cbn; rewrite ?(decide_False (P := c_lf = sep)) by done; done. Qed.
  Lemma scan_quotes f cur rec s : scan sep InQuotes cur rec (double_quotes f +:+ String c_quote s) = scan sep AfterQuote (cur +:+ f) rec s.
  Proof.
    revert cur. induction f as [|c f IH]; intros cur.
    - cbn [double_quotes]. rewrite sapp_nil. cbn. done.
    - cbn [double_quotes]. destruct (decide (c = c_quote)) as [->|Hc].
      + change (scan sep InQuotes (cur +:+ String c_quote "") rec (double_quotes f +:+ String c_quote s) = scan sep AfterQuote (cur +:+ String c_quote f) rec s).
        rewrite IH. by rewrite sapp_assoc.
      + rewrite scons_app. cbn [scan]. rewrite decide_False by done. rewrite IH. by rewrite sapp_assoc.
  Qed.
  Lemma scan_plain f cur rec s : needs_quotes sep f = false → scan sep InField cur rec (f +:+ s) = scan sep InField (cur +:+ f) rec s.
  Proof.
    revert cur. induction f as [|c f IH]; intros cur Hf; [by rewrite sapp_nil|].
    cbn in Hf. apply orb_false_iff in Hf as [Hc Hf]. apply special_false in Hc as (H1 & H2 & H3 & H4).
    rewrite scons_app. cbn [scan]. rewrite decide_False by done. rewrite (proj2 (end_false c)) by done. rewrite IH by done. by rewrite sapp_assoc.
  Qed.
  Lemma scan_first c f rec s : needs_quotes sep (String c f) = false → scan sep AtField "" rec (String c f +:+ s) = scan sep InField (String c f) rec s.
  Proof.
    intros Hf. cbn in Hf. apply orb_false_iff in Hf as [Hc Hf]. apply special_false in Hc as (H1 & H2 & H3 & H4).
    rewrite scons_app. cbn [scan]. rewrite decide_False by done. rewrite decide_False by done. rewrite (proj2 (end_false c)) by done.
    rewrite scan_plain by done. done.
  Qed.
  (** One field, up to the character that ends it. *)
  Lemma scan_field f rec s : ∃ m, (m = InField ∨ m = AtField ∨ m = AfterQuote) ∧ (m = AfterQuote → needs_quotes sep f = true) ∧ (m = AtField → f = ""%string) ∧
    scan sep AtField "" rec (field_text sep f +:+ s) = scan sep m f rec s.
  Proof.
    unfold field_text. destruct (needs_quotes sep f) eqn:Hf.
    - exists AfterQuote. split_and!; [by right; right|done|done|]. rewrite scons_app. cbn [scan]. rewrite decide_True by done.
      rewrite sapp_assoc. rewrite scons_app. rewrite scan_quotes. done.
    - destruct f as [|c f]; [exists AtField; split_and!; [by right; left|done|done|done]|].
      exists InField. split_and!; [by left|done|done|]. by apply scan_first.
  Qed.
  Lemma scan_field_sep f rec s : sep ≠ c_quote ∨ (f ≠ ""%string ∧ needs_quotes sep f = false) →
    scan sep AtField "" rec (field_text sep f +:+ String sep s) = scan sep AtField "" (rec ++ [f]) s.
  Proof.
    intros Hs. destruct (scan_field f rec (String sep s)) as (m & Hm & Ha & Hb & ->). destruct Hm as [-> |[-> | ->]].
    - apply scan_sep_in.
    - apply scan_sep_at. destruct Hs as [?|[Hn _]]; [done|]. by destruct Hn; apply Hb.
    - apply scan_sep_after. destruct Hs as [?|[_ Hn]]; [done|]. by rewrite Ha in Hn.
  Qed.
  Lemma scan_field_lf f rec s : sep ≠ c_lf →
    scan sep AtField "" rec (field_text sep f +:+ String c_lf s) = (rec ++ [f]) :: scan sep AtRecord "" [] s.
  Proof.
    intros Hs. destruct (scan_field f rec (String c_lf s)) as (m & Hm & _ & _ & ->). by apply scan_lf.
  Qed.

  (** Rows that survive: with a usual separator, every row; otherwise those whose fields before the last are plain and not empty. *)
  Definition row_ok (r : row) : Prop :=
    r ≠ [] ∧ ((sep ≠ c_quote ∧ sep ≠ c_cr) ∨ Forall (λ f, f ≠ ""%string ∧ needs_quotes sep f = false) (removelast r)).
  Lemma scan_fields r rec s : sep ≠ c_lf → row_ok r →
    scan sep AtField "" rec (fields_text sep r +:+ String c_lf s) = (rec ++ r) :: scan sep AtRecord "" [] s.
  Proof.
    intros Hs. revert rec. induction r as [|f r IH]; intros rec [Hr Ho]; [done|]. destruct r as [|f' r].
    - cbn [fields_text]. by apply scan_field_lf.
    - change (fields_text sep (f :: f' :: r)) with (field_text sep f +:+ String sep (fields_text sep (f' :: r))).
      rewrite sapp_assoc, scons_app. rewrite scan_field_sep.
      + rewrite IH; [by rewrite <-app_assoc|]. split; [done|]. destruct Ho as [?|Ho]; [by left|right].
        change (removelast (f :: f' :: r)) with (f :: removelast (f' :: r)) in Ho. by apply Forall_cons in Ho as [_ ?].
      + destruct Ho as [[? _]|Ho]; [by left|right]. change (removelast (f :: f' :: r)) with (f :: removelast (f' :: r)) in Ho.
        by apply Forall_cons in Ho as [? _].
  Qed.
  Lemma at_record_field c s : is_end c = false → scan sep AtRecord "" [] (String c s) = scan sep AtField "" [] (String c s).
  Proof. intros H. cbn [scan]. by rewrite H. Qed.
  (** The first character of a row's text ends no line. *)
  Lemma field_start f s c s' : f ≠ ""%string → field_text sep f +:+ s = String c s' → is_end c = false.
  Proof.
    intros Hf. unfold field_text. destruct (needs_quotes sep f) eqn:Hn; rewrite ?scons_app.
    - intros [= <- _]. done.
    - destruct f as [|d f]; [done|]. rewrite scons_app. intros [= <- _]. cbn in Hn. apply orb_false_iff in Hn as [Hn _].
      apply special_false in Hn as (? & ? & ? & ?). by apply end_false.
  Qed.
  Lemma fields_start r c s : row_ok r → sep ≠ c_lf → fields_text sep r = String c s → is_end c = false.
  Proof.
    intros [Hr Ho] Hs. destruct r as [|f r]; [done|]. destruct r as [|f' r]; cbn [fields_text].
    - intros He. destruct (decide (f = ""%string)) as [->|Hf]; [done|]. eapply (field_start f "" c s Hf). by rewrite sapp_nil.
    - change (field_text sep f +:+ String sep (fields_text sep (f' :: r)) = String c s → is_end c = false).
      intros He. destruct (decide (f = ""%string)) as [->|Hf]; [|by eapply (field_start f _ c s Hf)].
      cbn in He. injection He as <- _. destruct Ho as [[? ?]|Ho]; [by apply end_false|].
      change (removelast ("" :: f' :: r)%string) with (""%string :: removelast (f' :: r)) in Ho. apply Forall_cons in Ho as [[? _] _]. done.
  Qed.
  Lemma fields_empty r : r ≠ [] → fields_text sep r = ""%string → r = [""%string].
  Proof.
    destruct r as [|f r]; [done|]. intros _. destruct r as [|f' r]; cbn [fields_text].
    - unfold field_text. destruct (needs_quotes sep f); [done|]. by intros ->.
    - change (field_text sep f +:+ String sep (fields_text sep (f' :: r)) = ""%string → f :: f' :: r = [""%string]).
      by destruct (field_text sep f).
  Qed.
  Lemma scan_record r s : sep ≠ c_lf → row_ok r → scan sep AtRecord "" [] (record_text sep r +:+ s) = r :: scan sep AtRecord "" [] s.
  Proof.
    intros Hs Ho. unfold record_text. destruct (decide (fields_text sep r = EmptyString)) as [He|He].
    - rewrite (fields_empty r (proj1 Ho) He). change (scan sep AfterQuote "" [] (String c_lf s) = [""%string] :: scan sep AtRecord "" [] s). rewrite scan_lf; [done|done|by right; right].
    - rewrite sapp_assoc, scons_app. destruct (fields_text sep r) as [|c t] eqn:Ht; [done|].
      rewrite scons_app. rewrite at_record_field by (by eapply fields_start). rewrite <-scons_app, <-Ht. by rewrite scan_fields.
  Qed.
  Lemma read_table_text t : sep ≠ c_lf → Forall row_ok t → read_table sep (table_text sep t) = t.
  Proof.
    intros Hs Ht. unfold read_table. induction Ht as [|r t Hr Ht IH]; [done|]. cbn [table_text foldr].
    change (scan sep AtRecord "" [] (record_text sep r +:+ table_text sep t) = r :: t). rewrite scan_record by done. by rewrite IH.
  Qed.

  (** Lines without quotes. *)
  Lemma joined_text r : Forall (plain sep) r → fields_text sep r = joined sep r.
  Proof.
    intros Hr. induction Hr as [|f r Hf Hr IH]; [done|]. assert (field_text sep f = f) as Hff.
    { unfold field_text. by rewrite (proj1 (plain_needs sep f) Hf). }
    destruct r as [|f' r]; [done|].
    change (field_text sep f +:+ String sep (fields_text sep (f' :: r)) = f +:+ String sep (joined sep (f' :: r))). by rewrite Hff, IH.
  Qed.
  Lemma after_cr s : scan sep AfterCr "" [] s = scan sep AtRecord "" [] s.
  Proof. destruct s as [|c s]; [done|]. cbn [scan]. destruct (decide (c = c_lf)) as [->|]; done. Qed.
  Lemma end_of m cur rec e s : usual sep → line_end e → m = InField ∨ m = AtField ∨ m = AfterQuote →
    scan sep m cur rec (e +:+ s) = (rec ++ [cur]) :: scan sep AtRecord "" [] s.
  Proof.
    intros (H1 & H2 & H3) He Hm. destruct He as [-> |He].
    - by apply scan_lf.
    - assert (∀ s', scan sep m cur rec (String c_cr s') = (rec ++ [cur]) :: scan sep AfterCr "" [] s') as Hc.
      { intros s'. destruct Hm as [-> |[-> | ->]]; cbn [scan].
        - rewrite decide_False by done. done.
        - rewrite (decide_False (P := c_cr = c_quote)) by done. rewrite decide_False by done. done.
        - rewrite (decide_False (P := c_cr = c_quote)) by done. rewrite decide_False by done. done. }
      destruct He as [-> | ->]; rewrite !scons_app.
      + change (scan sep m cur rec (String c_cr s) = (rec ++ [cur]) :: scan sep AtRecord "" [] s). by rewrite Hc, after_cr.
      + change (scan sep m cur rec (String c_cr (String c_lf s)) = (rec ++ [cur]) :: scan sep AtRecord "" [] s). rewrite Hc, after_cr.
        f_equal.
  Qed.
  Lemma scan_fields_end r rec e s : usual sep → Forall (plain sep) r → r ≠ [] → line_end e ∨ (e = ""%string ∧ s = ""%string ∧ joined sep r ≠ ""%string) →
    scan sep AtField "" rec (joined sep r +:+ e +:+ s) = (rec ++ r) :: scan sep AtRecord "" [] s.
  Proof.
    intros Hu Hr. revert rec. induction Hr as [|f r Hf Hr IH]; intros rec Hn He; [done|]. clear Hn.
    assert (∀ x, field_text sep f +:+ x = f +:+ x) as Hff. { intros x. unfold field_text. by rewrite (proj1 (plain_needs sep f) Hf). }
    destruct r as [|f' r].
    - cbn [joined]. destruct (scan_field f rec (e +:+ s)) as (m & Hm & _ & _ & Hs). rewrite Hff in Hs. rewrite Hs.
      destruct He as [He|(-> & -> & Hj)]; [by apply end_of|]. by destruct Hm as [-> |[-> | ->]].
    - change (joined sep (f :: f' :: r)) with (f +:+ String sep (joined sep (f' :: r))). rewrite sapp_assoc, scons_app, <-Hff.
      rewrite scan_field_sep by (left; apply Hu). destruct He as [He|(-> & -> & _)].
      + rewrite IH by (by try left). by rewrite <-app_assoc.
      + destruct (decide (joined sep (f' :: r) = ""%string)) as [Hj|Hj].
        * assert (f' :: r = [""%string]) as Hf'. { destruct r; [by cbn in Hj; subst|]. change (f' +:+ String sep (joined sep (s :: r)) = ""%string) in Hj. by destruct f'. }
          rewrite Hj, Hf'. change ([(rec ++ [f]) ++ [""%string]] = [rec ++ [f; ""%string]]). by rewrite <-app_assoc.
        * rewrite IH by (by try right). by rewrite <-app_assoc.
  Qed.
  Lemma joined_empty r : r ≠ [] → joined sep r = ""%string → r = [""%string].
  Proof. destruct r as [|f [|f' r]]; [done|cbn; by intros _ ->|]. intros _ H. change (f +:+ String sep (joined sep (f' :: r)) = ""%string) in H. by destruct f. Qed.
  Lemma joined_start r c s : usual sep → Forall (plain sep) r → joined sep r = String c s → is_end c = false.
  Proof.
    intros Hu Hr. destruct Hr as [|f r Hf Hr]; [done|]. destruct f as [|d f].
    - destruct r; [done|]. cbn. intros [= <- _]. destruct Hu as (? & ? & ?). by apply end_false.
    - intros He. assert (c = d) as -> by (destruct r; cbn in He; by injection He). destruct (Hf d) as (? & ? & ? & ?); [by left|]. by apply end_false.
  Qed.
  Lemma scan_line r e s : usual sep → Forall (plain sep) r → r ≠ [] → line_end e ∨ (e = ""%string ∧ s = ""%string) →
    scan sep AtRecord "" [] (joined sep r +:+ e +:+ s) = (if decide (r = [""%string]) then [] else [r]) ++ scan sep AtRecord "" [] s.
  Proof.
    intros Hu Hr Hn He. destruct (joined sep r) as [|c t] eqn:Hj.
    - rewrite decide_True by (by apply joined_empty). destruct He as [He|[-> ->]]; [|done]. destruct He as [-> |[-> | ->]]; done.
    - rewrite decide_False by (intros ->; done). rewrite scons_app. rewrite at_record_field by (by eapply joined_start). rewrite <-scons_app, <-Hj.
      rewrite scan_fields_end; [done|done|done|done|]. destruct He as [?|[? ?]]; [by left|right]. split_and!; [done|done|by rewrite Hj].
  Qed.
  Lemma read_lines ls r : usual sep → Forall (λ l, l.1 ≠ [] ∧ Forall (plain sep) l.1 ∧ line_end l.2) ls → r ≠ [] → Forall (plain sep) r →
    read_table sep (lines sep ls +:+ joined sep r) = filter (λ r, r ≠ [""%string]) (ls.*1 ++ [r]).
  Proof.
    intros Hu Hl Hn Hr. unfold read_table. induction Hl as [|[r' e] ls (H1 & H2 & H3) Hl IH].
    - cbn [lines]. change (""%string +:+ joined sep r) with (joined sep r). rewrite <-(sapp_nil (joined sep r)). rewrite <-(sapp_nil ""%string) at 2.
      rewrite scan_line by (try done; by right). cbn [fmap list_fmap app]. rewrite filter_cons. destruct (decide (r = [""%string])).
      + rewrite decide_False by (intros Hx; by apply Hx). done.
      + by rewrite decide_True by done.
    - cbn [lines]. rewrite !sapp_assoc. rewrite scan_line by (try done; by left). cbn in IH. rewrite IH. cbn [fmap list_fmap app fst]. rewrite filter_cons.
      destruct (decide (r' = [""%string])); [rewrite decide_False by (intros Hx; by apply Hx); done|by rewrite decide_True by done].
  Qed.
  (** A quote that is not closed takes the rest of the file. *)
  Lemma scan_open s cur rec : ¬ has_char c_quote s → scan sep InQuotes cur rec s = [rec ++ [cur +:+ s]].
  Proof.
    revert cur. induction s as [|c s IH]; intros cur Hs; [by rewrite sapp_nil|]. cbn [scan]. rewrite decide_False by (intros ->; apply Hs; by left).
    rewrite IH by (intros H; apply Hs; by right). by rewrite sapp_assoc.
  Qed.
  Lemma scan_open_fields r rec s : usual sep → Forall (plain sep) r → ¬ has_char c_quote s →
    scan sep AtField "" rec (joined sep (r ++ [String c_quote s])) = [rec ++ r ++ [s]].
  Proof.
    intros Hu Hr Hs. revert rec. induction Hr as [|f r Hf Hr IH]; intros rec.
    - cbn [app joined scan]. rewrite decide_True by done. by rewrite scan_open.
    - assert (joined sep ((f :: r) ++ [String c_quote s]) = field_text sep f +:+ String sep (joined sep (r ++ [String c_quote s]))) as ->.
      { unfold field_text. rewrite (proj1 (plain_needs sep f) Hf). by destruct r. }
      rewrite scan_field_sep by (left; apply Hu). rewrite IH. by rewrite <-app_assoc.
  Qed.
  Lemma open_start r s c t : usual sep → Forall (plain sep) r → joined sep (r ++ [String c_quote s]) = String c t → is_end c = false.
  Proof.
    intros Hu Hr. destruct Hr as [|f r Hf Hr]; [by intros [= <- _]|]. destruct f as [|d f].
    - assert (joined sep ((""%string :: r) ++ [String c_quote s]) = String sep (joined sep (r ++ [String c_quote s]))) as -> by (by destruct r).
      intros [= <- _]. destruct Hu as (? & ? & ?). by apply end_false.
    - intros He. assert (c = d) as -> by (destruct r; cbn in He; by injection He). destruct (Hf d) as (? & ? & ? & ?); [by left|]. by apply end_false.
  Qed.
  Lemma read_open ls r s : usual sep → Forall (λ l, l.1 ≠ [] ∧ Forall (plain sep) l.1 ∧ line_end l.2) ls → Forall (plain sep) r → ¬ has_char c_quote s →
    read_table sep (lines sep ls +:+ joined sep (r ++ [String c_quote s])) = filter (λ r, r ≠ [""%string]) ls.*1 ++ [r ++ [s]].
  Proof.
    intros Hu Hl Hr Hs. unfold read_table. induction Hl as [|[r' e] ls (H1 & H2 & H3) Hl IH].
    - cbn [lines]. change (""%string +:+ joined sep (r ++ [String c_quote s])) with (joined sep (r ++ [String c_quote s])). cbn [fmap list_fmap app].
      assert (joined sep (r ++ [String c_quote s]) ≠ ""%string) as Hne.
      { intros He. apply joined_empty in He; [|by destruct r]. by destruct r as [|? [|? ?]]. }
      pose proof (scan_open_fields r [] s Hu Hr Hs) as Ho. pose proof (open_start r s) as Hst. destruct (joined sep (r ++ [String c_quote s])) as [|c t].
      + done.
      + rewrite at_record_field by (by eapply Hst). exact Ho.
    - cbn [lines]. rewrite !sapp_assoc. rewrite scan_line by (try done; by left). cbn in IH. rewrite IH. cbn [fmap list_fmap app fst]. rewrite filter_cons.
      destruct (decide (r' = [""%string])); [rewrite decide_False by (intros Hx; by apply Hx); done|by rewrite decide_True by done].
  Qed.
End scan.
