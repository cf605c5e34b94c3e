(** What import makes of any file. *)
From stdpp Require Import gmap strings.
From Verif Require Import Utf8 SpecUtf8 Utf8Props Base BaseFacts Bytes Spec SpecSerde SpecImport SpecLabelHist Map MapFacts GraphMap Static Serde SerdeFacts LabelHist.

Lemma le_value_range k b : bytes b → length b = k → (le_value b < 256 ^ N.of_nat k)%N.
Proof.
  revert k. induction b as [|x b IH]; intros k Hb Hl; [by subst; vm_compute|]. apply Forall_cons in Hb as [Hx Hb]. destruct k as [|k]; [done|]. injection Hl as Hl.
  unfold le_value. cbn [foldr]. fold (le_value b). specialize (IH k Hb Hl). rewrite Nat2N.inj_succ, N.pow_succ_r'. lia.
Qed.
Lemma le_bytes_value b : bytes b → le_bytes (length b) (le_value b) = b.
Proof.
  induction b as [|x b IH]; intros Hb; [done|]. apply Forall_cons in Hb as [Hx Hb]. cbn [length le_bytes]. unfold le_value. cbn [foldr]. fold (le_value b).
  rewrite N.mul_comm. f_equal.
  - rewrite N.mod_add by lia. by apply N.mod_small.
  - rewrite N.div_add by lia. rewrite N.div_small by lia. rewrite N.add_0_l. by apply IH.
Qed.
Lemma bytes_app a r : bytes (a ++ r) ↔ bytes a ∧ bytes r.
Proof. apply Forall_app. Qed.

(** ** What decoders yield *)
Lemma y_uint k : yields (c_uint k) (λ x, x < 256 ^ N.of_nat k)%N.
Proof.
  intros b x r Hb. cbn [c_uint dec]. destruct (decide (length b < k)) as [|Hl]; [done|]. intros [= <- <-]. split; [|exists (take k b); symmetry; apply take_drop].
  apply le_value_range; [by apply Forall_take|]. rewrite take_length. lia.
Qed.
Lemma y_weaken {A} (c : codec A) (P Q : A → Prop) : (∀ x, P x → Q x) → yields c P → yields c Q.
Proof. intros H Hc b x r Hb Hd. destruct (Hc b x r Hb Hd) as [H1 H2]. split; [by apply H|done]. Qed.
Lemma y_id t : yields (c_id t) (in_type t).
Proof. eapply y_weaken, y_uint. intros x. unfold in_type. by rewrite id_card_pow. Qed.
Lemma y_usize : yields c_usize in_usize.
Proof.
  intros b x r Hb. cbn [c_usize dec]. destruct (dec (c_uint 8) b) as [[v r']|] eqn:E; cbn; [|done]. intros [= <- <-].
  destruct (y_uint 8 b v r' Hb E) as [H1 H2]. split; [|done]. unfold in_usize. by rewrite N2Nat.id.
Qed.
Lemma y_option {A} (c : codec A) P : yields c P → yields (c_option c) (opt_all P).
Proof.
  intros Hc b x r Hb. cbn [c_option dec]. destruct b as [|t b]; [done|]. apply Forall_cons in Hb as [_ Hb]. destruct t as [|t]; [intros [= <- <-]; split; [done|by exists [0%N]]|].
  destruct t; [done..|]. destruct (dec c b) as [[v r']|] eqn:E; cbn; [|done]. intros [= <- <-]. destruct (Hc b v r' Hb E) as [H1 [a ->]]. split; [done|]. by exists (1%N :: a).
Qed.
Lemma y_pair {A B} (c : codec A) (d : codec B) P Q : yields c P → yields d Q → yields (c_pair c d) (λ p, P p.1 ∧ Q p.2).
Proof.
  intros Hc Hd b x r Hb. cbn [c_pair dec]. destruct (dec c b) as [[v r1]|] eqn:E; cbn; [|done]. destruct (dec d r1) as [[w r2]|] eqn:E'; cbn; [|done]. intros [= <- <-].
  destruct (Hc b v r1 Hb E) as [H1 [a ->]]. apply bytes_app in Hb as [_ Hb]. destruct (Hd r1 w r2 Hb E') as [H2 [a' ->]]. split; [done|]. exists (a ++ a'). by rewrite app_assoc.
Qed.
Lemma y_iso {A B} (c : codec A) P (f : B → A) (g : A → B) (Q : B → Prop) : yields c P → (∀ x, P x → Q (g x)) → yields (c_iso f g c) Q.
Proof.
  intros Hc Hg b x r Hb. cbn [c_iso dec]. destruct (dec c b) as [[v r1]|] eqn:E; cbn; [|done]. intros [= <- <-]. destruct (Hc b v r1 Hb E) as [H1 H2]. split; [by apply Hg|done].
Qed.
Lemma y_items {A} (c : codec A) P n : yields c P → ∀ b l r, bytes b → dec_items c n b = Some (l, r) → (length l = n ∧ Forall P l) ∧ ∃ a, b = a ++ r.
Proof.
  intros Hc. induction n as [|n IH]; intros b l r Hb; cbn [dec_items].
  - intros [= <- <-]. split; [by split|by exists []].
  - destruct (dec c b) as [[x r1]|] eqn:E; cbn [mbind option_bind]; [|done]. destruct (dec_items c n r1) as [[l' r2]|] eqn:E'; cbn [mbind option_bind]; [|done].
    intros [= <- <-]. destruct (Hc b x r1 Hb E) as [H1 [a ->]]. apply bytes_app in Hb as [_ Hb]. destruct (IH r1 l' r2 Hb E') as [[H2 H3] [a' ->]].
    split; [split; [cbn; by rewrite H2|by constructor]|]. exists (a ++ a'). by rewrite app_assoc.
Qed.
Lemma y_list {A} (c : codec A) P : yields c P → yields (c_list c) (vec_of P).
Proof.
  intros Hc b l r Hb. cbn [c_list dec]. destruct (dec c_usize b) as [[n r1]|] eqn:E; cbn [mbind option_bind]; [|done]. intros Hd.
  destruct (y_usize b n r1 Hb E) as [H1 [a ->]]. apply bytes_app in Hb as [_ Hb]. destruct (y_items c P n Hc r1 l r Hb Hd) as [[H2 H3] [a' ->]].
  split; [split; [by rewrite H2|done]|]. exists (a ++ a'). by rewrite app_assoc.
Qed.
Lemma from_vec_first {L} `{EqDecision L} (l : list L) : sm_from_vec l = first_uses l.
Proof.
  unfold sm_from_vec. change (first_uses l) with (first_uses ([] ++ l)). rewrite <-foldl_first. change (first_uses []) with (@nil L). generalize (@nil L). induction l as [|x l IH]; intros m; [done|].
  cbn [foldl]. rewrite IH. f_equal. unfold is_insert, register, is_contains. destruct (decide (x ∈ m)); [by rewrite bool_decide_eq_true_2|by rewrite bool_decide_eq_false_2].
Qed.

Lemma first_uses_length {L} `{EqDecision L} (l : list L) : length (first_uses l) ≤ length l.
Proof. induction l as [|x l IH]; [done|]. cbn. pose proof (filter_length (λ y, y ≠ x) (first_uses l)). lia. Qed.
Lemma usize_le n m : n ≤ m → in_usize m → in_usize n.
Proof. unfold in_usize. lia. Qed.
Lemma y_setmap {L} `{EqDecision L} (c : codec L) P : yields c P → yields (c_setmap c) (setmap_of P).
Proof.
  intros Hc. eapply y_iso; [by apply y_list|]. intros l [H1 H2]. rewrite from_vec_first. split; [split|apply first_uses_NoDup].
  - eapply usize_le; [apply first_uses_length|done].
  - apply Forall_forall. intros x Hx. apply (proj1 (first_uses_elem l x)) in Hx. exact (proj1 (Forall_forall _ _) H2 x Hx).
Qed.
Lemma map_of_fold {V} (l : list (N * V)) (m : gmap N V) : ∀ k v, foldl (λ m p, <[p.1 := p.2]> m) m l !! k = Some v → (k, v) ∈ l ∨ m !! k = Some v.
Proof.
  revert m. induction l as [|[k' v'] l IH]; intros m k v; cbn [foldl]; [by right|]. intros [H|H]%IH; [left; by right|]. cbn in H.
  apply lookup_insert_Some in H as [[-> ->]|[_ H]]; [left; left|by right].
Qed.
Lemma map_of_size {V} (l : list (N * V)) (m : gmap N V) : size (foldl (λ m p, <[p.1 := p.2]> m) m l) ≤ size m + length l.
Proof.
  revert m. induction l as [|[k v] l IH]; intros m; cbn [foldl length]; [lia|]. etrans; [apply IH|]. cbn. destruct (m !! k) as [w|] eqn:E.
  - rewrite map_size_insert_Some by done. lia.
  - rewrite map_size_insert_None by done. lia.
Qed.
Lemma y_map {V} (f : gmap N V → list (N * V)) (it : idty) (c : codec V) P : yields c P →
  yields (c_iso f map_of (c_list (c_pair (c_id it) c))) (λ m, in_usize (size m) ∧ ∀ x v, m !! x = Some v → in_type it x ∧ P v).
Proof.
  intros Hc. eapply y_iso; [apply y_list, y_pair; [apply y_id|exact Hc]|]. intros l [H1 H2]. unfold map_of. split.
  - eapply usize_le; [apply map_of_size|]. rewrite map_size_empty. done.
  - intros x v [H|H]%map_of_fold; [|by rewrite lookup_empty in H]. exact (proj1 (Forall_forall _ _) H2 (x, v) H).
Qed.
Lemma y_btset it : yields (c_btset it) (λ s, in_usize (size s) ∧ ∀ x, x ∈ s → in_type it x).
Proof.
  eapply y_iso; [apply y_list, y_id|]. intros l [H1 H2].
  assert (set_of l = list_to_set l) as -> by (apply set_of_spec; intros x; by rewrite elem_of_list_to_set). split.
  - eapply usize_le; [|exact H1]. clear. induction l as [|x l IH]; [done|]. cbn [list_to_set length].
    destruct (decide (x ∈ (list_to_set l : gset N))) as [Hx|Hx].
    + assert ({[x]} ∪ list_to_set l = (list_to_set l : gset N)) as -> by set_solver. lia.
    + rewrite size_union by set_solver. rewrite size_singleton. lia.
  - intros x Hx%elem_of_list_to_set. exact (proj1 (Forall_forall _ _) H2 x Hx).
Qed.
Lemma y_nodemap it lt : yields (c_nodemap it lt) (typed_node it lt).
Proof.
  eapply y_iso; [apply y_pair; [apply y_id|apply y_pair; [apply y_option, y_id|apply y_pair; [apply y_map, y_option, y_id|apply y_btset]]]|].
  intros (i & l & m & s) (H1 & H2 & H3 & H4). by split.
Qed.
Section graph.
  Context {NL EL : Type} `{EqDecision NL, EqDecision EL} (it lt : idty) (cn : codec NL) (ce : codec EL) (PN : NL → Prop) (PE : EL → Prop).
  Context (Hcn : yields cn PN) (Hce : yields ce PE).
  Lemma y_graphmap ord : yields (c_graphmap it lt cn ce ord) (typed_graph it lt PN PE).
  Proof using Hcn Hce.
    eapply y_iso; [apply y_pair; [apply y_map, y_nodemap|apply y_pair; [apply y_usize|apply y_pair; [by apply y_setmap|apply y_pair; [by apply y_setmap|apply y_option, y_id]]]]|].
    intros (m & k & nl & el & mx) (H1 & H2 & H3 & H4 & H5). by split.
  Qed.
  Lemma y_evec : yields (c_evec it lt) (typed_evec it lt).
  Proof.
    eapply y_iso; [apply y_pair; [apply y_list, y_usize|apply y_pair; [apply y_list, y_id|apply y_option, y_list, y_id]]|].
    intros (o & e & l) (H1 & H2 & H3). by split.
  Qed.
  Lemma y_sgraph : yields (c_sgraph it lt cn ce) (typed_sgraph it lt PN PE).
  Proof using Hcn Hce.
    eapply y_iso; [apply y_pair; [apply y_usize|apply y_pair; [apply y_usize|apply y_pair; [apply y_evec|apply y_pair; [apply y_option, y_evec|
      apply y_pair; [apply y_option, y_list, y_id|apply y_pair; by apply y_setmap]]]]]|].
    intros (a & k & e & i & l & nl & el) (H1 & H2 & H3 & H4 & H5 & H6 & H7). by split.
  Qed.
End graph.
Lemma import_yields {A} (c : codec A) P path (F : fs) b x : yields c P → F !! path = Some b → bytes b → import c path F = Some x → P x.
Proof.
  intros Hc HF Hb. unfold import. rewrite HF. cbn. destruct (dec c b) as [[y r]|] eqn:E; [|done]. intros [= <-]. by apply (Hc b y r).
Qed.

(** ** Exact decoders *)
Lemma e_uint k : exact (c_uint k).
Proof.
  intros b x r Hb. cbn [c_uint dec enc]. destruct (decide (length b < k)) as [|Hl]; [done|]. intros [= <- <-]. rewrite <-(take_drop k b) at 1. f_equal.
  symmetry. assert (length (take k b) = k) as He by (rewrite take_length; lia). rewrite <-He at 1. apply le_bytes_value. by apply Forall_take.
Qed.
Lemma e_usize : exact c_usize.
Proof.
  intros b x r Hb. cbn [c_usize dec enc]. destruct (dec (c_uint 8) b) as [[v r']|] eqn:E; cbn [mbind option_bind]; [|done]. intros [= <- <-].
  rewrite N2Nat.id. by apply (e_uint 8).
Qed.
Lemma e_option {A} (c : codec A) : exact c → exact (c_option c).
Proof.
  intros Hc b x r Hb. cbn [c_option dec enc]. destruct b as [|t b]; [done|]. apply Forall_cons in Hb as [_ Hb]. destruct t as [|t]; [by intros [= <- <-]|].
  destruct t; [done..|]. destruct (dec c b) as [[v r']|] eqn:E; cbn [mbind option_bind]; [|done]. intros [= <- <-]. cbn. f_equal. by apply Hc.
Qed.
Lemma e_pair {A B} (c : codec A) (d : codec B) P : yields c P → exact c → exact d → exact (c_pair c d).
Proof.
  intros Hy Hc Hd b x r Hb. cbn [c_pair dec enc]. destruct (dec c b) as [[v r1]|] eqn:E; cbn [mbind option_bind]; [|done].
  destruct (dec d r1) as [[w r2]|] eqn:E'; cbn [mbind option_bind]; [|done]. intros [= <- <-].
  destruct (Hy b v r1 Hb E) as [_ [a Ha]]. rewrite (Hc b v r1 Hb E). subst b. apply bytes_app in Hb as [_ Hb]. rewrite (Hd r1 w r2 Hb E'). cbn. by rewrite app_assoc.
Qed.
Lemma e_items {A} (c : codec A) P n : yields c P → exact c → ∀ b l r, bytes b → dec_items c n b = Some (l, r) → b = (l ≫= enc c) ++ r.
Proof.
  intros Hy Hc. induction n as [|n IH]; intros b l r Hb; cbn [dec_items]; [by intros [= <- <-]|].
  destruct (dec c b) as [[x r1]|] eqn:E; cbn [mbind option_bind]; [|done]. destruct (dec_items c n r1) as [[l' r2]|] eqn:E'; cbn [mbind option_bind]; [|done].
  intros [= <- <-]. destruct (Hy b x r1 Hb E) as [_ [a Ha]]. rewrite (Hc b x r1 Hb E). subst b. apply bytes_app in Hb as [_ Hb]. rewrite (IH r1 l' r2 Hb E').
  change ((x :: l') ≫= enc c) with (enc c x ++ (l' ≫= enc c)). by rewrite app_assoc.
Qed.
Lemma e_list {A} (c : codec A) P : yields c P → exact c → exact (c_list c).
Proof.
  intros Hy Hc b l r Hb. cbn [c_list dec enc]. destruct (dec c_usize b) as [[n r1]|] eqn:E; cbn [mbind option_bind]; [|done]. intros Hd.
  destruct (y_usize b n r1 Hb E) as [_ [a Ha]]. rewrite (e_usize b n r1 Hb E). subst b. apply bytes_app in Hb as [_ Hb].
  destruct (y_items c P n Hy r1 l r Hb Hd) as [[<- _] _]. rewrite <-app_assoc. f_equal. by eapply e_items.
Qed.
Lemma e_iso {A B} (c : codec A) (f : B → A) (g : A → B) : exact c → (∀ x, f (g x) = x) → exact (c_iso f g c).
Proof.
  intros Hc Hfg b x r Hb. cbn [c_iso dec enc]. destruct (dec c b) as [[v r1]|] eqn:E; cbn [mbind option_bind]; [|done]. intros [= <- <-]. rewrite Hfg. by apply Hc.
Qed.

(** ** Files *)
Section files.
  Context {NL EL : Type} `{EqDecision NL, EqDecision EL} (it lt : idty) (cn : codec NL) (ce : codec EL) (PN : NL → Prop) (PE : EL → Prop).
  Context (Hcn : yields cn PN) (Hce : yields ce PE) (Fcn : faithful cn PN) (Fce : faithful ce PE).
  Lemma any_graphmap o path (F : fs) b (g : graphmap NL EL) : F !! path = Some b → bytes b → import (c_graphmap it lt cn ce o) path F = Some g →
    typed_graph it lt PN PE g ∧ ∀ ord q F', hash_order g ord → import (c_graphmap it lt cn ce ord) q (export q (enc (c_graphmap it lt cn ce ord) g) F') = Some g.
  Proof using All.
    intros HF Hb Hi. assert (typed_graph it lt PN PE g) as Ht by (exact (import_yields _ _ path F b g (y_graphmap it lt cn ce PN PE Hcn Hce o) HF Hb Hi)). split; [done|].
    intros ord q F' Ho. apply (import_export _ _ q F' g (proj1 (f_graphmap it lt cn ce PN PE Fcn Fce ord))). done.
  Qed.
  Lemma any_sgraph path (F : fs) b (g : sgraph NL EL) : F !! path = Some b → bytes b → import (c_sgraph it lt cn ce) path F = Some g →
    typed_sgraph it lt PN PE g ∧ ∀ q F', import (c_sgraph it lt cn ce) q (export q (enc (c_sgraph it lt cn ce) g) F') = Some g.
  Proof using All.
    intros HF Hb Hi. assert (typed_sgraph it lt PN PE g) as Ht by (exact (import_yields _ _ path F b g (y_sgraph it lt cn ce PN PE Hcn Hce) HF Hb Hi)). split; [done|].
    intros q F'. exact (import_export _ _ q F' g (proj1 (f_sgraph it lt cn ce PN PE Fcn Fce)) Ht).
  Qed.
End files.
Section maps.
  Context {L : Type} `{EqDecision L} (c : codec L) (P : L → Prop) (Hy : yields c P) (Hf : faithful c P) (He : exact c).
  Lemma any_list (F : fs) path b l : F !! path = Some b → bytes b →
    import (c_list c) path F = Some l ↔ vec_of P l ∧ ∃ rest, b = enc (c_list c) l ++ rest.
  Proof using All.
    intros HF Hb. unfold import. rewrite HF. cbn [mbind option_bind]. split.
    - intros H. destruct (dec (c_list c) b) as [[l' r]|] eqn:E; [|done]. injection H as <-. destruct (y_list c P Hy b l' r Hb E) as [H1 _].
      split; [done|]. exists r. by apply (e_list c P Hy He).
    - intros (Hl & r & ->). by rewrite (proj1 (f_list c P Hf) l r Hl).
  Qed.
  Lemma any_setmap (F : fs) path b m : F !! path = Some b → bytes b →
    import (c_setmap c) path F = Some m ↔ ∃ l rest, vec_of P l ∧ b = enc (c_list c) l ++ rest ∧ m = first_uses l.
  Proof using All.
    intros HF Hb. pose proof (λ l, any_list F path b l HF Hb) as Hl. unfold import in *. rewrite HF in *. cbn [mbind option_bind] in *.
    assert (fst <$> dec (c_setmap c) b = first_uses <$> (fst <$> dec (c_list c) b)) as ->.
    { unfold c_setmap, c_iso. cbn [dec]. destruct (dec (c_list c) b) as [[l r]|]; cbn; [|done]. by rewrite from_vec_first. }
    split.
    - intros H. destruct (fst <$> dec (c_list c) b) as [l|]; [|done]. injection H as <-. destruct (proj1 (Hl l) eq_refl) as (H1 & r & H2). by exists l, r.
    - intros (l & r & H1 & H2 & ->). rewrite (proj2 (Hl l)); [done|]. split; [done|by exists r].
  Qed.
End maps.
Lemma string_dec b s r : dec c_string b = Some (s, r) ↔ dec (c_list (c_uint 1)) b = Some (s, r) ∧ utf8_text s.
Proof.
  rewrite <-utf8_ok. cbn [c_string dec]. destruct (dec (c_list (c_uint 1)) b) as [[s' r']|]; cbn [mbind option_bind]; [|naive_solver].
  destruct (utf8 s') eqn:E; split; [intros [= <- <-]|intros [[= <- <-] _]|intros [=]|intros [[= <- <-] H]]; by rewrite ?E in *.
Qed.
Lemma string_labels : yields c_string is_string ∧ exact c_string.
Proof.
  assert (yields (c_uint 1) (in_type TU8)) as Hy by exact (y_id TU8). split.
  - intros b s r Hb [Hd Hu]%string_dec. destruct (y_list _ _ Hy b s r Hb Hd) as [[H1 _] H2]. by split.
  - intros b s r Hb [Hd _]%string_dec. exact (e_list _ (in_type TU8) Hy (e_uint 1) b s r Hb Hd).
Qed.
Lemma enc_bytes s : bytes s → enc (c_list (c_uint 1)) s = enc c_usize (length s) ++ s.
Proof.
  intros Hs. cbn [c_list enc]. f_equal. induction Hs as [|x s Hx Hs IH]; [done|]. cbn [mbind list_bind]. rewrite IH.
  cbn [c_uint enc le_bytes app]. by rewrite N.mod_small.
Qed.
(** Bytes that are not UTF-8 are no string. *)
Lemma string_reject path (F : fs) s rest : F !! path = Some (enc c_usize (length s) ++ s ++ rest) → in_usize (length s) → bytes s →
  (utf8_text s → import c_string path F = Some s) ∧ (¬ utf8_text s → import c_string path F = None).
Proof.
  intros HF Hu Hs. unfold import. rewrite HF. cbn [mbind option_bind]. rewrite app_assoc, <-(enc_bytes s Hs). cbn [c_string dec]. change (c_uint 1) with (c_id TU8).
  rewrite (proj1 (f_list _ _ (f_id TU8)) s rest); [|by split]. cbn [mbind option_bind]. rewrite <-utf8_ok. destruct (utf8 s); by split.
Qed.
Lemma label_types : (∀ t, t ≠ TUnit → yields (c_id t) (in_type t) ∧ exact (c_id t) ∧ faithful (c_id t) (in_type t)) ∧
  yields c_string is_string ∧ exact c_string ∧ faithful c_string is_string.
Proof.
  split.
  - intros t Ht. split; [apply y_id|]. split; [|apply f_id]. unfold c_id. by apply e_uint.
  - destruct string_labels as [H1 H2]. split; [done|]. split; [done|]. exact f_string.
Qed.
