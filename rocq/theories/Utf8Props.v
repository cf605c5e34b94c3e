(** The validator accepts exactly the encodings of characters. *)
From stdpp Require Import list.
From Coq Require Import NArith Lia ZifyN.
From Verif Require Import Utf8 SpecUtf8.
Local Open Scope N_scope.
Ltac Zify.zify_post_hook ::= Z.to_euclidean_division_equations.

Lemma between_ok a b x : between a b x = true ↔ a ≤ x ∧ x ≤ b.
Proof. unfold between. rewrite andb_true_iff, !N.leb_le. done. Qed.
Lemma between_no a b x : between a b x = false ↔ x < a ∨ b < x.
Proof. unfold between. rewrite andb_false_iff, !N.leb_gt. done. Qed.
Lemma char1 a : a < 128 → utf8_char a = [a].
Proof. intros H. unfold utf8_char. by rewrite (proj2 (N.ltb_lt _ _) H). Qed.
Lemma char2 a b : 194 ≤ a ≤ 223 → 128 ≤ b ≤ 191 → ∃ c, scalar c ∧ utf8_char c = [a; b].
Proof.
  intros Ha Hb. exists ((a - 192) * 64 + (b - 128)). split; [left; lia|]. unfold utf8_char.
  rewrite (proj2 (N.ltb_ge _ _)) by lia. rewrite (proj2 (N.ltb_lt _ _)) by lia. do 2 f_equal; [lia|f_equal; lia].
Qed.
Lemma char3 a b c : 224 ≤ a ≤ 239 → 128 ≤ b ≤ 191 → 128 ≤ c ≤ 191 → (a = 224 → 160 ≤ b) → (a = 237 → b ≤ 159) → ∃ x, scalar x ∧ utf8_char x = [a; b; c].
Proof.
  intros Ha Hb Hc H1 H2. exists ((a - 224) * 4096 + (b - 128) * 64 + (c - 128)). split.
  { unfold scalar. destruct (N.lt_ge_cases a 237) as [?|?]; [left; lia|]. destruct (N.eq_dec a 237) as [->|?]; [left; specialize (H2 eq_refl); lia|right; lia]. }
  assert (2048 ≤ (a - 224) * 4096 + (b - 128) * 64 + (c - 128)). { destruct (N.eq_dec a 224) as [->|?]; [specialize (H1 eq_refl)|]; lia. }
  unfold utf8_char. rewrite !(proj2 (N.ltb_ge _ _)) by lia. rewrite (proj2 (N.ltb_lt _ _)) by lia. clear H1 H2. repeat f_equal; lia.
Qed.
Lemma char4 a b c d : 240 ≤ a ≤ 244 → 128 ≤ b ≤ 191 → 128 ≤ c ≤ 191 → 128 ≤ d ≤ 191 → (a = 240 → 144 ≤ b) → (a = 244 → b ≤ 143) →
  ∃ x, scalar x ∧ utf8_char x = [a; b; c; d].
Proof.
  intros Ha Hb Hc Hd H1 H2. set (x := (a - 240) * 262144 + (b - 128) * 4096 + (c - 128) * 64 + (d - 128)). exists x.
  assert (65536 ≤ x). { unfold x. destruct (N.eq_dec a 240) as [->|?]; [specialize (H1 eq_refl)|]; lia. }
  assert (x < 1114112). { unfold x. destruct (N.eq_dec a 244) as [->|?]; [specialize (H2 eq_refl)|]; lia. }
  split; [right; lia|]. unfold utf8_char. rewrite !(proj2 (N.ltb_ge _ _)) by lia. clear H1 H2. unfold x in *. repeat f_equal; lia.
Qed.
Lemma text_app a x s : scalar x → utf8_char x = a → utf8_text s → utf8_text (a ++ s).
Proof. intros Hx <- (cs & Hcs & ->). exists (x :: cs). split; [by constructor|done]. Qed.
Lemma utf8_sound s : utf8 s = true → utf8_text s.
Proof.
  remember (length s) as n eqn:Hn. revert s Hn. induction (lt_wf n) as [n _ IH]. intros s -> H.
  assert (∀ a x s', scalar x → utf8_char x = a → s = a ++ s' → a ≠ [] → utf8 s' = true → utf8_text s) as Hstep.
  { intros a x s' Hx Hc -> Ha Hs. apply (text_app a x); [done|done|]. eapply IH; [|done|done]. rewrite app_length. destruct a; [done|]. cbn. lia. }
  destruct s as [|a s]; [exists []; by split|]. cbn [utf8] in H. destruct (a <? 128) eqn:Ea.
  { apply N.ltb_lt in Ea. apply (Hstep [a] a s); [left; lia|by apply char1|done|done|done]. }
  apply N.ltb_ge in Ea. destruct s as [|b s]; [done|]. destruct (between 194 223 a) eqn:E2.
  { apply between_ok in E2. apply andb_true_iff in H as [Hb Hs]. apply between_ok in Hb. destruct (char2 a b) as (x & Hx & Hc); [done|done|]. by apply (Hstep [a; b] x s). }
  destruct s as [|c s]; [done|].
  assert (∀ lo hi, between lo hi b && cont c && utf8 s = true → 224 ≤ a ≤ 239 → 128 ≤ lo → hi ≤ 191 → (a = 224 → 160 ≤ lo) → (a = 237 → hi ≤ 159) → utf8_text (a :: b :: c :: s)) as H3.
  { intros lo hi [[Hb%between_ok Hc%between_ok]%andb_true_iff Hs]%andb_true_iff Ha Hlo Hhi H1 H2.
    destruct (char3 a b c) as (x & Hx & Hch); [done|lia|lia|intros ->; specialize (H1 eq_refl); lia|intros ->; specialize (H2 eq_refl); lia|]. by apply (Hstep [a; b; c] x s). }
  destruct (a =? 224) eqn:E3. { apply N.eqb_eq in E3. apply (H3 160 191); [done|lia..]. }
  apply N.eqb_neq in E3. destruct (between 225 236 a || between 238 239 a) eqn:E4.
  { apply orb_true_iff in E4 as [E4|E4]; apply between_ok in E4; apply (H3 128 191); done || lia. }
  destruct (a =? 237) eqn:E5. { apply N.eqb_eq in E5. apply (H3 128 159); [done|lia..]. }
  apply orb_false_iff in E4 as [E4 E4']. destruct s as [|d s]; [done|].
  assert (∀ lo hi, between lo hi b && cont c && cont d && utf8 s = true → 240 ≤ a ≤ 244 → 128 ≤ lo → hi ≤ 191 → (a = 240 → 144 ≤ lo) → (a = 244 → hi ≤ 143) →
    utf8_text (a :: b :: c :: d :: s)) as H4.
  { intros lo hi [[[Hb%between_ok Hc%between_ok]%andb_true_iff Hd%between_ok]%andb_true_iff Hs]%andb_true_iff Ha Hlo Hhi H1 H2.
    destruct (char4 a b c d) as (x & Hx & Hch); [done|lia|lia|lia|intros ->; specialize (H1 eq_refl); lia|intros ->; specialize (H2 eq_refl); lia|]. by apply (Hstep [a; b; c; d] x s). }
  destruct (a =? 240) eqn:E6. { apply N.eqb_eq in E6. apply (H4 144 191); [done|lia..]. }
  apply N.eqb_neq in E6. destruct (between 241 243 a) eqn:E7. { apply between_ok in E7. apply (H4 128 191); [done|lia..]. }
  destruct (a =? 244) eqn:E8; [|done]. apply N.eqb_eq in E8. apply (H4 128 143); [done|lia..].
Qed.
Lemma utf8_char_app x s : scalar x → utf8 (utf8_char x ++ s) = utf8 s.
Proof.
  intros Hx. unfold utf8_char. destruct (x <? 128) eqn:E1. { cbn [app utf8]. by rewrite E1. }
  apply N.ltb_ge in E1. destruct (x <? 2048) eqn:E2.
  { apply N.ltb_lt in E2. cbn [app utf8]. rewrite (proj2 (N.ltb_ge _ _)) by lia. rewrite (proj2 (between_ok 194 223 _)) by lia. unfold cont. by rewrite (proj2 (between_ok 128 191 _)) by lia. }
  apply N.ltb_ge in E2. destruct (x <? 65536) eqn:E3.
  - apply N.ltb_lt in E3. cbn [app utf8]. rewrite (proj2 (N.ltb_ge _ _)) by lia. rewrite (proj2 (between_no 194 223 _)) by lia. unfold cont. unfold scalar in Hx.
    rewrite (proj2 (between_ok 128 191 (128 + x mod 64))) by lia. rewrite (proj2 (between_ok 128 191 (128 + x / 64 mod 64))) by lia.
    destruct (224 + x / 4096 =? 224) eqn:E4. { apply N.eqb_eq in E4. by rewrite (proj2 (between_ok 160 191 _)) by lia. }
    apply N.eqb_neq in E4. destruct (between 225 236 _ || between 238 239 _) eqn:E5; [done|]. apply orb_false_iff in E5 as [E5%between_no E6%between_no].
    assert (224 + x / 4096 = 237) as -> by lia. by rewrite (proj2 (between_ok 128 159 _)) by lia.
  - apply N.ltb_ge in E3. assert (x < 1114112) by (unfold scalar in Hx; lia). clear Hx. cbn [app utf8]. rewrite (proj2 (N.ltb_ge _ _)) by lia. rewrite (proj2 (between_no 194 223 _)) by lia.
    rewrite (proj2 (N.eqb_neq _ 224)) by lia. rewrite (proj2 (between_no 225 236 _)) by lia. rewrite (proj2 (between_no 238 239 _)) by lia. cbn [orb].
    rewrite (proj2 (N.eqb_neq _ 237)) by lia. unfold cont.
    rewrite (proj2 (between_ok 128 191 (128 + x mod 64))) by lia. rewrite (proj2 (between_ok 128 191 (128 + x / 64 mod 64))) by lia. rewrite (proj2 (between_ok 128 191 (128 + x / 4096 mod 64))) by lia.
    destruct (240 + x / 262144 =? 240) eqn:E4. { apply N.eqb_eq in E4. by rewrite (proj2 (between_ok 144 191 _)) by lia. }
    apply N.eqb_neq in E4. destruct (between 241 243 _) eqn:E5; [done|]. apply between_no in E5.
    assert (240 + x / 262144 = 244) as -> by lia. by rewrite (proj2 (between_ok 128 143 _)) by lia.
Qed.
Lemma utf8_ok s : utf8 s = true ↔ utf8_text s.
Proof.
  split; [apply utf8_sound|]. intros (cs & Hcs & ->). induction Hcs as [|x cs Hx _ IH]; [done|]. cbn [mbind list_bind]. by rewrite utf8_char_app.
Qed.
Lemma utf8_ascii s : Forall (λ x, x < 128) s → utf8 s = true.
Proof. induction 1 as [|x s Hx _ IH]; [done|]. cbn [utf8]. by rewrite (proj2 (N.ltb_lt _ _) Hx). Qed.
(** Only bytes. *)
Lemma utf8_bytes s : utf8_text s → Forall (λ x, x < 256) s.
Proof.
  intros (cs & Hcs & ->). induction Hcs as [|x cs Hx _ IH]; [constructor|]. cbn [mbind list_bind]. apply Forall_app. split; [|exact IH]. unfold utf8_char, scalar in *.
  destruct (x <? 128) eqn:E1; [apply N.ltb_lt in E1; repeat constructor; lia|]. destruct (x <? 2048) eqn:E2; [apply N.ltb_lt in E2; repeat constructor; lia|].
  destruct (x <? 65536) eqn:E3; [apply N.ltb_lt in E3; repeat constructor; lia|]. repeat constructor; lia.
Qed.
Global Instance utf8_text_dec s : Decision (utf8_text s).
Proof. refine (cast_if (decide (utf8 s = true))); abstract (by rewrite <-utf8_ok). Defined.
