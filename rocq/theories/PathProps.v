(** The names of output files. *)
From Coq Require Import Ascii.
From stdpp Require Import strings.
From Verif Require Import Base SpecPath Paths.

Lemma sapp_nil_r s : (s +:+ "")%string = s.
Proof. induction s as [|c s IH]; [done|]. exact (f_equal (String _) IH). Qed.
Lemma sapp_assoc a b c : ((a +:+ b) +:+ c)%string = (a +:+ (b +:+ c))%string.
Proof. induction a as [|x a IH]; [done|]. exact (f_equal (String _) IH). Qed.
Lemma parts_plain s : "/"%char ∉ list_ascii_of_string s → ∀ acc, parts s acc = [(acc +:+ s)%string].
Proof.
  induction s as [|c s IH]; intros Hs acc; cbn [parts]; [by rewrite sapp_nil_r|]. cbn [list_ascii_of_string] in Hs. apply not_elem_of_cons in Hs as [H1 H2].
  rewrite decide_False by congruence. rewrite IH by done. by rewrite sapp_assoc.
Qed.
Lemma parts_app a b : ∀ acc, parts (a +:+ String "/" b)%string acc = parts a acc ++ parts b "".
Proof.
  induction a as [|c a IH]; intros acc; [done|]. change (String c a +:+ String "/" b)%string with (String c (a +:+ String "/" b)%string). cbn [parts].
  destruct (decide (c = "/"%char)); [|apply IH]. cbn [app]. f_equal. apply IH.
Qed.
Notation keeps := (filter (λ p, p ≠ ""%string ∧ p ≠ "."%string)).
Lemma file_name_nonempty p n : file_name p n → p ≠ ""%string.
Proof. destruct 1 as [n H|d n H|p n H|p n H| |]; try done; [exact (proj1 (proj2 H))|by destruct d|by destruct p|by destruct p]. Qed.
Lemma keeps_one (n : string) : n ≠ ""%string → n ≠ "."%string → keeps [n] = [n].
Proof. intros H1 H2. by rewrite filter_cons_True. Qed.
Lemma file_name_is path name : file_name path name → last_component path = Some name.
Proof.
  induction 1 as [n (H1 & H2 & H3)|d n (H1 & H2 & H3)|p n H IH|p n H IH| |]; [..|done|done].
  - unfold last_component. rewrite (parts_plain n H1). change ("" +:+ n)%string with n. by rewrite keeps_one.
  - unfold last_component. change ("/" +:+ n)%string with (String "/" n). rewrite parts_app, (parts_plain n H1), filter_app. change ("" +:+ n)%string with n.
    by rewrite keeps_one, last_snoc.
  - apply file_name_nonempty in H. unfold last_component in *. rewrite (parts_app p ""), filter_app. cbn [parts]. change (keeps [""%string]) with (@nil string). rewrite app_nil_r.
    destruct (last _); [done|]. by destruct p.
  - unfold last_component in *. change ("/" +:+ ".")%string with (String "/" "."). rewrite (parts_app p ""), filter_app in IH. rewrite (parts_app p "."), filter_app.
    change (keeps (parts "." "")) with (@nil string). change (keeps (parts "" "")) with (@nil string) in IH.
    destruct (last _); [done|]. by destruct p.
Qed.
Lemma ends_slash_ok s : ends_slash s = true ↔ ∃ d, s = (d +:+ "/")%string.
Proof.
  induction s as [|c s IH]; [split; [done|]; by intros ([|] & ?)|]. destruct s as [|c' s].
  - cbn [ends_slash]. rewrite bool_decide_eq_true. split; [intros ->; by exists ""%string|]. intros ([|x [|]] & Hd); [by injection Hd|by injection Hd|by injection Hd].
  - change (ends_slash (String c (String c' s))) with (ends_slash (String c' s)). rewrite IH. split.
    + intros [d Hd]. exists (String c d). rewrite Hd. done.
    + intros ([|x d] & Hd); [by injection Hd|]. exists d. by injection Hd.
Qed.
Lemma starts_slash_ok s : starts_slash s = true ↔ absolute s.
Proof.
  destruct s as [|c s]; cbn [starts_slash]; [split; [done|by intros [r ?]]|]. rewrite bool_decide_eq_true. split; [intros ->; by exists s|]. intros [r Hr]. by injection Hr.
Qed.
Lemma join_in dir file : in_dir dir file (path_join dir file).
Proof.
  unfold path_join. destruct (starts_slash file) eqn:Hs; [by constructor; apply starts_slash_ok|].
  assert (¬ absolute file) as Ha by (rewrite <-starts_slash_ok, Hs; done). destruct (bool_decide (dir = ""%string)) eqn:Hd.
  - apply bool_decide_eq_true in Hd. cbn [orb]. apply id_direct; [done|by left].
  - apply bool_decide_eq_false in Hd. cbn [orb]. destruct (ends_slash dir) eqn:He.
    + apply id_direct; [done|right]. by apply ends_slash_ok.
    + apply id_slash; [done|done|]. intros d Hx. assert (ends_slash dir = true) as Hc by (apply ends_slash_ok; by exists d). congruence.
Qed.
Lemma join_unique dir file path : in_dir dir file path → path = path_join dir file.
Proof.
  intros H. unfold path_join. destruct H as [Ha|Ha Hd|Ha Hd He].
  - apply starts_slash_ok in Ha. by rewrite Ha.
  - destruct (starts_slash file) eqn:Hs; [by apply starts_slash_ok in Hs|]. destruct Hd as [-> |Hd]; [done|]. apply ends_slash_ok in Hd. by rewrite Hd, orb_true_r.
  - destruct (starts_slash file) eqn:Hs; [by apply starts_slash_ok in Hs|]. rewrite bool_decide_eq_false_2 by done.
    destruct (ends_slash dir) eqn:Hx; [|done]. apply ends_slash_ok in Hx as [d Hx]. by apply He in Hx.
Qed.
Lemma join_inj dir f f' : starts_slash f = starts_slash f' → path_join dir f = path_join dir f' → f = f'.
Proof.
  intros Hs. unfold path_join. rewrite Hs. destruct (starts_slash f'); [done|]. destruct (_ || _); [apply (inj (String.append _))|]. intros H. by do 2 apply (inj (String.append _)) in H.
Qed.
(** Every path but the empty one has a last component. *)
Lemma split_last p : ("/"%char ∉ list_ascii_of_string p) ∨ ∃ d w, p = (d +:+ "/" +:+ w)%string ∧ "/"%char ∉ list_ascii_of_string w.
Proof.
  induction p as [|c p IH]; [left; apply not_elem_of_nil|]. destruct IH as [H|(d & w & -> & H)].
  - destruct (decide (c = "/"%char)) as [-> |Hc]; [right; by exists ""%string, p|left]. cbn [list_ascii_of_string]. apply not_elem_of_cons. split; [congruence|done].
  - right. by exists (String c d), w.
Qed.
Lemma slen_app a b : String.length (a +:+ b)%string = String.length a + String.length b.
Proof. induction a as [|c a IH]; [done|]. exact (f_equal S IH). Qed.
Lemma file_name_exists path : path ≠ ""%string → ∃ name, file_name path name.
Proof.
  remember (String.length path) as k eqn:Hk. revert path Hk. induction (lt_wf k) as [k _ IH]. intros p -> Hp. destruct (split_last p) as [H|(d & w & -> & H)].
  - destruct (decide (p = "."%string)) as [-> |Hd]; [exists "."%string; exact fn_here|]. exists p. by apply fn_plain.
  - destruct (decide (w = ""%string)) as [-> |Hw].
    { destruct (decide (d = ""%string)) as [-> |Hd]; [exists "/"%string; exact fn_root|]. destruct (IH (String.length d)) with (path := d) as [n Hn]; [|done|done|by exists n; apply fn_slash].
      rewrite !slen_app. cbn. lia. }
    destruct (decide (w = "."%string)) as [-> |Hw']; [|exists w; by apply fn_in].
    destruct (IH (String.length (d +:+ "/"))) with (path := (d +:+ "/")%string) as [n Hn]; [rewrite !slen_app; cbn; lia|done|by destruct d|]. exists n. by apply fn_dot.
Qed.
