(** Proofs about writing with input/output errors. *)
From Coq Require Import Ascii.
From stdpp Require Import gmap strings.
From Verif Require Import Base BaseFacts Api Bytes Spec SpecStatic Map GraphMap Static Serde SpecSerde SerdeFacts Mmap SpecMmap MmapFacts MmapProps MmapThms
  Csv CsvText SpecCsvCut CsvCrash IoFail SpecIo.

Section writer.
  Context {X : Type} (w : world) (cap : nat).
  Implicit Types (s : writer X) (b : list X).
  (** What was given to the writer and not lost. *)
  Definition wr_data s : list X := wr_file s ++ wr_buf s.
  Lemma push_spec fuel i file b ok file' rest i' : push w fuel i file b = (ok, file', rest, i') →
    file' ++ rest = file ++ b ∧ file `prefix_of` file' ∧ length rest ≤ length b ∧ (ok = true → rest = []).
  Proof.
    revert i file b. induction fuel as [|fuel IH]; intros i file b H.
    - destruct b; cbn [push] in H; injection H as <- <- <- <-; by rewrite ?app_nil_r.
    - destruct b as [|x b]; [cbn [push] in H; injection H as <- <- <- <-; by rewrite ?app_nil_r|]. cbn [push] in H.
      destruct (accepted (w i) (length (x :: b))) as [n|].
      + apply IH in H as (H1 & H2 & H3 & H4). split; [by rewrite H1, <-app_assoc, take_drop|]. split; [etrans; [|exact H2]; by eexists|].
        split; [|done]. rewrite drop_length in H3. lia.
      + injection H as <- <- <- <-. done.
  Qed.
  Lemma accepted_pos e n k : accepted e n = Some k → n ≠ 0 → 1 ≤ k.
  Proof. destruct e; cbn; [intros [= <-]; lia|intros [= <-]; lia|done]. Qed.
  Lemma push_calm fuel i file b ok file' rest i' : calm w → length b ≤ fuel → push w fuel i file b = (ok, file', rest, i') → ok = true.
  Proof.
    intros Hw. revert i file b. induction fuel as [|fuel IH]; intros i file b Hf H.
    - destruct b; cbn in Hf; [|lia]. cbn [push] in H. by injection H as <- _ _ _.
    - destruct b as [|x b]; [cbn [push] in H; by injection H as <- _ _ _|]. cbn [push] in H.
      destruct (accepted (w i) (length (x :: b))) as [n|] eqn:E.
      + eapply IH; [|exact H]. apply accepted_pos in E; [|done]. rewrite drop_length. cbn [length] in *. lia.
      + destruct (w i) eqn:Ew; try done. by destruct (Hw i).
  Qed.
  Lemma flush_spec s ok s' : flush_buf w s = (ok, s') →
    wr_data s' = wr_data s ∧ wr_file s `prefix_of` wr_file s' ∧ length (wr_buf s') ≤ length (wr_buf s) ∧ (ok = true → wr_buf s' = []) ∧ (calm w → ok = true).
  Proof.
    unfold flush_buf. destruct (push w (length (wr_buf s)) (wr_next s) (wr_file s) (wr_buf s)) as [[[ok' f'] r'] i'] eqn:E. intros [= <- <-].
    pose proof (push_spec _ _ _ _ _ _ _ _ E) as (H1 & H2 & H3 & H4). unfold wr_data. cbn [wr_file wr_buf].
    split; [exact H1|]. split; [exact H2|]. split; [exact H3|]. split; [exact H4|]. intros Hw. eapply push_calm; [exact Hw| |exact E]. done.
  Qed.
  Lemma buf_write_spec s b o s' : length (wr_buf s) ≤ cap → buf_write w cap s b = (o, s') →
    wr_file s `prefix_of` wr_file s' ∧ length (wr_buf s') ≤ cap ∧
    match o with
    | None => wr_data s' = wr_data s
    | Some n => wr_data s' = wr_data s ++ take n b ∧ (b ≠ [] → 1 ≤ n)
    end ∧ (calm w → o ≠ None).
  Proof.
    intros Hc. unfold buf_write.
    destruct (if decide (cap < length (wr_buf s) + length b) then flush_buf w s else (true, s)) as [ok s1] eqn:E.
    assert (wr_data s1 = wr_data s ∧ wr_file s `prefix_of` wr_file s1 ∧ length (wr_buf s1) ≤ cap ∧ (calm w → ok = true) ∧
      (ok = true → length (wr_buf s1) + length b ≤ cap ∨ wr_buf s1 = [])) as (D1 & D2 & D3 & D4 & D5).
    { destruct (decide _) as [Hd|Hd].
      - apply flush_spec in E as (F1 & F2 & F3 & F4 & F5). split; [done|]. split; [done|]. split; [lia|]. split; [done|]. intros Ho. right. by apply F4.
      - injection E as <- <-. split; [done|]. split; [done|]. split; [done|]. split; [done|]. intros _. left. lia. }
    destruct ok; cbn [negb].
    2:{ intros [= <- <-]. split; [done|]. split; [done|]. split; [done|]. intros Hw. specialize (D4 Hw). done. }
    specialize (D5 eq_refl). destruct (decide (cap ≤ length b)) as [Hd|Hd].
    - destruct (accepted (w (wr_next s1)) (length b)) as [n|] eqn:Ea.
      + intros [= <- <-]. unfold wr_data. cbn [wr_file wr_buf]. split; [etrans; [exact D2|by eexists]|]. split; [done|]. split; [|done]. split.
        * assert (wr_buf s1 = []) as E1. { destruct D5 as [D5| ->]; [|done]. destruct (wr_buf s1); [done|]. cbn [length] in D5. lia. }
          unfold wr_data in D1. rewrite E1, app_nil_r in *. by rewrite D1.
        * intros Hb. eapply accepted_pos; [exact Ea|]. by destruct b.
      + intros [= <- <-]. unfold wr_data. cbn [wr_file wr_buf]. split; [done|]. split; [done|]. split; [done|].
        intros Hw. destruct (w (wr_next s1)) eqn:Ew; try done. by destruct (Hw (wr_next s1)).
    - intros [= <- <-]. unfold wr_data. cbn [wr_file wr_buf]. split; [done|]. split; [|split; [|done]].
      + rewrite app_length. destruct D5 as [D5| ->]; [done|]. cbn [length]. lia.
      + split; [|destruct b; [done|cbn [length]; lia]]. rewrite take_ge by done. unfold wr_data in D1. by rewrite app_assoc, D1.
  Qed.
  Lemma write_all_spec fuel s b ok s' : length (wr_buf s) ≤ cap → write_all w cap fuel s b = (ok, s') →
    wr_file s `prefix_of` wr_file s' ∧ length (wr_buf s') ≤ cap ∧ wr_data s `prefix_of` wr_data s' ∧ wr_data s' `prefix_of` wr_data s ++ b ∧
    (ok = true → wr_data s' = wr_data s ++ b) ∧ (calm w → length b ≤ fuel → ok = true).
  Proof.
    revert s b. induction fuel as [|fuel IH]; intros s b Hc H.
    - destruct b; cbn [write_all] in H; injection H as <- <-.
      + rewrite app_nil_r. done.
      + split; [done|]. split; [done|]. split; [done|]. split; [by eexists|]. split; [done|]. intros _ Hf. cbn in Hf. lia.
    - destruct b as [|x b]; [cbn [write_all] in H; injection H as <- <-; by rewrite app_nil_r|]. cbn [write_all] in H.
      destruct (buf_write w cap s (x :: b)) as [[n|] s1] eqn:E; apply buf_write_spec in E as (E1 & E2 & E3 & E4); try done.
      + destruct E3 as [E3 E5]. specialize (E5 ltac:(done)). apply IH in H as (H1 & H2 & H3 & H4 & H5 & H6); [|done].
        rewrite E3, <-app_assoc, take_drop in *. split; [by etrans|]. split; [done|]. split; [etrans; [|exact H3]; by eexists|]. split; [exact H4|].
        split; [exact H5|]. intros Hw Hf. apply H6; [done|]. rewrite drop_length. cbn [length] in *. lia.
      + injection H as <- <-. split; [done|]. split; [done|]. rewrite E3. split; [done|]. split; [by eexists|]. split; [done|]. intros Hw. by destruct (E4 Hw).
  Qed.
  Lemma write_each_spec s l ok s' : length (wr_buf s) ≤ cap → write_each w cap s l = (ok, s') →
    wr_file s `prefix_of` wr_file s' ∧ length (wr_buf s') ≤ cap ∧ wr_data s `prefix_of` wr_data s' ∧ wr_data s' `prefix_of` wr_data s ++ concat l ∧
    (ok = true → wr_data s' = wr_data s ++ concat l) ∧ (calm w → ok = true).
  Proof.
    revert s. induction l as [|b l IH]; intros s Hc H.
    - cbn [write_each] in H. injection H as <- <-. cbn [concat]. by rewrite app_nil_r.
    - cbn [write_each concat] in *. destruct (write_all w cap (length b) s b) as [ok1 s1] eqn:E.
      apply write_all_spec in E as (E1 & E2 & E3 & E4 & E5 & E6); [|done]. destruct ok1.
      + apply IH in H as (H1 & H2 & H3 & H4 & H5 & H6); [|done]. rewrite (E5 eq_refl), <-app_assoc in *.
        split; [by etrans|]. split; [done|]. split; [etrans; [|exact H3]; by eexists|]. done.
      + injection H as <- <-. split; [done|]. split; [done|]. split; [done|]. split; [|split; [done|]].
        * etrans; [exact E4|]. rewrite app_assoc. by eexists.
        * intros Hw. by specialize (E6 Hw ltac:(done)).
  Qed.
  Lemma drop_spec s : wr_file (drop_writer w s) `prefix_of` wr_data s ∧ wr_file s `prefix_of` wr_file (drop_writer w s) ∧
    (wr_buf s = [] → wr_file (drop_writer w s) = wr_file s) ∧ (calm w → wr_file (drop_writer w s) = wr_data s).
  Proof.
    unfold drop_writer. destruct (flush_buf w s) as [ok s'] eqn:E. apply flush_spec in E as (E1 & E2 & E3 & E4 & E5). cbn [snd].
    unfold wr_data in *. split; [rewrite <-E1; by eexists|]. split; [done|]. split.
    - intros Eb. rewrite Eb in *. destruct (wr_buf s'); [|cbn in E3; lia]. by rewrite !app_nil_r in E1.
    - intros Hw. rewrite (E4 (E5 Hw)), app_nil_r in E1. done.
  Qed.
End writer.

(** What a piece of data leaves: a beginning, at most a buffer less than everything. *)
Lemma sink_spec {X} w cap i (l : list (list X)) ok s : write_each w cap (Wr [] [] i) l = (ok, s) → ∀ j,
  let file := wr_file (drop_writer w (Wr (wr_file s) (wr_buf s) j)) in
  file `prefix_of` concat l ∧ (ok = true → length (concat l) ≤ length file + cap) ∧ (calm w → ok = true ∧ file = concat l).
Proof.
  intros H j. apply write_each_spec in H as (H1 & H2 & H3 & H4 & H5 & H6); [|cbn; lia]. cbn [wr_data wr_file wr_buf app] in *.
  destruct (drop_spec w (Wr (wr_file s) (wr_buf s) j)) as (D1 & D2 & _ & D4). unfold wr_data in *. cbn [wr_file wr_buf app] in *. cbv zeta. split_and!.
  - by etrans.
  - intros Ho. rewrite <-(H5 Ho), app_length. apply prefix_length in D2. lia.
  - intros Hw. split; [by apply H6|]. rewrite (D4 Hw). by apply H5, H6.
Qed.

(** ** Files *)
Lemma next_eq {X} (s : writer X) : Wr (wr_file s) (wr_buf s) (wr_next s) = s.
Proof. by destruct s. Qed.
(** export *)
Lemma export_spec w cap f parts F i ok F' i' : export_io w cap f parts F i = (ok, F', i') →
  (ok = false ∧ F' = F) ∨
  ∃ b, F' = <[f := b]> F ∧ b `prefix_of` concat parts ∧ (ok = true → length (concat parts) ≤ length b + cap) ∧ (calm w → ok = true ∧ b = concat parts).
Proof.
  unfold export_io, with_file. destruct (w i) eqn:E.
  3:{ intros [= <- <- <-]. by left. }
  all: destruct (write_each w cap (Wr [] [] (S i)) parts) as [ok1 s] eqn:Es; intros [= <- <- <-]; right;
    pose proof (sink_spec w cap (S i) parts ok1 s Es (wr_next s)) as (H1 & H2 & H3); rewrite next_eq in *; cbv zeta in *; eexists; split; [done|done].
Qed.
Lemma export_calm w cap f parts F i : calm w → ∃ i', export_io w cap f parts F i = (true, <[f := concat parts]> F, i').
Proof.
  intros Hw. destruct (export_io w cap f parts F i) as [[ok F'] i'] eqn:E. exists i'.
  pose proof (export_spec _ _ _ _ _ _ _ _ _ E) as [[-> ->]|(b & -> & _ & _ & H)]; [|by destruct (H Hw) as [-> ->]].
  exfalso. unfold export_io, with_file in E. destruct (w i) eqn:Ew; [| |by destruct (Hw i)].
  all: destruct (write_each w cap (Wr [] [] (S i)) parts) as [ok1 s] eqn:Es; apply write_each_spec in Es as (_ & _ & _ & _ & _ & H6); [|cbn; lia];
    injection E as E _ _; rewrite (H6 Hw) in E; done.
Qed.
(** dump *)
Lemma dump_spec w cap f b F i ok F' i' : dump_io w cap f b F i = (ok, F', i') →
  ((ok = false ∧ F' = F) ∨ ∃ b', F' = <[f := b']> F ∧ b' `prefix_of` b ∧ (ok = true → b' = b)) ∧ (calm w → ok = true).
Proof.
  unfold dump_io, with_file. intros H.
  assert (∀ s0, wr_file s0 = [] → wr_buf s0 = [] → ∀ r, r = (let '(ok, s) := write_each w cap s0 (dump_writes (length b) b) in
    let '(ok, s) := if ok : bool then flush_buf w s else (false, s) in (ok, drop_writer w s)) → wr_file r.2 `prefix_of` b ∧ (r.1 = true → wr_file r.2 = b) ∧ (calm w → r.1 = true)) as Hr.
  { intros s0 E1 E2 r ->. destruct (write_each w cap s0 (dump_writes (length b) b)) as [ok1 s] eqn:Es.
    apply write_each_spec in Es as (_ & _ & _ & H4 & H5 & H6); [|rewrite E2; cbn; lia]. unfold wr_data in H4, H5. rewrite E1, E2 in H4, H5. cbn [app] in H4, H5.
    rewrite dump_writes_concat in H4, H5 by done. destruct ok1.
    - destruct (flush_buf w s) as [ok2 s2] eqn:Ef. apply flush_spec in Ef as (F1 & F2 & F3 & F4 & F5). destruct (drop_spec w s2) as (D1 & D2 & D3 & _). cbn [fst snd].
      unfold wr_data in F1, D1. split; [rewrite <-(H5 eq_refl), <-F1; exact D1|]. split; [|exact F5]. intros Ho. rewrite (D3 (F4 Ho)). rewrite (F4 Ho), app_nil_r in F1. rewrite F1. by apply H5.
    - destruct (drop_spec w s) as (D1 & _). cbn [fst snd]. split; [|split; [done|exact H6]]. etrans; [exact D1|]. exact H4. }
  destruct (w i) eqn:Ew.
  3:{ injection H as <- <- <-. split; [by left|]. intros Hw. by destruct (Hw i). }
  all: specialize (Hr (Wr [] [] (S i)) eq_refl eq_refl _ eq_refl);
    destruct (let '(ok, s) := write_each w cap (Wr [] [] (S i)) (dump_writes (length b) b) in _) as [ok1 s1] in H, Hr;
    injection H as <- <- <-; destruct Hr as (Hr1 & Hr2 & Hr3); split; [|exact Hr3]; right; exists (wr_file s1); split; [done|]; split; [exact Hr1|exact Hr2].
Qed.

(** ** Sequences of files: errors leave what a crash could leave *)
Lemma crash_none F ops : crash_state F ops F.
Proof. exists [], ops. split; [done|by left]. Qed.
Lemma crash_done F ops : crash_state F ops (fs_run F ops).
Proof. exists ops, []. split; [by rewrite app_nil_r|by left]. Qed.
Lemma crash_app_l F a b F' : crash_state F a F' → crash_state F (a ++ b) F'.
Proof.
  intros (dn & rest & -> & H). exists dn, (rest ++ b). split; [by rewrite app_assoc|]. destruct H as [->|(f & c & c' & rest' & -> & Hp & ->)]; [by left|].
  right. exists f, c, c', (rest' ++ b). done.
Qed.
Lemma crash_app_r F a b F' : crash_state (fs_run F a) b F' → crash_state F (a ++ b) F'.
Proof.
  intros (dn & rest & -> & H). exists (a ++ dn), rest. split; [by rewrite app_assoc|]. destruct H as [->|(f & c & c' & rest' & -> & Hp & ->)].
  - left. rewrite run_app. done.
  - right. exists f, c, c', rest'. split; [done|]. split; [done|]. by rewrite <-app_assoc, (run_app F a).
Qed.
Lemma writes_crash F f l b' : is_Some (F !! f) → b' `prefix_of` concat l → crash_state F (FWrite f <$> l) (<[f := default [] (F !! f) ++ b']> F).
Proof.
  revert F b'. induction l as [|c l IH]; intros F b' [x Hx] Hp.
  - cbn [concat] in Hp. apply prefix_nil_inv in Hp as ->. rewrite app_nil_r, Hx. cbn [default from_option id]. rewrite insert_id by done. apply crash_none.
  - cbn [concat] in Hp. rewrite fmap_cons. destruct (decide (length b' ≤ length c)) as [Hl|Hl].
    + assert (b' `prefix_of` c) as Hc by (destruct (prefix_weak_total b' c (c ++ concat l) Hp ltac:(by eexists)) as [?|[k ->]]; [done|];
        rewrite app_length in Hl; destruct k; [by rewrite app_nil_r|cbn in Hl; lia]).
      exists [], (FWrite f c :: (FWrite f <$> l)). split; [done|]. right. exists f, c, b', (FWrite f <$> l). split; [done|]. split; [done|]. done.
    + destruct (prefix_weak_total b' c (c ++ concat l) Hp ltac:(by eexists)) as [Hc|[k ->]]; [apply prefix_length in Hc; lia|].
      apply prefix_app_inv in Hp. apply (crash_app_r F [FWrite f c]). cbn [fs_run foldl fs_step].
      specialize (IH (<[f := default [] (F !! f) ++ c]> F) k). rewrite lookup_insert in IH. cbn [default from_option id] in IH. rewrite insert_insert, <-app_assoc in IH.
      apply IH; [by eexists|done].
Qed.
Lemma dump_crash F f b b' : b' `prefix_of` b → crash_state F (dump_ops f b) (<[f := b']> F).
Proof.
  intros Hp. unfold dump_ops. apply (crash_app_r F [FCreate f]). cbn [fs_run foldl fs_step].
  pose proof (writes_crash (<[f := []]> F) f (dump_writes (length b) b) b') as H. rewrite lookup_insert in H. cbn [default from_option id app] in H.
  rewrite insert_insert in H. apply H; [by eexists|]. by rewrite dump_writes_concat.
Qed.
Lemma export_crash F f b b' : b' `prefix_of` b → crash_state F (export_ops f b) (<[f := b']> F).
Proof.
  intros Hp. unfold export_ops. exists [FCreate f], [FWrite f b]. split; [done|]. right. exists f, b, b', []. split; [done|]. split; [done|].
  cbn [app fs_run foldl fs_step]. by rewrite lookup_insert, insert_insert.
Qed.
(** A step that reports success has done its operations. *)
Definition step_ok (w : world) (r : io_result) (F : fs) (ops : list fsop) : Prop :=
  crash_state F ops r.1.2 ∧ (r.1.1 = true → r.1.2 = fs_run F ops) ∧ (calm w → r.1.1 = true).
Lemma step_skip w F i : step_ok w (true, F, i) F [].
Proof. split; [apply crash_none|done]. Qed.
Lemma step_dump w cap f b F i : step_ok w (dump_io w cap f b F i) F (dump_ops f b).
Proof.
  destruct (dump_io w cap f b F i) as [[ok F'] i'] eqn:E. apply dump_spec in E as [E Hw]. split; [|split; [|done]]; cbn [fst snd].
  - destruct E as [[_ ->]|(b' & -> & Hp & _)]; [apply crash_none|by apply dump_crash].
  - intros ->. destruct E as [[? _]|(b' & -> & _ & Hb)]; [done|]. rewrite (Hb eq_refl). by rewrite dump_run.
Qed.
Lemma step_then w r F a b k : step_ok w r F a → (∀ i, step_ok w (k (fs_run F a) i) (fs_run F a) b) → step_ok w (and_then r k) F (a ++ b).
Proof.
  intros (H1 & H2 & H3) Hk. destruct r as [[ok F1] i1]. cbn [fst snd and_then] in *. destruct ok.
  - rewrite (H2 eq_refl). destruct (Hk i1) as (K1 & K2 & K3). split; [by apply crash_app_r|]. split; [|done]. intros Ho. by rewrite K2, run_app.
  - split; [by apply crash_app_l|]. split; [done|]. intros Hw. by specialize (H3 Hw).
Qed.
Lemma step_ev w cap it lt e p F i : step_ok w (ev_dump_io w cap it lt e p F i) F (ev_dump_ops it lt e p).
Proof.
  unfold ev_dump_io, ev_dump_ops. apply step_then; [apply step_dump|]. intros i1. apply step_then; [apply step_dump|]. intros i2.
  destruct (ev_labels e); [apply step_skip|apply step_dump].
Qed.
Section dump.
  Context {NL EL : Type} `{EqDecision NL, EqDecision EL} (it lt : idty) (cn : codec NL) (ce : codec EL).
  Context (w : world) (cap : nat) (g : sgraph NL EL) (p : string) (parts : list (list N)).
  Context (Hparts : concat parts = aux_bytes cn ce g).
  Lemma sg_dump_spec F i : ∃ r, step_ok w r F (pre_ops it lt g p) ∧ sg_dump_io w cap it lt g p parts F i = and_then r (λ F i, export_io w cap (f_aux p) parts F i).
  Proof using.
    exists (and_then (ev_dump_io w cap it lt (sg_evec g) (p_out p) F i) (λ F i,
      and_then (match sg_in g with Some e => ev_dump_io w cap it lt e (p_in p) F i | None => (true, F, i) end) (λ F i,
        match sg_labels g with Some ls => dump_io w cap (f_labels p) (typed_bytes lt ls) F i | None => (true, F, i) end))). split.
    - unfold pre_ops. apply step_then; [apply step_ev|]. intros i1. apply step_then.
      + destruct (sg_in g); [apply step_ev|apply step_skip].
      + intros i2. destruct (sg_labels g); [apply step_dump|apply step_skip].
    - unfold sg_dump_io. destruct (ev_dump_io w cap it lt (sg_evec g) (p_out p) F i) as [[ok1 F1] i1]. cbn [and_then]. destruct ok1; [|done].
      destruct (match sg_in g with Some e => ev_dump_io w cap it lt e (p_in p) F1 i1 | None => (true, F1, i1) end) as [[ok2 F2] i2]. cbn [and_then]. destruct ok2; done.
  Qed.
  (** Whatever happens, the files are as after some crash; after success only the end of the
      auxiliary file can be missing. *)
  Lemma dump_outcome F i ok F' i' : sg_dump_io w cap it lt g p parts F i = (ok, F', i') →
    crash_state F (sg_dump_ops it lt cn ce g p) F' ∧
    (ok = true → ∃ b, F' = <[f_aux p := b]> (fs_run F (pre_ops it lt g p)) ∧ b `prefix_of` aux_bytes cn ce g ∧ length (aux_bytes cn ce g) ≤ length b + cap) ∧
    (calm w → ok = true ∧ F' = sg_dump_mmap it lt cn ce g p F).
  Proof using Hparts.
    intros H. destruct (sg_dump_spec F i) as (r & (H1 & H2 & H3) & E). rewrite E in H. rewrite ops_split. unfold sg_dump_mmap. rewrite ops_split.
    destruct r as [[ok1 F1] i1]. cbn [fst snd and_then] in *. destruct ok1.
    - rewrite (H2 eq_refl) in *. pose proof (export_spec _ _ _ _ _ _ _ _ _ H) as X. rewrite Hparts in X. split; [|split].
      + apply crash_app_r. destruct X as [[_ ->]|(b & -> & Hb & _)]; [apply crash_none|by apply export_crash].
      + intros ->. destruct X as [[? _]|(b & -> & Hb & Hl & _)]; [done|]. exists b. split; [done|]. split; [done|]. by apply Hl.
      + intros Hw. destruct (export_calm w cap (f_aux p) parts (fs_run F (pre_ops it lt g p)) i1 Hw) as [i2 Hi]. rewrite Hi in H. injection H as <- <- _.
        split; [done|]. rewrite Hparts. rewrite (run_app F (pre_ops it lt g p)). symmetry. apply export_run.
    - injection H as <- <- <-. split; [by apply crash_app_l|]. split; [done|]. intros Hw. by specialize (H3 Hw).
  Qed.
End dump.

(** ** A full disk *)
Lemma buffered {X} w cap (s : writer X) l : length (wr_buf s) + length (concat l) < cap →
  write_each w cap s l = (true, Wr (wr_file s) (wr_buf s ++ concat l) (wr_next s)).
Proof.
  revert s. induction l as [|b l IH]; intros s Hl.
  - cbn [write_each concat]. rewrite app_nil_r. by rewrite next_eq.
  - cbn [write_each concat] in *. rewrite app_length in Hl.
    assert (write_all w cap (length b) s b = (true, Wr (wr_file s) (wr_buf s ++ b) (wr_next s))) as ->.
    { destruct b as [|x b]; [cbn [write_all length]; by rewrite app_nil_r, next_eq|]. cbn [write_all length]. unfold buf_write.
      rewrite decide_False by (cbn [length] in *; lia). cbn [negb]. rewrite decide_False by (cbn [length] in *; lia).
      rewrite drop_ge by done. by destruct (length b). }
    rewrite IH; cbn [wr_file wr_buf wr_next]; [by rewrite <-app_assoc|]. rewrite app_length. lia.
Qed.
Lemma drop_full {X} w (s : writer X) : w (wr_next s) = IoErr → wr_file (drop_writer w s) = wr_file s ∧ (wr_next (drop_writer w s) = wr_next s ∨ wr_next (drop_writer w s) = S (wr_next s)).
Proof. intros Hw. unfold drop_writer, flush_buf. destruct (wr_buf s) as [|x b]; cbn [push length]; [by split; [|left]|]. rewrite Hw. cbn. by split; [|right]. Qed.
Lemma export_full cap f parts F i : length (concat parts) < cap → ∃ i', export_io (full_disk [i]) cap f parts F i = (true, <[f := []]> F, i').
Proof.
  intros Hl. unfold export_io, with_file. assert (full_disk [i] i = IoAll) as -> by (unfold full_disk; by rewrite decide_True by set_solver).
  rewrite buffered by (cbn [wr_buf length]; lia). cbn [wr_file wr_buf wr_next app].
  destruct (drop_full (full_disk [i]) (Wr [] (concat parts) (S i))) as [E _].
  { cbn [wr_next]. unfold full_disk. rewrite decide_False; [done|]. intros Hx%elem_of_list_singleton. lia. }
  eexists. by rewrite E.
Qed.

(** ** CSV *)
Lemma text_of_app a b : text_of (a ++ b) = text_of a +:+ text_of b.
Proof. induction a as [|x a IH]; [done|]. change (String x (text_of (a ++ b)) = String x (text_of a +:+ text_of b)). by rewrite IH. Qed.
Lemma text_prefix a b : a `prefix_of` b → begins (text_of a) (text_of b).
Proof. intros [k ->]. exists (text_of k). apply text_of_app. Qed.
Lemma text_length a : String.length (text_of a) = length a.
Proof. induction a as [|x a IH]; [done|]. cbn. by rewrite <-IH. Qed.
Lemma csv_spec w cap pn pe ns es F i F' : csv_io w cap pn pe ns es F i = (true, F') →
  ∃ a b, F' = <[pe := a]> (<[pn := b]> F) ∧ begins b (text_of (concat ns)) ∧ begins a (text_of (concat es)) ∧
    String.length (text_of (concat ns)) ≤ String.length b + cap ∧ String.length (text_of (concat es)) ≤ String.length a + cap ∧
    (calm w → b = text_of (concat ns) ∧ a = text_of (concat es)).
Proof.
  unfold csv_io. destruct (w i); [| |done].
  all: destruct (write_each w cap (Wr [] [] (S i)) ns) as [ok s] eqn:Es; destruct ok; cbn [negb]; [|done];
    destruct (w (wr_next s)); [| |done];
    destruct (write_each w cap (Wr [] [] (S (wr_next s))) es) as [ok t] eqn:Et; intros [= -> <-];
    pose proof (sink_spec w cap _ ns _ s Es (wr_next (drop_writer w t))) as (A1 & A2 & A3);
    pose proof (sink_spec w cap _ es _ t Et (wr_next t)) as (B1 & B2 & B3); rewrite next_eq in *; cbv zeta in *;
    eexists _, _; (split; [done|]); (split; [by apply text_prefix|]); (split; [by apply text_prefix|]); rewrite !text_length;
    (split; [by apply A2|]); (split; [by apply B2|]); intros Hw; (split; [by rewrite (proj2 (A3 Hw))|by rewrite (proj2 (B3 Hw))]).
Qed.
Lemma calm_each {X} w cap i (l : list (list X)) : calm w → (write_each w cap (Wr [] [] i) l).1 = true.
Proof. intros Hw. destruct (write_each w cap (Wr [] [] i) l) as [ok s] eqn:E. by destruct (sink_spec w cap i l ok s E 0) as (_ & _ & H); apply H. Qed.
Lemma csv_calm w cap pn pe ns es F i : calm w → csv_io w cap pn pe ns es F i = (true, <[pe := text_of (concat es)]> (<[pn := text_of (concat ns)]> F)).
Proof.
  intros Hw. destruct (csv_io w cap pn pe ns es F i) as [ok F'] eqn:E. assert (ok = true) as ->.
  { unfold csv_io in E. destruct (w i) eqn:Ew; [| |by destruct (Hw i)].
    all: rewrite (surjective_pairing (write_each w cap _ ns)) in E; rewrite (calm_each w cap _ _ Hw) in E; cbn [negb] in E.
    all: destruct (w (wr_next _)) eqn:Ew2 in E; [| |by destruct (Hw _ Ew2)].
    all: rewrite (surjective_pairing (write_each w cap _ es)) in E; rewrite (calm_each w cap _ _ Hw) in E; by injection E as <- _. }
  apply csv_spec in E as (a & b & -> & _ & _ & _ & _ & H). by destruct (H Hw) as [-> ->].
Qed.
Lemma csv_full cap pn pe ns es F i : length (concat ns) < cap → length (concat es) < cap →
  csv_io (full_disk [i; S i]) cap pn pe ns es F i = (true, <[pe := EmptyString]> (<[pn := EmptyString]> F)).
Proof.
  intros Hn He. unfold csv_io. assert (full_disk [i; S i] i = IoAll) as -> by (unfold full_disk; by rewrite decide_True by set_solver).
  rewrite buffered by (cbn [wr_buf length]; lia). cbn [negb wr_next wr_file wr_buf app].
  assert (full_disk [i; S i] (S i) = IoAll) as -> by (unfold full_disk; by rewrite decide_True by set_solver).
  rewrite buffered by (cbn [wr_buf length]; lia). cbn [wr_next wr_file wr_buf app].
  assert (∀ j, S i < j → full_disk [i; S i] j = IoErr) as Hf.
  { intros j Hj. unfold full_disk. rewrite decide_False; [done|]. rewrite !elem_of_cons, elem_of_nil. intros [?|[?|?]]; [lia|lia|done]. }
  destruct (drop_full (full_disk [i; S i]) (Wr [] (concat es) (S (S i)))) as [E1 E2]; [apply Hf; cbn [wr_next]; lia|].
  destruct (drop_full (full_disk [i; S i]) (Wr [] (concat ns) (wr_next (drop_writer (full_disk [i; S i]) (Wr [] (concat es) (S (S i))))))) as [E3 _].
  { cbn [wr_next] in *. apply Hf. lia. }
  by rewrite E1, E3.
Qed.

(** ** What a later reader sees *)
Lemma export_import {A} (c : codec A) P w cap f x parts F i F' i' y : faithful c P → P x → concat parts = enc c x →
  export_io w cap f parts F i = (true, F', i') → import c f F' = Some y → y = x.
Proof.
  intros [Hr Hd] Hx Hp H Hy. apply export_spec in H as [[? _]|(b & -> & Hb & _ & _)]; [done|]. rewrite Hp in Hb.
  destruct (decide (b = enc c x)) as [->|Hne].
  - pose proof (import_export c P f F x Hr Hx) as E. unfold export in E. rewrite export_run in E. congruence.
  - rewrite (import_cut c P f _ x b Hd Hx) in Hy; [done|by rewrite lookup_insert|done|done].
Qed.
Lemma dump_detected {NL EL} `{EqDecision NL, EqDecision EL} it lt (cn : codec NL) (ce : codec EL) PN PE dir w cap g p parts F i F' i' m :
  faithful cn PN → faithful ce PE → mappable it lt PN PE dir g → fresh_prefix F p → concat parts = aux_bytes cn ce g →
  sg_dump_io w cap it lt g p parts F i = (true, F', i') → mm_open it lt cn ce F' p = Ok m → same_answers (sg_view it lt dir g) (mm_view it lt m).
Proof.
  intros Hcn Hce Hg Hf Hp H. apply (dump_outcome it lt cn ce w cap g p parts Hp) in H as (H1 & H2 & _). destruct (H2 eq_refl) as (b & E & _).
  apply (crash_detected it lt cn ce PN PE Hcn Hce dir g p F); [done|done|done|]. rewrite E. exists b. rewrite <-n_aux. by rewrite lookup_insert.
Qed.
Lemma read_empty {NL EL} `{EqDecision NL, EqDecision EL} dir it lt (tn : text NL) (te : text EL) R sep (F : textfs) pn pe (g : graphmap NL EL) :
  rd_nodes R = Some pn → rd_edges R = pe → F !! pn = Some EmptyString → F !! pe = Some EmptyString →
  text_read dir it lt tn te R sep F g = Ok (g, true).
Proof.
  intros H1 H2 H3 H4. unfold text_read, csv_read. rewrite H1, H2, !lookup_fmap, H3, H4. cbn [fmap option_fmap option_map].
  change (read_table sep "") with ([] : table). unfold read_nodes, read_edges, deserialize. destruct (rd_headers R); done.
Qed.
Lemma csv_crash {NL EL} `{EqDecision NL, EqDecision EL} it (tn : text NL) (te : text EL) V pn pe sep F F1 w cap ns es i F' :
  text_write it tn te V pn pe sep F = Ok F1 → pn ≠ pe → F1 !! pn = Some (text_of (concat ns)) → F1 !! pe = Some (text_of (concat es)) →
  csv_io w cap pn pe ns es F i = (true, F') →
  text_crash it tn te V pn pe sep F F' ∧
  ∃ a b, F' = <[pe := a]> (<[pn := b]> F) ∧
    begins b (text_of (concat ns)) ∧ String.length (text_of (concat ns)) ≤ String.length b + cap ∧
    begins a (text_of (concat es)) ∧ String.length (text_of (concat es)) ≤ String.length a + cap.
Proof.
  intros HW Hne Hn He H. unfold text_write in HW.
  destruct (rmapl _ (v_node_indices V)) as [nr| |] eqn:En in HW; [|done|done]. cbn [rbind] in HW.
  destruct (v_edge_indices V) as [ix| |] eqn:Ei; [|done|done]. cbn [rbind] in HW.
  destruct (rmapl _ ix) as [er| |] eqn:Ee in HW; [|done|done]. cbn [rbind] in HW. injection HW as <-.
  rewrite lookup_insert in He. rewrite lookup_insert_ne, lookup_insert in Hn by done. apply (inj Some) in He, Hn.
  apply csv_spec in H as (a & b & -> & Hb & Ha & Lb & La & _). split; [|by exists a, b]. right. exists b. split; [exists nr; by rewrite Hn|].
  right. exists a. split; [|done]. exists ix, er. split; [done|]. split; [done|]. by rewrite He.
Qed.
Lemma csv_whole {NL EL} `{EqDecision NL, EqDecision EL} it (tn : text NL) (te : text EL) V pn pe sep F F1 w cap ns es i :
  text_write it tn te V pn pe sep F = Ok F1 → pn ≠ pe → F1 !! pn = Some (text_of (concat ns)) → F1 !! pe = Some (text_of (concat es)) →
  calm w → csv_io w cap pn pe ns es F i = (true, F1).
Proof.
  intros HW Hne Hn He Hw. rewrite (csv_calm w cap pn pe ns es F i Hw). f_equal. unfold text_write in HW.
  destruct (rmapl _ (v_node_indices V)) as [nr| |] eqn:En in HW; [|done|done]. cbn [rbind] in HW.
  destruct (v_edge_indices V) as [ix| |] eqn:Ei; [|done|done]. cbn [rbind] in HW.
  destruct (rmapl _ ix) as [er| |] eqn:Ee in HW; [|done|done]. cbn [rbind] in HW. injection HW as <-.
  rewrite lookup_insert in He. rewrite lookup_insert_ne, lookup_insert in Hn by done. apply (inj Some) in He, Hn. by rewrite He, Hn.
Qed.
Lemma export_lost {A} (c : codec A) P cap f x parts F : faithful c P → P x → concat parts = enc c x → enc c x ≠ [] → length (enc c x) < cap →
  ∃ F' i', export_io (full_disk [0]) cap f parts F 0 = (true, F', i') ∧ F' !! f = Some [] ∧ import c f F' = None.
Proof.
  intros [_ Hd] Hx Hp Hne Hl. destruct (export_full cap f parts F 0) as [i' E]; [by rewrite Hp|]. eexists _, i'. split; [exact E|]. split; [by rewrite lookup_insert|].
  apply (import_cut c P f _ x []); [done|done|by rewrite lookup_insert|apply prefix_nil|done].
Qed.
Lemma csv_lost {NL EL} `{EqDecision NL, EqDecision EL} dir it lt (tn : text NL) (te : text EL) cap pn pe sep' ns es F h fl (g : graphmap NL EL) :
  pn ≠ pe → length (concat ns) < cap → length (concat es) < cap →
  ∃ F', csv_io (full_disk [0; 1]) cap pn pe ns es F 0 = (true, F') ∧ F' !! pn = Some "" ∧ F' !! pe = Some "" ∧
    text_read dir it lt tn te (Reader (Some pn) pe h fl) sep' F' g = Ok (g, true).
Proof.
  intros Hne Hn He. eexists. split; [exact (csv_full cap pn pe ns es F 0 Hn He)|].
  assert ((<[pe := ""]> (<[pn := ""]> F) : textfs) !! pn = Some "") as H1 by (by rewrite lookup_insert_ne, lookup_insert).
  assert ((<[pe := ""]> (<[pn := ""]> F) : textfs) !! pe = Some "") as H2 by (by rewrite lookup_insert).
  split; [done|]. split; [done|]. by apply (read_empty dir it lt tn te _ sep' _ pn pe).
Qed.
Lemma dump_files {NL EL} `{EqDecision NL, EqDecision EL} it lt (cn : codec NL) (ce : codec EL) (w : world) cap (g : sgraph NL EL) p parts F i F' i' :
  concat parts = aux_bytes cn ce g → sg_dump_io w cap it lt g p parts F i = (true, F', i') →
  ∀ f, f ≠ (p +:+ "_aux.bin")%string → F' !! f = sg_dump_mmap it lt cn ce g p F !! f.
Proof.
  intros Hp H f Hf. destruct (dump_outcome it lt cn ce w cap g p parts Hp F i true F' i' H) as (_ & H2 & _). destruct (H2 eq_refl) as (b & -> & _).
  unfold sg_dump_mmap. rewrite ops_split, run_app, export_run. rewrite <-n_aux in Hf. by rewrite !lookup_insert_ne.
Qed.
