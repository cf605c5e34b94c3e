(** Facts about typed arrays in files. *)
From stdpp Require Import gmap strings.
From Verif Require Import Base BaseFacts Api Bytes Map GraphMap Static Serde SpecSerde SerdeFacts Mmap.

(** ** Writing *)
Lemma dump_writes_concat fuel b : length b ≤ fuel → concat (dump_writes fuel b) = b.
Proof.
  revert b. induction fuel as [|fuel IH]; intros b Hb; [by destruct b; [|simpl in Hb; lia]|].
  destruct b as [|x b']; [done|]. set (b := x :: b') in *. change (dump_writes (S fuel) b) with
    (let k := if decide (length b < N.to_nat 10000) then length b else N.to_nat 10000 in take k b :: dump_writes fuel (drop k b)).
  cbn zeta. assert (0 < length b) as H0 by (subst b; simpl; lia).
  assert (0 < N.to_nat 10000) as H1 by lia.
  cbn [concat]. rewrite IH; [apply take_drop|]. rewrite drop_length. destruct (decide _); lia.
Qed.
Lemma writes_run F f l : fs_run F (FWrite f <$> l) = match l with [] => F | _ => <[f := default [] (F !! f) ++ concat l]> F end.
Proof.
  revert F. induction l as [|b l IH]; intros F; [done|]. cbn [fmap list_fmap fs_run foldl fs_step].
  fold (fs_run (<[f:=default [] (F !! f) ++ b]> F) (FWrite f <$> l)). rewrite IH. destruct l as [|b2 l].
  - cbn [concat]. by rewrite app_nil_r.
  - rewrite lookup_insert. cbn [default]. rewrite insert_insert. cbn [concat from_option id]. by rewrite <-!app_assoc.
Qed.
Lemma run_app F a b : fs_run F (a ++ b) = fs_run (fs_run F a) b.
Proof. apply foldl_app. Qed.
Lemma dump_run F f b : fs_run F (dump_ops f b) = <[f := b]> F.
Proof.
  unfold dump_ops. change (fs_run F (?o :: ?l)) with (fs_run (fs_step F o) l). cbn [fs_step]. rewrite writes_run.
  pose proof (dump_writes_concat (length b) b (le_n _)) as Hc. destruct (dump_writes (length b) b) eqn:E.
  - simpl in Hc. by subst b.
  - rewrite lookup_insert. cbn [default from_option id]. rewrite insert_insert. by rewrite app_nil_l, Hc.
Qed.
Lemma export_run F f b : fs_run F (export_ops f b) = <[f := b]> F.
Proof. unfold export_ops, fs_run. cbn [foldl fs_step]. by rewrite lookup_insert, insert_insert. Qed.

(** ** Reading *)
Lemma typed_bytes_length t l : length (typed_bytes t l) = length l * id_size t.
Proof.
  induction l as [|x l IH]; [done|]. unfold typed_bytes in *. rewrite bind_cons, app_length, IH, le_bytes_length. simpl. lia.
Qed.
Lemma raw_items_ok t l r : Forall (in_type t) l → raw_items (id_size t) (length l) (typed_bytes t l ++ r) = l.
Proof.
  induction 1 as [|x l Hx Hl IH]; [done|]. cbn [length raw_items]. unfold typed_bytes in *. rewrite bind_cons, <-app_assoc.
  rewrite take_app_alt, drop_app_alt by (by rewrite le_bytes_length). f_equal; [|done].
  apply le_value_bytes. by rewrite <-id_card_pow.
Qed.
Lemma typed_bytes_app t a b : typed_bytes t (a ++ b) = typed_bytes t a ++ typed_bytes t b.
Proof. apply bind_app. Qed.
Lemma id_size_0 t : id_size t = 0 ↔ t = TUnit.
Proof. by destruct t. Qed.
Lemma tm_new_ok t F f l : t ≠ TUnit → l ≠ [] → F !! f = Some (typed_bytes t l) →
  tm_new t F f = Ok (TMap (typed_bytes t l) (length l) (id_size t)).
Proof.
  intros Ht Hl HF. unfold tm_new. rewrite HF. cbn [unwrap rbind]. assert (id_size t ≠ 0) as Hs by (by rewrite id_size_0).
  rewrite decide_False, decide_False; [|done|].
  - rewrite typed_bytes_length, Nat.div_mul; done.
  - intros E. apply (f_equal length) in E. rewrite typed_bytes_length in E. destruct l; [done|]. cbn [length] in E. nia.
Qed.
Lemma typed_slices t l m : Forall (in_type t) l → m = TMap (typed_bytes t l) (length l) (id_size t) →
  tm_full m = Ok l ∧ (∀ i, i ≤ length l → tm_from m i = Ok (drop i l)) ∧ (∀ i, length l < i → tm_from m i = Panic) ∧
  (∀ j, j ≤ length l → tm_to m j = Ok (take j l)).
Proof.
  intros Hl ->. unfold tm_full, tm_from, tm_to, raw_parts. cbn [tm_map tm_len tm_type_len].
  rewrite typed_bytes_length. split_and!.
  - rewrite decide_True by lia. f_equal. cbn [drop]. rewrite <-(app_nil_r (typed_bytes t l)). by apply raw_items_ok.
  - intros i Hi. unfold usub. rewrite decide_True by lia. cbn [rbind]. rewrite decide_True by nia. f_equal.
    rewrite <-(take_drop i l) at 2. rewrite typed_bytes_app, drop_app_alt by (rewrite typed_bytes_length, take_length; nia).
    rewrite <-(app_nil_r (typed_bytes t (drop i l))). rewrite <-drop_length. apply raw_items_ok. by apply Forall_drop.
  - intros i Hi. unfold usub. by rewrite decide_False by lia.
  - intros j Hj. rewrite decide_True by nia. f_equal. cbn [drop]. rewrite <-(take_drop j l) at 1. rewrite typed_bytes_app.
    replace j with (length (take j l)) at 1 by (rewrite take_length; lia). apply raw_items_ok. by apply Forall_take.
Qed.
Lemma typed_map_ok t F f l : t ≠ TUnit → l ≠ [] → Forall (in_type t) l → F !! f = Some (typed_bytes t l) → typed_map t F f = Ok l.
Proof.
  intros Ht Hn Hl HF. unfold typed_map. rewrite (tm_new_ok t F f l) by done. cbn [rbind].
  by apply (typed_slices t l _ Hl).
Qed.
Lemma typed_map_missing t F f : F !! f = None → typed_map t F f = Panic.
Proof. intros HF. unfold typed_map, tm_new. by rewrite HF. Qed.
Lemma typed_map_empty t F f : F !! f = Some [] → typed_map t F f = Panic.
Proof. intros HF. unfold typed_map, tm_new. rewrite HF. cbn [unwrap rbind]. by rewrite decide_True. Qed.
Lemma usize_map_ok F f l : l ≠ [] → Forall in_usize l → F !! f = Some (usize_bytes l) → typed_map TUsize F f = Ok (N.of_nat <$> l).
Proof.
  intros Hn Hl HF. apply typed_map_ok; [done|by destruct l| |done]. apply Forall_fmap. eapply Forall_impl; [exact Hl|]. intros x Hx. exact Hx.
Qed.
