(** Amortised analysis of path halving: the potential is the sum over the nodes of the binary
    logarithm of the number of nodes below. *)
From Verif Require Import Base BaseFacts Api Spec SpecFacts SpecConn ConnComp ConnCompFacts ConnCompProps ConnCost SpecConnCost.
Implicit Types m : gmap N N.

(** ** The counted calls as sums *)
(** get_root for several nodes in a row. *)
Fixpoint rounds_all (ns : list N) (c : ccomp) : nat :=
  match ns with
  | [] => 0
  | n :: ns => cc_rounds n c + match cc_get_root n c with Ok (_, c') => rounds_all ns c' | _ => 0 end
  end.
(** The calls of get_root in process_new_edge l.120-121, is_connected l.161 and
    get_connected_nodes l.180-189. *)
Definition cc_asks (o : ccop) (c : ccomp) : list N :=
  match o with
  | CEdge x y => [x; y]
  | CRoot n => [n]
  | CConnected a b => match cc_parent c !! a, cc_parent c !! b with Some _, Some _ => [a; b] | _, _ => [] end
  | CNodes keys n => match cc_parent c !! n with Some _ => n :: keys | None => [] end
  | CReset => []
  end.
Definition cc_cost (o : ccop) (c : ccomp) : nat :=
  rounds_all (cc_asks o c) (match o with CEdge x y => cc_see y (cc_see x c) | _ => c end).
(** All rounds of a history of calls, up to a panic. *)
Fixpoint cc_work (h : list ccop) (c : ccomp) : nat :=
  match h with
  | [] => 0
  | o :: h => cc_cost o c + match cc_step o c with Ok c' => cc_work h c' | _ => 0 end
  end.

Lemma t_step_cost o c t : t_step o (c, t) = rmap (λ c', (c', t + cc_cost o c)) (cc_step o c).
Proof.
  destruct o as [x y|n|a b|keys n|]; unfold cc_cost, cc_asks; cbn [t_step cc_step].
  - unfold t_process, cc_process. cbn [fst snd rounds_all]. generalize (cc_see y (cc_see x c)). clear c. intros c. unfold t_get_root. cbn [fst snd].
    destruct (cc_get_root x c) as [[[rx|] c1]| |]; [|reflexivity..]. cbn [rbind unwrap rmap fst snd].
    destruct (cc_get_root y c1) as [[[ry|] c2]| |]; [|reflexivity..]. cbn [rbind unwrap rmap fst snd].
    replace (t + (cc_rounds x c + (cc_rounds y c1 + 0))) with (t + cc_rounds x c + cc_rounds y c1) by lia.
    destruct (decide (rx = ry)); [done|]. by destruct (usub (cc_count c2) 1).
  - unfold t_get_root. cbn [fst snd rounds_all]. destruct (cc_get_root n c) as [[o c1]| |]; cbn [rbind rmap snd]; [|done..]. by rewrite Nat.add_0_r.
  - unfold t_is_connected, cc_is_connected. cbn [fst snd]. destruct (cc_parent c !! a); [|cbn; by rewrite Nat.add_0_r].
    destruct (cc_parent c !! b); [|cbn; by rewrite Nat.add_0_r]. unfold t_get_root. cbn [fst snd rounds_all].
    destruct (cc_get_root a c) as [[ra c1]| |]; cbn [rbind rmap snd]; [|done..]. cbn [fst snd].
    destruct (cc_get_root b c1) as [[rb c2]| |]; cbn [rbind rmap snd]; [|done..]. do 2 f_equal. lia.
  - unfold t_get_connected_nodes, cc_get_connected_nodes. cbn [fst snd]. destruct (cc_parent c !! n); [|cbn; by rewrite Nat.add_0_r].
    unfold t_get_root. cbn [fst snd rounds_all]. destruct (cc_get_root n c) as [[root c1]| |]; cbn [rbind rmap snd]; [|done..].
    assert (∀ acc c1 t, rfold (λ '(result, s) k, let* '(rk, s) := t_get_root k s in
        Ok (if decide (rk = root) then result ++ [k] else result, s)) keys (acc, (c1, t)) =
      rmap (λ p, (p.1, (p.2, t + rounds_all keys c1))) (rfold (λ '(result, c) k, let* '(rk, c) := cc_get_root k c in
        Ok (if decide (rk = root) then result ++ [k] else result, c)) keys (acc, c1))) as H.
    { clear. induction keys as [|k keys IH]; intros acc c1 t; cbn [rfold rounds_all rmap fst snd]; [by rewrite Nat.add_0_r|].
      unfold t_get_root. cbn [fst snd]. destruct (cc_get_root k c1) as [[rk c2]| |]; cbn [rbind rmap]; [|done..].
      rewrite IH, <- Nat.add_assoc. done. }
    rewrite H. match goal with |- context [rfold ?f keys ([], c1)] => destruct (rfold f keys ([], c1)) as [[l c2]| |] end; cbn [rbind rmap fst snd]; [|done..].
    do 2 f_equal. lia.
  - cbn. by rewrite Nat.add_0_r.
Qed.
Lemma t_run_work h : ∀ c t, t_run h (c, t) = rmap (λ c', (c', t + cc_work h c)) (cc_run h c).
Proof.
  unfold t_run, cc_run. induction h as [|o h IH]; intros c t; cbn [rfold cc_work rmap]; [by rewrite Nat.add_0_r|].
  rewrite t_step_cost. destruct (cc_step o c) as [c1| |]; cbn [rbind rmap]; [|done..]. by rewrite IH, <- Nat.add_assoc.
Qed.

(** [v] is met on the way from [x] to its root. *)
Inductive above m : N → N → Prop :=
  | above_refl x : is_Some (m !! x) → above m x x
  | above_step x p v : m !! x = Some p → x ≠ p → above m p v → above m x v.
Lemma above_dom m x v : above m x v → is_Some (m !! x) ∧ is_Some (m !! v).
Proof. induction 1 as [x Hx|x p v Hx Hne H IH]; [done|]. split; [by eexists|apply IH]. Qed.
Lemma above_depth m x v k r : above m x v → depth m x k r → ∃ k', k' ≤ k ∧ depth m v k' r ∧ (k' = k → x = v).
Proof.
  intros H. revert k. induction H as [x Hx|x p v Hx Hne H IH]; intros k Hd; [by exists k|].
  inversion Hd as [? Hr|? p' k1 ? Hp' Hne' Hd1]; subst; [congruence|]. assert (p' = p) as -> by congruence.
  destruct (IH _ Hd1) as (k' & Hk & Hv & _). exists k'. split; [lia|]. split; [done|]. lia.
Qed.
Lemma above_trans m x y z : above m x y → above m y z → above m x z.
Proof. induction 1 as [x Hx|x p v Hx Hne H IH]; [done|]. intros Hz. eapply above_step; [done..|]. by apply IH. Qed.
Lemma above_antisym m x y : forest m → above m x y → above m y x → x = y.
Proof.
  intros Hf H1 H2. destruct (above_dom _ _ _ H1) as [Hx _]. destruct (Hf x Hx) as (k & r & Hd).
  destruct (above_depth _ _ _ _ _ H1 Hd) as (k1 & Hk1 & Hd1 & E1). destruct (above_depth _ _ _ _ _ H2 Hd1) as (k2 & Hk2 & Hd2 & E2).
  destruct (depth_fun _ _ _ _ _ _ Hd Hd2) as [<- _]. apply E1. lia.
Qed.
Lemma above_linear m x a b : above m x a → above m x b → above m a b ∨ above m b a.
Proof.
  intros H. revert b. induction H as [x Hx|x p v Hx Hne H IH]; intros b Hb; [by left|].
  inversion Hb as [? Hb'|? p' ? Hp' Hne' Hb']; subst; [right; eapply above_step; done|]. assert (p' = p) as -> by congruence. by apply IH.
Qed.

(** As a function. *)
Fixpoint way (fuel : nat) m (x : N) : list N :=
  match fuel with
  | 0 => []
  | S fuel => match m !! x with Some p => x :: (if decide (x = p) then [] else way fuel m p) | None => [] end
  end.
Lemma way_above fuel m x v : v ∈ way fuel m x → above m x v.
Proof.
  revert x. induction fuel as [|fuel IH]; intros x; cbn [way]; [by intros ?%elem_of_nil|].
  destruct (m !! x) as [p|] eqn:E; [|by intros ?%elem_of_nil]. intros [->|H]%elem_of_cons; [by constructor; eexists|].
  destruct (decide (x = p)); [by apply elem_of_nil in H|]. eapply above_step; [done..|]. by apply IH.
Qed.
Lemma above_way fuel m x v k r : depth m x k r → k < fuel → above m x v → v ∈ way fuel m x.
Proof.
  intros Hd. revert k Hd. induction fuel as [|fuel IH] in x |- *; intros k Hd Hk Ha; [lia|]. cbn [way].
  inversion Ha as [? [p Hp]|? p ? Hp Hne Ha']; subst; rewrite Hp; [left|right]. rewrite decide_False by done.
  inversion Hd as [|? p' k1 ? Hp' _ Hd1]; subst; [congruence|]. assert (p' = p) as -> by congruence. eapply IH; [done|lia|done].
Qed.
Definition below m (v : N) : gset N := filter (λ x, v ∈ way (size m) m x) (dom m).
Lemma elem_below m v x : forest m → x ∈ below m v ↔ above m x v.
Proof.
  intros Hf. unfold below. rewrite elem_of_filter. split; [intros [H _]; by eapply way_above|]. intros H.
  pose proof (proj1 (above_dom _ _ _ H)) as Hx. destruct (Hf x Hx) as (k & r & Hd). split; [|by apply elem_of_dom].
  eapply above_way; [done|by eapply depth_bound|done].
Qed.
Definition sz m (v : N) : nat := size (below m v).
Lemma sz_le m v : sz m v ≤ size m.
Proof. unfold sz. rewrite <- size_dom. apply subseteq_size. unfold below. set_solver. Qed.
Lemma sz_mono m x v : forest m → above m x v → sz m x ≤ sz m v.
Proof. intros Hf H. apply subseteq_size. intros y. rewrite !elem_below by done. intros Hy. by eapply above_trans. Qed.
Lemma sz_pos m v : forest m → is_Some (m !! v) → 0 < sz m v.
Proof.
  intros Hf Hv. unfold sz. assert (v ∈ below m v) as H by (apply elem_below; [done|by constructor]).
  destruct (size (below m v)) eqn:E; [|lia]. apply size_empty_inv in E. set_solver.
Qed.
Lemma sz_sub m m' v : forest m → forest m' → (∀ x, above m' x v → above m x v) → sz m' v ≤ sz m v.
Proof. intros Hf Hf' H. apply subseteq_size. intros x. rewrite !elem_below by done. apply H. Qed.

(** ** The potential *)
Definition pot m : nat := sum_list ((λ v, Nat.log2 (sz m v)) <$> elements (dom m)).
Lemma sum_change (f f' : N → nat) (l : list N) p : NoDup l → p ∈ l → (∀ v, v ∈ l → v ≠ p → f' v ≤ f v) →
  sum_list (f' <$> l) + f p ≤ sum_list (f <$> l) + f' p.
Proof.
  intros Hn Hp H. assert (∀ k, p ∉ k → (∀ v, v ∈ k → v ∈ l) → sum_list (f' <$> k) ≤ sum_list (f <$> k)) as Hk.
  { induction k as [|a k IH]; intros Hpk Hs; [done|]. cbn. apply not_elem_of_cons in Hpk as [Hpa Hpk].
    specialize (IH Hpk ltac:(intros v Hv; apply Hs; by right)). specialize (H a ltac:(apply Hs; left) ltac:(congruence)).
    change (list_fmap _ _ f' k) with (f' <$> k). change (list_fmap _ _ f k) with (f <$> k). lia. }
  apply elem_of_list_split in Hp as (l1 & l2 & ->). apply NoDup_app in Hn as (_ & Hd & [Hn _]%NoDup_cons).
  assert (p ∉ l1) as H1 by (intros Hp; apply (Hd p Hp); left).
  assert (∀ g : N → nat, sum_list (g <$> l1 ++ p :: l2) = sum_list (g <$> l1) + (g p + sum_list (g <$> l2))) as Ha.
  { intros g. clear. induction l1 as [|a l1 IH]; [done|]. cbn. cbn in IH. rewrite IH. lia. }
  rewrite !Ha. pose proof (Hk l1 H1 ltac:(set_solver)). pose proof (Hk l2 Hn ltac:(set_solver)). lia.
Qed.
Lemma pot_change m m' p : (dom m' : gset N) = dom m → is_Some (m !! p) → (∀ v, is_Some (m !! v) → v ≠ p → sz m' v ≤ sz m v) →
  pot m' + Nat.log2 (sz m p) ≤ pot m + Nat.log2 (sz m' p).
Proof.
  intros Hd Hp H. unfold pot. rewrite Hd. apply (sum_change (λ v, Nat.log2 (sz m v)) (λ v, Nat.log2 (sz m' v))).
  - apply NoDup_elements. - by apply elem_of_elements, elem_of_dom.
  - intros v Hv Hne. apply Nat.log2_le_mono, H; [|done]. by apply elem_of_dom, elem_of_elements.
Qed.

(** ** Path halving *)
Section halve.
  Context (m : gmap N N) (n p pp : N) (Hf : forest m) (Hn : m !! n = Some p) (Hne : n ≠ p) (Hp : m !! p = Some pp) (Hpp : p ≠ pp).
  Notation m' := (<[n := pp]> m).
  Lemma h_forest : forest m'.
  Proof using Hf Hn Hne Hp Hpp.
    intros x Hx. apply elem_of_dom in Hx. rewrite (halve_dom _ _ p) in Hx by done. apply elem_of_dom in Hx.
    destruct (Hf x Hx) as (kx & rx & Hdx). destruct (halve_depth m n p pp Hn Hne Hp _ _ _ Hdx) as (k' & _ & ?). eauto.
  Qed.
  Lemma h_pp : is_Some (m !! pp).
  Proof using Hf Hn Hne Hp Hpp. destruct (Hf p) as (k & r & Hd); [by eexists|]. inversion Hd as [|? q ? ? Hq _ Hd1]; subst; [congruence|].
    assert (q = pp) as -> by congruence. by eapply depth_dom. Qed.
  Lemma h_npp : n ≠ pp.
  Proof using Hf Hn Hne Hp Hpp.
    intros E. pose proof h_pp as Hs. apply Hne. apply (above_antisym m); [done| |].
    - eapply above_step; [exact Hn|done|]. constructor. by eexists.
    - eapply above_step; [exact Hp|done|]. rewrite E. by constructor.
  Qed.
  Lemma h_dom x : is_Some (m' !! x) ↔ is_Some (m !! x).
  Proof using Hf Hn Hne Hp Hpp. by rewrite <- !elem_of_dom, (halve_dom _ _ p). Qed.
  Lemma h_back x v : above m' x v → above m x v.
  Proof using Hf Hn Hne Hp Hpp.
    induction 1 as [x Hx|x q v Hx Hq H IH]; [constructor; by apply h_dom|].
    destruct (decide (x = n)) as [->|Hx'].
    - rewrite lookup_insert in Hx. injection Hx as <-. eapply above_step; [exact Hn|done|]. eapply above_step; [exact Hp|done|done].
    - rewrite lookup_insert_ne in Hx by done. by eapply above_step.
  Qed.
  Lemma h_keep x v : above m x v → v ≠ p → above m' x v.
  Proof using Hf Hn Hne Hp Hpp.
    induction 1 as [x Hx|x q v Hx Hq H IH]; intros Hv; [constructor; by apply h_dom|]. specialize (IH Hv).
    destruct (decide (x = n)) as [->|Hx'].
    - assert (q = p) as -> by congruence. inversion IH as [|? q' ? Hq' _ IH']; subst; [done|].
      rewrite lookup_insert_ne in Hq' by done. assert (q' = pp) as -> by congruence.
      eapply above_step; [apply lookup_insert|exact h_npp|done].
    - eapply above_step; [by rewrite lookup_insert_ne|done..].
  Qed.
  Lemma h_p x : above m' x p → ¬ above m x n.
  Proof using Hf Hn Hne Hp Hpp.
    intros H1 H2%h_keep; [|done]. destruct (above_linear _ _ _ _ H1 H2) as [H|H]; apply h_back in H.
    - apply Hne. apply (above_antisym m); [done| |done]. eapply above_step; [exact Hn|done|]. constructor. by eexists.
    - destruct (above_linear _ _ _ _ H1 H2) as [H'|H']; [apply h_back in H'; apply Hne; apply (above_antisym m); done|].
      inversion H' as [|? q ? Hq _ H'']; subst; [done|]. rewrite lookup_insert in Hq. injection Hq as <-. apply h_back in H''.
      apply Hpp. apply (above_antisym m); [done| |done]. eapply above_step; [exact Hp|done|]. constructor. exact h_pp.
  Qed.
  Lemma h_sz v : v ≠ p → sz m' v = sz m v.
  Proof using Hf Hn Hne Hp Hpp.
    intros Hv. pose proof h_forest as Hf'. apply Nat.le_antisymm.
    - apply sz_sub; [done..|]. intros x Hx. by apply h_back.
    - apply sz_sub; [done..|]. intros x Hx. by apply h_keep.
  Qed.
  Lemma h_szp : sz m' p + sz m n ≤ sz m p.
  Proof using Hf Hn Hne Hp Hpp.
    pose proof h_forest as Hf'. unfold sz. rewrite <- size_union.
    - apply subseteq_size. intros x. rewrite elem_of_union, !elem_below by done. intros [H|H]; [by apply h_back|].
      eapply above_trans; [exact H|]. eapply above_step; [exact Hn|done|]. constructor. by eexists.
    - intros x. rewrite !elem_below by done. apply h_p.
  Qed.
  Lemma h_pot : pot m' + S (Nat.log2 (sz m n)) ≤ pot m + Nat.log2 (sz m pp).
  Proof using Hf Hn Hne Hp Hpp.
    pose proof h_forest as Hf'. pose proof h_szp as Hs.
    pose proof (pot_change m m' p (halve_dom _ _ _ _ Hn Hp) ltac:(by eexists) ltac:(intros v _ Hv; by rewrite h_sz)) as Hc.
    assert (sz m p ≤ sz m pp) as Hm. { apply sz_mono; [done|]. eapply above_step; [exact Hp|done|]. constructor. exact h_pp. }
    assert (0 < sz m' p) as H1 by (apply sz_pos; [done|]; apply h_dom; by eexists).
    assert (0 < sz m n) as H2 by (apply sz_pos; [done|]; by eexists).
    pose proof (Nat.log2_le_mono _ _ Hm) as Hl.
    destruct (decide (sz m p ≤ 2 * sz m n)) as [Hc1|Hc1].
    - pose proof (Nat.log2_double (sz m' p) H1) as Hd. pose proof (Nat.log2_le_mono (2 * sz m' p) (sz m p) ltac:(lia)).
      pose proof (Nat.log2_le_mono (sz m n) (sz m pp) ltac:(lia)). lia.
    - pose proof (Nat.log2_double (sz m n) H2) as Hd. pose proof (Nat.log2_le_mono (2 * sz m n) (sz m pp) ltac:(lia)).
      pose proof (Nat.log2_le_mono (sz m' p) (sz m p) ltac:(lia)). lia.
  Qed.
End halve.

Lemma root_above m x k r : depth m x k r → above m x r.
Proof. induction 1 as [r Hr|x p k r Hx Hne H IH]; [constructor; by eexists|]. by eapply above_step. Qed.
Lemma loop_pot fuel : ∀ m n k r, depth m n k r → forest m → k < fuel →
  ∃ m', root_loop fuel m n = Ok (Some r, m') ∧ root_rounds fuel m n + pot m' + Nat.log2 (sz m n) ≤ pot m + Nat.log2 (sz m r) + 1.
Proof.
  induction fuel as [|fuel IH]; intros m n k r Hd Hf Hk; [lia|]. cbn [root_loop root_rounds].
  inversion Hd as [? Hr|? p k1 ? Hp Hne Hd1]; subst.
  - rewrite !decide_True by done. rewrite Hr. exists m. split; [done|lia].
  - rewrite !decide_False by congruence. rewrite Hp. cbn [unwrap rbind].
    assert (∃ pp, m !! p = Some pp) as [pp Hpp] by (eapply depth_dom; done). rewrite Hpp. cbn [unwrap rbind].
    destruct (decide (p = pp)) as [<-|Hne2].
    + assert (<[n:=p]> m = m) as E by (by apply insert_id). rewrite E. assert (p = r) as ->.
      { inversion Hd1; subst; [done|congruence]. }
      destruct fuel as [|fuel]; [lia|]. cbn [root_loop root_rounds]. rewrite !(decide_True _ _ Hpp), Hpp.
      exists m. split; [done|]. pose proof (Nat.log2_le_mono _ _ (sz_mono m n r Hf (root_above _ _ _ _ Hd))). lia.
    + inversion Hd1 as [? Hr|? pp' k2 ? Hp' Hne' Hd2]; subst; [congruence|]. assert (pp' = pp) as -> by congruence.
      destruct (halve_depth m n p pp Hp Hne Hpp _ _ _ Hd2) as (k' & Hk' & Hd').
      destruct (IH _ _ _ _ Hd' (h_forest m n p pp Hf Hp Hne Hpp Hne2)) as (m' & Hm' & Hr'); [lia|]. exists m'. split; [done|].
      pose proof (h_pot m n p pp Hf Hp Hne Hpp Hne2) as H1.
      assert (pp ≠ p) as Hn2 by done. assert (r ≠ p) as Hn3.
      { intros ->. apply depth_root_root, depth_zero in Hd2 as [_ Hd2]. congruence. }
      rewrite (h_sz m n p pp Hf Hp Hne Hpp Hne2 pp Hn2), (h_sz m n p pp Hf Hp Hne Hpp Hne2 r Hn3) in Hr'. lia.
Qed.
Notation L c := (Nat.log2 (size (cc_parent c))).
Lemma get_root_pot c n : forest (cc_parent c) → is_Some (cc_parent c !! n) →
  ∃ r c', cc_get_root n c = Ok (Some r, c') ∧ cc_rounds n c + pot (cc_parent c') ≤ pot (cc_parent c) + (L c + 1) ∧
    forest (cc_parent c') ∧ (dom (cc_parent c') : gset N) = dom (cc_parent c) ∧ cc_parent c' !! r = Some r ∧ size (cc_parent c') = size (cc_parent c).
Proof.
  intros Hf Hn. destruct (get_root_spec c n Hf Hn) as (k & r & m' & Hd & Hg & Hdom & Hf' & Hds).
  destruct (loop_pot (S (size (cc_parent c))) (cc_parent c) n k r Hd Hf) as (m'' & Hm' & Hr); [apply depth_bound in Hd; lia|].
  exists r, (CC m' (cc_count c)). split; [done|]. unfold cc_get_root in Hg. rewrite Hm' in Hg. cbn [rbind] in Hg. injection Hg as ->. cbn [cc_parent].
  split_and!; [|done|done| |by rewrite <- !size_dom, Hdom].
  - unfold cc_rounds. pose proof (Nat.log2_le_mono _ _ (sz_le (cc_parent c) r)). lia.
  - destruct (Hds _ _ _ (depth_root_root _ _ _ _ Hd)) as [k' Hk']. apply depth_self in Hk' as [_ ?]. done.
Qed.
Lemma rounds_missing c n : cc_parent c !! n = None → cc_rounds n c = 0.
Proof. intros Hn. unfold cc_rounds. cbn [root_rounds]. rewrite decide_False by congruence. by rewrite Hn. Qed.

(** The state after get_root of several nodes. *)
Fixpoint roots_after (ns : list N) (c : ccomp) : res ccomp :=
  match ns with [] => Ok c | n :: ns => let* p := cc_get_root n c in roots_after ns p.2 end.
Definition rpot (r : res ccomp) : nat := match r with Ok c => pot (cc_parent c) | _ => 0 end.
Lemma rounds_all_pot ns : ∀ c, forest (cc_parent c) →
  rounds_all ns c + rpot (roots_after ns c) ≤ pot (cc_parent c) + length ns * (L c + 1) ∧
  ∀ c', roots_after ns c = Ok c' → forest (cc_parent c') ∧ (dom (cc_parent c') : gset N) = dom (cc_parent c).
Proof.
  induction ns as [|n ns IH]; intros c Hf; cbn [rounds_all roots_after length]; [split; [cbn; lia|]; by intros c' [= <-]|].
  destruct (cc_parent c !! n) as [p|] eqn:Hn.
  - destruct (get_root_pot c n Hf ltac:(by eexists)) as (r & c1 & -> & Hr & Hf1 & Hd1 & _ & Hs1). cbn [rbind snd].
    destruct (IH c1 Hf1) as [H1 H2]. rewrite Hs1 in H1. split; [lia|]. intros c' Hc'. rewrite <- Hd1. by apply H2.
  - rewrite get_root_missing, rounds_missing by done. cbn [rbind rpot]. split; [lia|done].
Qed.
(** ** Seeing a node and linking two roots *)
Lemma sum_perm (l k : list nat) : l ≡ₚ k → sum_list l = sum_list k.
Proof. induction 1; cbn; lia. Qed.
Lemma see_pot x c : forest (cc_parent c) → forest (cc_parent (cc_see x c)) ∧ pot (cc_parent (cc_see x c)) ≤ pot (cc_parent c).
Proof.
  intros Hf. unfold cc_see. destruct (cc_parent c !! x) as [p|] eqn:Hx; [done|]. cbn [cc_parent].
  set (m := cc_parent c) in *. assert (forest (<[x:=x]> m)) as Hf'.
  { intros n Hn. destruct (decide (n = x)) as [->|].
    - exists 0, x. constructor. apply lookup_insert.
    - rewrite lookup_insert_ne in Hn by done. destruct (Hf n Hn) as (k & r & ?). exists k, r. by apply insert_fresh_depth. }
  split; [done|].
  assert (∀ y v, above (<[x:=x]> m) y v → (v = x ∧ y = x) ∨ above m y v) as Ha.
  { induction 1 as [y Hy|y p v Hy Hne H IH].
    - destruct (decide (y = x)) as [->|]; [by left|]. right. constructor. by rewrite lookup_insert_ne in Hy.
    - destruct (decide (y = x)) as [->|]; [rewrite lookup_insert in Hy; congruence|]. rewrite lookup_insert_ne in Hy by done. right.
      destruct IH as [[-> ->]|IH]; [|by eapply above_step].
      destruct (Hf y) as (k & r & Hd); [by eexists|]. inversion Hd as [|? q ? ? Hq _ Hd1]; subst; [congruence|].
      assert (q = x) as -> by congruence. apply depth_dom in Hd1 as [? ?]. congruence. }
  unfold pot. rewrite dom_insert_L.
  assert (elements ({[x]} ∪ dom m : gset N) ≡ₚ x :: elements (dom m)) as ->.
  { apply elements_union_singleton. by apply not_elem_of_dom. }
  cbn [fmap list_fmap]. change (Nat.log2 (sz (<[x:=x]> m) x) + sum_list ((λ v, Nat.log2 (sz (<[x:=x]> m) v)) <$> elements (dom m)) ≤
    sum_list ((λ v, Nat.log2 (sz m v)) <$> elements (dom m))).
  assert (sz (<[x:=x]> m) x ≤ 1) as H1.
  { unfold sz. rewrite <- (size_singleton (C := gset N) x). apply subseteq_size. intros y. rewrite elem_below by done.
    intros [[_ ->]|H]%Ha; [set_solver|]. apply above_dom in H as [_ [? ?]]. congruence. }
  assert (Nat.log2 (sz (<[x:=x]> m) x) = 0) as -> by (pose proof (Nat.log2_le_mono _ _ H1) as H2; cbn in H2; lia). cbn [Nat.add].
  assert (∀ v, v ∈ elements (dom m) → is_Some (m !! v)) as Hl by (intros v; by rewrite elem_of_elements, elem_of_dom).
  revert Hl. induction (elements (dom m)) as [|v l IH]; intros Hl; [done|]. cbn.
  assert (sz (<[x:=x]> m) v ≤ sz m v) as Hs.
  { apply sz_sub; [done..|]. intros y [[-> _]|H]%Ha; [|done]. destruct (Hl x ltac:(left)). congruence. }
  pose proof (Nat.log2_le_mono _ _ Hs). specialize (IH ltac:(intros w Hw; apply Hl; by right)). cbn in IH. lia.
Qed.
Lemma link_pot m rx ry : forest m → m !! rx = Some rx → m !! ry = Some ry → rx ≠ ry →
  pot (<[rx:=ry]> m) ≤ pot m + Nat.log2 (size m).
Proof.
  intros Hf Hx Hy Hne. assert (dom (<[rx:=ry]> m) = dom m) as Hd by (apply dom_insert_lookup_L; by eexists).
  assert (forest (<[rx:=ry]> m)) as Hf'.
  { intros n Hn. assert (is_Some (m !! n)) as Hn'. { apply elem_of_dom. rewrite <- Hd. by apply elem_of_dom. }
    destruct (Hf n Hn') as (k & r & Hk). destruct (link_depth m rx ry Hx Hy Hne _ _ _ Hk). eauto. }
  assert (∀ y v, above (<[rx:=ry]> m) y v → v = ry ∨ above m y v) as Ha.
  { induction 1 as [y Hv|y p v Hv Hn H IH].
    - right. constructor. apply elem_of_dom. rewrite <- Hd. by apply elem_of_dom.
    - destruct (decide (y = rx)) as [->|].
      + rewrite lookup_insert in Hv. injection Hv as <-. left. destruct IH as [|IH]; [done|].
        inversion IH; subst; [done|congruence].
      + rewrite lookup_insert_ne in Hv by done. destruct IH as [|IH]; [by left|]. right. by eapply above_step. }
  pose proof (pot_change m (<[rx:=ry]> m) ry Hd ltac:(by eexists)) as Hc.
  assert (∀ v, is_Some (m !! v) → v ≠ ry → sz (<[rx:=ry]> m) v ≤ sz m v) as Hs.
  { intros v _ Hv. apply sz_sub; [done..|]. intros y [?|?]%Ha; done. }
  specialize (Hc Hs). pose proof (Nat.log2_le_mono _ _ (sz_le (<[rx:=ry]> m) ry)) as Hl.
  rewrite <- (size_dom (D := gset N) (<[rx:=ry]> m)), Hd, size_dom in Hl. lia.
Qed.

(** ** Histories *)
Lemma nodes_after keys root : ∀ acc c r, rfold (λ '(result, c) k,
        let* '(rk, c) := cc_get_root k c in
        Ok (if decide (rk = root) then result ++ [k] else result, c)) keys (acc, c) = Ok r → roots_after keys c = Ok r.2.
Proof.
  induction keys as [|k keys IH]; intros acc c r; cbn [rfold roots_after]; [by intros [= <-]|].
  destruct (cc_get_root k c) as [[rk c1]| |]; cbn [rbind snd]; [|done..]. apply IH.
Qed.
Lemma step_pot o es c n : cinv es c →
  (∀ x y, o = CEdge x y → size (cc_parent (cc_see y (cc_see x c))) ≤ n) →
  size (cc_parent c) ≤ n →
  cc_cost o c + rpot (cc_step o c) ≤ pot (cc_parent c) + (asks o * (Nat.log2 n + 1) + is_edge o * Nat.log2 n).
Proof.
  intros Hc He Hn. pose proof (ci_forest _ _ Hc) as Hf. pose proof (Nat.log2_le_mono _ _ Hn) as HL.
  destruct o as [x y|k|a b|keys k|]; unfold cc_cost, cc_asks; cbn [cc_step asks is_edge].
  - specialize (He x y eq_refl). destruct (process_spec es c x y Hc) as (c' & Hp & _). rewrite Hp. cbn [rpot]. revert Hp. unfold cc_process.
    destruct (see_pot x c Hf) as [Hf1 Hp1]. destruct (see_pot y _ Hf1) as [Hf2 Hp2].
    revert He Hf2 Hp2. generalize (cc_see y (cc_see x c)). intros c2 He Hf2 Hp2.
    destruct (rounds_all_pot [x; y] c2 Hf2) as [Hr Hi]. pose proof (Nat.log2_le_mono _ _ He) as HL2.
    cbn [length roots_after] in Hr, Hi.
    destruct (cc_parent c2 !! x) as [px|] eqn:Hx; [|by rewrite get_root_missing].
    destruct (get_root_pot c2 x Hf2 ltac:(by eexists)) as (rx & c3 & Hg3 & _ & Hf3 & Hd3 & Hrx & Hs3). rewrite Hg3 in Hr, Hi |- *. cbn [rbind unwrap snd] in Hr, Hi |- *.
    destruct (cc_parent c3 !! y) as [py|] eqn:Hy; [|by rewrite get_root_missing].
    destruct (get_root_pot c3 y Hf3 ltac:(by eexists)) as (ry & c4 & Hg4 & _ & Hf4 & Hd4 & Hry & Hs4). rewrite Hg4 in Hr, Hi |- *. cbn [rbind unwrap snd] in Hr, Hi |- *.
    destruct (decide (rx = ry)) as [->|Hne].
    + intros [= <-]. cbn [rpot] in Hr. nia.
    + destruct (usub (cc_count c4) 1) as [k| |]; cbn [rbind]; [|done..]. intros [= <-]. cbn [cc_parent rpot] in *.
      assert (cc_parent c4 !! rx = Some rx) as Hrx4.
      { destruct (get_root_spec c3 y Hf3 ltac:(by eexists)) as (k4 & r4 & m4 & _ & Hg & _ & _ & Hds). rewrite Hg4 in Hg. injection Hg as _ ->.
        destruct (Hds rx 0 rx) as [k' Hk']; [by constructor|]. apply depth_self in Hk' as [_ ?]. done. }
      pose proof (link_pot (cc_parent c4) rx ry Hf4 Hrx4 Hry Hne) as Hl. rewrite Hs4, Hs3 in Hl. nia.
  - destruct (rounds_all_pot [k] c Hf) as [Hr _]. cbn [length roots_after] in Hr.
    destruct (cc_get_root k c) as [[o c1]| |]; cbn [rbind rmap snd rpot] in Hr |- *; nia.
  - unfold cc_is_connected. destruct (cc_parent c !! a) as [pa|]; [|cbn; lia]. destruct (cc_parent c !! b) as [pb|]; [|cbn; lia].
    destruct (rounds_all_pot [a; b] c Hf) as [Hr _]. cbn [length roots_after] in Hr.
    destruct (cc_get_root a c) as [[o c1]| |]; cbn [rbind rmap snd rpot] in Hr |- *; [|nia..].
    destruct (cc_get_root b c1) as [[o2 c2]| |]; cbn [rbind rmap snd rpot] in Hr |- *; nia.
  - unfold cc_get_connected_nodes. destruct (cc_parent c !! k) as [p|]; [|cbn; lia].
    destruct (rounds_all_pot (k :: keys) c Hf) as [Hr _]. cbn [length roots_after] in Hr.
    destruct (cc_get_root k c) as [[root c1]| |]; cbn [rbind rmap snd rpot] in Hr |- *; [|nia..].
    match goal with |- context [rfold ?f keys ([], c1)] => destruct (rfold f keys ([], c1)) as [r| |] eqn:E end; cbn [rbind rmap snd rpot]; [|nia..].
    apply nodes_after in E. rewrite E in Hr. destruct r as [l c2]. cbn [rmap rpot snd] in *. nia.
  - cbn [rounds_all rpot cc_reset cc_parent]. assert (pot ∅ = 0) as -> by (unfold pot; by rewrite dom_empty_L, elements_empty). lia.
Qed.

Lemma seen_size es c ids : cinv es c → (∀ x, seen es x → x ∈ ids) → size (cc_parent c) ≤ length ids.
Proof.
  intros Hc H. rewrite <- (size_dom (D := gset N)). unfold size, set_size. cbn. apply submseteq_length, NoDup_submseteq; [apply NoDup_elements|].
  intros x Hx. apply H, (ci_dom _ _ Hc), elem_of_dom. by apply elem_of_elements.
Qed.
Lemma see_size c x y es ids : cinv es c → (∀ x, seen es x → x ∈ ids) → x ∈ ids → y ∈ ids → size (cc_parent (cc_see y (cc_see x c))) ≤ length ids.
Proof.
  intros Hc H Hx Hy. rewrite <- (size_dom (D := gset N)). unfold size, set_size. cbn. apply submseteq_length, NoDup_submseteq; [apply NoDup_elements|].
  intros z Hz. apply elem_of_elements, elem_of_dom in Hz. rewrite !see_parent in Hz.
  destruct (decide (z = y)) as [->|]; [done|]. destruct (decide (z = x)) as [->|]; [done|]. apply H, (ci_dom _ _ Hc). done.
Qed.
Lemma work_from ids h : ∀ es c, cinv es c → (∀ x, seen es x → x ∈ ids) → among ids h →
  cc_work h c ≤ pot (cc_parent c) + (total asks h * (Nat.log2 (length ids) + 1) + total is_edge h * Nat.log2 (length ids)).
Proof.
  induction h as [|o h IH]; intros es c Hc Hs Ha; cbn [cc_work]; [lia|].
  assert (∀ x y, o = CEdge x y → x ∈ ids ∧ y ∈ ids) as Ho by (intros x y ->; apply Ha; left).
  pose proof (step_pot o es c (length ids) Hc) as Hp. specialize (Hp ltac:(intros x y [? ?]%Ho; by eapply see_size) ltac:(by eapply seen_size)).
  assert (total asks (o :: h) = asks o + total asks h) as -> by done. assert (total is_edge (o :: h) = is_edge o + total is_edge h) as -> by done.
  destruct (cc_step o c) as [c1| |] eqn:E; [|nia..]. cbn [rpot] in Hp.
  assert (cinv (processed_from es [o]) c1) as Hc1. { apply (run_inv_from [o] es c Hc). unfold cc_run. cbn [rfold]. by rewrite E. }
  assert (∀ x, seen (processed_from es [o]) x → x ∈ ids) as Hs1.
  { intros x. destruct o as [a b|?|? ?|? ?|]; cbn [processed_from]; [|apply Hs..|].
    - rewrite seen_app. destruct (Ho a b eq_refl). intros [?|[-> | ->]]; [by apply Hs|done..].
    - intros (e & He & _). by apply elem_of_nil in He. }
  specialize (IH _ c1 Hc1 Hs1 ltac:(intros x y Hxy; apply Ha; by right)). nia.
Qed.
Lemma work_lemma ids h : among ids h →
  cc_work h cc_empty ≤ total asks h * (Nat.log2 (length ids) + 1) + total is_edge h * Nat.log2 (length ids).
Proof.
  intros Ha. pose proof (work_from ids h [] cc_empty cinv_empty) as H. specialize (H ltac:(intros x (e & He & _); by apply elem_of_nil in He) Ha).
  assert (pot (cc_parent cc_empty) = 0) as E by (unfold pot; cbn [cc_parent cc_empty]; by rewrite dom_empty_L, elements_empty). lia.
Qed.
(** ** The rounds are the rounds of the loop *)
Lemma rounds_exact fuel : ∀ m n r, root_loop fuel m n = Ok r →
  root_loop (S (root_rounds fuel m n)) m n = Ok r ∧ root_loop (root_rounds fuel m n) m n = NoFuel.
Proof.
  induction fuel as [|fuel IH]; intros m n r; [done|]. cbn [root_rounds]. intros H. cbn [root_loop] in H |- *.
  destruct (decide (m !! n = Some n)) as [Hd|Hd]; [done|].
  destruct (m !! n) as [p|] eqn:Hn; cbn [unwrap rbind] in H |- *; [|done].
  destruct (m !! p) as [pp|] eqn:Hp; cbn [unwrap rbind] in H |- *; [|done].
  apply IH in H as [H1 H2]. split; [exact H1|]. cbn [root_loop]. rewrite decide_False by congruence. rewrite Hn. cbn [unwrap rbind]. rewrite Hp. exact H2.
Qed.
Lemma counts_lemma c n o c' : cc_get_root n c = Ok (o, c') →
  root_loop (S (cc_rounds n c)) (cc_parent c) n = Ok (o, cc_parent c') ∧ root_loop (cc_rounds n c) (cc_parent c) n = NoFuel.
Proof.
  unfold cc_get_root, cc_rounds. destruct (root_loop _ _ _) as [[o' m']| |] eqn:E; cbn [rbind]; [|done..]. intros [= <- <-]. by apply rounds_exact.
Qed.
(** ** One call may take long *)
Definition chain (k : N) (c : ccomp) : Prop := cc_count c = 1 ∧
  ∀ i, cc_parent c !! i = if decide (i < k)%N then Some (i + 1)%N else if decide (i = k) then Some k else None.
Lemma root_of_root c n : cc_parent c !! n = Some n → cc_get_root n c = Ok (Some n, c).
Proof. intros H. unfold cc_get_root. cbn [root_loop]. rewrite decide_True by done. rewrite H. by destruct c. Qed.
Lemma chain_step k c : chain k c → ∃ c', cc_process k (k + 1) c = Ok c' ∧ chain (k + 1) c'.
Proof.
  intros [Hc Hm]. unfold cc_process.
  assert (cc_see k c = c) as ->. { unfold cc_see. rewrite Hm, decide_False, decide_True by lia. done. }
  assert (cc_parent c !! (k + 1)%N = None) as Hk. { rewrite Hm, !decide_False by lia. done. }
  assert (cc_parent c !! k = Some k) as Hk0. { rewrite Hm, decide_False, decide_True by lia. done. }
  unfold cc_see. rewrite Hk.
  rewrite root_of_root by (cbn [cc_parent]; rewrite lookup_insert_ne by lia; done). cbn [rbind unwrap].
  rewrite root_of_root by (cbn [cc_parent]; by rewrite lookup_insert). cbn [rbind unwrap].
  rewrite decide_False by lia. cbn [cc_count]. rewrite Hc. eexists. split; [done|]. split; [done|]. intros i. cbn [cc_parent].
  destruct (decide (i = k)) as [->|]; [rewrite lookup_insert, decide_True by lia; done|]. rewrite lookup_insert_ne by done.
  destruct (decide (i = (k + 1)%N)) as [->|]; [by rewrite lookup_insert, decide_False by lia|]. rewrite lookup_insert_ne by done. rewrite Hm.
  destruct (decide (i < k)%N) as [|]; [by rewrite decide_True by lia|]. by rewrite !decide_False by lia.
Qed.
Lemma chain_run k : ∃ c, cc_run (chain_calls (S k)) cc_empty = Ok c ∧ chain (N.of_nat (S k)) c.
Proof.
  assert (chain 0 (cc_see 0 cc_empty)) as H0.
  { split; [done|]. intros i. change (cc_parent (cc_see 0 cc_empty)) with (<[0%N := 0%N]> ∅ : gmap N N). rewrite decide_False by lia.
    destruct (decide (i = 0%N)) as [->|]; [by rewrite lookup_insert|]. by rewrite lookup_insert_ne. }
  induction k as [|k (c & IH & Hc)].
  - destruct (chain_step _ _ H0) as (c & Hp & Hc). exists c. split; [|done]. unfold cc_run, chain_calls. cbn [seq fmap list_fmap rfold cc_step].
    change (cc_process (N.of_nat 0) (N.of_nat 0 + 1) cc_empty) with (cc_process 0 (0 + 1) (cc_see 0 cc_empty)). rewrite Hp. done.
  - destruct (chain_step _ _ Hc) as (c' & Hp & Hc'). exists c'. split; [|by replace (N.of_nat (S (S k))) with (N.of_nat (S k) + 1)%N by lia].
    unfold chain_calls. replace (S (S k)) with (S k + 1) by lia. rewrite seq_app, fmap_app. unfold cc_run. rewrite rfold_app.
    change (rfold (λ c o, cc_step o c) _ cc_empty) with (cc_run (chain_calls (S k)) cc_empty). rewrite IH. cbn [rbind]. cbn [seq fmap list_fmap rfold cc_step Nat.add].
    change (0 + S k) with (S k). rewrite Hp. done.
Qed.
Lemma chain_rounds k : ∀ fuel m j, (∀ i, (j ≤ i)%N → m !! i = if decide (i < j + N.of_nat k)%N then Some (i + 1)%N else if decide (i = j + N.of_nat k)%N then Some i else None) →
  k < fuel → root_rounds fuel m j = Nat.div2 (S k).
Proof.
  induction k as [k IH] using lt_wf_ind. intros fuel m j Hm Hk. destruct fuel as [|fuel]; [lia|]. cbn [root_rounds].
  destruct k as [|k].
  - assert (m !! j = Some j) as E. { rewrite Hm by lia. rewrite decide_False, decide_True by lia. done. } by rewrite decide_True.
  - assert (m !! j = Some (j + 1)%N) as E. { rewrite Hm by lia. rewrite decide_True by lia. done. }
    rewrite decide_False by (rewrite E; intros [=]; lia). rewrite E.
    destruct k as [|k].
    + assert (m !! (j + 1)%N = Some (j + 1)%N) as E1. { rewrite Hm by lia. rewrite decide_False, decide_True by lia. done. }
      rewrite E1. destruct fuel as [|fuel]; [lia|]. cbn [root_rounds]. rewrite decide_True; [done|]. rewrite lookup_insert_ne by lia. done.
    + assert (m !! (j + 1)%N = Some (j + 2)%N) as E1. { rewrite Hm by lia. rewrite decide_True by lia. f_equal. lia. }
      rewrite E1. rewrite (IH k); [done|lia| |lia]. intros i Hi. rewrite lookup_insert_ne by lia. rewrite Hm by lia.
      replace (j + 2 + N.of_nat k)%N with (j + N.of_nat (S (S k)))%N by lia. done.
Qed.
Lemma linear_lemma k : ∃ c, cc_run (chain_calls (S k)) cc_empty = Ok c ∧ cc_rounds 0 c = Nat.div2 (S (S k)).
Proof.
  destruct (chain_run k) as (c & Hr & Hc & Hm). exists c. split; [done|]. unfold cc_rounds. apply chain_rounds.
  - intros i _. rewrite Hm, N.add_0_l. destruct (decide (i < _)%N); [done|]. destruct (decide (i = _)) as [->|]; done.
  - pose proof (run_inv _ _ Hr) as Hi. assert (depth (cc_parent c) 0 (S k) (N.of_nat (S k))) as Hd.
    { assert (∀ j, j ≤ S k → depth (cc_parent c) (N.of_nat (S k - j)) j (N.of_nat (S k))) as H.
      { induction j as [|j IH]; intros Hj.
        - rewrite Nat.sub_0_r. constructor. rewrite Hm, decide_False, decide_True by lia. done.
        - eapply depth_step; [rewrite Hm, decide_True by lia; done|lia|]. replace (N.of_nat (S k - S j) + 1)%N with (N.of_nat (S k - j)) by lia. apply IH. lia. }
      specialize (H (S k) ltac:(lia)). by rewrite Nat.sub_diag in H. }
    apply depth_bound in Hd. lia.
Qed.

(** ** On a graph *)
Lemma graph_lemma {NL EL} (V : gview NL EL) (A : agraph NL EL) : represents V A → iterates V →
  ∃ es, v_edges V = Ok es ∧ length es = a_num_edges A ∧ cc_new V = cc_run (edge_calls es) cc_empty ∧
    cc_work (edge_calls es) cc_empty ≤ a_num_edges A * (3 * Nat.log2 (a_num_nodes A) + 2).
Proof.
  intros Hrep Hit. destruct (edges_pairs V A Hrep Hit) as (es & Hes & Hix & Hel). exists es. split; [done|].
  destruct (rp_edge_indices _ _ Hrep) as (l & Hl & Hll). rewrite Hix in Hl. injection Hl as <-. pose proof (lists_exactly_length _ _ Hll) as Hlen.
  rewrite fmap_length in Hlen. split; [done|]. split.
  - unfold cc_new, cc_run_detection. rewrite Hes. cbn [rbind]. unfold cc_run, edge_calls. generalize cc_empty. clear.
    induction es as [|e es IH]; intros c; [done|]. cbn [fmap list_fmap rfold cc_step]. destruct (cc_process e.1.1 e.1.2 c); [|done..]. cbn [rbind]. apply IH.
  - pose proof (work_lemma (v_node_indices V) (edge_calls es)) as H. rewrite (lists_exactly_length _ _ (rp_node_indices _ _ Hrep)) in H.
    assert (total asks (edge_calls es) = 2 * length es) as Ha. { clear. induction es as [|e es IH]; [done|]. change (total asks (edge_calls (e :: es))) with (2 + total asks (edge_calls es)). cbn [length]. lia. }
    assert (total is_edge (edge_calls es) = length es) as Hb. { clear. induction es as [|e es IH]; [done|]. change (total is_edge (edge_calls (e :: es))) with (1 + total is_edge (edge_calls es)). cbn [length]. lia. }
    rewrite Ha, Hb, Hlen in H. unfold a_num_edges, a_num_nodes in *. eapply Nat.le_trans; [apply H|nia].
    intros x y ([[a b] lid] & [= -> ->] & He)%elem_of_list_fmap. cbn [fst snd].
    assert ((a, b) ∈ es.*1) as Hin by (apply elem_of_list_fmap; by exists (a, b, lid)). apply Hel in Hin.
    destruct (rp_wf _ _ Hrep a b Hin) as (_ & Ha' & Hb'). destruct (rp_node_indices _ _ Hrep) as [_ Hn]. split; by apply Hn.
Qed.

Lemma total_lemma ids h c : among ids h → cc_run h cc_empty = Ok c →
  ∃ t, t_run h (cc_empty, 0) = Ok (c, t) ∧ t ≤ total asks h * (Nat.log2 (length ids) + 1) + total is_edge h * Nat.log2 (length ids).
Proof. intros Ha Hr. exists (cc_work h cc_empty). rewrite t_run_work, Hr. split; [done|]. by apply work_lemma. Qed.
Lemma new_lemma {NL EL} (V : gview NL EL) (A : agraph NL EL) : represents V A → iterates V →
  ∃ es c t, v_edges V = Ok es ∧ cc_new V = Ok c ∧ t_run (edge_calls es) (cc_empty, 0) = Ok (c, t) ∧
    t ≤ a_num_edges A * (3 * Nat.log2 (a_num_nodes A) + 2).
Proof.
  intros Hrep Hit. destruct (graph_lemma V A Hrep Hit) as (es & Hes & _ & Hn & Hw). destruct (thm_graph V A Hrep Hit) as (c & Hc & _).
  exists es, c, (cc_work (edge_calls es) cc_empty). split_and!; [done..| |done]. rewrite t_run_work, <- Hn, Hc. done.
Qed.
