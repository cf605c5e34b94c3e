(** The parent map of a ConnComp as seen from outside. *)
From Verif Require Import Base BaseFacts Api Spec SpecConn ConnComp ConnCompFacts ConnCompProps ConnHeld.

Section hist.
  Context (h : list ccop) (c : ccomp) (Hrun : cc_run h cc_empty = Ok c).
  Local Notation es := (processed h).
  Lemma parent_thm n : match cc_get_parent n c with None => ¬ seen es n | Some p => joined es n p end.
  Proof using Hrun.
    pose proof (run_inv h c Hrun) as Hc. unfold cc_get_parent. destruct (cc_parent c !! n) as [p|] eqn:Hp.
    - destruct (ci_forest _ _ Hc n) as (k & r & Hk); [by eexists|]. apply (ci_same _ _ Hc). exists r.
      inversion Hk as [? Hr|? ? k' ? Hp' Hne Hk']; subst.
      + rewrite Hr in Hp. injection Hp as <-. by exists 0, 0.
      + rewrite Hp in Hp'. injection Hp' as <-. by exists (S k'), k'.
    - intros [? ?]%(ci_dom _ _ Hc). congruence.
  Qed.
  Lemma root_unique n : seen es n → ∃ r, joined es n r ∧ cc_get_parent r c = Some r ∧
    ∀ r', joined es n r' → cc_get_parent r' c = Some r' → r' = r.
  Proof using Hrun.
    intros Hn. pose proof (run_inv h c Hrun) as Hc. destruct (ci_forest _ _ Hc n) as (k & r & Hk); [by apply Hc|].
    pose proof (depth_root_root _ _ _ _ Hk) as Hr. exists r. split; [by apply (cinv_root_seen _ c n k)|].
    split; [by apply depth_zero in Hr as [_ ?]|]. intros r' Hj Hr'.
    apply (ci_same _ _ Hc) in Hj as (r2 & k1 & k2 & H1 & H2). destruct (depth_fun _ _ _ _ _ _ H1 Hk) as [_ ->].
    assert (depth (cc_parent c) r' 0 r') as H0 by (by constructor). by destruct (depth_fun _ _ _ _ _ _ H0 H2) as [_ ->].
  Qed.
  Lemma get_root_is n r : seen es n → joined es n r → cc_get_parent r c = Some r → ∃ c', cc_get_root n c = Ok (Some r, c').
  Proof using Hrun.
    intros Hn Hj Hr. pose proof (run_inv h c Hrun) as Hc. destruct (cinv_get_root _ c n Hc Hn) as (k & r' & c' & Hd & Hr' & _).
    destruct (root_unique n Hn) as (r0 & _ & _ & Hu).
    rewrite (Hu r Hj Hr), <- (Hu r'); [by exists c'|by apply (cinv_root_seen _ c n k)|].
    apply depth_root_root, depth_zero in Hd as [_ ?]. done.
  Qed.
  Lemma count_roots l : lists_exactly l (λ n, cc_get_parent n c = Some n) → cc_get_count c = length l.
  Proof using Hrun.
    intros [Hnd Hl]. pose proof (run_inv h c Hrun) as Hc. unfold cc_get_count. rewrite (ci_count _ _ Hc).
    rewrite <- (size_list_to_set (C := gset N) l Hnd), <- (size_dom (filter _ _)). f_equal. apply set_eq. intros x.
    rewrite elem_of_list_to_set, Hl, elem_of_dom. unfold cc_get_parent. split.
    - intros [y [Hy Hxy]%map_filter_lookup_Some]. simpl in Hxy. by subst.
    - intros Hx. exists x. by apply map_filter_lookup_Some.
  Qed.

  (** ** While parent() is borrowed *)
  Lemma root_held n : cc_get_root_held n c = if decide (cc_get_parent n c = Some n) then Ok (Some n) else Panic.
  Proof using Hrun.
    unfold cc_get_root_held, cc_get_parent. destruct (decide _); [done|]. destruct (cc_parent c !! n) as [p|]; [|done]. cbn [unwrap rbind].
    by destruct (cc_parent c !! p).
  Qed.
  Lemma connected_held a b : match cc_is_connected_held a b c with
    | Ok v => v = true ↔ joined es a b
    | Panic => seen es a ∧ seen es b ∧ (cc_get_parent a c ≠ Some a ∨ cc_get_parent b c ≠ Some b)
    | NoFuel => False
    end.
  Proof using Hrun.
    pose proof (run_inv h c Hrun) as Hc. unfold cc_is_connected_held.
    destruct (cc_parent c !! a) as [pa|] eqn:Ha.
    2:{ split; [done|]. intros [[? ?]%(ci_dom _ _ Hc) _]. congruence. }
    destruct (cc_parent c !! b) as [pb|] eqn:Hb.
    2:{ split; [done|]. intros (_ & [? ?]%(ci_dom _ _ Hc) & _). congruence. }
    assert (seen es a) as Sa by (apply Hc; by eexists). assert (seen es b) as Sb by (apply Hc; by eexists).
    rewrite !root_held. destruct (decide (cc_get_parent a c = Some a)) as [Ea|]; cbn [rbind]; [|by auto].
    destruct (decide (cc_get_parent b c = Some b)) as [Eb|]; cbn [rbind]; [|by auto].
    rewrite bool_decide_eq_true. split; [intros [= ->]; by apply joined_refl|]. intros Hj.
    destruct (root_unique a Sa) as (r & _ & _ & Hu). rewrite (Hu a), (Hu b); [done..|by apply joined_refl|done].
  Qed.
  Lemma held_loop root keys : ∀ acc, match rfold (λ result k,
        let* rk := cc_get_root_held k c in
        Ok (if decide (rk = Some root) then result ++ [k] else result)) keys acc with
    | Ok l => (∀ k, k ∈ keys → cc_get_parent k c = Some k) ∧ l = acc ++ filter (λ k, k = root) keys
    | Panic => ∃ k, k ∈ keys ∧ cc_get_parent k c ≠ Some k
    | NoFuel => False
    end.
  Proof using Hrun.
    induction keys as [|k keys IH]; intros acc; cbn [rfold].
    { rewrite app_nil_r. split; [|done]. by intros k ?%elem_of_nil. }
    rewrite root_held. destruct (decide (cc_get_parent k c = Some k)) as [Ek|Ek]; cbn [rbind].
    2:{ exists k. split; [left|done]. }
    specialize (IH (if decide (Some k = Some root) then acc ++ [k] else acc)).
    destruct (rfold _ keys _) as [l| |]; [|destruct IH as (k' & ? & ?); exists k'; split; [by right|done]|done].
    destruct IH as [IH ->]. split.
    - intros k' [->|Hk']%elem_of_cons; [done|by apply IH].
    - rewrite filter_cons. destruct (decide (Some k = Some root)), (decide (k = root)); try congruence. by rewrite <- (assoc_L (++)).
  Qed.
  Lemma nodes_held keys n : lists_exactly keys (λ k, is_Some (cc_get_parent k c)) →
    match cc_get_connected_nodes_held keys n c with
    | Ok None => ¬ seen es n
    | Ok (Some l) => l = [n] ∧ ∀ x, joined es n x ↔ x = n
    | Panic => seen es n ∧ ∃ k, seen es k ∧ cc_get_parent k c ≠ Some k
    | NoFuel => False
    end.
  Proof using Hrun.
    intros [Hnd Hk]. pose proof (run_inv h c Hrun) as Hc. unfold cc_get_connected_nodes_held.
    destruct (cc_parent c !! n) as [p|] eqn:Hn.
    2:{ intros [? ?]%(ci_dom _ _ Hc). congruence. }
    assert (seen es n) as Sn by (apply Hc; by eexists).
    rewrite root_held. destruct (decide (cc_get_parent n c = Some n)) as [En|En]; cbn [rbind].
    2:{ split; [done|]. by exists n. }
    pose proof (held_loop n keys []) as Hl. destruct (rfold _ keys []) as [l| |]; [| |done].
    - destruct Hl as [Hall ->]. cbn [rbind]. split.
      + assert (n ∈ keys) as Hin by (apply Hk; by eexists). cbn [app]. clear -Hnd Hin.
        induction keys as [|k keys IH]; [by apply elem_of_nil in Hin|]. apply NoDup_cons in Hnd as [Hk Hnd]. rewrite filter_cons.
        destruct (decide (k = n)) as [-> |Hne].
        * f_equal. assert (∀ x, x ∈ filter (λ k, k = n) keys → False) as Hno.
          { intros x Hx. apply elem_of_list_filter in Hx as [-> Hx]. done. }
          destruct (filter _ keys) as [|y ?]; [done|]. exfalso. apply (Hno y). left.
        * apply IH; [done|]. apply elem_of_cons in Hin as [->|?]; done.
      + intros x. split; [|intros ->; by apply joined_refl]. intros Hj. destruct (root_unique n Sn) as (r & _ & _ & Hu).
        assert (seen es x) as Sx by apply Hj.
        rewrite (Hu x Hj), <- (Hu n); [done|by apply joined_refl|done|].
        apply Hall, Hk. apply Hc in Sx. done.
    - destruct Hl as (k & Hin & Hne). cbn [rbind]. split; [done|]. exists k. split; [|done]. apply Hc. by apply Hk in Hin.
  Qed.
End hist.

Lemma held_case : ∃ c, cc_run [CEdge 1 2; CEdge 4 4]%N cc_empty = Ok c ∧
  cc_is_connected_held 2 4 c = Ok false ∧ cc_is_connected_held 1 2 c = Panic ∧ rmap fst (cc_is_connected 1 2 c) = Ok true ∧
  cc_get_connected_nodes_held [1; 2; 4]%N 4 c = Panic.
Proof. eexists. split; [reflexivity|]. split_and!; by vm_compute. Qed.
