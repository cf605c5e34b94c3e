(** Proofs about the map model (Map.v). *)
From Verif Require Import Base Api Spec BaseFacts Map.

Section facts.
  Context {L : Type} `{EqDecision L}.
  Implicit Types (m v : list L) (x : L).

  Lemma get_full_Some m x i : is_get_full m x = Some i → m !! i = Some x.
  Proof.
    revert i. induction m as [|y m IH]; intros i; simpl; [done|].
    destruct (decide (x = y)) as [->|Hne]; [intros [= <-]; done|].
    destruct (is_get_full m x) as [j|] eqn:Hj; simpl; [|done]. intros [= <-]. simpl. by apply IH.
  Qed.
  Lemma get_full_None m x : is_get_full m x = None ↔ x ∉ m.
  Proof.
    induction m as [|y m IH]; simpl.
    - split; [intros _; apply not_elem_of_nil|done].
    - rewrite not_elem_of_cons. destruct (decide (x = y)) as [->|Hne]; [naive_solver|].
      rewrite fmap_None. naive_solver.
  Qed.
  Lemma get_full_index_of m x : is_get_full m x = index_of x m.
  Proof. induction m as [|y m IH]; simpl; [done|]. by rewrite IH. Qed.
  Lemma get_full_lookup m x i : NoDup m → is_get_full m x = Some i ↔ m !! i = Some x.
  Proof.
    intros Hnd. split; [apply get_full_Some|]. intros Hi.
    destruct (is_get_full m x) as [j|] eqn:Hj.
    - apply get_full_Some in Hj. f_equal. eapply NoDup_lookup; eauto.
    - apply get_full_None in Hj. destruct Hj. by eapply elem_of_list_lookup_2.
  Qed.
  Lemma get_full_app m m' x i : is_get_full m x = Some i → is_get_full (m ++ m') x = Some i.
  Proof.
    revert i. induction m as [|y m IH]; intros i; simpl; [done|].
    destruct (decide (x = y)); [done|]. destruct (is_get_full m x) as [j|]; [|done].
    rewrite (IH j) by done. done.
  Qed.
  Lemma get_full_snoc m x : x ∉ m → is_get_full (m ++ [x]) x = Some (length m).
  Proof.
    induction m as [|y m IH]; simpl; [by rewrite decide_True|].
    rewrite not_elem_of_cons. intros [Hne Hx]. rewrite decide_False by done. by rewrite IH.
  Qed.

  (** add_item never panics; its exact result. *)
  Lemma add_item_spec m x :
    sm_add_item m x =
      match is_get_full m x with
      | Some i => Ok (i, m)
      | None => Ok (length m, m ++ [x])
      end.
  Proof.
    unfold sm_add_item, is_insert, is_contains.
    destruct (is_get_full m x) as [i|] eqn:Hi.
    - pose proof (get_full_Some _ _ _ Hi) as Hl%elem_of_list_lookup_2.
      rewrite bool_decide_true by done. done.
    - apply get_full_None in Hi. rewrite bool_decide_false by done.
      unfold sm_len. rewrite app_length. simpl. rewrite usub_ok by lia. simpl.
      do 2 f_equal. lia.
  Qed.
  Lemma register_snd m x : ∃ i, sm_add_item m x = Ok (i, register (Some x) m) ∧
    index_of x (register (Some x) m) = Some i ∧ register (Some x) m !! i = Some x.
  Proof.
    rewrite add_item_spec. simpl. destruct (is_get_full m x) as [i|] eqn:Hi.
    - pose proof (get_full_Some _ _ _ Hi) as Hl. pose proof Hl as Hin%elem_of_list_lookup_2.
      rewrite decide_True by done. exists i. by rewrite <-get_full_index_of.
    - pose proof Hi as Hn. apply get_full_None in Hn. rewrite decide_False by done.
      exists (length m). split; [done|]. rewrite <-get_full_index_of. rewrite get_full_snoc by done.
      split; [done|]. rewrite lookup_app_r by lia. by rewrite Nat.sub_diag.
  Qed.
  Lemma register_prefix (l : option L) m : m `prefix_of` register l m.
  Proof. destruct l as [x|]; simpl; [|done]. case_decide; [done|]. by exists [x]. Qed.
  Lemma register_NoDup (l : option L) m : NoDup m → NoDup (register l m).
  Proof.
    intros Hm. destruct l as [x|]; simpl; [|done]. case_decide; [done|].
    apply NoDup_app. split; [done|]. split; [|apply NoDup_singleton].
    intros y Hy Hy'%elem_of_list_singleton. subst. done.
  Qed.

  Lemma from_vec_NoDup_gen v m : NoDup m → NoDup (foldl is_insert m v).
  Proof.
    revert m. induction v as [|x v IH]; intros m Hm; simpl; [done|]. apply IH.
    unfold is_insert, is_contains. case_bool_decide as Hx; [done|].
    apply NoDup_app. split; [done|]. split; [|apply NoDup_singleton].
    intros y Hy Hy'%elem_of_list_singleton. subst. done.
  Qed.
  Lemma from_vec_NoDup v : NoDup (sm_from_vec v).
  Proof. apply from_vec_NoDup_gen. constructor. Qed.
  Lemma from_vec_id_gen v m : NoDup (m ++ v) → foldl is_insert m v = m ++ v.
  Proof.
    revert m. induction v as [|x v IH]; intros m Hm; simpl; [by rewrite app_nil_r|].
    unfold is_insert at 2. unfold is_contains. rewrite bool_decide_false.
    - rewrite IH by (by rewrite <-app_assoc). by rewrite <-app_assoc.
    - apply NoDup_app in Hm as (_ & Hm & _). intros Hx. apply (Hm x Hx). left.
  Qed.
  Lemma from_vec_id v : NoDup v → sm_from_vec v = v.
  Proof. intros. by apply (from_vec_id_gen v []). Qed.
  Lemma elem_of_from_vec_gen v m x : x ∈ foldl is_insert m v ↔ x ∈ m ∨ x ∈ v.
  Proof.
    revert m. induction v as [|y v IH]; intros m; simpl.
    - split; [by left|]. intros [?|[]%elem_of_nil]; done.
    - rewrite IH, elem_of_cons. unfold is_insert, is_contains. case_bool_decide as Hy; [naive_solver|].
      rewrite elem_of_app, elem_of_list_singleton. naive_solver.
  Qed.
  Lemma elem_of_from_vec v x : x ∈ sm_from_vec v ↔ x ∈ v.
  Proof.
    unfold sm_from_vec. rewrite elem_of_from_vec_gen. split; [|by right].
    intros [[]%elem_of_nil|]; done.
  Qed.
  Lemma from_iter_from_vec_gen v m :
    rfold (λ m x, rmap snd (sm_add_item m x)) v m = Ok (foldl is_insert m v).
  Proof.
    revert m. induction v as [|x v IH]; intros m; simpl; [done|].
    rewrite add_item_spec. unfold is_insert at 2, is_contains.
    destruct (is_get_full m x) as [i|] eqn:Hi; simpl; rewrite IH.
    - apply get_full_Some, elem_of_list_lookup_2 in Hi. by rewrite bool_decide_true.
    - apply get_full_None in Hi. by rewrite bool_decide_false.
  Qed.
  Lemma from_iter_from_vec v : sm_from_iter v = Ok (sm_from_vec v).
  Proof. apply from_iter_from_vec_gen. Qed.

  (** ** VecMap *)
  Lemma vm_find_from_spec m x i : vm_find_from m x i = (λ j, i + j) <$> is_get_full m x.
  Proof.
    revert i. induction m as [|y m IH]; intros i; simpl; [done|].
    destruct (decide (y = x)) as [->|Hne].
    - rewrite decide_True by done. simpl. f_equal. lia.
    - rewrite decide_False by done. rewrite IH. destruct (is_get_full m x); simpl; [|done].
      f_equal. lia.
  Qed.
  Lemma vm_find_index_spec m x : vm_find_index m x = is_get_full m x.
  Proof. unfold vm_find_index. rewrite vm_find_from_spec. by destruct (is_get_full m x). Qed.
  Lemma vm_add_item_spec m x : vm_add_item m x = sm_add_item m x.
  Proof.
    unfold vm_add_item. rewrite vm_find_index_spec, add_item_spec.
    destruct (is_get_full m x); [done|]. unfold vm_len. rewrite app_length. simpl.
    rewrite usub_ok by lia. simpl. do 2 f_equal. lia.
  Qed.
  Lemma vm_contains_spec m x : vm_contains m x = sm_contains m x.
  Proof.
    unfold vm_contains, sm_contains, is_contains. rewrite vm_find_index_spec.
    apply bool_decide_ext. rewrite <-not_eq_None_Some. rewrite get_full_None.
    split; [|by intros ? ?]. intros H. by destruct (decide (x ∈ m)).
  Qed.
  Lemma vm_step_spec m o : vm_step m o = sm_step m o.
  Proof. destruct o; simpl; [by rewrite vm_add_item_spec|done|done]. Qed.
  Lemma vm_run_spec m h : run_map vm_step m h = run_map sm_step m h.
  Proof.
    revert m. induction h as [|o h IH]; intros m; [done|]. cbn [run_map].
    rewrite vm_step_spec. destruct (sm_step m o) as [[r m']| |]; cbn [rbind]; [|done..]. by rewrite IH.
  Qed.

  (** ** Histories *)
  Lemma sm_step_NoDup m o r m' : NoDup m → sm_step m o = Ok (r, m') → NoDup m'.
  Proof.
    intros Hm. destruct o as [x| |]; cbn [sm_step].
    - destruct (register_snd m x) as (i & -> & _). simpl. intros [= <- <-].
      by apply (register_NoDup (Some x)).
    - intros [= <- <-]. by apply NoDup_take || (rewrite <-(take_drop (length m - 1) m) in Hm; by apply NoDup_app in Hm as (? & _)).
    - intros [= <- <-]. constructor.
  Qed.
  Lemma sm_run_NoDup m h rs m' : NoDup m → run_map sm_step m h = Ok (rs, m') → NoDup m'.
  Proof.
    revert m rs. induction h as [|o h IH]; intros m rs Hm; cbn [run_map].
    - by intros [= <- <-].
    - rewrite rbind_Ok. intros ([r m1] & H1 & H2). apply rmap_Ok in H2 as ([rs' m2] & H2 & Heq).
      simplify_eq/=. eapply IH; [|exact H2]. by eapply sm_step_NoDup.
  Qed.
  Lemma sm_step_total m o : ∃ r m', sm_step m o = Ok (r, m').
  Proof.
    destruct o as [x| |]; simpl; [|by do 2 eexists..].
    destruct (register_snd m x) as (i & -> & _). by do 2 eexists.
  Qed.
  Lemma sm_run_total m h : ∃ rs m', run_map sm_step m h = Ok (rs, m').
  Proof.
    revert m. induction h as [|o h IH]; intros m; cbn [run_map]; [by do 2 eexists|].
    destruct (sm_step_total m o) as (r & m' & ->). cbn [rbind].
    destruct (IH m') as (rs & m'' & ->). simpl. by do 2 eexists.
  Qed.
End facts.
