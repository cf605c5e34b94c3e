(** Concrete cases for renamed graphs. *)
From Verif Require Import Base BaseFacts Api Spec SpecReorder SpecConn ConnComp Map GraphMap SpecTraverse Traverse TraverseProps ReorderWit SpecIso IsoProps IsoHist.

(** The ids 0, ..., 60 in reverse order. *)
Definition iso_f (n : N) : N := if (n <=? 60)%N then (60 - n)%N else n.
Global Instance iso_f_inj : Inj (=) (=) iso_f.
Proof. intros x y. unfold iso_f. destruct (N.leb_spec x 60), (N.leb_spec y 60); lia. Qed.
Definition iso_h : list (gop N N) := ro_history ++ [OAddEdge 1 2 None; ORemoveNode 20; ORemoveEdge 10 30]%N.
Definition iso_h' : list (gop N N) := ren_op iso_f <$> iso_h.
Lemma iso_outs dir :
  match gm_run dir TU8 iso_h (gm_with_label_map [] []), gm_run dir TU8 iso_h' (gm_with_label_map [] []) with
  | Ok (rs, _), Ok (rs', _) => last rs = Some (REdge (Some (10, 30, Some 6))) ∧ last rs' = Some (REdge (Some (50, 30, Some 6)))
  | _, _ => False
  end%N.
Proof. by destruct dir; vm_compute. Qed.
Lemma fits_history dir h : fits_u8 dir h → ∃ rs s, spec_run h (s_init dir [] []) = SOk (rs, s) ∧ labels_fit TU8 (sp_nls s) ∧ labels_fit TU8 (sp_els s).
Proof.
  intros H. unfold fits_u8 in H. destruct (spec_run h (s_init dir [] [])) as [[rs s]| |] eqn:E; [|done..]. exists rs, s. split; [done|].
  destruct H as [H1 H2]. unfold labels_fit. change (id_card TU8) with 256%N. lia.
Qed.
Lemma iso_history dir : ∃ rs s, spec_run iso_h (s_init dir [] []) = SOk (rs, s) ∧ labels_fit TU8 (sp_nls s) ∧ labels_fit TU8 (sp_els s).
Proof. apply fits_history. destruct dir; vm_compute; lia. Qed.
Lemma fits_renames dir (f : N → N) h : Inj (=) (=) f → fits_u8 dir h → renames f (sp_g (run_spec dir h)) (sp_g (run_spec dir (ren_op f <$> h))).
Proof.
  intros Hf H. apply (ren_renames f). pose proof (ren_run f h _ _ (renS_init f dir [] [])) as HR.
  unfold fits_u8 in H. unfold run_spec. destruct (spec_run h (s_init dir [] [])) as [[rs s]| |]; [|done..].
  destruct HR as (t & Ht & HS). rewrite Ht. apply HS.
Qed.
Lemma iso_views (dir : bool) : ∃ (V W : gview N N) A B, represents V A ∧ represents W B ∧ iterates V ∧ iterates W ∧ renames iso_f A B ∧
  a_has_node A 50%N ∧ (∀ m, v_max_seen_id V = Ok (Some m) → (m < id_card TU8)%N) ∧ (∀ m, v_max_seen_id W = Ok (Some m) → (m < id_card TU8)%N) ∧
  v_node_count V = 6 ∧
  bfs_run TU8 V 7 (Some 50%N) = Ok [50; 10; 1; 2; 30; 40]%N ∧
  bfs_run TU8 W 7 (Some 10%N) = Ok [10; 50; 20; 30; 58; 59]%N.
Proof.
  assert (fits_u8 dir iso_h) as H by (destruct dir; vm_compute; lia). assert (fits_u8 dir iso_h') as H' by (destruct dir; vm_compute; lia).
  destruct (run_view_all dir iso_h H) as (V1 & _ & V2 & _). destruct (run_view_all dir iso_h' H') as (W1 & _ & W2 & _).
  exists (run_view dir iso_h), (run_view dir iso_h'), (sp_g (run_spec dir iso_h)), (sp_g (run_spec dir iso_h')).
  split; [exact V1|]. split; [exact W1|]. split; [exact V2|]. split; [exact W2|]. split.
  { exact (fits_renames dir iso_f iso_h _ H). }
  split; [apply (bool_decide_unpack _); destruct dir; by vm_compute|].
  split. { intros m. destruct dir; vm_compute; intros [= <-]; done. }
  split. { intros m. destruct dir; vm_compute; intros [= <-]; done. }
  split; [destruct dir; by vm_compute|]. split; [destruct dir; vm_compute; reflexivity|destruct dir; vm_compute; reflexivity].
Qed.
