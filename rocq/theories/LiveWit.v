(** Concrete cases for the theorems about a mapped graph whose files change. *)
From stdpp Require Import gmap strings.
From Verif Require Import Base BaseFacts Api Bytes Spec SpecFacts SpecStatic Map GraphMap Static StaticFacts Serde SpecSerde SerdeFacts
  IntoStatic Mmap SpecMmap SerdeWit MmapWit MmapLive SpecLive LiveProps.

(** Three nodes, 0 - 1; node 0 is called a, the others b. *)
Definition live_a : sgraph (list N) (list N) := SGraph 3 1 (EV [0; 1; 2; 2] [1; 0]%N None) None (Some [0; 1; 1]%N) [[97]; [98]]%N [].
(** Three nodes, 1 - 2, with the same names, numbered the other way round. *)
Definition live_b : sgraph (list N) (list N) := SGraph 3 1 (EV [0; 0; 1; 2] [2; 1]%N None) None (Some [1; 0; 0]%N) [[98]; [97]]%N [].
(** As live_a, with the edge 1 - 2. *)
Definition live_c : sgraph (list N) (list N) := SGraph 3 1 (EV [0; 0; 1; 2] [2; 1]%N None) None (Some [0; 1; 1]%N) [[97]; [98]]%N [].
(** Two nodes. *)
Definition live_d : sgraph (list N) (list N) := SGraph 2 1 (EV [0; 1; 2] [1; 0]%N None) None (Some [0; 1]%N) [[97]; [98]]%N [].
Ltac typed_live := split; cbn [sg_num_nodes sg_num_edges sg_evec sg_in sg_labels sg_nlm sg_elm opt_all live_a live_b live_c live_d];
  try (apply (bool_decide_unpack _); by vm_compute); try done;
  split; apply (bool_decide_unpack _); by vm_compute.
Lemma live_a_mappable : mappable TU8 TU8 w_labels w_labels false live_a.
Proof. split; [typed_live|apply (wit_csr [[1]; [0]; []]%N); by vm_compute|done|done|done|done|done]. Qed.
Lemma live_b_mappable : mappable TU8 TU8 w_labels w_labels false live_b.
Proof. split; [typed_live|apply (wit_csr [[]; [2]; [1]]%N); by vm_compute|done|done|done|done|done]. Qed.
Lemma live_c_mappable : mappable TU8 TU8 w_labels w_labels false live_c.
Proof. split; [typed_live|apply (wit_csr [[]; [2]; [1]]%N); by vm_compute|done|done|done|done|done]. Qed.
Lemma live_d_mappable : mappable TU8 TU8 w_labels w_labels false live_d.
Proof. split; [typed_live|apply (wit_csr [[1]; [0]]%N); by vm_compute|done|done|done|done|done]. Qed.
Lemma live_parts : same_parts live_a live_b ∧ same_parts live_a live_d.
Proof. by vm_compute. Qed.
Lemma live_lengths : same_lengths live_a live_c.
Proof. by vm_compute. Qed.
Notation w_lopen F p := (lg_open TU8 TU8 c_string c_string F p).
Definition live_F : fs := w_dump live_a "g" ∅.
Lemma live_opens : ∃ h, w_lopen live_F "g" = Ok h.
Proof. eexists. by vm_compute. Qed.
(** Page sizes: with pages of 8 bytes the end of the offsets is out of reach in the graph of
    two nodes, with pages of 64 bytes it is not. *)
Lemma live_reach : in_reach 64 TU8 TU8 live_a (overlay live_d live_a) ∧ ¬ in_reach 8 TU8 TU8 live_a (overlay live_d live_a).
Proof.
  split.
  - unfold in_reach, reach_ev. rewrite !on_pages_span by lia. cbn [overlay or_old live_a live_d sg_in sg_evec sg_labels fmap option_fmap option_map]. rewrite !on_pages_span by lia.
    apply (bool_decide_unpack _); by vm_compute.
  - intros [[H _] _]. rewrite on_pages_span in H by lia. vm_compute in H. lia.
Qed.

(** Looking at the graph [h] in [F]. *)
Lemma live_look {A} (r : res A) h (P : A → Prop) `{∀ x, Decision (P x)} (k : lgraph (list N) (list N) → res A) :
  r = (let* x := h in k x) → (match r with Ok x => bool_decide (P x) | _ => false end) = true → ∃ x m, h = Ok x ∧ k x = Ok m ∧ P m.
Proof. intros -> Hr. destruct h as [x| |]; [|done..]. cbn [rbind] in Hr. destruct (k x) as [m| |] eqn:E; [|done..]. apply bool_decide_eq_true in Hr. by exists x, m. Qed.
(** After the offsets and before the edges of live_b: an edge that neither graph has. *)
Lemma live_phantom : ∃ F' h m, crash_state live_F (sg_dump_ops TU8 TU8 c_string c_string live_b "g") F' ∧
  w_lopen live_F "g" = Ok h ∧ lg_now 4096 F' h = Ok m ∧
  v_has_edge (mm_view TU8 TU8 m) 2 0 = Ok true ∧
  v_has_edge (sg_view TU8 TU8 false live_a) 2 0 = Ok false ∧ v_has_edge (sg_view TU8 TU8 false live_b) 2 0 = Ok false.
Proof.
  exists (fs_run live_F (take 2 (sg_dump_ops TU8 TU8 c_string c_string live_b "g"))).
  destruct (live_look _ (w_lopen live_F "g") (λ m, v_has_edge (mm_view TU8 TU8 m) 2 0 = Ok true ∧
    v_has_edge (sg_view TU8 TU8 false live_a) 2 0 = Ok false ∧ v_has_edge (sg_view TU8 TU8 false live_b) 2 0 = Ok false)
    (lg_now 4096 (fs_run live_F (take 2 (sg_dump_ops TU8 TU8 c_string c_string live_b "g")))) eq_refl) as (h & m & H1 & H2 & H3); [by vm_compute|].
  exists h, m. split; [apply take_crash|]. split; [exact H1|]. split; [exact H2|exact H3].
Qed.
(** After the whole of live_b: node 0, called a in both graphs, is called b. *)
Lemma live_misnamed : ∃ h m, w_lopen live_F "g" = Ok h ∧ lg_now 4096 (w_dump live_b "g" live_F) h = Ok m ∧
  v_node_label (mm_view TU8 TU8 m) 0 = Ok (Some [98]%N) ∧
  v_node_label (sg_view TU8 TU8 false live_a) 0 = Ok (Some [97]%N) ∧ v_node_label (sg_view TU8 TU8 false live_b) 0 = Ok (Some [97]%N).
Proof.
  destruct (live_look _ (w_lopen live_F "g") (λ m, v_node_label (mm_view TU8 TU8 m) 0 = Ok (Some [98]%N) ∧
    v_node_label (sg_view TU8 TU8 false live_a) 0 = Ok (Some [97]%N) ∧ v_node_label (sg_view TU8 TU8 false live_b) 0 = Ok (Some [97]%N))
    (lg_now 4096 (w_dump live_b "g" live_F)) eq_refl) as (h & m & H1 & H2 & H3); [by vm_compute|].
  exists h, m. split; [exact H1|]. split; [exact H2|exact H3].
Qed.
