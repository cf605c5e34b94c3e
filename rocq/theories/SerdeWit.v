(** Concrete cases for the theorems about export and import. *)
From stdpp Require Import gmap strings.
From Verif Require Import Base BaseFacts Api Bytes Map GraphMap Static Serde SpecSerde SerdeFacts GraphMapWit.

Global Instance opt_all_dec {A} (P : A → Prop) `{∀ x, Decision (P x)} o : Decision (opt_all P o).
Proof. destruct o; simpl; apply _. Defined.
Global Instance in_type_dec t x : Decision (in_type t x).
Proof. unfold in_type. apply _. Defined.
Global Instance in_usize_dec n : Decision (in_usize n).
Proof. unfold in_usize. apply _. Defined.
Global Instance vec_of_dec {A} (P : A → Prop) `{∀ x, Decision (P x)} l : Decision (vec_of P l).
Proof. unfold vec_of. apply _. Defined.
Global Instance setmap_of_dec {A} `{EqDecision A} (P : A → Prop) `{∀ x, Decision (P x)} l : Decision (setmap_of P l).
Proof. unfold setmap_of. apply _. Defined.

Definition node_check (it lt : idty) (n : nodemap) : Prop :=
  in_type it (nm_id n) ∧ opt_all (in_type lt) (nm_label n) ∧ in_usize (size (nm_nbrs n)) ∧
  map_Forall (λ x l, in_type it x ∧ opt_all (in_type lt) l) (nm_nbrs n) ∧
  in_usize (size (nm_in n)) ∧ set_Forall (in_type it) (nm_in n).
Global Instance node_check_dec it lt n : Decision (node_check it lt n).
Proof. unfold node_check. apply _. Defined.
Lemma node_check_typed it lt n : node_check it lt n → typed_node it lt n.
Proof. intros (H1 & H2 & H3 & H4 & H5 & H6). split; try done. Qed.
Definition graph_check (it lt : idty) (g : graphmap N N) : Prop :=
  in_usize (size (g_nodes g)) ∧ map_Forall (λ x n, in_type it x ∧ node_check it lt n) (g_nodes g) ∧
  in_usize (g_nedges g) ∧ setmap_of (in_type TU8) (g_nlm g) ∧ setmap_of (in_type TU8) (g_elm g) ∧ opt_all (in_type it) (g_max g).
Global Instance graph_check_dec it lt g : Decision (graph_check it lt g).
Proof. unfold graph_check. apply _. Defined.
Lemma graph_check_typed it lt g : graph_check it lt g → typed_graph it lt (in_type TU8) (in_type TU8) g.
Proof.
  intros (H1 & H2 & H3 & H4 & H5 & H6). split; try done. split; [done|].
  intros x n Hx. destruct (H2 x n Hx) as [? ?]. split; [done|]. by apply node_check_typed.
Qed.
Lemma wit_typed dir : typed_graph TU8 TU8 (in_type TU8) (in_type TU8) (wit_g dir).
Proof. apply graph_check_typed, (bool_decide_unpack _). destruct dir; by vm_compute. Qed.
Lemma wit_order dir : hash_order (wit_g dir) [2; 1; 4]%N.
Proof.
  unfold hash_order. apply NoDup_Permutation.
  - repeat constructor; set_solver.
  - apply NoDup_fst_map_to_list.
  - intros x. assert ((map_to_list (g_nodes (wit_g dir))).*1 = [1; 2; 4]%N) as -> by (by destruct dir; vm_compute).
    set_solver.
Qed.
Definition wit_sg : sgraph (list N) (list N) :=
  SGraph 3 2 (EV [0; 1; 2; 2] [1; 2]%N (Some [0; 255]%N)) (Some (EV [0; 0; 1; 2] [0; 1]%N None)) (Some [0; 255; 1]%N)
    [[97; 98]; []]%N [[99]]%N.
Lemma wit_sg_typed : typed_sgraph TU8 TU8 is_string is_string wit_sg.
Proof.
  split; cbn [wit_sg sg_num_nodes sg_num_edges sg_evec sg_in sg_labels sg_nlm sg_elm opt_all].
  all: try (apply (bool_decide_unpack _); by vm_compute).
  all: split; apply (bool_decide_unpack _); by vm_compute.
Qed.
Lemma wit_fits_string : faithful c_string is_string.
Proof. exact f_string. Qed.
