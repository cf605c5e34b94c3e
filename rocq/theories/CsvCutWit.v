(** Concrete cases for the theorems about CSV files cut short. *)
From Coq Require Import Ascii.
From stdpp Require Import gmap strings.
From Verif Require Import Base BaseFacts Api Spec SpecFacts SpecOps SpecSerde Map GraphMap ViewFacts GraphOps GraphOpsFacts GraphOpsProps
  GraphMapRefine TraverseProps StaticWit GraphOpsWit Csv SpecCsv CsvFacts CsvProps CsvRead CsvText SpecCsvText SpecCsvCut CsvCrash CsvCut.

Definition cc_wit : list (gop N N) := [OAddNode 12 (Some 78); OAddNode 34 None; OAddEdge 12 34 (Some 56)]%N.
Definition cc_view := run_view true cc_wit.
Definition cc_graph := sp_g (run_spec true cc_wit).
Definition cc_nodes (s : string) : string := ("nodeId:ID,:LABEL" +:+ String c_lf s)%string.
Definition cc_edges (s : string) : string := (":START_ID,:END_ID,:TYPE" +:+ String c_lf s)%string.
(** Both files cut inside the label of the first record; inside an id. *)
Definition cc_label : textfs := <["e" := cc_edges "12,34,5"]> (<["n" := cc_nodes "12,7"]> ∅)%string.
Definition cc_id : textfs := <["e" := cc_edges "12,3"]> (<["n" := cc_nodes "1"]> ∅)%string.
(** The files of an older graph with one edge. *)
Definition cc_old : list (gop N N) := [OAddEdge 1 2 None]%N.
Definition cc_old_files : textfs := <["e" := cc_edges ("1,2," +:+ String c_lf "")]> (<["n" := cc_nodes ("1," +:+ String c_lf ("2," +:+ String c_lf ""))]> ∅)%string.
Definition cc_mixed : textfs := <["n" := cc_nodes "12,78"]> cc_old_files.

Lemma cc_rep : represents cc_view cc_graph ∧ represents (run_view true cc_old) (sp_g (run_spec true cc_old)).
Proof. split; [destruct (run_view_all true cc_wit) as (?&_); [|done]|destruct (run_view_all true cc_old) as (?&_); [|done]]; vm_compute; lia. Qed.
Lemma cc_old_written : text_write TU8 (t_id TU32) (t_id TU32) (run_view true cc_old) "n" "e" "," ∅ = Ok cc_old_files.
Proof. by vm_compute. Qed.
Lemma cc_node_rows : rmapl (λ n, let* l := v_node_label cc_view n in Ok (node_row TU8 (t_id TU32) n l)) (v_node_indices cc_view) = Ok [["12"; "78"]; ["34"; ""]]%string.
Proof. by vm_compute. Qed.
Lemma cc_edge_rows : v_edge_indices cc_view = Ok [(12, 34)]%N ∧
  rmapl (λ e, let* l := v_edge_label cc_view e.1 e.2 in Ok (edge_row TU8 (t_id TU32) e.1 e.2 l)) [(12, 34)]%N = Ok [["12"; "34"; "56"]]%string.
Proof. by vm_compute. Qed.
Lemma cc_crash a b (F : textfs) : begins a (table_text "," (with_header node_header [["12"; "78"]; ["34"; ""]]%string)) →
  begins b (table_text "," (with_header edge_header [["12"; "34"; "56"]]%string)) →
  text_crash TU8 (t_id TU32) (t_id TU32) cc_view "n" "e" "," F (<["n" := a]> F) ∧
  text_crash TU8 (t_id TU32) (t_id TU32) cc_view "n" "e" "," F (<["e" := b]> (<["n" := a]> F)).
Proof.
  intros Ha Hb. split; right; exists a; (split; [eexists; split; [exact Ha|exact cc_node_rows]|]); [by left|right]. exists b. split; [|done].
  eexists _, _. split; [apply cc_edge_rows|]. split; [apply cc_edge_rows|exact Hb].
Qed.
Lemma cc_label_crash : text_crash TU8 (t_id TU32) (t_id TU32) cc_view "n" "e" "," ∅ cc_label.
Proof. apply cc_crash; eexists; by vm_compute. Qed.
Lemma cc_id_crash : text_crash TU8 (t_id TU32) (t_id TU32) cc_view "n" "e" "," ∅ cc_id.
Proof. apply cc_crash; eexists; by vm_compute. Qed.
Lemma cc_mixed_crash : text_crash TU8 (t_id TU32) (t_id TU32) cc_view "n" "e" "," cc_old_files cc_mixed.
Proof. apply (cc_crash _ ""); [eexists; by vm_compute|by eexists]. Qed.
Lemma cc_node_iter R (F : textfs) t : rd_nodes R = Some "n"%string → F !! "n"%string = Some t →
  text_node_iter TU8 (t_id TU32) R "," F = Some (omap id (deserialize (node_record TU8 (t_id TU32)) (rd_headers R) (rd_flexible R) (read_table "," t))).
Proof. intros HR Ht. unfold text_node_iter, csv_node_iter. by rewrite HR, lookup_fmap, Ht. Qed.
Lemma cc_edge_iter R (F : textfs) t : rd_edges R = "e"%string → F !! "e"%string = Some t →
  text_edge_iter TU8 (t_id TU32) R "," F = Some (omap id (deserialize (edge_record TU8 (t_id TU32)) (rd_headers R) (rd_flexible R) (read_table "," t))).
Proof. intros HR Ht. unfold text_edge_iter, csv_edge_iter. by rewrite HR, lookup_fmap, Ht. Qed.

Lemma cc_label_bad : let R := Reader (Some "n"%string) "e" true false in
  text_node_iter TU8 (t_id TU32) R "," cc_label = Some [(12, Some 7)]%N ∧ text_edge_iter TU8 (t_id TU32) R "," cc_label = Some [(12, 34, Some 5)]%N ∧
  ag_nodes cc_graph !! 12%N = Some (Some 78%N) ∧ a_edge_at cc_graph 12 34 = Some (Some 56%N).
Proof.
  intros R. split; [rewrite (cc_node_iter R cc_label (cc_nodes "12,7")) by done; lazy; reflexivity|].
  split; [rewrite (cc_edge_iter R cc_label (cc_edges "12,34,5")) by done; lazy; reflexivity|]. by vm_compute.
Qed.
Lemma cc_id_bad : let R := Reader (Some "n"%string) "e" true true in
  text_node_iter TU8 (t_id TU32) R "," cc_id = Some [(1, None)]%N ∧ text_edge_iter TU8 (t_id TU32) R "," cc_id = Some [(12, 3, None)]%N ∧
  ¬ a_has_node cc_graph 1 ∧ ¬ a_has_node cc_graph 3.
Proof.
  intros R. split; [rewrite (cc_node_iter R cc_id (cc_nodes "1")) by done; lazy; reflexivity|].
  split; [rewrite (cc_edge_iter R cc_id (cc_edges "12,3")) by done; lazy; reflexivity|]. split; intros [l H]; by vm_compute in H.
Qed.
Lemma cc_mixed_bad : let R := Reader (Some "n"%string) "e" true false in
  text_node_iter TU8 (t_id TU32) R "," cc_mixed = Some [(12, Some 78)]%N ∧ text_edge_iter TU8 (t_id TU32) R "," cc_mixed = Some [(1, 2, None)]%N ∧
  ¬ a_has_node (sp_g (run_spec true cc_old)) 12 ∧ ¬ a_has_edge cc_graph 1 2.
Proof.
  intros R. split; [rewrite (cc_node_iter R cc_mixed (cc_nodes "12,78")) by done; lazy; reflexivity|].
  split; [rewrite (cc_edge_iter R cc_mixed (cc_edges ("1,2," +:+ String c_lf ""))) by done; lazy; reflexivity|]. split; intros [l H]; by vm_compute in H.
Qed.
Lemma cc_meets : represents cc_view cc_graph ∧ (∀ n, a_has_node cc_graph n → in_type TU8 n) ∧ uses_labels cc_graph [78]%N [56]%N ∧
  Forall (readable (t_id TU32)) [78]%N ∧ Forall (readable (t_id TU32)) [56]%N.
Proof.
  split; [apply cc_rep|]. split; [apply (ids_of _ (λ n, n < 256)%N); by vm_compute|].
  split; [eapply uses_mono; [apply uses_of; by vm_compute|..]; vm_compute; set_solver|].
  assert (∀ l, (l < 100)%N → readable (t_id TU32) l) as Hr. { intros l Hl. apply id_readable. unfold in_type. simpl. lia. }
  split; repeat constructor; apply Hr; lia.
Qed.
