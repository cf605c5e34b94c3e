(** Concrete cases for the theorems about CSV files. *)
From Coq Require Import Ascii.
From stdpp Require Import gmap strings.
From Verif Require Import Base BaseFacts Api Spec SpecFacts SpecOps SpecSerde Map GraphMap ViewFacts GraphOps GraphOpsFacts GraphOpsProps
  GraphMapRefine TraverseProps StaticWit GraphOpsWit Csv SpecCsv CsvFacts CsvProps CsvRead.

Lemma csv_graph_case dir : ∃ (V : gview N N) A, represents V A ∧ ag_dir A = dir ∧ (∀ n, a_has_node A n → in_type TU8 n) ∧
  uses_labels A [7; 8]%N [5; 6]%N ∧ Forall (readable (t_id TU32)) [7; 8]%N ∧ Forall (readable (t_id TU32)) [5; 6]%N ∧
  ag_nodes A !! 1%N = Some (Some 7%N) ∧ ag_nodes A !! 0%N = Some None ∧ a_edge_at A 3 1 = Some None ∧ a_num_edges A = 4.
Proof.
  assert (fits_u8 dir st_dense) as Hf by (destruct dir; vm_compute; lia).
  destruct (run_view_all dir st_dense Hf) as (H1 & _).
  exists (run_view dir st_dense), (sp_g (run_spec dir st_dense)). split; [exact H1|]. split; [by destruct dir; vm_compute|].
  split; [apply (ids_of _ (λ n, n < 256)%N); destruct dir; by vm_compute|].
  assert (∀ l, (l < 10)%N → readable (t_id TU32) l) as Hr. { intros l Hl. apply id_readable. unfold in_type. simpl. lia. }
  split; [|split; [repeat constructor; apply Hr; lia|split; [repeat constructor; apply Hr; lia|]]].
  - eapply uses_mono; [apply uses_of; destruct dir; by vm_compute|..]; destruct dir; vm_compute; set_solver.
  - by destruct dir; vm_compute.
Qed.

(** Two rows that parse, one with a bad id, one with too many fields, one with a bad label. *)
Definition csv_nodes : table := [["nodeId:ID"; ":LABEL"]; ["1"; "7"]; ["x"; "7"]; ["2"; "8"; "9"]; ["2"; "z"]; ["+300"; ""]; ["3"; ""]]%string.
Definition csv_edges : table := [[":TYPE"; ":START_ID"; ":END_ID"]; ["5"; "1"; "2"]; ["6"; "2"; "9"]; ["5"; "2"; "1"]; ["6"; ""; "1"]]%string.
Definition csv_files : csvfs := {["n" := csv_nodes; "e" := csv_edges]}%string.
Definition csv_reader : reader := Reader (Some "n"%string) "e" true false.
Lemma csv_files_nodes : csv_node_iter TU8 (t_id TU32) csv_reader csv_files = Some [(1, Some 7); (2, None); (3, None)]%N.
Proof. by vm_compute. Qed.
Lemma csv_files_edges : csv_edge_iter TU8 (t_id TU32) csv_reader csv_files = Some [(1, 2, Some 5); (2, 9, Some 6); (2, 1, Some 5)]%N.
Proof. by vm_compute. Qed.
