(** Concrete cases for the order of rows and files. *)
From stdpp Require Import gmap strings.
From Verif Require Import Base BaseFacts Api Spec Map GraphMap Csv SpecCsvOrder.

Definition ro_nodes : table := [["1"; "7"]; ["2"; ""]]%string.
Definition ro_edges : table := [["1"; "2"; "5"]; ["2"; "3"; ""]; ["2"; "1"; "5"]]%string.
Definition ro_files : csvfs := list_to_map
  [ ("n", node_header :: ro_nodes); ("e", edge_header :: ro_edges);
    ("n1", [node_header; ["1"; "7"]]); ("n2", [node_header; ["2"; ""]]);
    ("e1", [edge_header; ["1"; "2"; "5"]; ["2"; "1"; "5"]]); ("e2", [edge_header; ["2"; "3"; ""]]) ]%string.
Definition ro_files' : csvfs := <["e" := edge_header :: reverse ro_edges]> (<["n" := node_header :: reverse ro_nodes]> ro_files)%string.
Definition ro_all : reader := Reader (Some "n") "e" true false.
Definition ro_one : reader := Reader (Some "n1") "e1" true false.
Definition ro_two : reader := Reader (Some "n2") "e2" true false.
Definition ro_ns : list (N * option N) := [(1, Some 7); (2, None)]%N.
Definition ro_es : list (N * N * option N) := [(1, 2, Some 5); (2, 3, None); (2, 1, Some 5)]%N.
Lemma ro_consistent : consistent false ro_ns ro_es.
Proof.
  split.
  - intros n l l'. unfold ro_ns. rewrite !elem_of_cons, !elem_of_nil. intros [[= -> ->]|[[= -> ->]|[]]] [[= ->]|[[= ->]|[]]]; done.
  - intros x y l x' y' l'. unfold ro_es. rewrite !elem_of_cons, !elem_of_nil.
    intros [[= -> -> ->]|[[= -> -> ->]|[[= -> -> ->]|[]]]] [[= -> -> ->]|[[= -> -> ->]|[[= -> -> ->]|[]]]] Hk; vm_compute in Hk; done.
Qed.
Lemma ro_case : all_records TU8 (t_id TU32) (t_id TU32) [ro_all] ro_files = Some (ro_ns, ro_es) ∧
  all_records TU8 (t_id TU32) (t_id TU32) [ro_two; ro_one] ro_files = Some (reverse ro_ns, [(2, 3, None); (1, 2, Some 5); (2, 1, Some 5)]%N) ∧
  reverse ro_ns ≡ₚ ro_ns ∧ [(2, 3, None); (1, 2, Some 5); (2, 1, Some 5)]%N ≡ₚ ro_es ∧ consistent false ro_ns ro_es ∧
  ∃ g, read_all false TU8 TU8 (t_id TU32) (t_id TU32) [ro_all] ro_files gm_new = Ok (Some g) ∧ labels_fit TU8 (g_nlm g) ∧ labels_fit TU8 (g_elm g) ∧
    gm_node_count g = 3 ∧ gm_edge_count g = 3.
Proof.
  split; [vm_compute; reflexivity|]. split; [vm_compute; reflexivity|]. split; [by rewrite reverse_Permutation|]. split; [unfold ro_es; solve_Permutation|].
  split; [exact ro_consistent|].
  exists (match read_all false TU8 TU8 (t_id TU32) (t_id TU32) [ro_all] ro_files gm_new with Ok (Some g) => g | _ => gm_new end).
  split; [vm_compute; reflexivity|]. repeat split; vm_compute; (reflexivity || discriminate).
Qed.
Lemma ro_row_case : rd_headers ro_all || rd_flexible ro_all = true ∧ (∀ p, rd_nodes ro_all = Some p ∨ rd_edges ro_all = p → rows_moved true ro_files ro_files' p) ∧
  csv_node_iter TU8 (t_id TU32) ro_all ro_files = Some ro_ns ∧ csv_edge_iter TU8 (t_id TU32) ro_all ro_files = Some ro_es ∧ consistent false ro_ns ro_es.
Proof.
  split; [done|]. split; [|split; [vm_compute; reflexivity|split; [vm_compute; reflexivity|exact ro_consistent]]].
  intros p [[= <-]|<-]; right.
  - exists [node_header], ro_nodes, (reverse ro_nodes). split; [vm_compute; reflexivity|]. split; [vm_compute; reflexivity|]. split; [by rewrite reverse_Permutation|done].
  - exists [edge_header], ro_edges, (reverse ro_edges). split; [vm_compute; reflexivity|]. split; [vm_compute; reflexivity|]. split; [by rewrite reverse_Permutation|done].
Qed.
Lemma ro_headless : ∃ F F' : csvfs, (∀ p, rows_moved false F F' p) ∧ let R := Reader None "e" false false in
  csv_edge_iter TU8 (t_id TU32) R F = Some [(1, 2, None)]%N ∧ csv_edge_iter TU8 (t_id TU32) R F' = Some [(3, 4, Some 5)]%N.
Proof.
  exists {["e" := [["1"; "2"]; ["3"; "4"; "5"]]]}%string, {["e" := [["3"; "4"; "5"]; ["1"; "2"]]]}%string. split; [|split; vm_compute; reflexivity].
  intros p. destruct (decide (p = "e")) as [->|Hp]; [right|left; by rewrite !lookup_singleton_ne].
  exists [], [["1"; "2"]; ["3"; "4"; "5"]]%string, [["3"; "4"; "5"]; ["1"; "2"]]%string. rewrite !lookup_singleton. split_and!; [done|done|constructor|done].
Qed.
