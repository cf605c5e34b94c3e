(** Witnesses for Properties_CsvPipe.v. *)
From Coq Require Import Ascii.
From stdpp Require Import gmap strings.
From Verif Require Import Base BaseFacts Api Spec SpecFacts SpecOps SpecStatic Map GraphMap GraphMapFacts GraphMapRefine GraphMapQueries GraphMapSim GraphMapThms SpecReorder Reorder
  Bytes SpecSerde Serde Csv SpecCsv SpecExamples Examples ExamplesFacts ExamplesWit CsvText ExamplesText ExamplesPipe.

Definition crlf (s : string) : string := s +:+ String "013" (String "010" "").
Definition tab (s t : string) : string := s +:+ String "009" t.
Definition quoted (s : string) : string := String "034" (s +:+ String "034" "").
Definition pipe_files_wit : gmap string string :=
  {[ "n" := crlf (tab "nodeId:ID" ":LABEL") +:+ crlf (tab "5" (quoted (tab "a" "b"))) +:+ tab "7" "";
     "e" := tab ":START_ID" (tab ":END_ID" ":TYPE") +:+ String "010" (tab "5" (tab "7" "x") +:+ String "010" (crlf (tab "7" (tab "9" "")))) ]}%string.
Definition pipe_arg : cs_args := CsArgs (Some "n") "e" None (Some "tab") true false true true false.
Lemma pipe_files_case : let a := pipe_arg in let R := Reader (ca_nodes a) (ca_edges a) (ca_headers a) (ca_flexible a) in
  (match ca_separator a with Some s => csv_separator s | None => Ok ","%char end) = Ok "009"%char ∧
  text_node_iter TU32 t_string R "009" pipe_files_wit = Some [(5, Some (String "a" (String "009" "b"))); (7, None)]%N ∧
  text_edge_iter TU32 t_string R "009" pipe_files_wit = Some [(5, 7, Some "x"); (7, 9, None)]%N%string ∧ ca_reorder a = true.
Proof.
  cbv zeta. split; [by vm_compute|]. unfold text_node_iter, text_edge_iter, csv_node_iter, csv_edge_iter. cbn [pipe_arg ca_nodes ca_edges ca_headers ca_flexible rd_nodes rd_edges rd_headers rd_flexible].
  rewrite !lookup_fmap. unfold pipe_files_wit.
  split; [rewrite lookup_insert; lazy; reflexivity|]. split; [|done]. rewrite lookup_insert_ne, lookup_singleton by done. lazy. reflexivity.
Qed.

Lemma pipe_case : spec_run ex_hist (s_init false [] []) = SOk (ex_outs, ex_state) ∧
  (N.of_nat (length (sp_nls ex_state)) ≤ id_max TU32)%N ∧ (N.of_nat (length (sp_els ex_state)) ≤ id_max TU32)%N ∧ Forall (in_type TU32) (ex_hist ≫= inserted) ∧
  Forall text_fits (sp_nls ex_state) ∧ Forall text_fits (sp_els ex_state) ∧ Forall (λ l, l ≠ ""%string) (sp_nls ex_state) ∧ Forall (λ l, l ≠ ""%string) (sp_els ex_state) ∧
  a_num_nodes (sp_g ex_state) = 6 ∧ in_usize (sp_count ex_state) ∧ a_num_edges (sp_g ex_state) = 2 ∧
  (∀ n m, a_has_node (sp_g ex_state) n → (m < n)%N → a_has_node (sp_g ex_state) m) ∧
  ∃ (V : gview string string), represents V (sp_g ex_state) ∧ uses_labels (sp_g ex_state) (sp_nls ex_state) (sp_els ex_state) ∧ ∀ n, a_has_node (sp_g ex_state) n → in_type TU32 n.
Proof.
  destruct ex_case as (H1 & H2 & H3 & H4 & [_ H5] & [_ H6] & H7 & H8 & H9 & H10 & H11 & _ & _ & H12 & H13).
  split; [done|]. split; [rewrite H12; by vm_compute|]. split; [rewrite H13; by vm_compute|]. split; [done|]. split; [done|]. split; [done|].
  split; [rewrite H12; by repeat constructor|]. split; [rewrite H13; by repeat constructor|]. split; [done|]. split; [done|]. split; [done|].
  assert (∀ n, a_has_node (sp_g ex_state) n ↔ (n < 6)%N) as Hnode.
  { intros n. split.
    - assert (map_Forall (λ (k : N) (_ : option string), (k < 6)%N) (ag_nodes (sp_g ex_state))) as HF by (apply (bool_decide_unpack _); by vm_compute).
      intros [l Hl]. exact (HF n l Hl).
    - intros Hn. assert (n ∈ [0; 1; 2; 3; 4; 5]%N) as Hin.
      { assert (n = 0 ∨ n = 1 ∨ n = 2 ∨ n = 3 ∨ n = 4 ∨ n = 5)%N as Hd by lia. rewrite !elem_of_cons. tauto. }
      revert n Hn Hin. assert (Forall (λ n, is_Some (ag_nodes (sp_g ex_state) !! n)) [0; 1; 2; 3; 4; 5]%N) as HF by (apply (bool_decide_unpack _); by vm_compute).
      intros n _. by apply Forall_forall. }
  split; [intros n m Hn%Hnode Hm; apply Hnode; lia|].
  destruct (label_sim false TU32 ex_hist (gm_with_label_map [] []) (s_init false [] []) ex_outs ex_state) as (g & Hg & H); [apply rel_init; constructor|done|done|done|].
  exists (gm_view false (map_to_list (g_nodes g)).*1 g). split.
  { assert (hash_order g (map_to_list (g_nodes g)).*1) as Ho by (by unfold hash_order). destruct (lrel_view false g ex_state _ H Ho) as (HA & _). exact HA. }
  split; [exact (lrel_uses false g ex_state H)|].
  intros n Hn%Hnode. unfold in_type. change (id_card TU32) with 4294967296%N. lia.
Qed.
