(** A CSV export cut short (C108). *)
From Coq Require Import Ascii.
From stdpp Require Import gmap strings.
From Verif Require Import Base Api Spec SpecOps SpecSerde Map GraphMap GraphMapRefine GraphOpsProps TraverseProps StaticWit GraphOpsWit Csv SpecCsv CsvText SpecCsvText SpecCsvCut CsvCrash CsvCut
  CsvCutWit.

(** Any beginning of a written file is read as its first records and possibly one more, cut inside or after a field. *)
Theorem C108_table (sep : ascii) (t : table) (p : string) : usual sep → Forall (λ r, r ≠ []) t → begins p (table_text sep t) → cut_list cut_row t (read_table sep p).
Proof. intros Hs. exact (cut_table sep Hs t p). Qed.
Print Assumptions C108_table.

Section cut.
  Context {NL EL : Type} `{EqDecision NL, EqDecision EL} (it lt : idty) (tn : text NL) (te : text EL).
  Context (V : gview NL EL) (A : agraph NL EL) (nls : list NL) (els : list EL) (HV : represents V A) (Hids : ∀ n, a_has_node A n → in_type it n)
    (Hu : uses_labels A nls els) (Hn : Forall (readable tn) nls) (He : Forall (readable te) els).
  (** After a crash at any point, the node file is as before or is read as the first nodes of the graph and at most one more with its label cut. *)
  Theorem C108_nodes sep pn pe F F' : usual sep → pn ≠ pe → text_crash it tn te V pn pe sep F F' →
    F' !! pn = F !! pn ∨
    ∃ full got, nodes_of A full ∧ text_node_iter it tn (Reader (Some pn) pe true false) sep F' = Some got ∧ cut_list (near_node tn) full got.
  Proof using HV Hids Hu Hn. exact (crash_nodes it tn te V A nls els HV Hids Hu Hn sep pn pe F F'). Qed.
  Theorem C108_edges sep pn pe F F' rn : usual sep → pn ≠ pe → text_crash it tn te V pn pe sep F F' →
    F' !! pe = F !! pe ∨
    ∃ full got, edges_of A full ∧ text_edge_iter it te (Reader rn pe true false) sep F' = Some got ∧ cut_list (near_edge te) full got.
  Proof using HV Hids Hu He. intros H1 H2 H3. exact (crash_edges it tn te V A nls els HV Hids Hu He sep pn pe F F' (Reader rn pe true false) H1 H2 H3 eq_refl eq_refl eq_refl). Qed.
  (** After a crash of an export to new files, reading fails or gives a graph that shows a part of the exported one. *)
  Theorem C108_graph sep pn pe F F' : (N.of_nat (length nls) < id_card lt)%N → (N.of_nat (length els) < id_card lt)%N →
    usual sep → pn ≠ pe → F !! pn = None → F !! pe = None → text_crash it tn te V pn pe sep F F' →
    ∃ g B, text_read (ag_dir A) it lt tn te (Reader (Some pn) pe true false) sep F' gm_new = Ok (g, bool_decide (is_Some (F' !! pe))) ∧
      nearly_part tn te B A ∧ ∀ o, hash_order g o → represents (gm_view (ag_dir A) o g) B.
  Proof using HV Hids Hu Hn He. intros Hfn Hfe. exact (crash_graph it lt tn te V A nls els HV Hids Hu Hn He Hfn Hfe sep pn pe F F'). Qed.
End cut.
Print Assumptions C108_nodes.
Print Assumptions C108_edges.
Print Assumptions C108_graph.
Example C108_case : usual "," ∧ represents cc_view cc_graph ∧ (∀ n, a_has_node cc_graph n → in_type TU8 n) ∧ uses_labels cc_graph [78]%N [56]%N ∧
  Forall (readable (t_id TU32)) [78]%N ∧ Forall (readable (t_id TU32)) [56]%N ∧
  text_crash TU8 (t_id TU32) (t_id TU32) cc_view "n" "e" "," ∅ cc_label ∧ text_crash TU8 (t_id TU32) (t_id TU32) cc_view "n" "e" "," ∅ cc_id.
Proof.
  split; [done|]. destruct cc_meets as (H1 & H2 & H3 & H4 & H5). split; [exact H1|]. split; [exact H2|]. split; [exact H3|]. split; [exact H4|]. split; [exact H5|].
  split; [exact cc_label_crash|exact cc_id_crash].
Qed.

(** A node and an edge can show labels that they never had; no error is reported. *)
Theorem C108_label_refuted : ∃ (V : gview N N) (A : agraph N N) F', represents V A ∧ text_crash TU8 (t_id TU32) (t_id TU32) V "n" "e" "," ∅ F' ∧
  let R := Reader (Some "n"%string) "e" true false in
  text_node_iter TU8 (t_id TU32) R "," F' = Some [(12, Some 7)]%N ∧ text_edge_iter TU8 (t_id TU32) R "," F' = Some [(12, 34, Some 5)]%N ∧
  ag_nodes A !! 12%N = Some (Some 78%N) ∧ a_edge_at A 12 34 = Some (Some 56%N).
Proof. exists cc_view, cc_graph, cc_label. split; [exact (proj1 cc_rep)|]. split; [exact cc_label_crash|exact cc_label_bad]. Qed.
Print Assumptions C108_label_refuted.
(** A reader that allows records of different lengths can show a node and an edge that never existed. *)
Theorem C108_flexible_refuted : ∃ (V : gview N N) (A : agraph N N) F', represents V A ∧ text_crash TU8 (t_id TU32) (t_id TU32) V "n" "e" "," ∅ F' ∧
  let R := Reader (Some "n"%string) "e" true true in
  text_node_iter TU8 (t_id TU32) R "," F' = Some [(1, None)]%N ∧ text_edge_iter TU8 (t_id TU32) R "," F' = Some [(12, 3, None)]%N ∧
  ¬ a_has_node A 1 ∧ ¬ a_has_node A 3.
Proof. exists cc_view, cc_graph, cc_id. split; [exact (proj1 cc_rep)|]. split; [exact cc_id_crash|exact cc_id_bad]. Qed.
Print Assumptions C108_flexible_refuted.
(** When an export replaces older files, the nodes of the new graph can be read together with the edges of the old one. *)
Theorem C108_mixed_refuted : ∃ (V V0 : gview N N) (A A0 : agraph N N) F F', represents V A ∧ represents V0 A0 ∧
  text_write TU8 (t_id TU32) (t_id TU32) V0 "n" "e" "," ∅ = Ok F ∧ text_crash TU8 (t_id TU32) (t_id TU32) V "n" "e" "," F F' ∧
  let R := Reader (Some "n"%string) "e" true false in
  text_node_iter TU8 (t_id TU32) R "," F' = Some [(12, Some 78)]%N ∧ text_edge_iter TU8 (t_id TU32) R "," F' = Some [(1, 2, None)]%N ∧
  ¬ a_has_node A0 12 ∧ ¬ a_has_edge A 1 2.
Proof.
  exists cc_view, (run_view true cc_old), cc_graph, (sp_g (run_spec true cc_old)), cc_old_files, cc_mixed. split; [exact (proj1 cc_rep)|]. split; [exact (proj2 cc_rep)|].
  split; [exact cc_old_written|]. split; [exact cc_mixed_crash|exact cc_mixed_bad].
Qed.
Print Assumptions C108_mixed_refuted.
