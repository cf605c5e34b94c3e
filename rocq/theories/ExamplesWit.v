(** Concrete cases for the theorems about the example programs. *)
From Coq Require Import Ascii.
From stdpp Require Import gmap strings.
From Coq.Floats Require Import SpecFloat.
From Verif Require Import Base BaseFacts Api Bytes Spec SpecFacts SpecOps SpecStatic SpecSGraph Map GraphMap GraphMapFacts GraphMapRefine GraphMapSim GraphMapThms
  ViewFacts Static StaticFacts StaticProps IntoStatic IntoStaticProps StaticMore SpecReorder Reorder Serde SpecSerde SerdeFacts Mmap SpecMmap MmapMore
  TraverseProps GraphMapProps StaticWit MmapWit Gen Csv SpecCsv SpecCsvRows Ldbc SpecLdbc LdbcWit SpecExamples Examples ExamplesFacts ExamplesLabels ExamplesDensity.

(** ** csv_to_static *)
Definition cs_nodes : table := [["nodeId:ID"; ":LABEL"]; ["5"; "a"]; ["7"; "a"]; ["x"; "a"]; ["9"; "b"]]%string.
Definition cs_edges : table := [[":START_ID"; ":END_ID"; ":TYPE"]; ["5"; "7"; "x"]; ["7"; "9"; ""]]%string.
Definition cs_files : csvfs := {["n" := cs_nodes; "e" := cs_edges]}%string.
Definition cs_arg (labels : bool) : cs_args := CsArgs (Some "n") "e" (Some "g.static") (Some "comma") true false false true labels.
Lemma cs_case labels : let a := cs_arg labels in let R := Reader (ca_nodes a) (ca_edges a) (ca_headers a) (ca_flexible a) in
  csv_node_iter TU32 t_string R cs_files = Some [(5, Some "a"); (7, Some "a"); (9, Some "b")]%N%string ∧
  csv_edge_iter TU32 t_string R cs_files = Some [(5, 7, Some "x"); (7, 9, None)]%N%string ∧
  ca_reorder a = true ∧ (∀ s, ca_separator a = Some s → ∃ c, csv_separator s = Ok c).
Proof. destruct labels; (split; [by vm_compute|]; split; [by vm_compute|]; split; [done|]; intros s [= <-]; eexists; by vm_compute). Qed.
Definition cs_run (labels : bool) : res fs := csv_to_static (cs_arg labels) [5; 7; 9]%N [0; 1]%N [0]%N cs_files ∅.
Lemma cs_labels : ∃ F' sg, cs_run true = Ok F' ∧ import (c_sgraph TU32 TU32 c_text c_text) "g.static" F' = Some sg ∧
  sg_labels sg = Some [0; 1; 0]%N ∧ sg_nlm sg = ["a"; "b"]%string.
Proof.
  assert (match cs_run true with
          | Ok F' => match import (c_sgraph TU32 TU32 c_text c_text) "g.static" F' with
                     | Some sg => bool_decide (sg_labels sg = Some [0; 1; 0]%N ∧ sg_nlm sg = ["a"; "b"]%string)
                     | None => false end
          | _ => false end = true) as H by (vm_compute; reflexivity).
  destruct (cs_run true) as [F'| |]; [|done..]. destruct (import _ _ F') as [sg|] eqn:E; [|done]. apply bool_decide_eq_true in H as [H1 H2]. by exists F', sg.
Qed.

(** ** static_to_csv and vary_density: six nodes, two edges. *)
Definition ex_hist : list (gop string string) :=
  [OAddNode 0 (Some "a"); OAddNode 3 None; OAddNode 5 (Some "b"); OAddNode 4 None; OAddEdge 0 1 (Some "x"); OAddEdge 2 1 None]%N%string.
Definition ex_state : sstate string string :=
  match spec_run ex_hist (s_init false [] []) with SOk (_, s) => s | _ => s_init false [] [] end.
Definition ex_outs : list (gout string string) := match spec_run ex_hist (s_init false [] []) with SOk (rs, _) => rs | _ => [] end.
Definition ex_graph : graphmap string string := match gm_run false TU32 ex_hist (gm_with_label_map [] []) with Ok (_, g) => g | _ => gm_new end.
Lemma ex_spec : spec_run ex_hist (s_init false [] []) = SOk (ex_outs, ex_state).
Proof. by vm_compute. Qed.
Lemma ex_run : gm_run false TU32 ex_hist (gm_with_label_map [] []) = Ok (ex_outs, ex_graph).
Proof. by vm_compute. Qed.
Lemma ex_fits : labels_fit TU32 (sp_nls ex_state) ∧ labels_fit TU32 (sp_els ex_state) ∧ Forall (in_type TU32) (ex_hist ≫= inserted) ∧
  vec_of text_fits (sp_nls ex_state) ∧ vec_of text_fits (sp_els ex_state) ∧ in_usize (a_num_nodes (sp_g ex_state)) ∧ in_usize (sp_count ex_state).
Proof.
  assert (sp_nls ex_state = ["a"; "b"]%string) as E1 by (by vm_compute). assert (sp_els ex_state = ["x"]%string) as E2 by (by vm_compute).
  assert (a_num_nodes (sp_g ex_state) = 6) as E3 by (by vm_compute). assert (sp_count ex_state = 2) as E4 by (by vm_compute). rewrite E1, E2, E3, E4.
  split; [unfold labels_fit; cbn [length]; change (id_card TU32) with 4294967296%N; lia|]. split; [unfold labels_fit; cbn [length]; change (id_card TU32) with 4294967296%N; lia|].
  split; [apply (bool_decide_unpack _); by vm_compute|]. split; [split; [by vm_compute|apply (bool_decide_unpack _); by vm_compute]|].
  split; [split; [by vm_compute|apply (bool_decide_unpack _); by vm_compute]|]. split; by vm_compute.
Qed.
Lemma ex_case : spec_run ex_hist (s_init false [] []) = SOk (ex_outs, ex_state) ∧ labels_fit TU32 (sp_nls ex_state) ∧ labels_fit TU32 (sp_els ex_state) ∧
  Forall (in_type TU32) (ex_hist ≫= inserted) ∧ vec_of text_fits (sp_nls ex_state) ∧ vec_of text_fits (sp_els ex_state) ∧
  in_usize (a_num_nodes (sp_g ex_state)) ∧ in_usize (sp_count ex_state) ∧
  a_num_nodes (sp_g ex_state) = 6 ∧ sp_count ex_state = 2 ∧ a_num_edges (sp_g ex_state) = 2 ∧ a_links (sp_g ex_state) = 2 ∧ sp_max ex_state = Some 5%N ∧
  sp_nls ex_state = ["a"; "b"]%string ∧ sp_els ex_state = ["x"]%string.
Proof. split; [exact ex_spec|]. destruct ex_fits as (H1 & H2 & H3 & H4 & H5 & H6 & H7). do 7 (split; [assumption|]). split_and!; by vm_compute. Qed.

(** A generator that draws every pair again and again, at even and at odd positions. *)
Definition fair_rng (n : nat) : rng :=
  Rng (λ i, let c := i / 5 in match i mod 5 with 0 => (c / 2) mod n | 1 => (c / 2) / n mod n | _ => 0 end) (λ _, S754_zero false).
Lemma fair_rng_fair n : n ≠ 0 → fair (fair_rng n) n.
Proof.
  intros Hn k s t Hs Ht. set (q := s + n * (t + n * k)). set (c := 2 * q + k mod 2).
  assert (k ≤ q) as Hk.
  { assert (k ≤ n * k) by (destruct n as [|n']; [done|]; cbn [Nat.mul]; lia). assert (n * k ≤ n * (n * k)) by (apply Nat.mul_le_mono_l; done).
    unfold q. rewrite Nat.mul_add_distr_l. lia. }
  assert (∃ j, c * 5 = k + 2 * j) as [j Hj].
  { pose proof (Nat.div_mod k 2 ltac:(lia)) as Hdm. exists (5 * q + 2 * (k mod 2) - k / 2). unfold c. lia. }
  exists j. rewrite <-Hj. replace (k + 2 * j + 1) with (c * 5 + 1) by lia.
  assert (c / 2 = q) as Hc2.
  { unfold c. symmetry. apply (Nat.div_unique _ 2 q (k mod 2)); [apply Nat.mod_upper_bound; lia|lia]. }
  assert (q mod n = s) as Hq1. { unfold q. rewrite Nat.add_comm, Nat.mul_comm, Nat.add_comm, Nat.mod_add by done. by apply Nat.mod_small. }
  assert (q / n mod n = t) as Hq2.
  { unfold q. rewrite (Nat.mul_comm n (t + n * k)), Nat.div_add by done. rewrite (Nat.div_small s n) by done. cbn [plus]. rewrite (Nat.mul_comm n k), Nat.mod_add by done. by apply Nat.mod_small. }
  unfold fair_rng. cbn [rng_int]. rewrite Nat.mod_mul, Nat.div_mul by lia.
  replace ((c * 5 + 1) mod 5) with 1. 2:{ rewrite Nat.add_comm, Nat.mod_add by lia. done. }
  replace ((c * 5 + 1) / 5) with c. 2:{ rewrite Nat.add_comm, Nat.div_add by lia. done. }
  cbv zeta. rewrite Hc2, Hq1, Hq2. rewrite !Nat.mod_small; done.
Qed.
Lemma fair_case : ∃ R, fair R (a_num_nodes (sp_g ex_state)).
Proof. exists (fair_rng 6). exact (fair_rng_fair 6 ltac:(lia)). Qed.
(** Average degrees 1 and 2 ask for 3 and 6 edges; the second file gets 7. *)
Definition the_order (g : dgraph) : list N := (map_to_list (g_nodes g)).*1.
Lemma the_order_ok g : hash_order g (the_order g).
Proof. by unfold hash_order, the_order. Qed.
Lemma second_wrong : let n := a_num_nodes (sp_g ex_state) in wanted n 1 = 3 ∧ wanted n 2 = 6 ∧
  ∃ R fuel F' B, vary_density fuel R the_order "g" "out" [1; 2] (export "g" (enc (c_graphmap TU32 TU32 c_text c_text (the_order ex_graph)) ex_graph) ∅) = Ok F' ∧
    written ex_state "g" "out" F' 7 2 B ∧ a_num_edges B = 7.
Proof.
  assert (a_num_nodes (sp_g ex_state) = 6) as E by (by vm_compute). assert (sp_count ex_state = 2) as Ec by (by vm_compute).
  cbv zeta. split; [by rewrite E|]. split; [by rewrite E|]. exists (fair_rng 6). destruct ex_fits as (H1 & H2 & H3 & H4 & H5 & H6 & H7).
  assert (added 6 2 [1; 2] = 5) as Ea by (by vm_compute).
  destruct (density_finishes ex_hist [] [] ex_outs ex_state ltac:(constructor) ltac:(constructor) ex_spec H1 H2 H3 H4 H5 H6 H7 (fair_rng 6) the_order the_order_ok "g" "out"
    (the_order ex_graph) ex_graph ex_run (the_order_ok _) "g" eq_refl) with (ds := [1; 2]) (F := ∅ : fs) as (fuel & F' & HF).
  - by rewrite E.
  - by rewrite E; vm_compute.
  - rewrite E, Ec, Ea. by vm_compute.
  - rewrite E, Ec. repeat constructor.
  - rewrite E. exact (fair_rng_fair 6 ltac:(lia)).
  - rewrite E, Ec, Ea. assert (a_links (sp_g ex_state) = 2) as -> by (by vm_compute). lia.
  - destruct (density_ok ex_hist [] [] ex_outs ex_state ltac:(constructor) ltac:(constructor) ex_spec H1 H2 H3 H4 H5 H6 H7 (fair_rng 6) the_order the_order_ok "g" "out"
      (the_order ex_graph) ex_graph ex_run (the_order_ok _) "g" eq_refl) with (ds := [1; 2]) (F := ∅ : fs) (fuel := fuel) (F' := F') as [HG _].
    { by rewrite E. } { rewrite E. by vm_compute. } { rewrite E, Ec, Ea. by vm_compute. } { exact HF. }
    exists fuel, F'. rewrite E, Ec in HG. inversion HG as [|? ? ? ? B1 Hw1 HD1 Hok1 HG1]; clear HG; subst. inversion HG1 as [|? ? ? ? B2 Hw2 HD2 Hok2 HG2]; clear HG1; subst.
    exists B2. split; [exact HF|]. split; [exact Hok2|]. rewrite (dn_count _ _ _ HD2), (dn_count _ _ _ HD1). by vm_compute.
Qed.

(** ** vary_labels: a path over eleven nodes with the labels 20 to 30, and a graph with two labels. *)
Definition vl_hist : list (gop N N) :=
  ((λ i, OAddNode (N.of_nat i) (Some (N.of_nat (20 + i)))) <$> seq 0 11) ++ ((λ i, OAddEdge (N.of_nat i) (N.of_nat (S i)) (Some 5%N)) <$> seq 0 10).
Definition typed32_evec_b (e : evec) : bool := bool_decide (vec_of in_usize (ev_offsets e)) && bool_decide (vec_of (in_type TU32) (ev_edges e)) &&
  bool_decide (opt_all (vec_of (in_type TU32)) (ev_label_vec e)).
Definition typed32_b (g : sgraph N N) : bool := bool_decide (in_usize (sg_num_nodes g) ∧ in_usize (sg_num_edges g)) &&
  typed32_evec_b (sg_evec g) && match sg_in g with Some e => typed32_evec_b e | None => true end &&
  bool_decide (opt_all (vec_of (in_type TU32)) (sg_labels g)) && bool_decide (setmap_of (in_type TU32) (sg_nlm g)) &&
  bool_decide (setmap_of (in_type TU32) (sg_elm g)).
Lemma typed32_b_ok g : typed32_b g = true → typed_sgraph TU32 TU32 (in_type TU32) (in_type TU32) g.
Proof.
  unfold typed32_b. rewrite !andb_true_iff, !bool_decide_eq_true. intros [[[[[H1 H2] H3] H4] H5] H6].
  assert (∀ e, typed32_evec_b e = true → typed_evec TU32 TU32 e) as He.
  { unfold typed32_evec_b. intros e. rewrite !andb_true_iff, !bool_decide_eq_true. intros [[G1 G2] G3]. by split. }
  split; [done|by apply He| |done..]. destruct (sg_in g); [by apply He|done].
Qed.
Definition meaningful_b (g : sgraph N N) : bool :=
  match sg_labels g with Some ls => forallb (λ i, bool_decide (i = id_max TU32) || (i <? N.of_nat (length (sg_nlm g)))%N) ls | None => false end.
Lemma vl_static (h : list (gop N N)) (k : N) nlm : fits_u8 false h → (0 < k)%N → (k < 256)%N →
  forallb (λ n, bool_decide (n < k)%N) (map_to_list (ag_nodes (sp_g (run_spec false h)))).*1 = true →
  forallb (λ n, bool_decide (a_has_node (sp_g (run_spec false h)) (N.of_nat n))) (seq 0 (N.to_nat k)) = true →
  bool_decide (length (sp_nls (run_spec false h)) ≤ 20) && bool_decide (length (sp_els (run_spec false h)) ≤ 20) && bool_decide (ag_dir (sp_g (run_spec false h)) = false) = true →
  match gm_into_static TU32 TU32 false (run_gm false h) with
  | Ok sg => typed32_b sg && meaningful_b sg && bool_decide (sg_nlm sg = nlm) && bool_decide (csr_nodes (ev_offsets (sg_evec sg)) < id_card TU32)%N &&
             bool_decide (ev_edges (sg_evec sg) ≠ [] ∧ sg_in sg = None ∧ sg_labels sg ≠ Some [])
  | _ => false end = true →
  ∃ (g : sgraph N N) ls, let A := sp_g (run_spec false h) in arrays_of TU32 g A ∧ ag_dir A = false ∧ sg_labels g = Some ls ∧ meaningful_labels (sg_nlm g) ls ∧
    mappable TU32 TU32 (in_type TU32) (in_type TU32) false g ∧ (csr_nodes (ev_offsets (sg_evec g)) < id_card TU32)%N ∧ sg_nlm g = nlm.
Proof.
  intros Hf Hk Hk2 H1 H2 H3 H4. rewrite !andb_true_iff, !bool_decide_eq_true in H3. destruct H3 as [[H3a H3b] H3c].
  destruct (run_view_all false h Hf) as (HA & _ & _ & _ & Hn & He & _). cbn [v_node_label_map v_edge_label_map run_view gm_view] in Hn, He.
  assert (∀ n, a_has_node (sp_g (run_spec false h)) n → (n < k)%N) as Hids by (by apply (ids_of _ _)).
  assert (a_has_node (sp_g (run_spec false h)) 0%N) as H0.
  { rewrite forallb_forall in H2. specialize (H2 0). apply (bool_decide_eq_true_1 _), H2, elem_of_list_In, elem_of_seq. lia. }
  destruct (into_static_dense TU32 TU32 false (run_gm false h) _ _ HA 0%N H0) as (sg & Hsg & Harr & _).
  { intros n Hn'. apply Hids in Hn'. change (id_max TU32) with 4294967295%N. lia. }
  { by apply (dense_of _ k). }
  { rewrite Hn. change (id_max TU32) with 4294967295%N. lia. } { rewrite He. change (id_max TU32) with 4294967295%N. lia. }
  rewrite Hsg in H4. rewrite !andb_true_iff, !bool_decide_eq_true in H4. destruct H4 as [[[[T1 T2] T3] T4] (T5 & T6 & T7)].
  unfold meaningful_b in T2. destruct (sg_labels sg) as [ls|] eqn:Els; [|done]. exists sg, ls. cbv zeta. split; [done|]. split; [done|]. split; [done|].
  split. { intros i Hi. rewrite forallb_forall in T2. specialize (T2 i (proj1 (elem_of_list_In _ _) Hi)). apply orb_prop in T2 as [T2|T2]; [left; by apply bool_decide_eq_true in T2|right; apply N.ltb_lt in T2; lia]. }
  split; [|done]. split; [by apply typed32_b_ok|exact (so_csr _ _ _ Harr)|done|by rewrite T6|by rewrite Els|done|done].
Qed.
Lemma vl_case : ∃ (g : sgraph N N) A ls, arrays_of TU32 g A ∧ ag_dir A = false ∧ sg_labels g = Some ls ∧ meaningful_labels (sg_nlm g) ls ∧
  mappable TU32 TU32 (in_type TU32) (in_type TU32) false g ∧ (csr_nodes (ev_offsets (sg_evec g)) < id_card TU32)%N ∧ sg_nlm g = [20; 21; 22; 23; 24; 25; 26; 27; 28; 29; 30]%N ∧
  a_num_nodes A = 11 ∧ a_num_edges A = 10.
Proof.
  destruct (vl_static vl_hist 11 [20; 21; 22; 23; 24; 25; 26; 27; 28; 29; 30]%N) as (g & ls & H1 & H2 & H3 & H4 & H5 & H6 & H7); [vm_compute; lia|done|done|by vm_compute..|].
  exists g, (sp_g (run_spec false vl_hist)), ls. split_and!; try assumption; by vm_compute.
Qed.
Lemma vl_two : ∃ (g : sgraph N N) A ls, arrays_of TU32 g A ∧ ag_dir A = false ∧ sg_labels g = Some ls ∧ meaningful_labels (sg_nlm g) ls ∧
  mappable TU32 TU32 (in_type TU32) (in_type TU32) false g ∧ (csr_nodes (ev_offsets (sg_evec g)) < id_card TU32)%N ∧ sg_nlm g = [7; 8]%N ∧ ag_nodes A !! 0%N = Some None.
Proof.
  destruct (vl_static st_dense 4 [7; 8]%N) as (g & ls & H1 & H2 & H3 & H4 & H5 & H6 & H7); [vm_compute; lia|done|done|by vm_compute..|].
  exists g, (sp_g (run_spec false st_dense)), ls. split_and!; try assumption; by vm_compute.
Qed.
Lemma vl_file (g : sgraph N N) dir : mappable TU32 TU32 (in_type TU32) (in_type TU32) dir g → import c_u32_static "g" (export "g" (enc c_u32_static g) ∅) = Some g.
Proof. intros H. exact (import_export _ _ _ _ _ (proj1 f_u32_static) (mp_typed _ _ _ _ _ _ H)). Qed.
(** With two labels a node whose draw is 11 is left without the label 11. *)
Lemma vl_wrong : ∃ (g : sgraph N N) A R F F' g' V, arrays_of TU32 g A ∧ import c_u32_static "g" F = Some g ∧ vary_labels R "g" "out" F = Ok F' ∧
  import c_u32_static "out" F' = Some g' ∧ V = sg_view TU32 TU32 false g' ∧ rng_int R 0 mod 15 = 11 ∧ v_get_node V 0%N = Ok (Some (0, Some 11)%N) ∧
  v_node_label_map V = [7; 8; 11; 12; 13; 14]%N ∧ v_node_label V 0%N = Ok None.
Proof.
  destruct vl_two as (g & A & ls & H1 & H2 & H3 & H4 & H5 & H6 & H7 & H8). set (R := Rng (λ _, 11) (λ _, S754_zero false)).
  destruct (vary_thm R g A H1 H2 ls H3 H4 (mp_typed _ _ _ _ _ _ H5) "g" "out" (export "g" (enc c_u32_static g) ∅)) as (F' & g' & V1 & V2 & V3 & V4 & V5 & V6).
  { rewrite H7. by vm_compute. } { done. } { by apply (vl_file g false). }
  assert (vl_graph R g = Ok (varied R g ls)) as Hv by (by apply vl_graph_eq).
  assert (g' = varied R g ls) as ->.
  { revert V1. unfold vary_labels. rewrite (vl_file g false H5). cbn [unwrap rbind]. rewrite Hv. cbn [rbind].
    assert (∀ a b : fs, Ok a = Ok b → a = b) as Hinj by (by intros ?? [=]). intros Heq%Hinj. rewrite <-Heq in V3.
    revert V3. rewrite (import_export _ _ _ _ _ (proj1 f_u32_static)); [by intros [= <-]|]. apply varied_typed; [done|exact (mp_typed _ _ _ _ _ _ H5)|]. rewrite H7. by vm_compute. }
  assert (a_has_node A 0%N) as H0 by (by eexists).
  exists g, A, R, (export "g" (enc c_u32_static g) ∅), F', (varied R g ls), (sg_view TU32 TU32 false (varied R g ls)).
  split; [done|]. split; [by apply (vl_file g false)|]. split; [done|]. split; [done|]. split; [done|]. split; [done|].
  assert (v_get_node (sg_view TU32 TU32 false (varied R g ls)) 0%N = Ok (Some (0, Some 11)%N)) as Hg.
  { cbn [v_get_node sg_view]. unfold sg_get_node. assert (sg_has_node (varied R g ls) 0 = true) as ->.
    { unfold sg_has_node. apply bool_decide_eq_true. cbn [varied sg_num_nodes]. apply (so_nodes _ _ _ H1) in H0. rewrite <-(so_count _ _ _ H1) in H0. unfold id_id. lia. }
    cbn [negb varied sg_labels]. pose proof (so_node_labels _ _ _ H1 0%N H0) as Hl. rewrite H3 in Hl. destruct Hl as (i & Hi & _). unfold id_id.
    rewrite vl_relabel_lookup, Hi. cbn [fmap option_fmap option_map unwrap rbind]. by vm_compute. }
  split; [done|]. assert (v_node_label_map (sg_view TU32 TU32 false (varied R g ls)) = [7; 8; 11; 12; 13; 14]%N) as Hm.
  { cbn [v_node_label_map sg_view varied sg_nlm]. rewrite H7. by vm_compute. }
  split; [done|]. unfold v_node_label. rewrite Hg, Hm. by vm_compute.
Qed.
