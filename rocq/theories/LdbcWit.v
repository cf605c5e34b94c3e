(** Concrete directories for the LDBC theorems. *)
From Coq Require Import Ascii.
From stdpp Require Import gmap strings.
From Verif Require Import Base BaseFacts Api Spec SpecFacts SpecOps Map GraphMap GraphMapFacts GraphMapThms TraverseProps GraphOpsWit
  Csv CsvFacts Ldbc SpecLdbc LdbcFacts LdbcProps LdbcThms.

Definition dir_ex : list (string * table) :=
  [ ("person_workAt_organisation_0_0.csv", [["Person.id"; "Organisation.id"; "workFrom"]; ["5"; "0"; "2001"]; ["5"; "1"; "2002"]; ["0"; "0"; "2003"]]);
    ("organisation_0_0.csv", [["id"; "type"; "name"; "url"]; ["0"; "company"; "A"; "u"]]);
    ("README", [["place"]]);
    ("place_0_0.csv", [["id"; "name"; "url"; "type"]; ["0"; "X"; "u"; "city"]; ["0"; "Y"; "u"; "town"]]);
    ("person_knows_person_0_0.csv", [["Person.id"; "Person.id"; "creationDate"]; ["0"; "5"; "d"]; ["5"; "5"; "d"]]) ]%string.
Definition facts_ex : list fact :=
  [ FNode ("organisation", "0") "company"; FNode ("place", "0") "city"; FNode ("place", "0") "town";
    FEdge ("person", "0") ("person", "5") "knows"; FEdge ("person", "5") ("person", "5") "knows";
    FEdge ("person", "5") ("organisation", "0") "workAt"; FEdge ("person", "5") ("organisation", "1") "workAt";
    FEdge ("person", "0") ("organisation", "0") "workAt" ]%string.
Lemma ldbc_facts_ex : directory_facts scheme_init dir_ex = Some facts_ex.
Proof. vm_compute. reflexivity. Qed.
Definition numericb (s : string) : bool :=
  match s with String c _ => bool_decide (48 ≤ N_of_ascii c ≤ 57)%N | EmptyString => false end.
Lemma numericb_ok s : numericb s = true → numeric s.
Proof. destruct s as [|c s]; [done|]. cbn. intros H%bool_decide_eq_true. by exists c, s. Qed.
Lemma numeric_all fs : forallb (λ e : entity, numericb e.2) (entities fs) = true → ∀ e, e ∈ entities fs → numeric e.2.
Proof. intros H e He. apply numericb_ok. rewrite forallb_forall in H. apply (H e). by apply elem_of_list_In. Qed.
Lemma ldbc_numeric_ex e : e ∈ entities facts_ex → numeric e.2.
Proof. apply numeric_all. vm_compute. reflexivity. Qed.
Lemma labels_subset (l l' : list string) : forallb (λ x, bool_decide (x ∈ l')) l = true → l ⊆ l'.
Proof. intros H x Hx. rewrite forallb_forall in H. eapply bool_decide_eq_true_1, H. by apply elem_of_list_In. Qed.
Definition nls_ex : list string := ["company"; "city"; "town"; "person"; "organisation"]%string.
Definition els_ex : list string := ["knows"; "workAt"]%string.
Lemma ldbc_case : directory_facts scheme_init dir_ex = Some facts_ex ∧ (∀ e, e ∈ entities facts_ex → numeric e.2) ∧
  node_labels facts_ex ⊆ nls_ex ∧ edge_labels facts_ex ⊆ els_ex ∧ labels_fit TU8 nls_ex ∧ labels_fit TU8 els_ex ∧
  (N.of_nat (length (remove_dups (entities facts_ex))) ≤ id_card TU8)%N ∧ length (remove_dups (entities facts_ex)) = 5 ∧
  relation_label false facts_ex ("person", "5")%string ("person", "0")%string = Some "knows"%string ∧
  entity_label facts_ex ("place", "0")%string = "town"%string ∧ entity_label facts_ex ("person", "5")%string = "person"%string.
Proof.
  split; [exact ldbc_facts_ex|]. split; [exact ldbc_numeric_ex|].
  split; [apply labels_subset; vm_compute; reflexivity|]. split; [apply labels_subset; vm_compute; reflexivity|].
  split; [vm_compute; discriminate|]. split; [vm_compute; discriminate|]. split; [vm_compute; discriminate|]. repeat split; vm_compute; reflexivity.
Qed.

(** 257 entities. *)
Definition rows_of (n : nat) : table := (λ i, [show_uint (N.of_nat i); show_uint (N.of_nat (S i))]) <$> seq 0 n.
Definition dir_big : list (string * table) := [("person_knows_person_0_0.csv", ["Person.id"; "Person.id"] :: rows_of 256)]%string.
Definition facts_big : list fact :=
  (λ i, FEdge ("person", show_uint (N.of_nat i)) ("person", show_uint (N.of_nat (S i))) "knows")%string <$> seq 0 256.
Lemma ldbc_big_case : directory_facts scheme_init dir_big = Some facts_big ∧ (∀ e, e ∈ entities facts_big → numeric e.2) ∧
  node_labels facts_big ⊆ nls_ex ∧ edge_labels facts_big ⊆ els_ex ∧ labels_fit TU8 nls_ex ∧ labels_fit TU8 els_ex ∧
  length (remove_dups (entities facts_big)) = 257.
Proof.
  split; [vm_compute; reflexivity|]. split; [apply numeric_all; vm_compute; reflexivity|].
  split; [apply labels_subset; vm_compute; reflexivity|]. split; [apply labels_subset; vm_compute; reflexivity|].
  split; [vm_compute; discriminate|]. split; [vm_compute; discriminate|]. vm_compute. reflexivity.
Qed.

(** A row that lacks a field. *)
Definition dir_bad : list (string * table) := [("place_0_0.csv", [["id"; "name"; "url"]; ["0"; "X"; "u"]])]%string.
Lemma ldbc_bad_case : directory_facts scheme_init dir_bad = None.
Proof. vm_compute. reflexivity. Qed.

(** An ambiguous directory. *)
Definition dir_amb : list (string * table) := [("tag_hasType_tagclass_0_0.csv", [["Tag.id"; "TagClass.id"]; ["class1"; "1"]])]%string.
Definition graph_of (r : res (graphmap string string)) : graphmap string string := match r with Ok g => g | _ => gm_new end.
Lemma ldbc_ambiguous : directory_facts scheme_init dir_amb = Some [FEdge ("tag", "class1") ("tagclass", "1") "hasType"]%string ∧
  (∀ dir, ∃ g, read_ldbc dir TU8 dir_amb = Ok g ∧ gm_node_count g = 1).
Proof.
  split; [vm_compute; reflexivity|]. intros dir. exists (graph_of (read_ldbc dir TU8 dir_amb)).
  destruct dir; split; vm_compute; reflexivity.
Qed.

(** A relation file that the scheme reads twice. *)
Definition dir_twice : list (string * table) := [("forum_containerOf_post_0_0.csv", [["Forum.id"; "Post.id"]; ["3"; "4"]])]%string.
Definition facts_twice : list fact := let f := FEdge ("forum", "3") ("post", "4") "containerOf" in [f; f]%string.
Lemma ldbc_twice : directory_facts scheme_init dir_twice = Some facts_twice.
Proof. vm_compute. reflexivity. Qed.
Lemma ldbc_exact_case : directory_facts scheme_init dir_ex = Some facts_ex ∧ unambiguous facts_ex ∧ ¬ repeated false (relations facts_ex) ∧
  length (relations facts_ex) = 5.
Proof.
  split; [exact ldbc_facts_ex|]. split; [exact (numeric_unambiguous _ _ _ scheme_types ldbc_facts_ex ldbc_numeric_ex)|]. split; [|reflexivity].
  intros (i & j & p & q & Hij & Hi & Hj & Hpq). pose proof (lookup_lt_Some _ _ _ Hj) as Hlt. cbn in Hlt.
  destruct j as [|[|[|[|[|j]]]]]; [lia|..|lia]; (destruct i as [|[|[|[|i]]]]; try lia); vm_compute in Hi, Hj; injection Hi as <-; injection Hj as <-;
    destruct Hpq as [|[_ ?]]; discriminate.
Qed.
Lemma ldbc_twice_case : directory_facts scheme_init dir_twice = Some facts_twice ∧ (∀ e, e ∈ entities facts_twice → numeric e.2) ∧
  relation_file "forum_containerOf_post_" "forum_containerOf_post_0_0.csv" ∧ length (relations facts_twice) = 2.
Proof.
  split; [exact ldbc_twice|]. split; [apply numeric_all; vm_compute; reflexivity|]. split; [|reflexivity]. apply match_anywhere_spec. by vm_compute.
Qed.
Lemma ldbc_names_case : node_file "place_" "place_0_0.csv" ∧ ¬ node_file "place_" "person_isLocatedIn_place_0_0.csv" ∧
  relation_file "person_isLocatedIn_place_" "old_person_isLocatedIn_place_0_0.csv~".
Proof.
  split; [apply match_here_spec; by vm_compute|]. split; [|apply match_anywhere_spec; by vm_compute].
  intros H%match_here_spec. by vm_compute in H.
Qed.
Lemma ldbc_scheme_relations rl : rl ∈ sc_relations scheme_init →
  lr_file rl = (lr_start rl +:+ "_" +:+ lr_edge rl +:+ "_" +:+ lr_target rl +:+ "_")%string ∧ lr_start_id rl = 0 ∧ lr_target_id rl = 1.
Proof.
  assert (forallb (λ rl, bool_decide (lr_file rl = (lr_start rl +:+ "_" +:+ lr_edge rl +:+ "_" +:+ lr_target rl +:+ "_")%string ∧ lr_start_id rl = 0 ∧ lr_target_id rl = 1))
    (sc_relations scheme_init) = true) as H by (vm_compute; reflexivity).
  rewrite forallb_forall in H. intros Hr. eapply bool_decide_eq_true_1, H. by apply elem_of_list_In.
Qed.
Lemma ldbc_scheme_nodes nd : nd ∈ sc_nodes scheme_init → ln_file nd = (ln_name nd +:+ "_")%string ∧ ln_id nd = 0 ∧
  (ln_name nd = "organisation"%string ∧ ln_label nd = 1 ∨ ln_name nd = "place"%string ∧ ln_label nd = 3).
Proof.
  assert (forallb (λ nd, bool_decide (ln_file nd = (ln_name nd +:+ "_")%string ∧ ln_id nd = 0 ∧
    (ln_name nd = "organisation"%string ∧ ln_label nd = 1 ∨ ln_name nd = "place"%string ∧ ln_label nd = 3))) (sc_nodes scheme_init) = true) as H
    by (vm_compute; reflexivity).
  rewrite forallb_forall in H. intros Hr. eapply bool_decide_eq_true_1, H. by apply elem_of_list_In.
Qed.
Definition schema_triples : list (string * string * string) := ldbc_schema ≫= λ p, (λ t, (p.1.1, p.1.2, t)) <$> p.2.
Lemma elem_of_schema s r t : (s, r, t) ∈ schema_triples ↔ in_schema s r t.
Proof.
  unfold schema_triples, in_schema. rewrite elem_of_list_bind. split.
  - intros ([[s' r'] ts] & H & Hp). apply elem_of_list_fmap in H as (t' & [= -> -> ->] & Ht). by exists ts.
  - intros (ts & Hp & Ht). exists (s, r, ts). split; [|done]. apply elem_of_list_fmap. by exists t.
Qed.
Lemma ldbc_scheme_complete s r t : in_schema s r t ↔ ∃ rl, rl ∈ sc_relations scheme_init ∧ lr_start rl = s ∧ lr_edge rl = r ∧ lr_target rl = t.
Proof.
  rewrite <-elem_of_schema.
  trans ((s, r, t) ∈ (λ rl, (lr_start rl, lr_edge rl, lr_target rl)) <$> sc_relations scheme_init).
  - assert (forallb (λ x, bool_decide (x ∈ (λ rl, (lr_start rl, lr_edge rl, lr_target rl)) <$> sc_relations scheme_init)) schema_triples = true) as H1
      by (vm_compute; reflexivity).
    assert (forallb (λ x, bool_decide (x ∈ schema_triples)) ((λ rl, (lr_start rl, lr_edge rl, lr_target rl)) <$> sc_relations scheme_init) = true) as H2
      by (vm_compute; reflexivity).
    rewrite forallb_forall in H1, H2. split; intros H; eapply bool_decide_eq_true_1; [apply H1|apply H2]; by apply elem_of_list_In.
  - rewrite elem_of_list_fmap. split.
    + intros (rl & [= -> -> ->] & H). by exists rl.
    + intros (rl & H & <- & <- & <-). by exists rl.
Qed.
