(** Concrete directories for the theorems about listing orders and text files. *)
From Coq Require Import Ascii.
From stdpp Require Import gmap strings.
From Verif Require Import Base BaseFacts Api Spec SpecOps Map GraphMap Csv Ldbc SpecLdbc LdbcThms LdbcWit CsvText SpecCsvText CsvTextProps LdbcText SpecLdbcText SpecLdbcOrder LdbcOrder LdbcTextProps.

Definition dir_one : list (string * table) :=
  [ ("person_workAt_organisation_0_0.csv", [["Person.id"; "Organisation.id"; "workFrom"]; ["5"; "0"; "2001"]; ["5"; "1"; "2002"]]);
    ("person_studyAt_organisation_0_0.csv", [["Person.id"; "Organisation.id"; "classYear"]; ["5"; "0"; "1999"]; ["0"; "1"; "1998"]]);
    ("organisation_0_0.csv", [["id"; "type"; "name"; "url"]; ["0"; "company"; "A"; "u"]]);
    ("organisation_1_0.csv", [["id"; "type"; "name"; "url"]; ["1"; "university"; "B"; "u"]; ["0"; "company"; "A"; "u"]]) ]%string.
Definition facts_one : list fact :=
  [ FNode ("organisation", "0") "company"; FNode ("organisation", "1") "university"; FNode ("organisation", "0") "company";
    FEdge ("person", "5") ("organisation", "0") "studyAt"; FEdge ("person", "0") ("organisation", "1") "studyAt";
    FEdge ("person", "5") ("organisation", "0") "workAt"; FEdge ("person", "5") ("organisation", "1") "workAt" ]%string.
Definition nls_one : list string := ["company"; "university"; "person"; "organisation"]%string.
Definition els_one : list string := ["studyAt"; "workAt"]%string.
Lemma order_case : Permutation (reverse dir_one) dir_one ∧ directory_facts scheme_init dir_one = Some facts_one ∧ unambiguous facts_one ∧
  (N.of_nat (length (remove_dups (entities facts_one))) ≤ id_card TU8)%N ∧ one_label facts_one ∧
  node_labels facts_one ⊆ nls_one ∧ edge_labels facts_one ⊆ els_one ∧ labels_fit TU8 nls_one ∧ labels_fit TU8 els_one ∧
  relation_label true facts_one ("person", "5")%string ("organisation", "0")%string = Some "workAt"%string ∧
  directory_facts scheme_init (reverse dir_one) ≠ Some facts_one.
Proof.
  assert (Hd : directory_facts scheme_init dir_one = Some facts_one) by (vm_compute; reflexivity).
  split; [by rewrite reverse_Permutation|]. split; [exact Hd|].
  split; [refine (numeric_unambiguous _ _ _ scheme_types Hd _); apply numeric_all; vm_compute; reflexivity|].
  split; [vm_compute; discriminate|]. split.
  { intros e l l' H H'. unfold facts_one in H, H'. repeat rewrite elem_of_cons in H. repeat rewrite elem_of_cons in H'. rewrite elem_of_nil in H, H'.
    destruct H as [H|[H|[H|[H|[H|[H|[H|[]]]]]]]]; try discriminate H; injection H as -> ->;
    destruct H' as [H'|[H'|[H'|[H'|[H'|[H'|[H'|[]]]]]]]]; try discriminate H'; by injection H' as ->. }
  split; [apply labels_subset; vm_compute; reflexivity|]. split; [apply labels_subset; vm_compute; reflexivity|].
  split; [vm_compute; discriminate|]. split; [vm_compute; discriminate|]. split; [vm_compute; reflexivity|]. vm_compute. discriminate.
Qed.
(** A place with two labels, in two files. *)
Definition place_file (name label : string) : string * table := (name, [["id"; "name"; "url"; "type"]; ["0"; "X"; "u"; label]])%string.
Definition dir_two : list (string * table) := [place_file "place_0_0.csv" "city"; place_file "place_1_0.csv" "town"].
Lemma order_two dir : ∃ g g', read_ldbc dir TU8 dir_two = Ok g ∧ read_ldbc dir TU8 (reverse dir_two) = Ok g' ∧
  ∀ o o', v_node_label (gm_view dir o g) 0 = Ok (Some "town"%string) ∧ v_node_label (gm_view dir o' g') 0 = Ok (Some "city"%string).
Proof.
  exists (graph_of (read_ldbc dir TU8 dir_two)), (graph_of (read_ldbc dir TU8 (reverse dir_two))).
  destruct dir; (split; [vm_compute; reflexivity|]); (split; [vm_compute; reflexivity|]); intros o o'; split; vm_compute; reflexivity.
Qed.

(** A directory of text. *)
Definition crlf : string := String "013" (String "010" "").
Definition lf : string := String "010" "".
Definition text_dir : list line_file :=
  [ ("person_knows_person_0_0.csv", ([(["Person.id"; "Person.id"; "creationDate"], crlf); ([""], lf); (["5"; "0"; "a b"], lf)], ["5"; "5"; ""]));
    ("place_0_0.csv", ([(["id"; "name"; "url"; "type"], lf); (["0"; "X, Y"; ""; "city"], lf)], [""]))  ]%string.
Definition text_facts : list fact :=
  [ FNode ("place", "0") "city"; FEdge ("person", "5") ("person", "0") "knows"; FEdge ("person", "5") ("person", "5") "knows" ]%string.
Lemma text_case : Forall (plain_file "|") text_dir ∧ directory_facts scheme_init (file_rows <$> text_dir) = Some text_facts ∧
  (∀ e, e ∈ entities text_facts → numeric e.2) ∧ (N.of_nat (length (remove_dups (entities text_facts))) ≤ id_card TU8)%N ∧
  node_labels text_facts ⊆ ["city"; "person"]%string ∧ edge_labels text_facts ⊆ ["knows"]%string ∧
  (file_text "|" <$> text_dir) !! 1 = Some ("place_0_0.csv", "id|name|url|type" +:+ lf +:+ "0|X, Y||city" +:+ lf)%string.
Proof.
  assert (∀ f, needs_quotes "|" f = false → plain "|" f) as H by (intros f; apply plain_needs).
  split.
  { unfold text_dir, plain_file. rewrite !Forall_cons. cbn [fst snd]. rewrite !Forall_cons. cbn [fst snd]. rewrite !Forall_cons. unfold line_end.
    split_and!; first [by apply H|done|by constructor|by left|by right; right]. }
  split; [vm_compute; reflexivity|]. split; [apply numeric_all; vm_compute; reflexivity|]. split; [vm_compute; discriminate|].
  split; [apply labels_subset; vm_compute; reflexivity|]. split; [apply labels_subset; vm_compute; reflexivity|]. vm_compute. reflexivity.
Qed.
Lemma open_case : Forall (λ p, plain "|" p.1 ∧ plain "|" p.2) [("Person.id", "Person.id"); ("1", "2")]%string ∧ plain "|" "3" ∧
  ¬ has_char "034" ("4" +:+ lf +:+ "5|6" +:+ lf)%string.
Proof.
  assert (∀ f, needs_quotes "|" f = false → plain "|" f) as H by (intros f; apply plain_needs).
  split; [rewrite !Forall_cons; cbn [fst snd]; split_and!; first [by apply H|by constructor]|]. split; [by apply H|]. cbn. naive_solver.
Qed.
