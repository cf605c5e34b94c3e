(** C119: the id and label types are an internal matter. [labels_fit] (Spec.v): as many
    labels as the type can number. [cell_fits] (SpecWidth.v): if the field of the file is a
    number, it is an id of the type. [g_nlm], [g_elm]: the label lists of the graph. *)
From Coq Require Import Ascii.
From stdpp Require Import gmap strings.
From Verif Require Import Base Api Spec SpecHist SpecOps SpecSerde SpecCsv Map GraphMap Static IntoStatic Csv CsvProps Ldbc LdbcWit SpecWidth WidthProps WidthWit.

(** ** C119. Any calls on any graph, with two label types that both number the labels: the
    same return values and the same graph, to the last bit. *)
Theorem C119_history {NL EL} `{EqDecision NL, EqDecision EL} (dir : bool) (lt lt' : idty) h (g : graphmap NL EL) rs g' :
  gm_run dir lt h g = Ok (rs, g') → labels_fit lt (g_nlm g') → labels_fit lt (g_elm g') → labels_fit lt' (g_nlm g') → labels_fit lt' (g_elm g') →
  gm_run dir lt' h g = Ok (rs, g').
Proof. exact (history_width dir lt lt' h g rs g'). Qed.
Print Assumptions C119_history.
Example C119_case (dir : bool) : ∃ rs (g : graphmap N N), gm_run dir TU8 wd_h gm_new = Ok (rs, g) ∧
  labels_fit TU8 (g_nlm g) ∧ labels_fit TU8 (g_elm g) ∧ labels_fit TU32 (g_nlm g) ∧ labels_fit TU32 (g_elm g) ∧ g_nlm g = [9; 3]%N ∧ g_elm g = [7; 8]%N ∧ g_nedges g = 3.
Proof. exact (wd_case dir). Qed.
(** into_static with other types: a static graph that answers the same. *)
Theorem C119_static {NL EL} (it lt it' lt' : idty) dir (g : graphmap NL EL) ord A n :
  represents (gm_view dir ord g) A → a_has_node A n → (∀ n, a_has_node A n → (n < id_max it)%N ∧ (n < id_max it')%N) →
  (∀ n m, a_has_node A n → (m < n)%N → a_has_node A m) →
  (N.of_nat (length (g_nlm g)) ≤ id_max lt)%N → (N.of_nat (length (g_elm g)) ≤ id_max lt)%N →
  (N.of_nat (length (g_nlm g)) ≤ id_max lt')%N → (N.of_nat (length (g_elm g)) ≤ id_max lt')%N →
  ∃ sg sg', gm_into_static it lt dir g = Ok sg ∧ gm_into_static it' lt' dir g = Ok sg' ∧
    same_graph (sg_view it lt dir sg) (sg_view it' lt' dir sg') ∧ v_edge_count (sg_view it lt dir sg) = v_edge_count (sg_view it' lt' dir sg').
Proof. exact (static_width it lt it' lt' dir g ord A n). Qed.
Print Assumptions C119_static.
Example C119_static_case (dir : bool) : ∃ (g : graphmap N N) ord A, represents (gm_view dir ord g) A ∧ a_has_node A 1%N ∧
  (∀ n, a_has_node A n → (n < id_max TU8)%N ∧ (n < id_max TU16)%N) ∧ (∀ n m, a_has_node A n → (m < n)%N → a_has_node A m) ∧
  length (g_nlm g) = 2 ∧ length (g_elm g) = 2 ∧ a_num_edges A = 3.
Proof. exact (wd_static_case dir). Qed.
(** Reading the same CSV files with other types: the same graph. *)
Theorem C119_csv {NL EL} `{EqDecision NL, EqDecision EL} (dir : bool) (it lt it' lt' : idty) (tn : text NL) (te : text EL) R F (g g' : graphmap NL EL) ok :
  (∀ p t r c, F !! p = Some t → r ∈ t → c ∈ r → cell_fits it c ∧ cell_fits it' c) →
  csv_read dir it lt tn te R F g = Ok (g', ok) →
  labels_fit lt (g_nlm g') → labels_fit lt (g_elm g') → labels_fit lt' (g_nlm g') → labels_fit lt' (g_elm g') →
  csv_read dir it' lt' tn te R F g = Ok (g', ok).
Proof. exact (csv_width dir it lt it' lt' tn te R F g g' ok). Qed.
Print Assumptions C119_csv.
Example C119_csv_case (dir : bool) : (∀ p t r c, wd_F !! p = Some t → r ∈ t → c ∈ r → cell_fits TU8 c ∧ cell_fits TUsize c) ∧
  ∃ g : graphmap N N, csv_read dir TU8 TU8 (t_id TU32) (t_id TU32) (Reader (Some "n"%string) "e" true false) wd_F gm_new = Ok (g, true) ∧
  labels_fit TU8 (g_nlm g) ∧ labels_fit TU8 (g_elm g) ∧ labels_fit TU16 (g_nlm g) ∧ labels_fit TU16 (g_elm g) ∧ gm_node_count g = 3 ∧ g_nedges g = 2.
Proof. exact (wd_csv_case dir). Qed.
(** The condition is needed: an id too large for the type drops its row without a word. *)
Example C119_csv_narrow : let F := {["e"%string := [edge_header; ["1"; "2"; ""]; ["1"; "300"; ""]]%string]} in let R := Reader None "e"%string true false in
  rmap (λ p, gm_edge_count p.1) (csv_read false TU16 TU8 (t_id TU8) (t_id TU8) R F (gm_new : graphmap N N)) = Ok 2 ∧
  rmap (λ p, gm_edge_count p.1) (csv_read false TU8 TU8 (t_id TU8) (t_id TU8) R F (gm_new : graphmap N N)) = Ok 1.
Proof. exact wd_csv_narrow. Qed.
(** Files written with one id type are read back with another one. *)
Theorem C119_csv_across {NL EL} `{EqDecision NL, EqDecision EL} (it it' lt : idty) (tn : text NL) (te : text EL)
  (V : gview NL EL) (A : agraph NL EL) nls els pn pe flexible (F : csvfs) :
  represents V A → pn ≠ pe → (∀ n, a_has_node A n → in_type it' n) → uses_labels A nls els →
  Forall (readable tn) nls → Forall (readable te) els → labels_fit lt nls → labels_fit lt els →
  ∃ F' g, csv_write it tn te V pn pe F = Ok F' ∧
    csv_read (ag_dir A) it' lt tn te (Reader (Some pn) pe true flexible) F' gm_new = Ok (g, true) ∧
    ∀ o, hash_order g o → shows (gm_view (ag_dir A) o g) A.
Proof.
  intros H1 H2 H3 H4 H5 H6 H7 H8. destruct (csv_roundtrip it' lt tn te V A nls els pn pe flexible F H1 H2 H3 H4 H5 H6 H7 H8) as (F' & g & E1 & _ & E2 & Hg).
  exists F', g. split; [exact E1|]. split; [exact E2|exact Hg].
Qed.
Print Assumptions C119_csv_across.
(** LDBC tables, where the id type also numbers the labels. *)
Theorem C119_ldbc (dir : bool) it it' files g : it ≠ TUnit → it' ≠ TUnit → read_ldbc dir it files = Ok g →
  labels_fit it (g_nlm g) → labels_fit it (g_elm g) → labels_fit it' (g_nlm g) → labels_fit it' (g_elm g) →
  (∀ x, gm_has_node g x = true → (x < id_card it')%N) → read_ldbc dir it' files = Ok g.
Proof. exact (ldbc_width_thm dir it it' files g). Qed.
Print Assumptions C119_ldbc.
Example C119_ldbc_case (dir : bool) : ∃ g, read_ldbc dir TU8 dir_ex = Ok g ∧ gm_node_count g = 5 ∧
  labels_fit TU8 (g_nlm g) ∧ labels_fit TU8 (g_elm g) ∧ labels_fit TU32 (g_nlm g) ∧ labels_fit TU32 (g_elm g) ∧ (∀ x, gm_has_node g x = true → (x < id_card TU32)%N).
Proof. exact (wd_ldbc_case dir). Qed.
