(** Concrete cases for C119. *)
From Coq Require Import Ascii.
From stdpp Require Import gmap strings.
From Verif Require Import Base BaseFacts Api Spec Map GraphMap GraphMapProps TraverseProps Csv Ldbc LdbcWit Static IntoStatic IntoStaticProps SpecHist SpecWidth WidthProps WidthLdbc.

Lemma static_width {NL EL} (it lt it' lt' : idty) dir (g : graphmap NL EL) ord A n :
  represents (gm_view dir ord g) A → a_has_node A n → (∀ n, a_has_node A n → (n < id_max it)%N ∧ (n < id_max it')%N) →
  (∀ n m, a_has_node A n → (m < n)%N → a_has_node A m) →
  (N.of_nat (length (g_nlm g)) ≤ id_max lt)%N → (N.of_nat (length (g_elm g)) ≤ id_max lt)%N →
  (N.of_nat (length (g_nlm g)) ≤ id_max lt')%N → (N.of_nat (length (g_elm g)) ≤ id_max lt')%N →
  ∃ sg sg', gm_into_static it lt dir g = Ok sg ∧ gm_into_static it' lt' dir g = Ok sg' ∧
    same_graph (sg_view it lt dir sg) (sg_view it' lt' dir sg') ∧ v_edge_count (sg_view it lt dir sg) = v_edge_count (sg_view it' lt' dir sg').
Proof.
  intros HA Hn Hid Hd H1 H2 H3 H4.
  destruct (into_static_dense it lt dir g ord A HA n Hn (λ n Hn, proj1 (Hid n Hn)) Hd H1 H2) as (sg & E1 & _ & R1 & M1 & C1 & _).
  destruct (into_static_dense it' lt' dir g ord A HA n Hn (λ n Hn, proj2 (Hid n Hn)) Hd H3 H4) as (sg' & E2 & _ & R2 & M2 & C2 & _).
  exists sg, sg'. split; [done|]. split; [done|]. split; [by exists A|]. by rewrite C1, C2.
Qed.

Definition wd_h : list (gop N N) := [OAddNode 0 (Some 9); OAddEdge 1 0 (Some 7); OAddEdge 1 2 None; OUpdateNodeLabel 2 (Some 3); OSetEdgeLabelId 1 2 (Some 0); OAddEdge 2 2 (Some 8)]%N.
Lemma wd_case (dir : bool) : ∃ rs (g : graphmap N N), gm_run dir TU8 wd_h gm_new = Ok (rs, g) ∧
  labels_fit TU8 (g_nlm g) ∧ labels_fit TU8 (g_elm g) ∧ labels_fit TU32 (g_nlm g) ∧ labels_fit TU32 (g_elm g) ∧ g_nlm g = [9; 3]%N ∧ g_elm g = [7; 8]%N ∧ g_nedges g = 3.
Proof. destruct dir; do 2 eexists; (split; [vm_compute; reflexivity|]); split_and!; vm_compute; done. Qed.
Lemma wd_static_case (dir : bool) : ∃ (g : graphmap N N) ord A, represents (gm_view dir ord g) A ∧ a_has_node A 1%N ∧
  (∀ n, a_has_node A n → (n < id_max TU8)%N ∧ (n < id_max TU16)%N) ∧ (∀ n m, a_has_node A n → (m < n)%N → a_has_node A m) ∧
  length (g_nlm g) = 2 ∧ length (g_elm g) = 2 ∧ a_num_edges A = 3.
Proof.
  set (h := [OAddNode 0 (Some 9); OAddEdge 1 0 (Some 7); OAddEdge 1 2 None; OUpdateNodeLabel 2 (Some 3); OAddEdge 2 2 (Some 8)]%N : list (gop N N)).
  assert (fits_u8 dir h) as Hf by (destruct dir; vm_compute; lia). destruct (run_view_all dir h Hf) as (HV & _).
  assert (∀ n, a_has_node (sp_g (run_spec dir h)) n → n = 0 ∨ n = 1 ∨ n = 2)%N as Hn.
  { intros n [l Hl%elem_of_map_to_list]. assert ((n, l) ∈ [(0, Some 9); (1, None); (2, Some 3)]%N) as Hin.
    { assert (map_to_list (ag_nodes (sp_g (run_spec dir h))) ≡ₚ [(0, Some 9); (1, None); (2, Some 3)]%N) as <-; [|exact Hl].
      apply (bool_decide_unpack _). destruct dir; vm_compute; exact I. }
    rewrite !elem_of_cons, elem_of_nil in Hin. naive_solver. }
  assert (∀ n, (n = 0 ∨ n = 1 ∨ n = 2)%N → a_has_node (sp_g (run_spec dir h)) n) as Hn'.
  { intros n [-> |[-> | ->]]; destruct dir; vm_compute; eexists; reflexivity. }
  eexists (run_gm dir h), _, (sp_g (run_spec dir h)). split; [exact HV|]. split; [apply Hn'; lia|].
  split; [intros n H%Hn; cbn; lia|]. split; [intros n m H%Hn Hm; apply Hn'; lia|]. split_and!; destruct dir; vm_compute; reflexivity.
Qed.
Definition wd_F : csvfs := <["e" := [edge_header; ["1"; "20"; "7"]; ["+3"; "x"; ""]; ["1"; "+002"; ""]]]> (<["n" := [node_header; ["1"; "5"]; ["seven"; "5"]]]> ∅)%string.
Definition cell_ok (c : string) : bool :=
  match (match c with String "+"%char s => s | _ => c end) with
  | EmptyString => true
  | s => match parse_digits 0 s with Some x => (x <=? 255)%N | None => true end
  end.
Lemma cell_ok_fits c : cell_ok c = true → cell_fits TU8 c ∧ cell_fits TUsize c.
Proof.
  unfold cell_ok, cell_fits, parse_uint. destruct (match c with String "+"%char s => s | _ => c end) as [|a s]; [done|].
  destruct (parse_digits 0 (String a s)) as [x|]; cbn [mbind option_bind]; [|done]. intros Hx%N.leb_le.
  split; intros max y; case_decide; intros [= <-]; cbn; lia.
Qed.
Lemma wd_csv_case (dir : bool) : (∀ p t r c, wd_F !! p = Some t → r ∈ t → c ∈ r → cell_fits TU8 c ∧ cell_fits TUsize c) ∧
  ∃ g : graphmap N N, csv_read dir TU8 TU8 (t_id TU32) (t_id TU32) (Reader (Some "n"%string) "e" true false) wd_F gm_new = Ok (g, true) ∧
  labels_fit TU8 (g_nlm g) ∧ labels_fit TU8 (g_elm g) ∧ labels_fit TU16 (g_nlm g) ∧ labels_fit TU16 (g_elm g) ∧ gm_node_count g = 3 ∧ g_nedges g = 2.
Proof.
  split.
  - intros p t r c Hp Hr Hcr. apply cell_ok_fits. assert (forallb (forallb (forallb cell_ok)) (map_to_list wd_F).*2 = true) as HF by (vm_compute; reflexivity).
    rewrite forallb_forall in HF. assert (t ∈ (map_to_list wd_F).*2) as Ht.
    { apply elem_of_list_fmap. exists (p, t). split; [done|]. by apply elem_of_map_to_list. }
    specialize (HF t (proj1 (elem_of_list_In _ _) Ht)). rewrite forallb_forall in HF. specialize (HF r (proj1 (elem_of_list_In _ _) Hr)).
    rewrite forallb_forall in HF. exact (HF c (proj1 (elem_of_list_In _ _) Hcr)).
  - destruct dir; eexists; (split; [vm_compute; reflexivity|]); split_and!; vm_compute; done.
Qed.
(** A type too narrow for an id drops the row. *)
Lemma wd_csv_narrow : let F := {["e"%string := [edge_header; ["1"; "2"; ""]; ["1"; "300"; ""]]%string]} in let R := Reader None "e"%string true false in
  rmap (λ p, gm_edge_count p.1) (csv_read false TU16 TU8 (t_id TU8) (t_id TU8) R F (gm_new : graphmap N N)) = Ok 2 ∧
  rmap (λ p, gm_edge_count p.1) (csv_read false TU8 TU8 (t_id TU8) (t_id TU8) R F (gm_new : graphmap N N)) = Ok 1.
Proof. split; vm_compute; reflexivity. Qed.
Definition ld_g (dir : bool) : graphmap string string := match read_ldbc dir TU8 dir_ex with Ok g => g | _ => gm_new end.
Lemma ids_below {NL EL} (g : graphmap NL EL) b : forallb (λ x, (x <? b)%N) (map_to_list (g_nodes g)).*1 = true → ∀ x, gm_has_node g x = true → (x < b)%N.
Proof.
  intros HF x [n Hn]%bool_decide_eq_true. apply N.ltb_lt. rewrite forallb_forall in HF. apply HF. apply elem_of_list_In, elem_of_list_fmap.
  exists (x, n). split; [done|]. by apply elem_of_map_to_list.
Qed.
Lemma wd_ldbc_case (dir : bool) : ∃ g, read_ldbc dir TU8 dir_ex = Ok g ∧ gm_node_count g = 5 ∧
  labels_fit TU8 (g_nlm g) ∧ labels_fit TU8 (g_elm g) ∧ labels_fit TU32 (g_nlm g) ∧ labels_fit TU32 (g_elm g) ∧ (∀ x, gm_has_node g x = true → (x < id_card TU32)%N).
Proof.
  exists (ld_g dir). split; [destruct dir; vm_compute; reflexivity|]. split; [destruct dir; vm_compute; reflexivity|].
  split; [destruct dir; vm_compute; done|]. split; [destruct dir; vm_compute; done|]. split; [destruct dir; vm_compute; done|]. split; [destruct dir; vm_compute; done|].
  apply ids_below. destruct dir; vm_compute; reflexivity.
Qed.
Lemma ldbc_width_thm (dir : bool) it it' files g : it ≠ TUnit → it' ≠ TUnit → read_ldbc dir it files = Ok g →
  labels_fit it (g_nlm g) → labels_fit it (g_elm g) → labels_fit it' (g_nlm g) → labels_fit it' (g_elm g) →
  (∀ x, gm_has_node g x = true → (x < id_card it')%N) → read_ldbc dir it' files = Ok g.
Proof.
  intros H1 H2 E F1 F2 F3 F4 Hx. apply (ldbc_width dir it it' H1 H2); [done|]. split; [by split|]. intros x Hh. apply Hx. by apply bool_decide_eq_true_2.
Qed.
