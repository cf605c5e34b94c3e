(** C97: builds with and without overflow checks. [b_*] (Release.v) are the calls with
    [checks = true] in a debug build and [checks = false] in a release build; with checks on
    they are the calls of the other files. *)
From stdpp Require Import gmap strings.
From Verif Require Import Base BaseFacts Api Spec Map GraphMap GraphMapWit Static StaticWit SpecConn ConnComp Csv Ldbc Release SpecRelease ReleaseProps.

(** ** C97. A GraphMap answers every history of calls alike in both builds, panics included. *)
Theorem C97_graphmap {NL EL} `{EqDecision NL, EqDecision EL} (checks dir : bool) (lt : idty) (h : list (gop NL EL)) (nls : list NL) (els : list EL) :
  NoDup nls → NoDup els →
  b_run checks dir lt h (gm_with_label_map nls els) = gm_run dir lt h (gm_with_label_map nls els).
Proof. exact (b_run_init checks dir lt h nls els). Qed.
Print Assumptions C97_graphmap.
Example C97_graphmap_case : ∃ rs g, b_run false true TU8 [OAddEdge 1 2 (Some 5); OAddEdge 1 2 None; ORemoveNode 2; ORemoveEdge 1 2]%N (@gm_with_label_map N N [] []) = Ok (rs, g) ∧
  g_nedges g = 1 ∧ b_run false true TU8 [OAddEdge 1 1 None; ORemoveNode 1]%N (@gm_with_label_map N N [] []) = Panic.
Proof. apply run_ok_ex. by vm_compute. Qed.
(** So does a ConnComp. *)
Theorem C97_conn_comp (checks : bool) (h : list ccop) : b_cc_run checks h cc_empty = cc_run h cc_empty.
Proof. exact (b_cc_same_empty checks h). Qed.
Print Assumptions C97_conn_comp.
Example C97_conn_comp_case : rmap cc_count (b_cc_run false [CEdge 1 2; CEdge 3 4; CEdge 2 3; CEdge 4 1]%N cc_empty) = Ok 1.
Proof. by vm_compute. Qed.
(** into_static does the same in both builds while the largest id of the type is unused. *)
Theorem C97_into_static {NL EL} (checks dir : bool) (it lt : idty) (g : graphmap NL EL) ord fuel :
  (∀ n, v_has_node (gm_view dir ord g) n = true → (n < id_max it)%N ∧ N.to_nat n < fuel) →
  b_into_static checks dir lt it fuel g = gm_into_static it lt dir g.
Proof.
  intros Hn. apply b_into_same; intros n H; apply (Hn n); cbn; unfold gm_has_node; by apply bool_decide_eq_true_2.
Qed.
Print Assumptions C97_into_static.
Example C97_into_static_case : ∃ g : graphmap N N, gm_reachable true TU8 g ∧ ∀ n, v_has_node (gm_view true [2; 1; 4]%N g) n = true → (n < id_max TU8)%N ∧ N.to_nat n < 5.
Proof.
  exists (wit_g true). split; [apply wit_g_reachable|]. intros n Hn. cbn in Hn. unfold gm_has_node in Hn. apply bool_decide_eq_true in Hn.
  destruct Hn as [x Hx]. revert n x Hx. change (map_Forall (λ n _, (n < id_max TU8)%N ∧ N.to_nat n < 5) (g_nodes (wit_g true))).
  apply (bool_decide_unpack _). by vm_compute.
Qed.
(** When it is used, the build with checks panics and the build without never returns: its
    loop is still running after any number of rounds. *)
Theorem C97_into_static_refuted {NL EL} (dir : bool) (it lt : idty) (g : graphmap NL EL) ord :
  (∀ n, v_has_node (gm_view dir ord g) n = true → (n ≤ id_max it)%N) → v_has_node (gm_view dir ord g) (id_max it) = true →
  (∀ fuel, b_into_static false dir lt it fuel g = NoFuel) ∧
  (it ≠ TUnit → ∀ fuel, N.to_nat (id_max it) < fuel → b_into_static true dir lt it fuel g = Panic).
Proof.
  intros Hn Hi. cbn in Hn, Hi. unfold gm_has_node in Hn, Hi. apply bool_decide_eq_true in Hi.
  assert (∀ n, is_Some (g_nodes g !! n) → (n ≤ id_max it)%N) as Hn' by (intros n H; apply Hn; by apply bool_decide_eq_true_2).
  split; [intros fuel; exact (b_into_forever dir lt it g fuel Hn' Hi)|]. intros Hu fuel Hf. exact (b_into_panic dir lt it g fuel Hu Hn' Hi Hf).
Qed.
Print Assumptions C97_into_static_refuted.
Example C97_into_static_refuted_case dir : ∃ (g : graphmap N N) ord A, gm_reachable dir TU8 g ∧ represents (gm_view dir ord g) A ∧
  (∀ n, a_has_node A n → (n ≤ id_max TU8)%N) ∧ a_has_node A (id_max TU8).
Proof. exact (st_max_case dir). Qed.
(** max_seen_id of a static graph: without nodes, a panic with checks and the largest id of the
    type without; otherwise the same. *)
Theorem C97_max_seen_id_refuted {NL EL} (it : idty) (g : sgraph NL EL) :
  b_max_seen_id true it g = sg_max_seen_id it g ∧
  b_max_seen_id false it g = if decide (sg_num_nodes g = 0) then Ok (Some (id_max it)) else sg_max_seen_id it g.
Proof. exact (b_max_seen it g). Qed.
Print Assumptions C97_max_seen_id_refuted.
Example C97_max_seen_case : ∃ g : sgraph N N, sg_new false (ev_new [0] []) None None None = Ok g ∧ sg_num_nodes g = 0 ∧ sg_max_seen_id TU8 g = Panic.
Proof. eexists. split; [by vm_compute|]. by vm_compute. Qed.
(** An LDBC import that has used up the ids: with checks the next new entity panics; without,
    every further entity becomes node 0, whatever their number. *)
Theorem C97_ldbc_refuted (it : idty) (nd : ldbc_node) (rs : list row) g m :
  it ≠ TUnit → all_used it g m → Forall (has_fields nd) rs →
  (∃ g' m', b_ldbc_add_nodes false it nd rs (g, m) = Ok (g', m') ∧
    gm_node_count g' = gm_node_count g ∧ (∀ x, gm_has_node g' x = gm_has_node g x) ∧
    (∀ k id, m !! k = Some id → m' !! k = Some id) ∧
    (∀ r k, r ∈ rs → key_of nd r = Some k → m !! k = None → m' !! k = Some 0%N)) ∧
  (∀ r k, key_of nd r = Some k → m !! k = None → b_ldbc_add_node true it nd r (g, m) = Panic ∧ ldbc_add_node it nd r (g, m) = Panic).
Proof.
  intros Hu Ha Hf. split; [exact (full_rows it nd rs g m Hu Ha Hf)|]. intros r k Hk Hno.
  pose proof (full_checked it nd r g m k Hu (proj1 Ha) Hk Hno) as H. split; [done|]. exact (eq_trans (eq_sym (b_ldbc_checked it nd r (g, m))) H).
Qed.
Print Assumptions C97_ldbc_refuted.
Example C97_ldbc_case : ∃ rs g, gm_run true TU8 [OAddNode 0 None; OAddNode 255 None]%N (@gm_with_label_map string string [] []) = Ok (rs, g) ∧
  all_used TU8 g ∅ ∧ Forall (has_fields (LNode "person" 0 1 "person")) [["7"; "A"]; ["8"; "B"]]%string ∧
  rmap (λ st, ((st.2 : gmap string N) !! "person7"%string, st.2 !! "person8"%string, gm_node_count st.1))
    (b_ldbc_add_nodes false TU8 (LNode "person" 0 1 "person") [["7"; "A"]; ["8"; "B"]]%string (g, ∅)) = Ok (Some 0%N, Some 0%N, 2).
Proof.
  eexists _, _. split; [by vm_compute|]. split_and!; [|repeat constructor; by eexists|by vm_compute].
  split_and!; [by vm_compute|by vm_compute|]. intros k id Hk. by rewrite lookup_empty in Hk.
Qed.
