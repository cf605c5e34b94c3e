(** C62 for any two prefixes. *)
From stdpp Require Import gmap strings.
From Verif Require Import Base Api Bytes Map GraphMap Static Serde Mmap SpecMmap SpecStore SpecOverlap OverlapProps MmapWit.

(** ** C62. Between different prefixes a dump shows in one file of labels at most, when one prefix is the
    other one followed by _OUT or _IN. *)
Theorem C62_exact {NL EL NL' EL'} `{EqDecision NL, EqDecision EL, EqDecision NL', EqDecision EL'} (it lt it' lt' : idty)
  (cn : codec NL) (ce : codec EL) (cn' : codec NL') (ce' : codec EL') (g : sgraph NL' EL') p p' F : p ≠ p' →
  mm_open it lt cn ce (sg_dump_mmap it' lt' cn' ce' g p' F) p =
  mm_open it lt cn ce (match overlap g p p' with Some (f, ls) => <[f := typed_bytes lt' ls]> F | None => F end) p.
Proof. exact (overlap_open it lt it' lt' cn ce cn' ce' g p p' F). Qed.
Print Assumptions C62_exact.
(** So a graph without labels can be dumped under any other prefix. *)
Theorem C62_unlabelled {NL EL NL' EL'} `{EqDecision NL, EqDecision EL, EqDecision NL', EqDecision EL'} (it lt it' lt' : idty)
  (cn : codec NL) (ce : codec EL) (cn' : codec NL') (ce' : codec EL') (g : sgraph NL' EL') p p' F : p ≠ p' →
  sg_labels g = None → ev_labels (sg_evec g) = [] → (∀ e, sg_in g = Some e → ev_labels e = []) →
  mm_open it lt cn ce (sg_dump_mmap it' lt' cn' ce' g p' F) p = mm_open it lt cn ce F p.
Proof. exact (overlap_none it lt it' lt' cn ce cn' ce' g p p' F). Qed.
Print Assumptions C62_unlabelled.
Example C62_exact_case :
  overlap wit_lab "g" "g_OUT" = Some ("g_OUT.labels", default [] (sg_labels wit_lab))%string ∧
  overlap wit_lab "g_OUT" "g" = Some ("g_OUT.labels", ev_labels (sg_evec wit_lab))%string ∧ overlap wit_und "g" "g_IN" = None ∧ overlap wit_lab "g" "h" = None ∧
  is_Some (sg_labels wit_lab) ∧ ev_labels (sg_evec wit_lab) ≠ [] ∧ sg_labels wit_und = None ∧ ev_labels (sg_evec wit_und) = [] ∧ sg_in wit_und = None.
Proof. exact overlap_case. Qed.
