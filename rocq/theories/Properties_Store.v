(** A directory as a store of many dumped graphs (C122). *)
From stdpp Require Import gmap strings.
From Verif Require Import Base BaseFacts Api Bytes Spec SpecStatic Static Serde SpecSerde Mmap SpecMmap SpecLive SpecStore StoreProps SerdeFacts SerdeWit MmapWit StoreWit.

(** After any history of dumps under any prefixes, and of changes to other files, a prefix is
    opened as the last graph dumped under it, with each part that this graph lacks taken from
    the latest graph that had it. A prefix under which nothing was dumped does not open. *)
Theorem C122_open {NL EL} `{EqDecision NL, EqDecision EL} (it lt : idty) (cn : codec NL) (ce : codec EL) PN PE p (h : list (store_op NL EL)) F :
  faithful cn PN → faithful ce PE → fresh_prefix F p → uses_well it lt PN PE p h →
  mm_open it lt cn ce (store_run it lt cn ce F h) p = match pieced (dumps p h) with Some m => Ok m | None => Panic end.
Proof. intros Hcn Hce. exact (store_open it lt cn ce PN PE Hcn Hce p h F). Qed.
Print Assumptions C122_open.
Example C122_open_case : (∀ p, p ∈ ["a"; "b"; "c"]%string → fresh_prefix ∅ p ∧ uses_well TU8 TU8 is_string is_string p wit_store) ∧
  (∃ m, pieced (dumps "a" wit_store) = Some m ∧ sg_in m = sg_in wit_sg ∧ ev_edges (sg_evec m) = ev_edges (sg_evec wit_und)) ∧
  pieced (dumps "b" wit_store) = Some wit_lab ∧ pieced (dumps "c" wit_store) = Some wit_und ∧ pieced (dumps "d" wit_store) = None.
Proof. split; [|exact wit_store_open]. intros p Hp. exact (conj (empty_fresh p) (wit_store_well p Hp)). Qed.

(** When no graph dumped under the prefix has a part that the last one lacks, the prefix is
    opened as the last graph. *)
Theorem C122_last {NL EL} `{EqDecision NL, EqDecision EL} (it lt : idty) (cn : codec NL) (ce : codec EL) PN PE p (h : list (store_op NL EL)) F g dir :
  faithful cn PN → faithful ce PE → fresh_prefix F p → uses_well it lt PN PE p h →
  last (dumps p h) = Some g → mappable it lt PN PE dir g → (∀ g', g' ∈ dumps p h → no_more_parts g' g) →
  ∃ m, mm_open it lt cn ce (store_run it lt cn ce F h) p = Ok m ∧ same_answers (sg_view it lt dir g) (mm_view it lt m).
Proof. intros Hcn Hce. exact (store_last it lt cn ce PN PE Hcn Hce p h F g dir). Qed.
Print Assumptions C122_last.
Example C122_last_case : last (dumps "b" wit_store) = Some wit_lab ∧ mappable TU8 TU8 is_string is_string false wit_lab ∧
  no_more_parts wit_lab wit_lab ∧ no_more_parts wit_und wit_lab.
Proof. exact (conj eq_refl (conj wit_lab_mappable (conj (λ _ _ H, H) und_in_lab))). Qed.

(** What a prefix opens as depends only on the graphs dumped under it: not on the other
    prefixes and files, nor on how the dumps were interleaved with theirs. *)
Theorem C122_alone {NL EL} `{EqDecision NL, EqDecision EL} (it lt : idty) (cn : codec NL) (ce : codec EL) PN PE p
  (h h' : list (store_op NL EL)) F F' :
  faithful cn PN → faithful ce PE → fresh_prefix F p → fresh_prefix F' p → uses_well it lt PN PE p h → uses_well it lt PN PE p h' →
  dumps p h = dumps p h' →
  mm_open it lt cn ce (store_run it lt cn ce F h) p = mm_open it lt cn ce (store_run it lt cn ce F' h') p.
Proof. intros Hcn Hce. exact (store_two it lt cn ce PN PE Hcn Hce h h' F F' p). Qed.
Print Assumptions C122_alone.
Example C122_alone_case : dumps "a" wit_store = dumps "a" [SDump "a" wit_sg; SDump "a" wit_und] ∧ dumps "b" wit_store = [wit_lab; wit_lab].
Proof. done. Qed.

(** A dump with all the parts leaves no trace of an earlier dump under the same prefix; dumping
    a graph again changes nothing. *)
Theorem C122_overwrites {NL EL} `{EqDecision NL, EqDecision EL} (it lt : idty) (cn : codec NL) (ce : codec EL) (g g' : sgraph NL EL) p F :
  no_more_parts g g' → sg_dump_mmap it lt cn ce g' p (sg_dump_mmap it lt cn ce g p F) = sg_dump_mmap it lt cn ce g' p F.
Proof. exact (dump_dump it lt cn ce g g' p F). Qed.
Print Assumptions C122_overwrites.
Example C122_overwrites_case : no_more_parts wit_und wit_lab ∧ no_more_parts wit_sg wit_sg.
Proof. exact (conj und_in_lab (λ _ _ H, H)). Qed.

(** Dumps under prefixes that are apart can be swapped. *)
Theorem C122_swap {NL EL NL' EL'} `{EqDecision NL, EqDecision EL, EqDecision NL', EqDecision EL'} (it lt it' lt' : idty)
  (cn : codec NL) (ce : codec EL) (cn' : codec NL') (ce' : codec EL') (g : sgraph NL EL) (g' : sgraph NL' EL') p p' F : apart p p' →
  sg_dump_mmap it lt cn ce g p (sg_dump_mmap it' lt' cn' ce' g' p' F) = sg_dump_mmap it' lt' cn' ce' g' p' (sg_dump_mmap it lt cn ce g p F).
Proof. exact (dump_swap it lt cn ce it' lt' cn' ce' g g' p p' F). Qed.
Print Assumptions C122_swap.
Example C122_swap_case : apart "a" "b" ∧ w_dump wit_und "a" ∅ ≠ ∅.
Proof.
  split; [done|]. intros E. assert ((w_dump wit_und "a" ∅ : fs) !! "a_aux.bin"%string = None) as H by (by rewrite E). revert H. by vm_compute.
Qed.
