(** Concrete cases for the theorems about a directory that holds many dumps. *)
From stdpp Require Import gmap strings.
From Verif Require Import Base BaseFacts Api Bytes Spec SpecStatic Static Serde SpecSerde SerdeFacts Mmap SpecMmap SerdeWit MmapWit SpecLive SpecStore StoreProps.

(** Three prefixes, one of them used twice. *)
Definition wit_store : list (store_op (list N) (list N)) :=
  [SDump "a" wit_sg; SDump "b" wit_lab; SFile (FCreate "notes"); SDump "a" wit_und; SFile (FWrite "notes" [1; 2]%N); SDump "c" wit_und; SDump "b" wit_lab].
Lemma wit_store_well p : p ∈ ["a"; "b"; "c"]%string → uses_well TU8 TU8 w_labels w_labels p wit_store.
Proof.
  intros Hp o Ho. pose proof wit_sg_mappable. pose proof wit_und_mappable. pose proof wit_lab_mappable. unfold wit_store in Ho.
  repeat (apply elem_of_cons in Hp as [->|Hp]; [repeat (apply elem_of_cons in Ho as [->|Ho]; [first [left; split; [done|by eexists]|right; done|apply (bool_decide_unpack _); by vm_compute]|]);
    by apply elem_of_nil in Ho|]). by apply elem_of_nil in Hp.
Qed.
Lemma wit_store_dumps : dumps "a" wit_store = [wit_sg; wit_und] ∧ dumps "b" wit_store = [wit_lab; wit_lab] ∧ dumps "c" wit_store = [wit_und] ∧
  dumps "d" wit_store = [].
Proof. done. Qed.
(** The undirected graph under a has kept the in-edges of the older graph; those under b and c
    are as dumped. *)
Lemma wit_store_open : (∃ m, pieced (dumps "a" wit_store) = Some m ∧ sg_in m = sg_in wit_sg ∧ ev_edges (sg_evec m) = ev_edges (sg_evec wit_und)) ∧
  pieced (dumps "b" wit_store) = Some wit_lab ∧ pieced (dumps "c" wit_store) = Some wit_und ∧ pieced (dumps "d" wit_store) = None.
Proof. split; [by eexists|done]. Qed.
Lemma und_in_lab : no_more_parts wit_und wit_lab.
Proof.
  intros p f Hf.
  change (dump_parts wit_und p) with [(p +:+ "_OUT.offsets", true); (p +:+ "_OUT.edges", true); (p +:+ "_OUT.labels", false); (p +:+ "_IN.offsets", false);
    (p +:+ "_IN.edges", false); (p +:+ "_IN.labels", false); (p +:+ ".labels", false); (p +:+ "_aux.bin", true)] in Hf.
  repeat (apply elem_of_cons in Hf as [Hf|Hf]; [first [discriminate Hf|injection Hf as ->; unfold dump_parts; set_solver]|]). by apply elem_of_nil in Hf.
Qed.
