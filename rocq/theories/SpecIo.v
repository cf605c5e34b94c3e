(** Specification vocabulary for input/output errors. *)
From Verif Require Import Base IoFail.

(** No call of the operating system fails; it may still take only a part of the bytes. *)
Definition calm (w : world) : Prop := ∀ i, w i ≠ IoErr.
(** The files can be created, but no byte can be written: a full disk. [created] numbers the
    calls that create files. *)
Definition full_disk (created : list nat) : world := λ i, if decide (i ∈ created) then IoAll else IoErr.
