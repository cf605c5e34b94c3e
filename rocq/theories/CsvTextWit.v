(** Concrete cases for the theorems about CSV files as text. *)
From Coq Require Import Ascii.
From stdpp Require Import gmap strings.
From Verif Require Import Base Csv CsvText SpecCsvText CsvTextProps.

Definition odd_table : table := [["a,b"; ""; String "034" "x"]; [""]; [""; String "010" (String "013" "")]; ["1"]]%string.
Definition some_lines : list (row * string) :=
  [(["a"; "b "]%string, String "013" (String "010" "")); ([""]%string, String "013" ""); (["1"; ""]%string, String "010" "")].
Lemma some_lines_case : usual "|" ∧ Forall (λ l, l.1 ≠ [] ∧ Forall (plain "|") l.1 ∧ line_end l.2) some_lines ∧ Forall (plain "|") ["7"; " x"; ""]%string ∧
  read_table "|" (lines "|" some_lines +:+ joined "|" ["7"; " x"; ""]%string) = [["a"; "b "]; ["1"; ""]; ["7"; " x"; ""]]%string.
Proof.
  split; [done|]. assert (∀ f, needs_quotes "|" f = false → plain "|" f) as H by (intros f; apply plain_needs).
  split; [|split; [|by vm_compute]].
  - unfold some_lines. rewrite !Forall_cons. cbn [fst snd]. rewrite !Forall_cons. unfold line_end. split_and!; first [by apply H|done|by constructor|tauto].
  - rewrite !Forall_cons. split_and!; first [by apply H|by constructor].
Qed.
