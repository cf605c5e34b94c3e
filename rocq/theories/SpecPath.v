(** Paths. *)
From Coq Require Import Ascii.
From stdpp Require Import strings.

Definition proper_name (name : string) : Prop := "/"%char ∉ list_ascii_of_string name ∧ name ≠ ""%string ∧ name ≠ "."%string.
(** [file_name path name]: [name] is the last component of [path]. *)
Inductive file_name : string → string → Prop :=
  | fn_plain name : proper_name name → file_name name name
  | fn_in dir name : proper_name name → file_name (dir +:+ "/" +:+ name) name
  | fn_slash path name : file_name path name → file_name (path +:+ "/") name
  | fn_dot path name : file_name (path +:+ "/") name → file_name (path +:+ "/" +:+ ".") name
  | fn_root : file_name "/" "/"
  | fn_here : file_name "." ".".
Definition absolute (path : string) : Prop := ∃ rest, path = ("/" +:+ rest)%string.
(** [in_dir dir file path]: [path] is [file] in [dir]. *)
Inductive in_dir (dir file : string) : string → Prop :=
  | id_absolute : absolute file → in_dir dir file file
  | id_direct : ¬ absolute file → dir = ""%string ∨ (∃ d, dir = (d +:+ "/")%string) → in_dir dir file (dir +:+ file)
  | id_slash : ¬ absolute file → dir ≠ ""%string → (∀ d, dir ≠ (d +:+ "/")%string) → in_dir dir file (dir +:+ "/" +:+ file).
