(** Model of io::read_from_csv (src/io/csv/mod.rs l.51-75) and of the programs in examples/.

    A program is a function from its arguments and the file system to the new file system; what
    it prints is left out. Graphs live in the byte file system [fs], CSV files in the record
    file system [csvfs] (Csv.v). DefaultId is u32, and so is the default label id type. *)
From Coq Require Import Ascii.
From stdpp Require Import gmap strings.
From Verif Require Import Base Api Bytes Map GraphMap Static Reorder Gen Serde Mmap Csv Ldbc Paths.

(** String: its bytes. *)
Definition c_text : codec string :=
  c_iso (λ s, N_of_ascii <$> list_ascii_of_string s) (λ b, string_of_list_ascii (ascii_of_N <$> b)) c_string.

(** read_from_csv, io/csv/mod.rs l.51-75. with_separator checks its argument; the separator
    itself belongs to the text layer. *)
Definition read_from_csv {NL EL} `{EqDecision NL, EqDecision EL} (dir : bool) (it lt : idty) (tn : text NL) (te : text EL)
    (nodes : option string) (edges : string) (separator : option string) (headers flexible : bool)
    (C : csvfs) (g : graphmap NL EL) : res (graphmap NL EL * bool) :=
  let* _ := (match separator with Some s => rmap Some (csv_separator s) | None => Ok None end) in
  csv_read dir it lt tn te (Reader nodes edges headers flexible) C g.

(** ** csv_to_static, examples/csv_to_static.rs *)
(** The command line, l.34-87. [ca_labels] is the option -l/--reorder_labels. *)
Record cs_args := CsArgs {
  ca_nodes : option string;
  ca_edges : string;
  ca_out : option string;
  ca_separator : option string;
  ca_headers : bool;
  ca_flexible : bool;
  ca_directed : bool;
  ca_reorder : bool;
  ca_labels : bool;
}.
(** matches.is_present(name): the names of the flags given. The option -l is declared as
    "reorded_label_id" (l.78); is_present of a name that was not declared is false (clap 2). *)
Definition cs_present (a : cs_args) (name : string) : bool :=
  bool_decide (name ∈ (if ca_headers a then ["has_headers"%string] else []) ++ (if ca_flexible a then ["is_flexible"%string] else []) ++
    (if ca_directed a then ["is_directed"%string] else []) ++ (if ca_reorder a then ["reorder_node_id"%string] else []) ++
    (if ca_labels a then ["reorded_label_id"%string] else [])).
(** l.84-136. [ord], [no], [eo]: iteration orders of the hash maps (Reorder.v). *)
Definition csv_to_static (a : cs_args) (ord no eo : list N) (C : csvfs) (F : fs) : res fs :=
  let out_file := default "graph.static"%string (ca_out a) in
  let is_directed := cs_present a "is_directed" in
  let has_headers := cs_present a "has_headers" in
  let is_flexible := cs_present a "is_flexible" in
  let reorder_node_id := cs_present a "reorder_node_id" in
  let reorder_label_id := cs_present a "reorder_label_id" in
  let* '(g, ok) := read_from_csv is_directed TU32 TU32 t_string t_string (ca_nodes a) (ca_edges a) (ca_separator a)
                     has_headers is_flexible C gm_new in
  if negb ok then Panic else
  let* R := gm_reorder_id is_directed TU32 TU32 ord no eo reorder_node_id reorder_label_id reorder_label_id g in
  let* g := unwrap (rr_take_graph R).1 in
  let* sg := gm_into_static TU32 TU32 is_directed g in
  Ok (export out_file (enc (c_sgraph TU32 TU32 c_text c_text) sg) F).

(** ** static_to_csv, examples/static_to_csv.rs l.32-59, and write_to_csv, io/csv/mod.rs l.33-49
    (with the default separator). In spite of its name the program reads a GraphMap. The output
    directory is created if missing; directories are not modelled. *)
Definition static_to_csv (in_file out_dir : string) (ord : list N) (F : fs) (C : csvfs) : res csvfs :=
  let* g := unwrap (import (c_graphmap TU32 TU32 c_text c_text ord) in_file F) in
  csv_write TU32 t_string t_string (gm_view false ord g) (path_join out_dir "nodes.csv") (path_join out_dir "edges.csv") C.

(** ** remove_labels, examples/remove_labels.rs l.29-40. Label types default to u32. *)
Notation c_u32_static := (c_sgraph TU32 TU32 (c_id TU32) (c_id TU32)).
Definition ex_remove_labels (in_file out_file : string) (F : fs) : res fs :=
  let* g := unwrap (import c_u32_static in_file F) in
  Ok (export out_file (enc c_u32_static (sg_remove_labels g)) F).

(** ** static_to_mmap, examples/static_to_mmap.rs l.28-56. Both branches do the same; the type
    differs. *)
Definition static_to_mmap (graph output : string) (F : fs) : res fs :=
  let* g := unwrap (import c_u32_static graph F) in
  Ok (sg_dump_mmap TU32 TU32 (c_id TU32) (c_id TU32) g output F).

(** ** stats, examples/stats.rs l.38-42: the largest degree. The label counters are those of
    ViewOps.v. *)
Definition max_degree {NL EL} (V : gview NL EL) : res nat :=
  let* ds := rmapl (v_degree V) (v_node_indices V) in
  unwrap (match ds with [] => None | d :: ds => Some (foldl max d ds) end).

(** ** vary_labels, examples/vary_labels.rs l.32-62 *)
(** l.45-48: for i in 11..15 { node_label_map.add_item(i) } *)
Definition vl_add_items (ls : list N) : res (list N) :=
  rfold (λ ls i, rmap snd (sm_add_item ls i)) [11; 12; 13; 14]%N ls.
(** l.52-58: the k-th draw decides about the k-th label. *)
Fixpoint vl_relabel (R : rng) (k : nat) (labels : list N) : list N :=
  match labels with
  | [] => []
  | l :: ls =>
      let '(r, k) := gen_range R k 15 in
      (if 10 <? r then N.of_nat r else l) :: vl_relabel R k ls
  end.
Definition vl_graph (R : rng) (g : sgraph N N) : res (sgraph N N) :=
  let g := sg_remove_edge_labels g in
  let* nlm := vl_add_items (sg_nlm g) in
  let* labels := unwrap (sg_labels g) in
  Ok (SGraph (sg_num_nodes g) (sg_num_edges g) (sg_evec g) (sg_in g) (Some (vl_relabel R 0 labels)) nlm (sg_elm g)).
Definition vary_labels (R : rng) (in_graph out_file : string) (F : fs) : res fs :=
  let* g := unwrap (import c_u32_static in_graph F) in
  let* g := vl_graph R g in
  Ok (export out_file (enc c_u32_static g) F).

(** ** vary_density, examples/vary_density.rs l.35-110 *)
Notation dgraph := (graphmap string string).
(** The inner loop, l.72-79: draw pairs until one is neither a loop nor an edge. [fuel] bounds
    the number of attempts; the program has no bound. The node ids are u32, so there are at most
    2^32 nodes; for exactly 2^32 the bound of gen_range would wrap to 0, which is left out. *)
Fixpoint vd_edge (fuel : nat) (R : rng) (n : nat) (k : nat) (g : dgraph) : res (nat * dgraph) :=
  match fuel with
  | O => NoFuel
  | S fuel =>
      let '(s, k) := gen_range R k n in
      let '(t, k) := gen_range R k n in
      let '(s, t) := (N.of_nat s, N.of_nat t) in
      if negb (bool_decide (s = t)) && negb (gm_has_edge g s t)
      then let* '(_, g) := gm_add_edge false TU32 s t None g in Ok (k, g)
      else vd_edge fuel R n k g
  end.
(** l.70-80: for _ in 0..i. *)
Fixpoint vd_edges (i fuel : nat) (R : rng) (n : nat) (st : nat * dgraph) : res (nat * dgraph) :=
  match i with
  | O => Ok st
  | S i => let* st := vd_edge fuel R n st.1 st.2 in vd_edges i fuel R n st
  end.
(** l.89-96. *)
Definition vd_path (file_name out_dir : string) (nodes edges d : nat) : string :=
  path_join out_dir (file_name +:+ "_" +:+ show_uint (N.of_nat nodes) +:+ "_" +:+ show_uint (N.of_nat edges) +:+ "_" +:+
    show_uint (N.of_nat d) +:+ ".graphmap")%string.
(** One iteration of the loop over the degrees, l.58-103. [num_of_nodes] and [num_of_edges] were
    read before the loop. [ord g] is the iteration order of the hash map of [g]. *)
Definition vd_step (fuel : nat) (R : rng) (ord : dgraph → list N) (in_graph out_dir : string) (num_of_nodes num_of_edges : nat)
    (st : (nat * dgraph) * fs) (d : nat) : res ((nat * dgraph) * fs) :=
  let target := d * num_of_nodes / 2 in
  if negb (num_of_edges <? target) then Panic else
  let* '(k, g) := vd_edges (target - num_of_edges) fuel R num_of_nodes st.1 in
  let* file_name := unwrap (last_component in_graph) in
  let path := vd_path file_name out_dir (gm_node_count g) (gm_edge_count g) d in
  Ok (k, g, export path (enc (c_graphmap TU32 TU32 c_text c_text (ord g)) g) st.2).
(** main. The division 2 * num_of_edges / num_of_nodes (l.55) panics for no nodes. *)
Definition vary_density (fuel : nat) (R : rng) (ord : dgraph → list N) (in_graph out_dir : string) (degrees : list nat) (F : fs) : res fs :=
  let* g := unwrap (import (c_graphmap TU32 TU32 c_text c_text []) in_graph F) in
  let num_of_nodes := gm_node_count g in
  let num_of_edges := gm_edge_count g in
  if decide (num_of_nodes = 0) then Panic else
  let* m := unwrap (g_max g) in
  let* k := usub num_of_nodes 1 in
  if decide (id_id m ≠ k) then Panic else
  rmap snd (rfold (vd_step fuel R ord in_graph out_dir num_of_nodes num_of_edges) degrees (0, g, F)).

(** ** ldbc_to_graphmap, examples/ldbc_to_graphmap.rs l.30-67. [files]: the files below the
    directory (Ldbc.v). *)
Definition ldbc_to_graphmap (ldbc_dir output_dir : string) (ord : dgraph → list N) (files : list (string * table)) (F : fs) : res fs :=
  let* g := read_ldbc false TU32 files in
  let* dir_name := unwrap (last_component ldbc_dir) in
  let path := path_join output_dir (dir_name +:+ "_" +:+ show_uint (N.of_nat (gm_node_count g)) +:+ "_" +:+
                show_uint (N.of_nat (gm_edge_count g)) +:+ ".graphmap")%string in
  Ok (export path (enc (c_graphmap TU32 TU32 c_text c_text (ord g)) g) F).
