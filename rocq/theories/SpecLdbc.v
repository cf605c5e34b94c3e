(** Specification vocabulary for LDBC directories. *)
From Coq Require Import Ascii.
From stdpp Require Import gmap strings.
From Verif Require Import Base Api Spec Csv Ldbc.

(** An entity: its type and its id within the type. *)
Notation entity := (string * string)%type.
(** What a record says: an entity and its label, or a relation between two entities. *)
Inductive fact := FNode (e : entity) (label : string) | FEdge (s t : entity) (label : string).

(** The entities that a fact names. *)
Definition names (f : fact) : list entity := match f with FNode e _ => [e] | FEdge s t _ => [s; t] end.
Definition entities (fs : list fact) : list entity := fs ≫= names.
(** The label of an entity: that of its last node record, or its type if it has none. *)
Definition entity_label (fs : list fact) (e : entity) : string :=
  default e.1 (last (omap (λ f, match f with FNode e' l => if decide (e' = e) then Some l else None | _ => None end) fs)).
(** The label of the last relation between two entities. *)
Definition joins (dir : bool) (s t : entity) (f : fact) : option string :=
  match f with
  | FEdge s' t' l => if decide ((s', t') = (s, t) ∨ dir = false ∧ (s', t') = (t, s)) then Some l else None
  | _ => None
  end.
Definition relation_label (dir : bool) (fs : list fact) (s t : entity) : option string := last (omap (joins dir s t) fs).
(** The relations. *)
Definition relations (fs : list fact) : list (entity * entity) :=
  omap (λ f, match f with FEdge s t _ => Some (s, t) | _ => None end) fs.
Definition node_labels (fs : list fact) : list string :=
  fs ≫= λ f, match f with FNode e l => [l] | FEdge s t _ => [s.1; t.1] end.
Definition edge_labels (fs : list fact) : list string := omap (λ f, match f with FEdge _ _ l => Some l | _ => None end) fs.

(** One node per entity: [seen] lists the entities, each once; the node of [seen !! i] is [i]. *)
Record import_of (dir : bool) (fs : list fact) (seen : list entity) (A : agraph string string) : Prop := {
  io_dir : ag_dir A = dir;
  io_seen : NoDup seen;
  io_entities : ∀ e, e ∈ seen ↔ e ∈ entities fs;
  io_nodes : ∀ n, a_has_node A n ↔ (n < N.of_nat (length seen))%N;
  io_node_label : ∀ i e, seen !! i = Some e → ag_nodes A !! N.of_nat i = Some (Some (entity_label fs e));
  io_edges : ∀ i j s t, seen !! i = Some s → seen !! j = Some t →
    a_edge_at A (N.of_nat i) (N.of_nat j) = Some <$> relation_label dir fs s t;
}.

(** Different entities have different texts type ++ id. *)
Definition unambiguous (fs : list fact) : Prop :=
  ∀ e e', e ∈ entities fs → e' ∈ entities fs → (e.1 +:+ e.2)%string = (e'.1 +:+ e'.2)%string → e = e'.

(** The facts of a directory; None when a row has a wrong number of fields or lacks a field
    that is needed. *)
Definition table_facts (fact_of : row → option fact) (t : table) : option (list fact) :=
  match t with
  | [] => Some []
  | h :: t => mapM (λ r, if decide (length r = length h) then fact_of r else None) t
  end.
Definition node_fact (nd : ldbc_node) (r : row) : option fact :=
  i ← r !! ln_id nd; l ← r !! ln_label nd; Some (FNode (ln_name nd, i) l).
Definition edge_fact (rl : ldbc_relation) (r : row) : option fact :=
  i ← r !! lr_start_id rl; j ← r !! lr_target_id rl; Some (FEdge (lr_start rl, i) (lr_target rl, j) (lr_edge rl)).
Definition files_facts (matches : string → bool) (fact_of : row → option fact) (files : list (string * table)) : option (list fact) :=
  mjoin <$> mapM (λ p : string * table, if matches p.1 then table_facts fact_of p.2 else Some []) files.
Definition directory_facts (S : scheme) (files : list (string * table)) : option (list fact) :=
  ns ← mapM (λ nd, files_facts (ln_match nd) (node_fact nd) files) (sc_nodes S);
  es ← mapM (λ rl, files_facts (lr_match rl) (edge_fact rl) files) (sc_relations S);
  Some (mjoin ns ++ mjoin es).

(** Two records of the same relation (in an undirected graph, in either direction). *)
Definition repeated (dir : bool) (l : list (entity * entity)) : Prop :=
  ∃ i j p q, i < j ∧ l !! i = Some p ∧ l !! j = Some q ∧ (p = q ∨ dir = false ∧ p = (q.2, q.1)).
(** A text that begins with a digit. *)
Definition numeric (s : string) : Prop := ∃ c s', s = String c s' ∧ (48 ≤ N_of_ascii c ≤ 57)%N.
(** File names: digits and underscores, any character but a newline, "csv", and anything. *)
Fixpoint digits_underscores (s : string) : Prop :=
  match s with
  | EmptyString => True
  | String c s => ((48 ≤ N_of_ascii c ≤ 57)%N ∨ c = "_"%char) ∧ digits_underscores s
  end.
Definition csv_ending (s : string) : Prop :=
  ∃ ds c rest, s = (ds +:+ String c ("csv" +:+ rest))%string ∧ digits_underscores ds ∧ c ≠ "010"%char.
Definition node_file (prefix name : string) : Prop := ∃ s, name = (prefix +:+ s)%string ∧ csv_ending s.
Definition relation_file (part name : string) : Prop := ∃ before s, name = (before +:+ part +:+ s)%string ∧ csv_ending s.

(** The relations of the LDBC social network: start type, relation, target types. *)
Definition ldbc_schema : list (string * string * list string) :=
  [ ("comment", "hasCreator", ["person"]); ("comment", "hasTag", ["tag"]); ("comment", "isLocatedIn", ["place"]);
    ("comment", "replyOf", ["comment"; "post"]); ("forum", "containerOf", ["post"]); ("forum", "hasMember", ["person"]);
    ("forum", "hasModerator", ["person"]); ("forum", "hasTag", ["tag"]); ("organisation", "isLocatedIn", ["place"]);
    ("person", "hasInterest", ["tag"]); ("person", "isLocatedIn", ["place"]); ("person", "knows", ["person"]);
    ("person", "likes", ["comment"; "post"]); ("person", "studyAt", ["organisation"]); ("person", "workAt", ["organisation"]);
    ("place", "isPartOf", ["place"]); ("post", "hasCreator", ["person"]); ("post", "hasTag", ["tag"]);
    ("post", "isLocatedIn", ["place"]); ("tag", "hasType", ["tagclass"]); ("tagclass", "isSubclassOf", ["tagclass"]) ]%string.
Definition in_schema (s r t : string) : Prop := ∃ ts, (s, r, ts) ∈ ldbc_schema ∧ t ∈ ts.
