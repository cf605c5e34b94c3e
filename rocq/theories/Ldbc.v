(** Model of src/io/ldbc/{node,relation,scheme,mod}.rs.

    A directory is the list of its files, name and records, in the order of fs::read_dir. The
    text layer of the csv crate is abstracted as in Csv.v. File names are ASCII (the character
    classes of the regex crate are Unicode). The graph is a TypedGraphMap<Id, String, String, Ty>,
    whose label ids have the type Id. *)
From Coq Require Import Ascii.
From stdpp Require Import gmap strings.
From Verif Require Import Base Api Map GraphMap Csv.

(** ** File names *)
(** [_\d]*.csv at the beginning of the string: the loop may stop anywhere; the dot is any
    character but a newline; nothing anchors the end. *)
Definition is_digit_or_underscore (c : ascii) : bool :=
  let x := N_of_ascii c in bool_decide (48 ≤ x ∧ x ≤ 57)%N || bool_decide (x = 95)%N.
Definition dot_csv (s : string) : bool :=
  match s with
  | String c (String "c" (String "s" (String "v" _))) => negb (bool_decide (c = "010"%char))
  | _ => false
  end.
Fixpoint star_csv (s : string) : bool :=
  dot_csv s || match s with
               | String c s => is_digit_or_underscore c && star_csv s
               | EmptyString => false
               end.
(** The literal part of the pattern; it has letters and underscores only. *)
Fixpoint strip_literal (lit s : string) : option string :=
  match lit with
  | EmptyString => Some s
  | String c lit =>
      match s with
      | String c' s => if decide (c = c') then strip_literal lit s else None
      | EmptyString => None
      end
  end.
Definition match_here (lit s : string) : bool :=
  match strip_literal lit s with Some s => star_csv s | None => false end.
(** Regex::is_match without ^: at any position. *)
Fixpoint match_anywhere (lit s : string) : bool :=
  match_here lit s || match s with String _ s => match_anywhere lit s | EmptyString => false end.

(** ** Node and Relation *)
(** node.rs l.29-35. *)
Record ldbc_node := LNode { ln_name : string; ln_id : nat; ln_label : nat; ln_file : string }.
(** Node::is_match, node.rs l.43 and l.48: anchored at the start. *)
Definition ln_match (nd : ldbc_node) (name : string) : bool := match_here (ln_file nd) name.
(** relation.rs l.29-37. *)
Record ldbc_relation := LRel { lr_start : string; lr_target : string; lr_edge : string;
  lr_start_id : nat; lr_target_id : nat; lr_file : string }.
(** Relation::is_match, relation.rs l.54 and l.60: not anchored. *)
Definition lr_match (rl : ldbc_relation) (name : string) : bool := match_anywhere (lr_file rl) name.

Section ldbc.
  Context (dir : bool) (it : idty).
  Notation graph := (graphmap string string).
  (** The graph and node_id_map. *)
  Notation state := (graph * gmap string N)%type.
  (** record[i] panics when there is no such field. *)
  Definition field (r : row) (i : nat) : res string := unwrap (r !! i).
  (** The closures of or_insert_with, node.rs l.62, relation.rs l.77 and l.88. *)
  Definition next_id (g : graph) : res N :=
    match gm_max_seen_id g with
    | Some i => id_incr it i
    | None => Ok 0%N
    end.
  (** Node::add_node, node.rs l.54-71. *)
  Definition ldbc_add_node (nd : ldbc_node) (r : row) (st : state) : res state :=
    let '(g, m) := st in
    let* f := field r (ln_id nd) in
    let key := (ln_name nd +:+ f)%string in
    let* '(id, m) := match m !! key with
                     | Some id => Ok (id, m)
                     | None => let* id := next_id g in Ok (id, <[key := id]> m)
                     end in
    let* l := field r (ln_label nd) in
    let* g := rmap snd (gm_add_node it id (Some l) g) in
    Ok (g, m).
  (** node_id_map.entry(key).or_insert_with(...) of relation.rs l.76-85 and l.87-96. *)
  Definition entry_or_add (key label : string) (st : state) : res (N * state) :=
    let '(g, m) := st in
    match m !! key with
    | Some id => Ok (id, (g, m))
    | None =>
        let* id := next_id g in
        let* g := rmap snd (gm_add_node it id (Some label) g) in
        Ok (id, (g, <[key := id]> m))
    end.
  (** Relation::add_edge, relation.rs l.66-98. *)
  Definition ldbc_add_edge (rl : ldbc_relation) (r : row) (st : state) : res state :=
    let* fs := field r (lr_start_id rl) in
    let* ft := field r (lr_target_id rl) in
    let* '(x, st) := entry_or_add (lr_start rl +:+ fs)%string (lr_start rl) st in
    let* '(y, st) := entry_or_add (lr_target rl +:+ ft)%string (lr_target rl) st in
    let '(g, m) := st in
    let* g := rmap snd (gm_add_edge dir it x y (Some (lr_edge rl)) g) in
    Ok (g, m).

  (** ** Scheme *)
  Record scheme := Scheme { sc_nodes : list ldbc_node; sc_relations : list ldbc_relation }.
  (** rdr.records() with the default header row and no flexible records; None is Err. *)
  Definition records (t : table) : list (option row) :=
    match t with [] => [] | h :: t => read_rows false (Some (length h)) t end.
  (** [for result in rdr.records() { f(result?) }]: None is the early return of an error. *)
  Definition each_record (f : row → state → res state) (t : table) (st : option state) : res (option state) :=
    rfold (λ st r, match st, r with
                   | Some st, Some r => rmap Some (f r st)
                   | _, _ => Ok None
                   end) (records t) st.
  Definition each_file (matches : string → bool) (f : row → state → res state)
      (files : list (string * table)) (st : option state) : res (option state) :=
    rfold (λ st p, if matches p.1 then each_record f p.2 st else Ok st) files st.
  (** from_path, scheme.rs l.193-253. None is Err. *)
  Definition from_path (S : scheme) (files : list (string * table)) : res (option graph) :=
    let* st := rfold (λ st nd, each_file (ln_match nd) (ldbc_add_node nd) files st) (sc_nodes S) (Some (gm_new, ∅)) in
    let* st := rfold (λ st rl, each_file (lr_match rl) (ldbc_add_edge rl) files st) (sc_relations S) st in
    Ok (fst <$> st).
End ldbc.
(** Scheme::init, scheme.rs l.41-191. *)
Definition scheme_init : scheme := Scheme
  [ LNode "organisation" 0 1 "organisation_"; LNode "place" 0 3 "place_" ]
  [ LRel "comment" "person" "hasCreator" 0 1 "comment_hasCreator_person_";
    LRel "comment" "tag" "hasTag" 0 1 "comment_hasTag_tag_";
    LRel "comment" "place" "isLocatedIn" 0 1 "comment_isLocatedIn_place_";
    LRel "comment" "comment" "replyOf" 0 1 "comment_replyOf_comment_";
    LRel "comment" "post" "replyOf" 0 1 "comment_replyOf_post_";
    LRel "forum" "post" "containerOf" 0 1 "forum_containerOf_post_";
    LRel "forum" "post" "containerOf" 0 1 "forum_containerOf_post_";
    LRel "forum" "person" "hasMember" 0 1 "forum_hasMember_person_";
    LRel "forum" "person" "hasModerator" 0 1 "forum_hasModerator_person_";
    LRel "forum" "person" "hasModerator" 0 1 "forum_hasModerator_person_";
    LRel "forum" "tag" "hasTag" 0 1 "forum_hasTag_tag_";
    LRel "organisation" "place" "isLocatedIn" 0 1 "organisation_isLocatedIn_place_";
    LRel "person" "tag" "hasInterest" 0 1 "person_hasInterest_tag_";
    LRel "person" "place" "isLocatedIn" 0 1 "person_isLocatedIn_place_";
    LRel "person" "person" "knows" 0 1 "person_knows_person_";
    LRel "person" "comment" "likes" 0 1 "person_likes_comment_";
    LRel "person" "post" "likes" 0 1 "person_likes_post_";
    LRel "person" "organisation" "studyAt" 0 1 "person_studyAt_organisation_";
    LRel "person" "organisation" "workAt" 0 1 "person_workAt_organisation_";
    LRel "place" "place" "isPartOf" 0 1 "place_isPartOf_place_";
    LRel "post" "person" "hasCreator" 0 1 "post_hasCreator_person_";
    LRel "post" "tag" "hasTag" 0 1 "post_hasTag_tag_";
    LRel "post" "place" "isLocatedIn" 0 1 "post_isLocatedIn_place_";
    LRel "tag" "tagclass" "hasType" 0 1 "tag_hasType_tagclass_";
    LRel "tagclass" "tagclass" "isSubclassOf" 0 1 "tagclass_isSubclassOf_tagclass_" ].
(** read_ldbc_from_path, mod.rs l.31-35: unwrap of the result. *)
Definition read_ldbc (dir : bool) (it : idty) (files : list (string * table)) : res (graphmap string string) :=
  let* g := from_path dir it scheme_init files in unwrap g.
