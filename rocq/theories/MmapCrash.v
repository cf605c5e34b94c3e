(** What a dump that was interrupted, or that was written over another one, shows. *)
From stdpp Require Import gmap strings.
From Verif Require Import Base BaseFacts Api Bytes Spec SpecStatic Map GraphMap Static StaticFacts Serde SpecSerde SerdeFacts Mmap SpecMmap
  MmapFacts MmapProps MmapThms.

(** ** The files after a crash *)
Definition file_ops (x : string * list (list N)) : list fsop := FCreate x.1 :: (FWrite x.1 <$> x.2).
Definition whole (x : string * list (list N)) : string * list N := (x.1, concat x.2).
(** A prefix of the files is complete, at most one more has begun, the rest does not exist. *)
Fixpoint cut_files (F : fs) (L : list (string * list N)) : Prop :=
  match L with
  | [] => True
  | (f, b) :: L => (F !! f = Some b ∧ cut_files F L) ∨
      ((F !! f = None ∨ ∃ b', b' `prefix_of` b ∧ F !! f = Some b') ∧ Forall (λ x, F !! x.1 = None) L)
  end.
Lemma crash_app F a b F' : crash_state F (a ++ b) F' → crash_state F a F' ∨ crash_state (fs_run F a) b F'.
Proof.
  intros (dn & rest & Hops & Hst). destruct (app_eq_app _ _ _ _ Hops) as (l & [[Ha Hb]|[Ha Hb]]); subst.
  - destruct l as [|o l].
    + right. rewrite app_nil_r in *. exists [], b. split; [done|]. destruct Hst as [->|(f & b1 & b2 & r & Hr & Hp & ->)]; [by left|].
      right. exists f, b1, b2, r. cbn [app] in *. split; [done|]. split; [done|]. by rewrite run_app.
    + left. exists dn, (o :: l). split; [done|]. destruct Hst as [->|(f & b1 & b2 & r & Hr & Hp & ->)]; [by left|].
      right. injection Hr as -> <-. exists f, b1, b2, l. done.
  - right. exists l, rest. split; [done|]. destruct Hst as [->|(f & b1 & b2 & r & Hr & Hp & ->)].
    + left. by rewrite run_app.
    + right. exists f, b1, b2, r. by rewrite <-app_assoc, run_app.
Qed.
Lemma crash_one F x F' : crash_state F (file_ops x) F' → F' = F ∨ ∃ b', b' `prefix_of` concat x.2 ∧ F' = <[x.1 := b']> F.
Proof.
  destruct x as [f ws]. unfold file_ops. cbn [fst snd]. intros (dn & rest & Hops & Hst). destruct dn as [|o dn].
  - left. destruct Hst as [->|(f' & b & b' & r & Hr & _)]; [done|]. cbn [app] in Hops. by rewrite <-Hops in Hr.
  - injection Hops as <- Hops. right. apply fmap_app_inv in Hops as (w1 & w2 & -> & -> & ->).
    assert (∀ w, fs_run F (FCreate f :: (FWrite f <$> w)) = <[f := concat w]> F) as Hrun.
    { intros w. change (fs_run F (?o :: ?l)) with (fs_run (fs_step F o) l). cbn [fs_step]. rewrite writes_run. destruct w as [|w0 w]; [done|].
      rewrite lookup_insert, insert_insert. done. }
    destruct Hst as [->|(f' & b & b' & r & Hr & Hp & ->)].
    + exists (concat w1). split; [rewrite concat_app; by eexists|]. apply Hrun.
    + destruct w2 as [|b0 w2]; [done|]. injection Hr as -> -> <-. exists (concat (w1 ++ [b'])). split.
      * rewrite !concat_app. simpl. rewrite app_nil_r. apply prefix_app. by apply prefix_app_r.
      * rewrite <-Hrun, fmap_app. done.
Qed.
Lemma run_files F L : fs_run F (L ≫= file_ops) = put_files F (whole <$> L).
Proof.
  revert F. induction L as [|[f ws] L IH]; intros F; [done|]. rewrite bind_cons, run_app, IH. cbn [fmap list_fmap put_files foldl]. f_equal.
  unfold file_ops, whole. cbn [fst snd]. change (fs_run F (?o :: ?l)) with (fs_run (fs_step F o) l). cbn [fs_step]. rewrite writes_run.
  destruct ws as [|w ws]; [done|]. by rewrite lookup_insert, insert_insert.
Qed.
Lemma crash_cut F L F' : NoDup (L.*1) → (∀ f, f ∈ L.*1 → F !! f = None) → crash_state F (L ≫= file_ops) F' →
  cut_files F' (whole <$> L) ∧ ∀ f, f ∉ L.*1 → F' !! f = F !! f.
Proof.
  revert F. induction L as [|x L IH]; intros F Hnd Hf Hc.
  - split; [done|]. intros f _. destruct Hc as (dn & rest & Hops & Hst). cbn [mbind list_bind] in Hops. symmetry in Hops. apply app_eq_nil in Hops as [-> ->].
    by destruct Hst as [->|(? & ? & ? & ? & [=] & _)].
  - cbn [fmap list_fmap] in *. apply NoDup_cons in Hnd as [Hx Hnd]. rewrite bind_cons in Hc. apply crash_app in Hc as [Hc|Hc].
    + assert ((F' !! x.1 = None ∨ ∃ b', b' `prefix_of` concat x.2 ∧ F' !! x.1 = Some b') ∧ ∀ f, f ≠ x.1 → F' !! f = F !! f) as [H1 H2].
      { destruct (crash_one F x F' Hc) as [->|(b' & Hp & ->)].
        - split; [left; apply Hf; set_solver|done].
        - split; [right; exists b'; by rewrite lookup_insert|]. intros f Hne. by apply lookup_insert_ne. }
      split.
      * cbn [cut_files whole]. destruct x as [f ws]. cbn [fst snd] in *. right. split; [done|]. apply Forall_fmap, Forall_forall. intros [f' ws'] Hin.
        cbn [compose whole fst]. rewrite H2; [apply Hf; right; apply elem_of_list_fmap; by eexists (_, _)|]. intros ->. apply Hx.
        apply elem_of_list_fmap. by eexists (_, _).
      * intros f Hin. apply H2. set_solver.
    + rewrite <-(app_nil_r (file_ops x)) in Hc. change (file_ops x ++ []) with ([x] ≫= file_ops) in Hc. rewrite run_files in Hc.
      cbn [fmap list_fmap put_files foldl whole fst snd] in Hc.
      destruct (IH (<[x.1 := concat x.2]> F)) as [I1 I2]; [done| |done|].
      { intros f Hin. rewrite lookup_insert_ne; [apply Hf; set_solver|]. intros <-. done. }
      split.
      * cbn [cut_files whole]. left. destruct x as [f0 ws0]. cbn [fst snd] in *. split; [|done]. rewrite I2 by done. apply lookup_insert.
      * intros f Hin. rewrite I2 by set_solver. apply lookup_insert_ne. set_solver.
Qed.

(** ** Reading a file that was cut *)
Lemma raw_items_cut t l n c : Forall (in_type t) l → c * id_size t ≤ n → c ≤ length l →
  raw_items (id_size t) c (take n (typed_bytes t l)) = take c l.
Proof.
  revert l n. induction c as [|c IH]; intros l n Hl Hn Hc; [done|]. destruct l as [|x l]; [simpl in Hc; lia|].
  apply Forall_cons in Hl as [Hx Hl]. cbn [raw_items take]. unfold typed_bytes. rewrite bind_cons. fold (typed_bytes t l).
  assert (length (le_bytes (id_size t) x) = id_size t) as Hlen by apply le_bytes_length.
  assert (id_size t ≤ n) as Hs by lia. rewrite take_take, Nat.min_l by done. rewrite take_app_alt by done.
  rewrite <-(firstn_skipn (id_size t) (take n _)) at 1. rewrite drop_app_alt.
  2:{ rewrite take_length, take_length, app_length. lia. }
  f_equal.
  - pose proof (raw_items_ok t [x] [] ltac:(by repeat constructor)) as H1. cbn [length raw_items] in H1. unfold typed_bytes in H1. cbn [mbind list_bind] in H1.
    rewrite !app_nil_r in H1. rewrite take_ge in H1 by lia. by injection H1.
  - rewrite skipn_firstn_comm. rewrite drop_app_alt by done. apply IH; [done|simpl in *; lia|simpl in *; lia].
Qed.
Lemma cut_map t (F : fs) f l b l' : Forall (in_type t) l → b `prefix_of` typed_bytes t l → F !! f = Some b → typed_map t F f = Ok l' →
  b ≠ [] ∧ ∃ k, l' = take k l.
Proof.
  intros Hl [r Hb] HF. unfold typed_map, tm_new. rewrite HF. cbn [unwrap rbind]. destruct (decide (b = [])) as [|Hne]; [done|].
  destruct (decide (id_size t = 0)) as [|Hs]; [done|]. cbn [rbind]. unfold tm_full, raw_parts. cbn [tm_len tm_map tm_type_len].
  destruct (decide _) as [Hd|]; [|done]. intros [= <-]. split; [done|]. exists (length b / id_size t). cbn [drop].
  assert (b = take (length b) (typed_bytes t l)) as E. { rewrite Hb. by rewrite take_app. }
  rewrite E at 2. apply raw_items_cut; [done| |].
  - rewrite Nat.mul_comm. by apply Nat.mul_div_le.
  - apply Nat.div_le_upper_bound; [done|]. pose proof (typed_bytes_length t l) as H. rewrite Hb, app_length in H. lia.
Qed.
Lemma whole_map t (F : fs) f l l' : Forall (in_type t) l → F !! f = Some (typed_bytes t l) → typed_map t F f = Ok l' → l' = l.
Proof.
  intros Hl HF Hm. destruct (decide (t = TUnit)) as [->|Ht].
  - unfold typed_map, tm_new in Hm. rewrite HF in Hm. cbn [unwrap rbind] in Hm. by destruct (decide _).
  - destruct (decide (l = [])) as [->|Hne]; [by rewrite (typed_map_empty t F f) in Hm|]. rewrite (typed_map_ok t F f l) in Hm by done. by injection Hm.
Qed.

Definition chunked (x : string * list N) : string * list (list N) := (x.1, dump_writes (length x.2) x.2).
Lemma chunked_ops f b : file_ops (chunked (f, b)) = dump_ops f b. Proof. done. Qed.
Lemma chunked_whole x : whole (chunked x) = x.
Proof. destruct x as [f b]. unfold whole, chunked. cbn [fst snd]. by rewrite dump_writes_concat. Qed.
Lemma ev_chunks it lt e p : ev_dump_ops it lt e p = (chunked <$> ev_files it lt e p) ≫= file_ops.
Proof.
  unfold ev_dump_ops, ev_files. rewrite fmap_app, bind_app. destruct (ev_labels e) as [|x ls];
    rewrite ?fmap_cons, ?fmap_nil, ?bind_cons, ?chunked_ops, ?bind_nil, ?app_nil_r; by rewrite <-?app_assoc.
Qed.
Section crash.
  Context {NL EL : Type} `{EqDecision NL, EqDecision EL} (it lt : idty) (cn : codec NL) (ce : codec EL).
  Context (PN : NL → Prop) (PE : EL → Prop) (Hcn : faithful cn PN) (Hce : faithful ce PE).
  Implicit Types g m : sgraph NL EL.

  (** The files before the auxiliary one. *)
  Definition pre_files g p : list (string * list N) :=
    ev_files it lt (sg_evec g) (p_out p) ++ match sg_in g with Some e => ev_files it lt e (p_in p) | None => [] end ++
    match sg_labels g with Some ls => [(f_labels p, typed_bytes lt ls)] | None => [] end.
  Lemma sg_chunks g p : sg_dump_ops it lt cn ce g p = ((chunked <$> pre_files g p) ++ [(f_aux p, [aux_bytes cn ce g])]) ≫= file_ops.
  Proof.
    unfold sg_dump_ops, pre_files. rewrite !fmap_app, !bind_app, <-!ev_chunks, <-!app_assoc. do 2 f_equal.
    - destruct (sg_in g); [|done]. by rewrite <-ev_chunks.
    - destruct (sg_labels g); [|done]. rewrite fmap_cons, fmap_nil, bind_cons, chunked_ops. cbn [mbind list_bind]. rewrite app_nil_r. done.
  Qed.
  Lemma pre_names g p : (pre_files g p ++ [(f_aux p, aux_bytes cn ce g)]).*1 = (sg_files it lt cn ce g p).*1.
  Proof. unfold pre_files, sg_files. by rewrite <-!app_assoc. Qed.
  Lemma cut_files_app F a b : cut_files F (a ++ b) → cut_files F a.
  Proof.
    induction a as [|[f x] a IH]; [done|]. cbn [app cut_files]. intros [[H1 H2]|[H1 H2]]; [left; split; [done|by apply IH]|right].
    split; [done|]. by apply Forall_app in H2 as [? _].
  Qed.
  Lemma crash_files F g p F' : fresh_prefix F p → crash_state F (sg_dump_ops it lt cn ce g p) F' →
    cut_files F' (pre_files g p) ∧ ∀ f, f ∈ all_names p → f ∉ (sg_files it lt cn ce g p).*1 → F' !! f = None.
  Proof.
    intros Hf Hc. rewrite sg_chunks in Hc. assert (∀ f, f ∈ all_names p → F !! f = None) as Hfr.
    { intros f Hin. unfold fresh_prefix in Hf. rewrite Forall_forall in Hf. unfold all_names in Hin.
      repeat (apply elem_of_cons in Hin as [->|Hin]; [names; apply Hf; set_solver|]). by apply elem_of_nil in Hin. }
    assert (((chunked <$> pre_files g p) ++ [(f_aux p, [aux_bytes cn ce g])]).*1 = (sg_files it lt cn ce g p).*1) as Hn.
    { rewrite <-pre_names, !fmap_app. f_equal. rewrite <-list_fmap_compose. done. }
    apply crash_cut in Hc as [H1 H2].
    - split.
      + rewrite fmap_app in H1. apply cut_files_app in H1. rewrite <-list_fmap_compose in H1.
        assert (whole ∘ chunked <$> pre_files g p = pre_files g p) as E; [|by rewrite E in H1].
        rewrite <-(list_fmap_id (pre_files g p)) at 2. apply list_fmap_ext. intros _ x _. apply chunked_whole.
      + intros f Hin Hnot. rewrite H2; [by apply Hfr|]. by rewrite Hn.
    - rewrite Hn. apply files_NoDup.
    - intros f Hin. rewrite Hn in Hin. apply Hfr. eapply elem_of_submseteq; [exact Hin|]. apply sublist_submseteq, files_sub.
  Qed.

  (** What an interrupted edge vector shows. *)
  Record cut_ev (e e' : evec) : Prop := {
    ce_offsets : ev_offsets e' = ev_offsets e;
    ce_edges : ∃ k, ev_edges e' = take k (ev_edges e);
    ce_labels : ∃ k, ev_labels e' = take k (ev_labels e);
  }.
  Lemma open_cut F e p e' L : typed_evec it lt e → cut_files F (ev_files it lt e p ++ L) → (ev_labels e = [] → F !! f_labels p = None) →
    ev_open it lt F p = Ok e' → cut_ev e e'.
  Proof.
    intros [Ho He Hl] Hc Hno. unfold ev_open. unfold ev_files in Hc. cbn [app cut_files] in Hc.
    destruct (typed_map TUsize F (f_offsets p)) as [offs| |] eqn:E1; [|done|done]. cbn [rbind].
    destruct (typed_map it F (f_edges p)) as [edges| |] eqn:E2; [|done|done]. cbn [rbind].
    destruct Hc as [[H1 Hc]|[_ Hc]].
    2:{ apply Forall_cons in Hc as [Hc _]. cbn [fst] in Hc. by rewrite (typed_map_missing it F _ Hc) in E2. }
    assert (N.to_nat <$> offs = ev_offsets e) as ->.
    { rewrite (whole_map TUsize F (f_offsets p) (N.of_nat <$> ev_offsets e) offs); [| |exact H1|exact E1].
      - rewrite <-list_fmap_compose. rewrite <-(list_fmap_id (ev_offsets e)) at 2. apply list_fmap_ext. intros _ x _. simpl. apply Nat2N.id.
      - apply Forall_fmap. eapply Forall_impl; [exact (proj2 Ho)|]. intros x Hx. exact Hx. }
    assert (∃ k, edges = take k (ev_edges e)) as Hk.
    { destruct Hc as [[H2 _]|[[H2|(b & Hb & H2)] _]].
      - rewrite (whole_map it F _ (ev_edges e) edges (proj2 He) H2 E2). exists (length (ev_edges e)). by rewrite take_ge.
      - by rewrite (typed_map_missing it F _ H2) in E2.
      - exact (proj2 (cut_map it F _ _ _ _ (proj2 He) Hb H2 E2)). }
    destruct (fs_exists F (f_labels p)) eqn:E3.
    - destruct (typed_map lt F (f_labels p)) as [ls| |] eqn:E4; [|done|done]. cbn [rbind]. intros [= <-]. split; [done|done|].
      unfold ev_labels at 1. cbn [ev_label_vec default]. unfold fs_exists in E3.
      destruct (ev_labels e) as [|x0 ls0] eqn:El; [by rewrite (Hno eq_refl) in E3|].
      assert (Forall (in_type lt) (x0 :: ls0)) as HF. { unfold ev_labels in El. destruct (ev_label_vec e) as [v|]; [|done]. cbn in El. subst v. exact (proj2 Hl). }
      destruct Hc as [[_ Hc]|[_ Hc]].
      + cbn [app cut_files] in Hc. destruct Hc as [[H2 _]|[[H2|(b & Hb & H2)] _]].
        * exists (length (x0 :: ls0)). rewrite take_ge by done. exact (whole_map lt F _ _ _ HF H2 E4).
        * by rewrite H2 in E3.
        * exact (proj2 (cut_map lt F _ _ _ _ HF Hb H2 E4)).
      + apply Forall_cons in Hc as [Hc _]. cbn [fst] in Hc. by rewrite Hc in E3.
    - intros [= <-]. split; [done|done|]. exists 0. done.
  Qed.
  Definition absent_names g p : list string :=
    (match ev_labels (sg_evec g) with [] => [f_labels (p_out p)] | _ => [] end) ++
    (match sg_in g with
     | None => [f_offsets (p_in p)]
     | Some e => match ev_labels e with [] => [f_labels (p_in p)] | _ => [] end
     end) ++ (match sg_labels g with None => [f_labels p] | Some _ => [] end).
  Lemma absent_names_ok g p f : f ∈ absent_names g p → f ∈ all_names p ∧ f ∉ (sg_files it lt cn ce g p).*1.
  Proof.
    clear. unfold absent_names. rewrite !elem_of_app. intros [Hf|[Hf|Hf]].
    - destruct (ev_labels (sg_evec g)) eqn:E; [|by apply elem_of_nil in Hf]. apply elem_of_list_singleton in Hf as ->. split; [unfold all_names; set_solver|].
      unfold sg_files, ev_files. rewrite E. destruct (sg_in g) as [e|], (sg_labels g); try destruct (ev_labels e); not_file.
    - destruct (sg_in g) as [e|] eqn:Eg.
      + destruct (ev_labels e) eqn:E; [|by apply elem_of_nil in Hf]. apply elem_of_list_singleton in Hf as ->. split; [unfold all_names; set_solver|].
        unfold sg_files, ev_files. rewrite Eg, E. destruct (ev_labels (sg_evec g)), (sg_labels g); not_file.
      + apply elem_of_list_singleton in Hf as ->. split; [unfold all_names; set_solver|].
        unfold sg_files, ev_files. rewrite Eg. destruct (ev_labels (sg_evec g)), (sg_labels g); not_file.
    - destruct (sg_labels g) eqn:Eg; [by apply elem_of_nil in Hf|]. apply elem_of_list_singleton in Hf as ->. split; [unfold all_names; set_solver|].
      unfold sg_files, ev_files. rewrite Eg. destruct (ev_labels (sg_evec g)), (sg_in g) as [e|]; try destruct (ev_labels e); not_file.
  Qed.
  Record cut_graph g m : Prop := {
    cg_evec : cut_ev (sg_evec g) (sg_evec m);
    cg_in : sg_in m = None ∨ ∃ e e', sg_in g = Some e ∧ sg_in m = Some e' ∧ cut_ev e e';
    cg_labels : sg_labels m = None ∨ ∃ ls k, sg_labels g = Some ls ∧ sg_labels m = Some (take k ls);
    cg_nodes : sg_num_nodes m = length (ev_offsets (sg_evec g)) - 1;
    cg_names : sg_nlm m = [] ∧ sg_elm m = [];
  }.
  Lemma cut_skip F a L : cut_files F (a ++ L) → (∃ x, x ∈ L ∧ is_Some (F !! x.1)) → cut_files F L.
  Proof.
    induction a as [|[f b] a IH]; [done|]. cbn [app cut_files]. intros [[_ H2]|[_ H2]] Hx; [by apply IH|]. exfalso.
    apply Forall_app in H2 as [_ H2]. destruct Hx as (x & Hx & [v Hv]). rewrite Forall_forall in H2. by rewrite H2 in Hv.
  Qed.
  Lemma cut_whole F f b L : cut_files F ((f, b) :: L) → (∃ x, x ∈ L ∧ is_Some (F !! x.1)) → F !! f = Some b.
  Proof.
    cbn [cut_files]. intros [[H _]|[_ H2]] Hx; [done|]. exfalso. destruct Hx as (x & Hx & [v Hv]). rewrite Forall_forall in H2. by rewrite H2 in Hv.
  Qed.
  Lemma crash_open dir F g p F' m : mappable it lt PN PE dir g → fresh_prefix F p → crash_state F (sg_dump_ops it lt cn ce g p) F' →
    F' !! f_aux p = None → mm_open it lt cn ce F' p = Ok m → cut_graph g m.
  Proof.
    intros [Ht Hcsr He Hin Hl Hit Hlt] Hfr Hc Haux Hm. destruct (crash_files F g p F' Hfr Hc) as [Hcut Hnone0].
    assert (∀ f, f ∈ absent_names g p → F' !! f = None) as Hnone. { intros f [H1 H2]%absent_names_ok. by apply Hnone0. } clear Hnone0 Hfr Hc.
    destruct Ht as [[Hc1 Hc2] Hte Hti Htl Hn Hel]. unfold pre_files in Hcut. unfold mm_open in Hm.
    destruct (ev_open it lt F' (p_out p)) as [edges| |] eqn:E1; [|done|done]. cbn [rbind] in Hm.
    assert (cut_ev (sg_evec g) edges) as Hev.
    { eapply open_cut; [exact Hte|exact Hcut| |exact E1]. intros E. apply Hnone. unfold absent_names. rewrite E. apply elem_of_app. left. apply elem_of_list_here. }
    assert (∃ ie, (if fs_exists F' (f_offsets (p_in p)) then let* e := ev_open it lt F' (p_in p) in Ok (Some e) else Ok None) = Ok ie ∧
      (ie = None ∨ ∃ e e', sg_in g = Some e ∧ ie = Some e' ∧ cut_ev e e')) as (ie & E2 & Hie).
    { destruct (fs_exists F' (f_offsets (p_in p))) eqn:Ex; [|exists None; by split; [|left]]. unfold fs_exists in Ex.
      destruct (sg_in g) as [e|] eqn:Eg.
      - destruct (ev_open it lt F' (p_in p)) as [e'| |] eqn:E2; [|done|done]. exists (Some e'). split; [done|]. right.
        exists e, e'. split; [done|]. split; [done|]. eapply open_cut; [exact Hti|eapply cut_skip; [exact Hcut|]| |exact E2].
        + exists (f_offsets (p_in p), usize_bytes (ev_offsets e)). split; [apply elem_of_app; left; apply elem_of_list_here|]. cbn [fst]. by destruct (F' !! f_offsets (p_in p)).
        + intros E. apply Hnone. unfold absent_names. rewrite Eg, E. apply elem_of_app. right. apply elem_of_app. left. apply elem_of_list_here.
      - exfalso. rewrite Hnone in Ex; [done|]. unfold absent_names. rewrite Eg. apply elem_of_app. right. apply elem_of_app. left. apply elem_of_list_here. }
    rewrite E2 in Hm. cbn [rbind] in Hm.
    assert (∃ ls, (if fs_exists F' (f_labels p) then let* l := typed_map lt F' (f_labels p) in Ok (Some l) else Ok None) = Ok ls ∧
      (ls = None ∨ ∃ l k, sg_labels g = Some l ∧ ls = Some (take k l))) as (ls & E3 & Hls).
    { destruct (fs_exists F' (f_labels p)) eqn:Ex; [|exists None; by split; [|left]]. unfold fs_exists in Ex.
      destruct (sg_labels g) as [l|] eqn:Eg.
      - destruct (typed_map lt F' (f_labels p)) as [l'| |] eqn:E3; [|done|done]. exists (Some l'). split; [done|]. right.
        exists l. rewrite app_assoc in Hcut. apply cut_skip in Hcut.
        2:{ exists (f_labels p, typed_bytes lt l). split; [apply elem_of_list_here|]. cbn [fst]. by destruct (F' !! f_labels p). }
        cbn [cut_files] in Hcut. destruct Hcut as [[H2 _]|[[H2|(b & Hb & H2)] _]].
        + exists (length l). split; [done|]. rewrite take_ge by done. f_equal. exact (whole_map lt F' _ _ _ (proj2 Htl) H2 E3).
        + by rewrite H2 in Ex.
        + destruct (cut_map lt F' _ _ _ _ (proj2 Htl) Hb H2 E3) as [_ [k ->]]. by exists k.
      - exfalso. rewrite Hnone in Ex; [done|]. unfold absent_names. rewrite Eg. apply elem_of_app. right. apply elem_of_app. right. apply elem_of_list_here. }
    rewrite E3 in Hm. cbn [rbind] in Hm. assert (fs_exists F' (f_aux p) = false) as Eaux by (unfold fs_exists; by rewrite Haux).
    rewrite Eaux in Hm. unfold ev_num_nodes, usub in Hm. rewrite (ce_offsets _ _ Hev) in Hm.
    destruct (decide _) in Hm; [|done]. cbn [rbind fst snd] in Hm. injection Hm as <-. by split.
  Qed.
End crash.

(** ** What a cut graph shows *)
Lemma cut_bounds e e' n : ev_offsets e' = ev_offsets e → ev_bounds e' n = ev_bounds e n.
Proof. intros E. unfold ev_bounds, ev_has_node, ev_num_nodes. by rewrite E. Qed.
Lemma cut_neighbors e e' n : cut_ev e e' → ev_neighbors e' n = ev_neighbors e n ∨ ev_neighbors e' n = Panic.
Proof.
  intros [E1 [k E2] _]. unfold ev_neighbors. rewrite (cut_bounds e e' n E1), E2. destruct (ev_bounds e n) as [[a b]| |]; [|by left|by left]. cbn [rbind].
  destruct (decide (a ≤ b ∧ b ≤ length (take k (ev_edges e)))) as [[H1 H2]|]; [|by right]. left. rewrite take_length in H2.
  rewrite decide_True by (split; lia). f_equal. apply list_eq. intros i. destruct (decide (i < b - a)) as [Hi|Hi].
  - rewrite !lookup_take, !lookup_drop by done. apply lookup_take. lia.
  - rewrite !lookup_take_ge by lia. done.
Qed.
Lemma cut_label e e' s t : csr_wf (ev_offsets e) (ev_edges e) → cut_ev e e' → ev_neighbors e' s = ev_neighbors e s →
  ev_find_edge_label_id e' s t = ev_find_edge_label_id e s t ∨ ev_find_edge_label_id e' s t = Ok None.
Proof.
  intros Hcsr [E1 _ [k E3]] Hn. unfold ev_find_edge_label_id. rewrite E3. destruct (take k (ev_labels e)) as [|x ls] eqn:Ek; [by right|].
  destruct (ev_labels e) as [|y ls'] eqn:El; [by rewrite take_nil in Ek|].
  assert (ev_find_edge_index e' s t = ev_find_edge_index e s t) as ->.
  { unfold ev_find_edge_index, ev_has_node, ev_num_nodes. by rewrite Hn, E1. }
  destruct (find_spec e Hcsr s t) as (o & -> & _). cbn [rbind]. destruct o as [i|]; [|by right]. rewrite <-Ek.
  destruct (decide (i < k)) as [Hi|Hi]; [left; by rewrite lookup_take|right]. by rewrite lookup_take_ge by lia.
Qed.
Section part.
  Context {NL EL : Type} (it lt : idty) (PN : NL → Prop) (PE : EL → Prop).
  Implicit Types g m : sgraph NL EL.
  Lemma cut_part dir g m : mappable it lt PN PE dir g → cut_graph g m → part_of (sg_view it lt dir g) (mm_view it lt m).
  Proof.
    intros [_ Hcsr _ Hin _ _ _] [Hev Hi Hl Hn [Hnl Hel]].
    assert (∀ s, ev_neighbors (sg_evec m) s = ev_neighbors (sg_evec g) s → ∀ t, ∀ nb, ev_neighbors (sg_evec g) s = Ok nb →
      mm_has_edge m s t = ev_has_edge (sg_evec g) s t) as Hhe.
    { intros s Hs t nb Hnb. pose proof (neighbors_some _ Hcsr s nb Hnb) as Hlt.
      rewrite (has_edge_ok _ Hcsr), <-(mm_has_edge_ok _ Hcsr g s t eq_refl Hlt). unfold mm_has_edge. by rewrite Hs. }
    split; cbn [mm_view sg_view v_directed v_has_node v_has_edge v_get_node v_get_edge v_neighbors v_in_neighbors v_node_label_map v_edge_label_map].
    - intros n. unfold sg_has_node. rewrite bool_decide_eq_true, Hn. split.
      + intros Hlt. rewrite (neighbors_ok _ Hcsr n); [done|]. unfold csr_nodes, id_id in *. lia.
      + intros Hne. destruct (decide (n < csr_nodes (ev_offsets (sg_evec g)))%N) as [Hlt|Hge]; [unfold csr_nodes, id_id in *; lia|].
        by rewrite (neighbors_panic _ Hcsr n Hge) in Hne.
    - intros n. by apply cut_neighbors.
    - intros s t nb Hnb. destruct (cut_neighbors _ _ s Hev) as [Hs|Hs]; [left; by apply (Hhe s Hs t nb)|right]. unfold mm_has_edge. by rewrite Hs.
    - intros s t. destruct (cut_neighbors _ _ s Hev) as [Hs|Hs]; [|right; left; unfold mm_get_edge, mm_has_edge; by rewrite Hs].
      destruct (ev_neighbors (sg_evec g) s) as [nb| |] eqn:Hnb.
      2,3: right; left; destruct (decide (s < csr_nodes (ev_offsets (sg_evec g)))%N) as [Hlt|Hge];
        [by rewrite (neighbors_ok _ Hcsr s Hlt) in Hnb|rewrite (neighbors_panic _ Hcsr s Hge) in Hnb];
        try discriminate Hnb; unfold mm_get_edge, mm_has_edge; rewrite Hs; reflexivity.
      unfold mm_get_edge, sg_get_edge. rewrite (Hhe s (eq_trans Hs (eq_sym Hnb)) t nb Hnb), (has_edge_ok _ Hcsr). cbn [rbind]. destruct (bool_decide _) eqn:Eb; cbn [negb]; [|by left].
      destruct (cut_label _ _ s t Hcsr Hev (eq_trans Hs (eq_sym Hnb))) as [-> | ->]; [by left|]. right; right. cbn [rbind].
      destruct (find_spec _ Hcsr s t) as (o & Ho & _). unfold ev_find_edge_label_id. rewrite Ho. cbn [rbind].
      destruct (ev_labels (sg_evec g)); cbn [rbind]; by eexists.
    - intros n H1 H2. unfold sg_get_node. rewrite H1, H2. cbn [negb]. destruct Hl as [-> | (ls & k & -> & ->)]; [by right; right|].
      destruct (decide (id_id n < k)) as [Hk|Hk]; [left; by rewrite lookup_take|]. right; left. by rewrite lookup_take_ge by lia.
    - unfold mm_directed. destruct Hi as [-> | (e & e' & Eg & -> & _)]; [done|]. intros _. rewrite Eg in Hin. by destruct Hin.
    - unfold mm_directed, mm_in_neighbors, sg_in_neighbors. destruct Hi as [-> | (e & e' & -> & -> & Hc)]; [done|]. intros _ n. cbn [unwrap rbind]. by apply cut_neighbors.
    - done.
  Qed.
End part.

(** ** A dump over an earlier one *)
Lemma usize_back (l : list nat) : N.to_nat <$> (N.of_nat <$> l) = l.
Proof. rewrite <-list_fmap_compose. rewrite <-(list_fmap_id l) at 2. apply list_fmap_ext. intros _ x _. simpl. apply Nat2N.id. Qed.
Definition good_labels (lt : idty) (lo : option (list N)) : Prop := opt_all (λ ls, ls ≠ [] ∧ Forall (in_type lt) ls ∧ lt ≠ TUnit) lo.
Lemma ev_open_with it lt F p offs edges lo : it ≠ TUnit → offs ≠ [] → Forall in_usize offs → edges ≠ [] → Forall (in_type it) edges → good_labels lt lo →
  F !! f_offsets p = Some (usize_bytes offs) → F !! f_edges p = Some (typed_bytes it edges) → F !! f_labels p = typed_bytes lt <$> lo →
  ev_open it lt F p = Ok (EV offs edges lo).
Proof.
  intros Hit Hno Ho Hne He Hl H1 H2 H3. unfold ev_open. rewrite (usize_map_ok _ _ _ Hno Ho H1). cbn [rbind].
  rewrite (typed_map_ok it _ _ _ Hit Hne He H2). cbn [rbind]. rewrite usize_back. unfold fs_exists. rewrite H3. destruct lo as [ls|]; cbn [fmap option_fmap option_map]; [|done].
  destruct Hl as (L1 & L2 & L3). by rewrite (typed_map_ok lt _ _ ls L3 L1 L2 H3).
Qed.
Lemma good_non_empty it lt e : typed_evec it lt e → (lt = TUnit → ev_label_vec e = None) → good_labels lt (non_empty (ev_labels e)).
Proof.
  intros [_ _ Hl] Hlt. unfold ev_labels. destruct (ev_label_vec e) as [[|x ls]|]; cbn; [done| |done]. split; [done|]. split; [exact (proj2 Hl)|].
  intros E. by specialize (Hlt E).
Qed.
Lemma non_empty_file lt l (b : option (list N)) : match l with [] => b | x :: xs => Some (typed_bytes lt (x :: xs)) end = or_old (typed_bytes lt <$> non_empty l) b.
Proof. by destruct l. Qed.
Lemma or_old_fmap {A B} (f : A → B) a b : f <$> or_old a b = or_old (f <$> a) (f <$> b).
Proof. by destruct a. Qed.
Lemma or_old_good lt a b : good_labels lt a → good_labels lt b → good_labels lt (or_old a b).
Proof. by destruct a. Qed.
Section over.
  Context {NL EL : Type} `{EqDecision NL, EqDecision EL} (it lt : idty) (cn : codec NL) (ce : codec EL).
  Context (PN : NL → Prop) (PE : EL → Prop) (Hcn : faithful cn PN) (Hce : faithful ce PE).
  Implicit Types g : sgraph NL EL.
  Lemma open_over dir dir' g g' p F : mappable it lt PN PE dir g → mappable it lt PN PE dir' g' → fresh_prefix F p →
    mm_open it lt cn ce (sg_dump_mmap it lt cn ce g' p (sg_dump_mmap it lt cn ce g p F)) p = Ok (overlay g' g).
  Proof using Hcn Hce.
    intros Hg Hg' Hf. set (F1 := sg_dump_mmap it lt cn ce g p F). set (F2 := sg_dump_mmap it lt cn ce g' p F1).
    destruct (dump_lookups_ok it lt cn ce g p F) as [_ _ O3 O4 O5 O6 O7 _]. fold F1 in O3, O4, O5, O6, O7.
    destruct (dump_lookups_ok it lt cn ce g' p F1) as [D1 D2 D3 D4 D5 D6 D7 D8]. fold F2 in D1, D2, D3, D4, D5, D6, D7, D8.
    assert (F !! f_labels (p_out p) = None ∧ F !! f_offsets (p_in p) = None ∧ F !! f_edges (p_in p) = None ∧ F !! f_labels (p_in p) = None ∧ F !! f_labels p = None) as (N3 & N4 & N5 & N6 & N7).
    { unfold fresh_prefix in Hf. rewrite Forall_forall in Hf. rewrite n_out_labels, n_in_offsets, n_in_edges, n_in_labels, n_labels.
      repeat split; apply Hf; set_solver. }
    clear Hf. rewrite N3 in O3. rewrite N4 in O4. rewrite N5 in O5. rewrite N6 in O6. rewrite N7 in O7.
    rewrite non_empty_file in O3, D3. rewrite O3 in D3.
    destruct Hg as [Ht Hcsr He Hin Hl Hit Hlt]. destruct Hg' as [Ht' Hcsr' He' Hin' Hl' _ Hlt'].
    destruct Ht as [_ Hte Hti Htl _ _]. destruct Ht' as [[Hc1 Hc2] Hte' Hti' Htl' Hn' Hel'].
    unfold mm_open. clearbody F2. clearbody F1. clear O3.
    rewrite (ev_open_with it lt F2 (p_out p) (ev_offsets (sg_evec g')) (ev_edges (sg_evec g')) (or_old (non_empty (ev_labels (sg_evec g'))) (non_empty (ev_labels (sg_evec g)))) Hit
      (csr_nonempty _ _ Hcsr')); [|exact (proj2 (te_offsets _ _ _ Hte'))|exact He'|exact (proj2 (te_edges _ _ _ Hte'))| |exact D1|exact D2|].
    2:{ apply or_old_good; (eapply good_non_empty; [eassumption|intros E]); [exact (proj1 (proj2 (Hlt' E)))|exact (proj1 (proj2 (Hlt E)))]. }
    2:{ rewrite D3, or_old_fmap. by destruct (non_empty (ev_labels (sg_evec g'))), (non_empty (ev_labels (sg_evec g))). }
    cbn [rbind].
    assert (∀ o r, sg_in (overlay g' g) = o → (match o with
        | Some e => F2 !! f_offsets (p_in p) = Some (usize_bytes (ev_offsets e)) ∧ F2 !! f_edges (p_in p) = Some (typed_bytes it (ev_edges e)) ∧
            F2 !! f_labels (p_in p) = typed_bytes lt <$> ev_label_vec e ∧ csr_wf (ev_offsets e) (ev_edges e) ∧ ev_edges e ≠ [] ∧
            Forall in_usize (ev_offsets e) ∧ Forall (in_type it) (ev_edges e) ∧ good_labels lt (ev_label_vec e)
        | None => F2 !! f_offsets (p_in p) = None end) →
      (if fs_exists F2 (f_offsets (p_in p)) then let* e := ev_open it lt F2 (p_in p) in Ok (Some e) else Ok None) = r → r = Ok o) as Hopen.
    { intros o r _ Ho <-. unfold fs_exists. destruct o as [[oo ee ll]|]; [|by rewrite Ho]. destruct Ho as (X1 & X2 & X3 & X4 & X5 & X6 & X7 & X8). cbn [ev_offsets ev_edges ev_label_vec] in *.
      rewrite X1. by rewrite (ev_open_with it lt F2 (p_in p) oo ee ll Hit (csr_nonempty _ _ X4) X6 X5 X7 X8 X1 X2 X3). }
    rewrite (Hopen (sg_in (overlay g' g)) _ eq_refl); [|clear Hopen|reflexivity].
    2:{ unfold overlay. cbn [sg_in]. rewrite D4, D5, D6. clear D1 D2 D3 D4 D5 D6 D7 D8. destruct (sg_in g') as [e'|] eqn:E'.
        - cbn [overlay_ev ev_offsets ev_edges ev_label_vec]. destruct Hin' as (_ & Hc' & Hne'). split; [done|]. split; [done|].
          split; [|split; [done|split; [done|split; [exact (proj2 (te_offsets _ _ _ Hti'))|split; [exact (proj2 (te_edges _ _ _ Hti'))|]]]]].
          + rewrite non_empty_file, O6, or_old_fmap. f_equal. destruct (sg_in g) as [e|]; [|done]. cbn [mbind option_bind]. by destruct (ev_labels e).
          + apply or_old_good; [eapply good_non_empty; [exact Hti'|intros E; exact (proj2 (proj2 (Hlt' E)))]|].
            destruct (sg_in g) as [e|]; [|done]. cbn [mbind option_bind]. eapply good_non_empty; [exact Hti|intros E; exact (proj2 (proj2 (Hlt E)))].
        - destruct (sg_in g) as [e|] eqn:E; [|done]. cbn [fmap option_fmap option_map overlay_ev ev_offsets ev_edges ev_label_vec]. destruct Hin as (_ & Hc & Hne).
          split; [done|]. split; [done|].
          split; [|split; [done|split; [done|split; [exact (proj2 (te_offsets _ _ _ Hti))|split; [exact (proj2 (te_edges _ _ _ Hti))|]]]]].
          + rewrite O6. by destruct (ev_labels e).
          + apply or_old_good; [|done]. eapply good_non_empty; [exact Hti|intros E2; exact (proj2 (proj2 (Hlt E2)))]. }
    cbn [rbind].
    assert ((if fs_exists F2 (f_labels p) then let* l := typed_map lt F2 (f_labels p) in Ok (Some l) else Ok None) = Ok (or_old (sg_labels g') (sg_labels g))) as ->.
    { unfold fs_exists. rewrite D7, O7. destruct (sg_labels g') as [ls|] eqn:E.
      - rewrite (typed_map_ok lt F2 (f_labels p) ls); [done|intros E2; by destruct (Hlt' E2)|intros ->; done|exact (proj2 Htl')|by rewrite D7].
      - destruct (sg_labels g) as [ls|] eqn:E1; [|done].
        rewrite (typed_map_ok lt F2 (f_labels p) ls); [done|intros E2; by destruct (Hlt E2)|intros ->; done|exact (proj2 Htl)|by rewrite D7, O7]. }
    cbn [rbind]. assert (fs_exists F2 (f_aux p) = true) as ->. { unfold fs_exists. by rewrite D8. }
    assert (import (c_aux cn ce) (f_aux p) F2 = Some (sg_num_nodes g', (sg_num_edges g', (sg_nlm g', sg_elm g')))) as ->.
    { unfold import. rewrite D8. cbn [mbind option_bind]. unfold aux_bytes. pose proof (proj1 (SerdeFacts.f_aux cn ce PN PE Hcn Hce)) as Hr.
      specialize (Hr (sg_num_nodes g', (sg_num_edges g', (sg_nlm g', sg_elm g'))) []). rewrite app_nil_r in Hr. by rewrite Hr. }
    reflexivity.
  Qed.
  Lemma overlay_shows dir dir' g g' : mappable it lt PN PE dir g → mappable it lt PN PE dir' g' →
    shows_over g' g (sg_view it lt dir' g') (sg_view it lt dir g) (mm_view it lt (overlay g' g)).
  Proof using.
    intros Hg Hg'. pose proof (mp_csr _ _ _ _ _ _ Hg') as Hcsr. pose proof (mp_in _ _ _ _ _ _ Hg) as Hin. pose proof (mp_in _ _ _ _ _ _ Hg') as Hin'.
    assert (∀ s t nb, ev_neighbors (sg_evec g') s = Ok nb → mm_has_edge (overlay g' g) s t = ev_has_edge (sg_evec g') s t) as Hhe.
    { intros s t nb Hs. apply (neighbors_some _ Hcsr) in Hs. rewrite (has_edge_ok _ Hcsr), <-(mm_has_edge_ok _ Hcsr g' s t eq_refl Hs). done. }
    split; cbn [mm_view sg_view v_directed v_node_count v_edge_count v_has_node v_has_edge v_get_node v_get_edge v_neighbors v_in_neighbors v_node_label_map v_edge_label_map].
    - done.
    - done.
    - done.
    - exact Hhe.
    - done.
    - unfold mm_directed, overlay. cbn [sg_in]. destruct (sg_in g') as [e'|]; [by destruct Hin' as [-> _]|]. subst dir'. destruct (sg_in g) as [e|]; cbn; [by destruct Hin as [-> _]|by subst dir].
    - intros n. unfold mm_in_neighbors, sg_in_neighbors, overlay. cbn [sg_in]. destruct (sg_in g') as [e'|]; [by destruct Hin' as [-> _]|]. subst dir'.
      destruct (sg_in g) as [e|]; cbn; [by destruct Hin as [-> _]|by subst dir].
    - intros n H1 H2. unfold sg_get_node. replace (sg_has_node (overlay g' g) n) with (sg_has_node g' n) by done. rewrite H1, H2. cbn [negb overlay sg_labels].
      by destruct (sg_labels g').
    - intros s t nb Hs Hl. unfold mm_get_edge, sg_get_edge. rewrite (Hhe s t nb Hs). f_equal. assert (ev_labels (sg_evec (overlay g' g)) = ev_labels (sg_evec g')) as El.
      { unfold overlay, overlay_ev, ev_labels at 1. cbn [sg_evec ev_label_vec]. cbn [mbind option_bind]. unfold has_edge_labels in Hl. unfold ev_labels.
        destruct (ev_label_vec (sg_evec g')) as [[|x ls]|]; cbn; try done; destruct (ev_label_vec (sg_evec g)) as [[|x' ls']|]; cbn; try done; by destruct Hl. }
      assert (ev_find_edge_label_id (sg_evec (overlay g' g)) s t = ev_find_edge_label_id (sg_evec g') s t) as ->; [|done].
      unfold ev_find_edge_label_id. rewrite El. done.
  Qed.
  Lemma dump_over dir dir' g g' p F : mappable it lt PN PE dir g → mappable it lt PN PE dir' g' → fresh_prefix F p →
    ∃ m, mm_open it lt cn ce (sg_dump_mmap it lt cn ce g' p (sg_dump_mmap it lt cn ce g p F)) p = Ok m ∧ m = overlay g' g ∧
      shows_over g' g (sg_view it lt dir' g') (sg_view it lt dir g) (mm_view it lt m).
  Proof using Hcn Hce.
    intros Hg Hg' Hf. exists (overlay g' g). split; [by apply (open_over dir dir')|]. split; [done|]. by apply overlay_shows.
  Qed.
  Lemma crash_shows dir g p F F' m : mappable it lt PN PE dir g → fresh_prefix F p → crash_state F (sg_dump_ops it lt cn ce g p) F' →
    mm_open it lt cn ce F' p = Ok m → same_answers (sg_view it lt dir g) (mm_view it lt m) ∨
      (F' !! (p +:+ "_aux.bin") = None ∧ part_of (sg_view it lt dir g) (mm_view it lt m)).
  Proof using Hcn Hce.
    intros Hg Hf Hc Hm. destruct (F' !! (p +:+ "_aux.bin")) as [b|] eqn:Ea.
    - left. eapply (crash_detected it lt cn ce PN PE Hcn Hce dir g p F F' m Hg Hf Hc); [by rewrite Ea|exact Hm].
    - right. split; [done|]. eapply cut_part; [exact Hg|]. rewrite <-n_aux in Ea. by eapply (crash_open it lt cn ce PN PE).
  Qed.
End over.
