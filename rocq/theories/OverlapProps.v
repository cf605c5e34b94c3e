(** The one file in which a dump under one prefix can be seen under another. *)
From stdpp Require Import gmap strings.
From Verif Require Import Base BaseFacts Api Bytes Spec SpecFacts SpecStatic Map GraphMap Static StaticFacts Serde SpecSerde SerdeFacts
  IntoStatic Mmap SpecMmap MmapFacts MmapProps MmapThms MmapMore MmapCrash SpecStore StoreProps SpecOverlap MmapWit StoreWit.

Lemma cuts_labels a b c : a ∈ suffixes → b ∈ suffixes → a = c +:+ b → c = ""%string ∨ (c = "_OUT"%string ∨ c = "_IN"%string) ∧ b = ".labels"%string.
Proof.
  assert (forallb (λ a, forallb (λ b, forallb (λ c, bool_decide (c = ""%string ∨ (c = "_OUT"%string ∨ c = "_IN"%string) ∧ b = ".labels"%string)) (cut_suffix a b)) suffixes) suffixes = true)
    as H by (by vm_compute).
  intros Ha Hb ->. rewrite forallb_forall in H. specialize (H _ (proj1 (elem_of_list_In _ _) Ha)).
  rewrite forallb_forall in H. specialize (H b (proj1 (elem_of_list_In _ _) Hb)).
  rewrite forallb_forall in H. specialize (H c (proj1 (elem_of_list_In _ _) (cut_suffix_spec c b))). by apply bool_decide_eq_true in H.
Qed.
Lemma app_nil_str p : p +:+ "" = p.
Proof. induction p as [|x p IH]; [done|]. change (String x (p +:+ "") = String x p). by f_equal. Qed.
Lemma both_names p p' f : p ≠ p' → f ∈ all_names p → f ∈ all_names p' →
  (∃ c, (c = "_OUT"%string ∨ c = "_IN"%string) ∧ p' = p +:+ c ∧ f = f_labels p') ∨ (∃ c, (c = "_OUT"%string ∨ c = "_IN"%string) ∧ p = p' +:+ c ∧ f = f_labels p).
Proof.
  intros Hp. rewrite !all_names_suffix. intros (a & Ha & ->) (b & Hb & E).
  destruct (str_split p a p' b E) as [(c & Hc & Hab)|(c & Hc & Hab)].
  - destruct (cuts_labels a b c Ha Hb Hab) as [->|[H ->]]; [by rewrite app_nil_str in Hc|]. left. exists c. by rewrite E.
  - destruct (cuts_labels b a c Hb Ha Hab) as [->|[H ->]]; [by rewrite app_nil_str in Hc|]. right. by exists c.
Qed.
Lemma labels_name p : f_labels p ∈ all_names p ∧ f_labels (p_out p) ∈ all_names p ∧ f_labels (p_in p) ∈ all_names p.
Proof. unfold all_names. set_solver. Qed.
Lemma slen_app a b : String.length (a +:+ b) = String.length a + String.length b.
Proof. induction a as [|c a IH]; [done|]. exact (f_equal S IH). Qed.
Lemma str_longer p c d : c ≠ ""%string → p ≠ (p +:+ c) +:+ d.
Proof.
  intros Hc E. assert (String.length p = String.length ((p +:+ c) +:+ d)) as H by (by rewrite <-E).
  rewrite !slen_app in H. destruct c; [done|]. simpl in H. lia.
Qed.
Section overlap.
  Context {NL EL NL' EL' : Type} `{EqDecision NL, EqDecision EL, EqDecision NL', EqDecision EL'} (it lt it' lt' : idty).
  Context (cn : codec NL) (ce : codec EL) (cn' : codec NL') (ce' : codec EL').
  Definition put_overlap (o : option (string * list N)) (F : fs) : fs :=
    match o with Some (f, ls) => <[f := typed_bytes lt' ls]> F | None => F end.
  Lemma overlap_name (g : sgraph NL' EL') p p' f ls : overlap g p p' = Some (f, ls) → f ∈ all_names p'.
  Proof using.
    unfold overlap. destruct (labels_name p') as (H1 & H2 & H3).
    case_decide as D1; [|case_decide as D2; [|case_decide as D3; [|done]]].
    - destruct (sg_labels g); [|done]. by intros [= <- <-].
    - destruct (edge_labels_of g); [|done]. intros [= <- <-]. rewrite D2. exact H2.
    - destruct (in_labels_of g); [|done]. intros [= <- <-]. rewrite D3. exact H3.
  Qed.
  Lemma overlap_files (g : sgraph NL' EL') p p' F f : p ≠ p' → f ∈ all_names p →
    sg_dump_mmap it' lt' cn' ce' g p' F !! f = put_overlap (overlap g p p') F !! f.
  Proof using.
    intros Hp Hf. destruct (decide (f ∈ all_names p')) as [Hf'|Hf'].
    - destruct (dump_lookups_ok it' lt' cn' ce' g p' F) as [_ _ D3 _ _ D6 D7 _].
      destruct (both_names p p' f Hp Hf Hf') as [(c & Hc & Hpc & ->)|(c & Hc & Hpc & ->)].
      + unfold overlap. rewrite decide_True by (destruct Hc as [->| ->]; [by left|by right]). rewrite D7.
        destruct (sg_labels g) as [ls|]; [|done]. cbn. by rewrite lookup_insert.
      + unfold overlap. rewrite decide_False.
        2:{ intros HD. assert (∃ d, p' = p +:+ d) as [d Hd] by (destruct HD as [HD|HD]; rewrite HD; by eexists). rewrite Hpc in Hd.
            apply (str_longer p' c d) in Hd; [done|]. by destruct Hc as [->| ->]. }
        destruct Hc as [->| ->].
        * rewrite decide_True by done. assert (f_labels p = f_labels (p_out p')) as -> by (by rewrite Hpc). rewrite D3.
          unfold edge_labels_of. destruct (ev_labels (sg_evec g)) as [|x xs]; [done|]. cbn. rewrite Hpc. by rewrite lookup_insert.
        * rewrite decide_False by (rewrite Hpc; intros E%str_inj; discriminate E). rewrite decide_True by done.
          assert (f_labels p = f_labels (p_in p')) as -> by (by rewrite Hpc). rewrite D6.
          unfold in_labels_of. destruct (sg_in g) as [e|]; [|done]. cbn [mbind option_bind].
          destruct (ev_labels e) as [|x xs]; [done|]. cbn. rewrite Hpc. by rewrite lookup_insert.
    - rewrite dump_other by done. destruct (overlap g p p') as [[k ls]|] eqn:E; [|done]. apply overlap_name in E. cbn [put_overlap].
      rewrite lookup_insert_ne; [done|]. by intros ->.
  Qed.
  Lemma overlap_open (g : sgraph NL' EL') p p' F : p ≠ p' →
    mm_open it lt cn ce (sg_dump_mmap it' lt' cn' ce' g p' F) p =
    mm_open it lt cn ce (match overlap g p p' with Some (f, ls) => <[f := typed_bytes lt' ls]> F | None => F end) p.
  Proof using. intros Hp. apply mm_open_frame. intros f Hf. by apply overlap_files. Qed.
  Lemma overlap_none (g : sgraph NL' EL') p p' F : p ≠ p' → sg_labels g = None → ev_labels (sg_evec g) = [] → (∀ e, sg_in g = Some e → ev_labels e = []) →
    mm_open it lt cn ce (sg_dump_mmap it' lt' cn' ce' g p' F) p = mm_open it lt cn ce F p.
  Proof using.
    intros Hp H1 H2 H3. rewrite overlap_open by done. unfold overlap, edge_labels_of, in_labels_of. rewrite H1, H2.
    case_decide; [done|]. case_decide; [done|]. case_decide; [|done]. destruct (sg_in g) as [e|]; [|done]. cbn [mbind option_bind]. by rewrite (H3 e).
  Qed.
End overlap.
Lemma overlap_case :
  overlap wit_lab "g" "g_OUT" = Some ("g_OUT.labels", default [] (sg_labels wit_lab))%string ∧
  overlap wit_lab "g_OUT" "g" = Some ("g_OUT.labels", ev_labels (sg_evec wit_lab))%string ∧ overlap wit_und "g" "g_IN" = None ∧ overlap wit_lab "g" "h" = None ∧
  is_Some (sg_labels wit_lab) ∧ ev_labels (sg_evec wit_lab) ≠ [] ∧ sg_labels wit_und = None ∧ ev_labels (sg_evec wit_und) = [] ∧ sg_in wit_und = None.
Proof. split_and!; try (vm_compute; reflexivity); [vm_compute; by eexists|vm_compute; discriminate]. Qed.
