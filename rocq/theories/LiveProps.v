(** Proofs about a mapped graph whose files change. *)
From stdpp Require Import gmap strings.
From Verif Require Import Base BaseFacts Api Bytes Spec SpecFacts SpecStatic Map GraphMap Static StaticFacts Serde SpecSerde SerdeFacts
  Mmap SpecMmap MmapFacts MmapProps MmapThms MmapMore MmapLive SpecLive.

(** ** Pages *)
Lemma on_pages_span page n k : 0 < page → on_pages page n k ↔ n ≤ page_span page k.
Proof.
  intros Hp. unfold on_pages, page_span. set (q := (k + (page - 1)) / page).
  pose proof (Nat.div_mod_eq (k + (page - 1)) page) as E. pose proof (Nat.mod_upper_bound (k + (page - 1)) page ltac:(lia)) as Hm. fold q in E. split.
  - intros (pages & H1 & H2). assert (pages ≤ q) by nia. nia.
  - intros H. exists q. split; [done|]. nia.
Qed.
Lemma page_span_le page n : 0 < page → n ≤ page_span page n.
Proof.
  intros Hp. unfold page_span. pose proof (Nat.div_mod_eq (n + (page - 1)) page) as E.
  pose proof (Nat.mod_upper_bound (n + (page - 1)) page ltac:(lia)). nia.
Qed.
Lemma page_span_mono page n k : 0 < page → n ≤ k → n ≤ page_span page k.
Proof. intros Hp H. etrans; [exact H|]. by apply page_span_le. Qed.
Lemma page_span_0 page : page_span page 0 = 0.
Proof. unfold page_span. destruct page as [|page]; [done|]. rewrite Nat.div_small by lia. done. Qed.

(** ** One map *)
Lemma refit_alt {X} (z : X) n l : refit z n l = take n l ++ replicate (n - length l) z.
Proof.
  unfold refit. rewrite firstn_app. f_equal. rewrite take_replicate. f_equal. lia.
Qed.
Lemma refit_length {X} (z : X) n l : length (refit z n l) = n.
Proof. rewrite refit_alt, app_length, take_length, replicate_length. lia. Qed.
Lemma refit_same {X} (z : X) l : refit z (length l) l = l.
Proof. rewrite refit_alt, take_ge, Nat.sub_diag by lia. apply app_nil_r. Qed.
Lemma refit_lookup {X} (z : X) n l i : i < n → refit z n l !! i = if decide (i < length l) then l !! i else Some z.
Proof.
  intros Hi. unfold refit. rewrite lookup_take by done. destruct (decide (i < length l)).
  - by rewrite lookup_app_l.
  - rewrite lookup_app_r, lookup_replicate_2 by lia. done.
Qed.
Lemma refit_fmap {X Y} (f : X → Y) z n l : f <$> refit z n l = refit (f z) n (f <$> l).
Proof. rewrite !refit_alt, fmap_app, fmap_take, fmap_replicate, fmap_length. done. Qed.
Lemma le_bytes_0 k : le_bytes k 0 = replicate k 0%N.
Proof. induction k as [|k IH]; [done|]. cbn [le_bytes replicate]. change (0 mod 256)%N with 0%N. change (0 / 256)%N with 0%N. by rewrite IH. Qed.
Lemma typed_zeros t c : typed_bytes t (replicate c 0%N) = replicate (c * id_size t) 0%N.
Proof.
  unfold typed_bytes. induction c as [|c IH]; [done|]. cbn [replicate]. rewrite bind_cons, IH, le_bytes_0, <-replicate_add. f_equal.
Qed.
Lemma typed_take t n l : take (n * id_size t) (typed_bytes t l) = typed_bytes t (take n l).
Proof.
  revert n. induction l as [|x l IH]; intros n.
  - rewrite take_nil. apply take_nil.
  - destruct n as [|n]; [done|]. cbn [take]. unfold typed_bytes in *. rewrite !bind_cons. rewrite <-IH.
    rewrite take_app_ge by (rewrite le_bytes_length; simpl; lia). f_equal. f_equal. rewrite le_bytes_length. simpl. lia.
Qed.
Lemma zero_in_type t : in_type t 0.
Proof. by destruct t. Qed.
Lemma refit_bytes t n l : take (n * id_size t) (typed_bytes t l) ++ replicate (n * id_size t - length (typed_bytes t l)) 0%N = typed_bytes t (refit 0%N n l).
Proof.
  rewrite refit_alt, typed_bytes_app, typed_take, typed_zeros, typed_bytes_length. do 2 f_equal. symmetry. apply Nat.mul_sub_distr_r.
Qed.
Lemma lm_now_typed page F f t n l : t ≠ TUnit → F !! f = Some (typed_bytes t l) → Forall (in_type t) l →
  lm_now page F (LMap f t (n * id_size t)) =
    if decide (n * id_size t ≤ page_span page (length l * id_size t)) then Ok (refit 0%N n l) else Panic.
Proof.
  intros Ht HF Hl. assert (id_size t ≠ 0) as Hs by (by rewrite id_size_0). unfold lm_now. cbn [lm_file lm_type lm_size]. rewrite HF. cbn [default from_option id].
  rewrite refit_bytes, typed_bytes_length, Nat.div_mul by done.
  destruct (decide _); [|done]. f_equal. rewrite <-(refit_length 0%N n l) at 1. rewrite <-(app_nil_r (typed_bytes _ _)). apply raw_items_ok.
  rewrite refit_alt. apply Forall_app. split; [by apply Forall_take|]. apply Forall_replicate, zero_in_type.
Qed.
Lemma lm_open_ok t F f l : t ≠ TUnit → l ≠ [] → F !! f = Some (typed_bytes t l) → lm_open t F f = Ok (LMap f t (length l * id_size t)).
Proof. intros Ht Hl HF. unfold lm_open. rewrite (tm_new_ok t F f l Ht Hl HF). cbn [rbind tm_map]. by rewrite typed_bytes_length. Qed.
Lemma lm_open_file t F f m : lm_open t F f = Ok m → lm_file m = f ∧ lm_type m = t.
Proof. unfold lm_open. destruct (tm_new t F f); [|done..]. cbn [rbind]. by intros [= <-]. Qed.
Lemma lm_now_frame page F F' m : F !! lm_file m = F' !! lm_file m → lm_now page F m = lm_now page F' m.
Proof. intros H. unfold lm_now. by rewrite H. Qed.
(** Right after opening the map shows the file. *)
Lemma lm_open_now page t F f : 0 < page → (let* m := lm_open t F f in lm_now page F m) = typed_map t F f.
Proof.
  intros Hp. unfold lm_open, typed_map, tm_new. destruct (F !! f) as [b|] eqn:E; [|done]. cbn [unwrap rbind].
  destruct (decide (b = [])); [done|]. destruct (decide (id_size t = 0)); [done|]. cbn [rbind tm_map]. unfold lm_now. cbn [lm_file lm_type lm_size].
  rewrite E. cbn [default from_option id]. rewrite decide_True by (by apply page_span_le).
  unfold tm_full, raw_parts. cbn [tm_map tm_len tm_type_len drop]. rewrite decide_True.
  - by rewrite take_ge, Nat.sub_diag, app_nil_r by done.
  - cbn [Nat.add]. rewrite Nat.mul_comm. by apply Nat.mul_div_le.
Qed.
Lemma lm_open_cases page t F f : 0 < page →
  (lm_open t F f = Panic ∧ typed_map t F f = Panic) ∨
  (∃ m l, lm_open t F f = Ok m ∧ lm_now page F m = Ok l ∧ typed_map t F f = Ok l ∧ length l = lm_size m / id_size t).
Proof.
  intros Hp. pose proof (lm_open_now page t F f Hp) as H. unfold lm_open in *. unfold tm_new in *.
  destruct (F !! f) as [b|] eqn:E; [|left; done]. cbn [unwrap rbind] in *.
  destruct (decide (b = [])); [left; done|]. destruct (decide (id_size t = 0)); [left; done|]. right. cbn [rbind tm_map] in *.
  eexists _, (raw_items (id_size t) (length b / id_size t) (take (length b) b ++ replicate (length b - length b) 0%N)). split; [done|].
  assert (lm_now page F (LMap f t (length b)) = Ok (raw_items (id_size t) (length b / id_size t) (take (length b) b ++ replicate (length b - length b) 0%N))) as Hn.
  { unfold lm_now. cbn [lm_file lm_type lm_size]. rewrite E. cbn [default from_option id]. by rewrite decide_True by (by apply page_span_le). }
  split; [done|]. split; [by rewrite <-H|]. cbn [lm_size]. generalize (take (length b) b ++ replicate (length b - length b) 0%N). generalize (length b / id_size t).
  clear. intros c. induction c as [|c IH]; intros r; [done|]. cbn [raw_items length]. by rewrite IH.
Qed.

(** ** Edge vectors *)
Definition lv_files (e : lev) : list string := lm_file (lv_offsets e) :: lm_file (lv_edges e) :: match lv_labels e with Some m => [lm_file m] | None => [] end.
Lemma lv_now_frame page F F' e : (∀ f, f ∈ lv_files e → F !! f = F' !! f) → lv_now page F e = lv_now page F' e.
Proof.
  intros H. unfold lv_now, lv_files in *. rewrite (lm_now_frame page F F' (lv_offsets e)), (lm_now_frame page F F' (lv_edges e)) by (apply H; set_solver).
  destruct (lv_labels e) as [m|]; [|done]. by rewrite (lm_now_frame page F F' m) by (apply H; set_solver).
Qed.
Lemma lv_open_files it lt F p e f : lv_open it lt F p = Ok e → f ∈ lv_files e → f ∈ [f_offsets p; f_edges p; f_labels p].
Proof.
  unfold lv_open. intros H Hf. destruct (fs_exists F (f_labels p)).
  - destruct (lm_open TUsize F _) as [m1| |] eqn:E1; [|done..]. cbn [rbind] in H. destruct (lm_open it F _) as [m2| |] eqn:E2; [|done..]. cbn [rbind] in H.
    destruct (lm_open lt F _) as [m3| |] eqn:E3; [|done..]. cbn [rbind] in H. injection H as <-.
    apply lm_open_file in E1 as [<- _], E2 as [<- _], E3 as [<- _]. exact Hf.
  - destruct (lm_open TUsize F _) as [m1| |] eqn:E1; [|done..]. cbn [rbind] in H. destruct (lm_open it F _) as [m2| |] eqn:E2; [|done..]. cbn [rbind] in H.
    injection H as <-. apply lm_open_file in E1 as [<- _], E2 as [<- _]. unfold lv_files in Hf. cbn [lv_offsets lv_edges lv_labels] in Hf. set_solver.
Qed.
Lemma lv_open_cases page it lt F p : 0 < page →
  (lv_open it lt F p = Panic ∧ ev_open it lt F p = Panic) ∨
  (∃ h e, lv_open it lt F p = Ok h ∧ lv_now page F h = Ok e ∧ ev_open it lt F p = Ok e ∧
    length (ev_offsets e) = lm_size (lv_offsets h) / id_size TUsize ∧ length (ev_edges e) = lm_size (lv_edges h) / id_size it).
Proof.
  intros Hp. unfold lv_open, ev_open.
  destruct (lm_open_cases page TUsize F (f_offsets p) Hp) as [[-> ->]|(m1 & l1 & -> & N1 & -> & L1)]; [left; by destruct (fs_exists _ _)|].
  destruct (lm_open_cases page it F (f_edges p) Hp) as [[-> ->]|(m2 & l2 & -> & N2 & -> & L2)]; [left; by destruct (fs_exists _ _)|]. cbn [rbind].
  destruct (fs_exists F (f_labels p)).
  - destruct (lm_open_cases page lt F (f_labels p) Hp) as [[-> ->]|(m3 & l3 & -> & N3 & -> & L3)]; [by left|]. right. cbn [rbind].
    eexists _, _. split; [done|]. unfold lv_now. cbn [lv_offsets lv_edges lv_labels]. rewrite N1, N2, N3. cbn [rbind].
    split; [done|]. split; [done|]. cbn [ev_offsets ev_edges]. by rewrite fmap_length.
  - right. eexists _, _. split; [done|]. unfold lv_now. cbn [lv_offsets lv_edges lv_labels]. rewrite N1, N2. cbn [rbind].
    split; [done|]. split; [done|]. cbn [ev_offsets ev_edges]. by rewrite fmap_length.
Qed.

Section graph.
  Context {NL EL : Type} `{EqDecision NL, EqDecision EL} (it lt : idty) (cn : codec NL) (ce : codec EL) (page : nat).
  (** Opening and looking at once. *)
  Lemma lg_open_now F p : 0 < page → (let* h := lg_open it lt cn ce F p in lg_now page F h) = mm_open it lt cn ce F p.
  Proof using.
    intros Hp. unfold lg_open, mm_open.
    destruct (lv_open_cases page it lt F (p_out p) Hp) as [[-> ->]|(h & e & -> & Nh & -> & L1 & L2)]; [done|]. cbn [rbind].
    assert ((fs_exists F (f_offsets (p_in p)) = false) ∨ (fs_exists F (f_offsets (p_in p)) = true)) as [-> | ->] by (by destruct (fs_exists F _); auto).
    - destruct (fs_exists F (f_labels p)).
      + destruct (lm_open_cases page lt F (f_labels p) Hp) as [[-> ->]|(m3 & l3 & -> & N3 & -> & L3)]; [done|]. cbn [rbind].
        unfold ev_num_nodes, ev_num_edges. rewrite L1, L2. destruct (fs_exists F (f_aux p)).
        * destruct (import _ _ _) as [a|]; [|done]. cbn [unwrap rbind]. unfold lg_now. cbn [lg_evec lg_in lg_labels lg_num_nodes lg_num_edges lg_nlm lg_elm].
          rewrite Nh. cbn [rbind]. rewrite N3. done.
        * destruct (usub _ _); [|done..]. cbn [rbind]. unfold lg_now. cbn [lg_evec lg_in lg_labels lg_num_nodes lg_num_edges lg_nlm lg_elm].
          rewrite Nh. cbn [rbind]. rewrite N3. done.
      + cbn [rbind]. unfold ev_num_nodes, ev_num_edges. rewrite L1, L2. destruct (fs_exists F (f_aux p)).
        * destruct (import _ _ _) as [a|]; [|done]. cbn [unwrap rbind]. unfold lg_now. cbn [lg_evec lg_in lg_labels lg_num_nodes lg_num_edges lg_nlm lg_elm].
          rewrite Nh. done.
        * destruct (usub _ _); [|done..]. cbn [rbind]. unfold lg_now. cbn [lg_evec lg_in lg_labels lg_num_nodes lg_num_edges lg_nlm lg_elm].
          rewrite Nh. done.
    - destruct (lv_open_cases page it lt F (p_in p) Hp) as [[-> ->]|(h' & e' & -> & Nh' & -> & _)]; [done|]. cbn [rbind].
      destruct (fs_exists F (f_labels p)).
      + destruct (lm_open_cases page lt F (f_labels p) Hp) as [[-> ->]|(m3 & l3 & -> & N3 & -> & L3)]; [done|]. cbn [rbind].
        unfold ev_num_nodes, ev_num_edges. rewrite L1, L2. destruct (fs_exists F (f_aux p)).
        * destruct (import _ _ _) as [a|]; [|done]. cbn [unwrap rbind]. unfold lg_now. cbn [lg_evec lg_in lg_labels lg_num_nodes lg_num_edges lg_nlm lg_elm].
          rewrite Nh, Nh'. cbn [rbind]. rewrite N3. done.
        * destruct (usub _ _); [|done..]. cbn [rbind]. unfold lg_now. cbn [lg_evec lg_in lg_labels lg_num_nodes lg_num_edges lg_nlm lg_elm].
          rewrite Nh, Nh'. cbn [rbind]. rewrite N3. done.
      + cbn [rbind]. unfold ev_num_nodes, ev_num_edges. rewrite L1, L2. destruct (fs_exists F (f_aux p)).
        * destruct (import _ _ _) as [a|]; [|done]. cbn [unwrap rbind]. unfold lg_now. cbn [lg_evec lg_in lg_labels lg_num_nodes lg_num_edges lg_nlm lg_elm].
          rewrite Nh, Nh'. done.
        * destruct (usub _ _); [|done..]. cbn [rbind]. unfold lg_now. cbn [lg_evec lg_in lg_labels lg_num_nodes lg_num_edges lg_nlm lg_elm].
          rewrite Nh, Nh'. done.
  Qed.
  (** A graph only sees the array files of its prefix. *)
  Definition map_names (p : string) : list string :=
    [f_offsets (p_out p); f_edges (p_out p); f_labels (p_out p); f_offsets (p_in p); f_edges (p_in p); f_labels (p_in p); f_labels p].
  Lemma lg_frame F0 p h F F' : lg_open it lt cn ce F0 p = Ok h → (∀ f, f ∈ map_names p → F !! f = F' !! f) → lg_now page F h = lg_now page F' h.
  Proof using.
    intros H Hf. unfold lg_open in H. destruct (lv_open it lt F0 (p_out p)) as [e| |] eqn:E; [|done..]. cbn [rbind] in H.
    assert (lv_now page F e = lv_now page F' e) as He.
    { apply lv_now_frame. intros f Hin. apply Hf. pose proof (lv_open_files _ _ _ _ _ _ E Hin) as Hx. unfold map_names. set_solver. }
    destruct (if fs_exists F0 (f_offsets (p_in p)) then _ else _) as [i| |] eqn:Ei; [|done..]. cbn [rbind] in H.
    destruct (if fs_exists F0 (f_labels p) then _ else _) as [l| |] eqn:El; [|done..]. cbn [rbind] in H.
    destruct (if fs_exists F0 (f_aux p) then _ else _) as [a| |] eqn:Ea; [|done..]. cbn [rbind] in H. injection H as <-.
    unfold lg_now. cbn [lg_evec lg_in lg_labels lg_num_nodes lg_num_edges lg_nlm lg_elm]. rewrite He. destruct (lv_now page F' e); [|done..]. cbn [rbind].
    assert (match i with Some x => let* x := lv_now page F x in Ok (Some x) | None => Ok None end =
      match i with Some x => let* x := lv_now page F' x in Ok (Some x) | None => Ok None end) as ->.
    { destruct i as [i|]; [|done]. destruct (fs_exists F0 (f_offsets (p_in p))); [|done]. destruct (lv_open it lt F0 (p_in p)) as [i'| |] eqn:E'; [|done..].
      cbn [rbind] in Ei. injection Ei as ->. rewrite (lv_now_frame page F F' i); [done|]. intros f Hin. apply Hf.
      pose proof (lv_open_files _ _ _ _ _ _ E' Hin) as Hx. unfold map_names. set_solver. }
    destruct (match i with Some x => let* x := lv_now page F' x in Ok (Some x) | None => Ok None end); [|done..]. cbn [rbind].
    destruct l as [l|]; [|done]. destruct (fs_exists F0 (f_labels p)); [|done]. destruct (lm_open lt F0 (f_labels p)) as [l'| |] eqn:E'; [|done..].
    cbn [rbind] in El. injection El as ->. rewrite (lm_now_frame page F F' l); [done|]. apply Hf. apply lm_open_file in E' as [-> _]. unfold map_names. set_solver.
  Qed.
End graph.
