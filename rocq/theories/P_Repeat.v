(** C97: doing the same again.  Vocabularies of the same files, however they were computed, and codes learned from them. *)
From Verif Require Import M_Base L_Base M_Literal L_Literal S_Bpe L_Bpe M_Merge L_Merge M_BpeEncode L_BpeEncode
  M_Learn P_Queue L_Learn P_Learn M_Vocab L_Vocab P_Vocab M_Merger L_Merger P_Merger M_Registry P_Registry M_BpeRun P_BpeRun.
From Coq Require Import Lia Permutation.

(** ** Lemmas *)
Lemma counts_agree d1 d2 ws : counts_exactly d1 ws -> counts_exactly d2 ws -> Permutation d1 d2.
Proof.
  intros [N1 G1] [N2 G2]. apply NoDup_Permutation.
  - apply (NoDup_map_inv fst), N1.
  - apply (NoDup_map_inv fst), N2.
  - intros [k n]. split; intros I.
    + apply dget_in. rewrite G2, <- G1. apply dget_nodup; assumption.
    + apply dget_in. rewrite G1, <- G2. apply dget_nodup; assumption.
Qed.

(** a list of numbers of which each is at least as large as those after it *)
Inductive falling : list Z -> Prop :=
| falling_nil : falling []
| falling_cons x l : (forall y, In y l -> (y <= x)%Z) -> falling l -> falling (x :: l).
Lemma descending_falling l : descending l -> falling (map snd l).
Proof.
  induction 1 as [|x l Hx Hl IH]; [constructor|]. cbn [map]. constructor; [|exact IH].
  intros y Hy. apply in_map_iff in Hy as (z & <- & Hz). auto.
Qed.
Lemma falling_same l1 : forall l2, Permutation l1 l2 -> falling l1 -> falling l2 -> l1 = l2.
Proof.
  induction l1 as [|x l1 IH]; intros l2 P F1 F2; [apply Permutation_nil in P; congruence|].
  destruct l2 as [|y l2]; [apply Permutation_sym, Permutation_nil in P; discriminate|].
  inversion F1 as [|? ? A1 B1]; subst. inversion F2 as [|? ? A2 B2]; subst.
  assert (E : x = y).
  { assert (I1 : In x (y :: l2)) by (apply (Permutation_in _ P); left; reflexivity).
    assert (I2 : In y (x :: l1)) by (apply (Permutation_in _ (Permutation_sym P)); left; reflexivity).
    destruct I1 as [->|I1]; [reflexivity|]. destruct I2 as [->|I2]; [reflexivity|].
    specialize (A2 _ I1). specialize (A1 _ I2). lia. }
  subst y. f_equal. apply IH; [|assumption..]. eapply Permutation_cons_inv, P.
Qed.
Lemma sorted_same d1 d2 : Permutation d1 d2 ->
  Permutation (sort_desc d1) (sort_desc d2) /\ map snd (sort_desc d1) = map snd (sort_desc d2).
Proof.
  intros P. assert (Q : Permutation (sort_desc d1) (sort_desc d2)) by (rewrite !sort_desc_perm; exact P).
  split; [exact Q|]. apply falling_same; [apply Permutation_map, Q|apply descending_falling, sort_desc_sorted..].
Qed.

(** ** Vocabularies *)

(** the lines of a vocabulary file *)
Definition vocabulary_text (l : list (str * Z)) : str :=
  flat_map (fun wn => fst wn ++ [9%N] ++ decZ (snd wn) ++ [10%N]) l.
Lemma write_vocab_text d : write_vocab d = vocabulary_text (sort_desc d).
Proof.
  unfold write_vocab, dump_vocab_dict, vocabulary_text. generalize (sort_desc d). intros l.
  unfold write_lines. induction l as [|[w n] l IH]; [reflexivity|]. cbn [map flat_map List.concat fst snd].
  unfold vocab_line at 1. cbn [fst snd]. unfold str in *. rewrite IH. unfold tab, newline. rewrite <- !app_assoc. reflexivity.
Qed.

(** Two computations of the vocabulary of the same files, with any numbers of groups, chunks and processes, any schedules and
    any interruptions and restarts: the two files have the same lines, and line for line the same counts.  Only words that
    are equally frequent can have changed places. *)
Theorem C97_vocabulary g1 c1 g2 c2 files1 files2 d1 r1 s1 text1 d2 r2 s2 text2 :
  g1 <> 0 -> c1 <> 0 -> g2 <> 0 -> c2 <> 0 -> Permutation files1 files2 ->
  reachable g1 c1 files1 (Down d1 r1 s1 (Full text1)) -> reachable g2 c2 files2 (Down d2 r2 s2 (Full text2)) ->
  s1 = s2 /\ length text1 = length text2 /\
  exists l1 l2, text1 = vocabulary_text l1 /\ text2 = vocabulary_text l2
    /\ Permutation l1 l2 /\ map snd l1 = map snd l2.
Proof.
  intros G1 C1 G2 C2 Pf R1 R2.
  destruct (C42_written _ _ _ _ _ _ _ G1 C1 R1) as (v1 & -> & E1 & S1).
  destruct (C42_written _ _ _ _ _ _ _ G2 C2 R2) as (v2 & -> & E2 & S2).
  assert (Pt : Permutation (corpus_tokens files1) (corpus_tokens files2)).
  { unfold corpus_tokens. apply Permutation_flat_map, Pf. }
  pose proof (counts_agree _ _ _ (counts_exactly_perm _ _ _ Pt E1) E2) as P.
  destruct (sorted_same _ _ P) as [Q1 Q2]. split.
  - rewrite S1, S2. f_equal. f_equal. apply Permutation_length, NoDup_Permutation; [apply NoDup_nodup..|].
    intros x. rewrite !nodup_In. split; intros I; [exact (Permutation_in _ Pt I)|exact (Permutation_in _ (Permutation_sym Pt) I)].
  - rewrite !write_vocab_text. split.
    + unfold vocabulary_text. apply Permutation_length, Permutation_flat_map, Q1.
    + exists (sort_desc v1), (sort_desc v2). auto.
Qed.

(** The most frequent words of two such vocabularies are the same words with the same counts. *)
Theorem C97_limit t (d1 d2 d1' : counts) : NoDup (dkeys d1) -> Permutation d1 d2 ->
  limit_max_vocab t d1 = Ok d1' -> exists d2', limit_max_vocab t d2 = Ok d2' /\ Permutation d1' d2'.
Proof.
  intros N1 P L1. assert (N2 : NoDup (dkeys d2)) by (apply (Permutation_NoDup (Permutation_map fst P) N1)).
  assert (Ht : t <> length d1) by (intros ->; rewrite C48_equal_refuted in L1; discriminate).
  destruct (C48_total t d2) as (d2' & L2); [rewrite <- (Permutation_length P); exact Ht|].
  exists d2'. split; [exact L2|].
  destruct (C48_limit t d1 d1' N1 L1) as (A1 & B1 & I1 & S1 & M1).
  destruct (C48_limit t d2 d2' N2 L2) as (A2 & B2 & I2 & S2 & M2).
  assert (Q : forall (da db da' db' : counts), NoDup (dkeys da) -> Permutation da db -> length da' <= t ->
            (forall x y, In x da' -> In y da -> ~ In y da' -> (snd y < snd x)%Z) -> incl da' da ->
            (forall y, In y db -> ~ In y db' -> t < length (filter (fun x => (snd y <=? snd x)%Z) db)) -> incl da' db').
  { clear. intros da db da' db' N P A S I M y Hy.
    assert (D : forall a b : str * Z, {a = b} + {a <> b}) by (repeat decide equality).
    destruct (in_dec D y db') as [|Hn]; [assumption|exfalso].
    specialize (M y (Permutation_in _ P (I _ Hy)) Hn).
    assert (F : incl (filter (fun x => (snd y <=? snd x)%Z) db) da').
    { intros z Hz. apply filter_In in Hz as [Hz Hle]. apply Z.leb_le in Hle.
      destruct (in_dec D z da') as [|Hn']; [assumption|exfalso].
      specialize (S y z Hy (Permutation_in _ (Permutation_sym P) Hz) Hn'). lia. }
    apply NoDup_incl_length in F; [lia|]. apply NoDup_filter, (Permutation_NoDup P), (NoDup_map_inv fst), N. }
  apply NoDup_Permutation; [apply (NoDup_map_inv fst); assumption..|]. intros x. split.
  - apply (Q d1 d2 d1' d2'); assumption.
  - apply (Q d2 d1 d2' d1'); try assumption. symmetry. exact P.
Qed.

(** ** Codes *)
Lemma corpus_count_perm v w q : Permutation v w -> corpus_count v q = corpus_count w q.
Proof. induction 1; cbn [corpus_count fold_right] in *; try lia. unfold corpus_count in *. lia. Qed.
Lemma greedy_perm v a v1 : greedy v a v1 -> forall w, Permutation v w -> exists w1, greedy w a w1 /\ Permutation v1 w1.
Proof.
  induction 1 as [v|v p n l v' M G IH]; intros w P; [exists w; split; [constructor|exact P]|].
  destruct (IH (map (fun wf => (merge_pair p (fst wf), snd wf)) w)) as (w1 & G1 & P1); [apply Permutation_map, P|].
  exists w1. split; [|exact P1]. constructor; [|exact G1]. destruct M as (M1 & M2 & M3).
  split; [rewrite M1; apply corpus_count_perm, P|]. split; [exact M2|].
  intros q. rewrite <- (corpus_count_perm v w q P). apply M3.
Qed.
Lemma no_ties_perm l : forall v w, Permutation v w -> no_ties v l -> no_ties w l.
Proof.
  induction l as [|[p n] l IH]; intros v w P; [auto|]. cbn [no_ties]. intros [H1 H2]. split.
  - intros q Hq. rewrite <- !(corpus_count_perm v w _ P). apply H1, Hq.
  - eapply IH; [|exact H2]. apply Permutation_map, P.
Qed.
Lemma single_count v q : Forall (fun wf => length (fst wf) = 1) v -> corpus_count v q = 0%Z.
Proof.
  induction 1 as [|[w f] v Hw _ IH]; [reflexivity|]. cbn [corpus_count fold_right fst snd] in *.
  destruct w as [|x [|y w]]; try discriminate. cbn [tl combine filter length]. unfold corpus_count in IH. rewrite IH. lia.
Qed.

(** as long as at most [n] merges are learned from the corpus, there is always one most frequent pair *)
Definition tie_free (c : corpus) (n : nat) : Prop :=
  forall l v, greedy (characters c) l v -> length l <= n ->
    no_ties (characters c) (map (fun pn => (fst pn, Some (snd pn))) l).
(** the same words with the same frequencies, possibly in another order *)
Definition same_corpus (c1 c2 : corpus) : Prop :=
  Permutation (all_vocab c1) (all_vocab c2) /\ forall w, In w (nonbpe c1) <-> In w (nonbpe c2).

Lemma filter_perm {A} (f g : A -> bool) l1 l2 : (forall x, f x = g x) -> Permutation l1 l2 -> Permutation (filter f l1) (filter g l2).
Proof.
  intros E P. rewrite (filter_ext f g E). clear E f. induction P; cbn [filter].
  - constructor.
  - destruct (g x); [constructor|]; assumption.
  - destruct (g x), (g y); try reflexivity. apply perm_swap.
  - etransitivity; eassumption.
Qed.
Lemma mem_same (c1 c2 : corpus) : (forall w, In w (nonbpe c1) <-> In w (nonbpe c2)) ->
  forall w, mem w (nonbpe c1) = mem w (nonbpe c2).
Proof.
  intros H w. destruct (mem w (nonbpe c1)) eqn:E1, (mem w (nonbpe c2)) eqn:E2; try reflexivity.
  - apply mem_in in E1. apply H, mem_in in E1. congruence.
  - apply mem_in in E2. apply H, mem_in in E2. congruence.
Qed.
Lemma same_words c1 c2 : same_corpus c1 c2 -> Permutation (words c1) (words c2) /\ Permutation (others c1) (others c2).
Proof.
  intros [P H]. pose proof (mem_same _ _ H) as M. split; apply filter_perm; try exact P; intros [k n]; cbn [fst].
  - rewrite M. reflexivity.
  - apply M.
Qed.
Lemma same_characters c1 c2 : same_corpus c1 c2 -> Permutation (characters c1) (characters c2).
Proof. intros S. apply Permutation_map, (proj1 (same_words _ _ S)). Qed.
Lemma same_split c1 c2 v1 v2 : same_corpus c1 c2 -> Permutation v1 v2 -> Permutation (split_words c1 v1) (split_words c2 v2).
Proof. intros S P. apply Permutation_app; [exact P|]. apply Permutation_map, (proj2 (same_words _ _ S)). Qed.

Lemma greedy_unique v a v1 b v2 n : greedy v a v1 -> greedy v b v2 -> no_ties v (map some_freq a) ->
  length a <= n -> length b <= n ->
  (length a < n -> Forall (fun wf => length (fst wf) = 1) v1) -> (length b < n -> Forall (fun wf => length (fst wf) = 1) v2) ->
  a = b.
Proof.
  intros Ga Gb T La Lb Sa Sb. destruct (Nat.le_gt_cases (length b) (length a)) as [L|L].
  - destruct (greedy_strict _ _ _ _ _ Ga Gb T L) as (c & -> & Gc). destruct c as [|[p k] c]; [apply app_nil_r|exfalso].
    rewrite app_length in La. cbn [length] in La. specialize (Sb ltac:(lia)).
    inversion Gc as [|? ? ? ? ? (M1 & M2 & _) _]; subst. rewrite (single_count _ _ Sb) in M2. lia.
  - exfalso. specialize (Sa ltac:(lia)).
    rewrite <- (firstn_skipn (length a) b) in Gb. destruct (greedy_prefix _ _ _ _ Gb) as (vx & G1 & G2).
    assert (Lf : length (firstn (length a) b) = length a) by (rewrite firstn_length; lia).
    destruct (greedy_strict _ _ _ _ _ Ga G1 T) as (c & Ec & Gc); [lia|].
    assert (c = []) by (apply (f_equal (@length _)) in Ec; rewrite app_length in Ec; destruct c; [reflexivity|cbn [length] in Ec; lia]).
    subst c. inversion Gc; subst. destruct (skipn (length a) b) as [|[p k] t] eqn:Es.
    + apply (f_equal (@length _)) in Es. rewrite skipn_length in Es. cbn [length] in Es. lia.
    + inversion G2 as [|? ? ? ? ? (M1 & M2 & _) _]; subst. rewrite (single_count _ _ Sa) in M2. lia.
Qed.

Lemma dget_perm {V} (d1 d2 : dict str V) k : NoDup (dkeys d1) -> Permutation d1 d2 -> dget d1 k = dget d2 k.
Proof.
  intros N1 P. assert (N2 : NoDup (dkeys d2)) by (apply (Permutation_NoDup (Permutation_map fst P) N1)).
  destruct (dget d1 k) as [x|] eqn:E1.
  - symmetry. apply dget_nodup; [exact N2|]. apply (Permutation_in _ P), dget_in, E1.
  - destruct (dget d2 k) as [y|] eqn:E2; [|reflexivity]. apply dget_in in E2. apply (Permutation_in _ (Permutation_sym P)) in E2.
    rewrite (dget_nodup _ _ _ N1 E2) in E1. discriminate.
Qed.

Section Codes.
  Variable py_int : str -> option Z.
  Hypothesis py_int_dec : forall k, py_int (dec k) = Some (Z.of_N k).

  (** Codes learned from the same words, in any order, with any numbers of merges learned before (so also in several
      steps): if there are no ties, the merges files are the same, and every word is split in the same way. *)
  Theorem C97_codes c1 c2 ns1 ns2 n : corpus_ok c1 -> same_corpus c1 c2 -> tie_free c1 n ->
    exists k merges ml cache1 cache2 d1 d2 t1 t2, k <= n
      /\ dget (runs py_int c1 (ns1 ++ [n])) k = Some d1 /\ dget (runs py_int c2 (ns2 ++ [n])) k = Some d2
      /\ f_merges d1 = Some merges /\ f_merges d2 = Some merges /\ read_merges merges None = Ok ml
      /\ length (ml_iter ml) = k
      /\ f_cache d1 = Some t1 /\ read_bpe_cache t1 = Ok cache1 /\ f_cache d2 = Some t2 /\ read_bpe_cache t2 = Ok cache2
      /\ forall w, get_bpe_subwords {| bd_merges := ml; bd_cache := cache1 |} w
                 = get_bpe_subwords {| bd_merges := ml; bd_cache := cache2 |} w.
  Proof.
    intros O1 S T.
    assert (O2 : corpus_ok c2).
    { destruct O1 as (A & B & C), S as [P Q]. split; [apply (Permutation_NoDup (Permutation_map fst P) A)|]. split.
      - apply (Permutation_Forall P B).
      - rewrite Forall_forall in *. intros w Hw. apply C, Q, Hw. }
    assert (L : forall c ns, corpus_ok c -> exists l v, greedy (characters c) l v /\ length l <= n
                  /\ (length l < n -> Forall (fun wf => length (fst wf) = 1) v)
                  /\ dget (runs py_int c (ns ++ [n])) (length l) = Some (complete (results (split_words c v) (ml_of l)))).
    { intros c ns O. destruct (learn_good py_int py_int_dec c _ n O (runs_good py_int py_int_dec c ns O)) as (l & v & G & H1 & H2 & _ & H3 & E).
      exists l, v. split; [exact G|]. split; [exact H1|]. split; [exact H2|].
      unfold runs in *. rewrite fold_left_app. cbn [fold_left]. unfold run at 1. rewrite E.
      match goal with |- context [dmem ?s ?k] => destruct (dmem s k) eqn:Em end; [apply H3; reflexivity|apply dget_dset_eq]. }
    destruct (L c1 ns1 O1) as (l1 & v1 & G1 & A1 & B1 & D1). destruct (L c2 ns2 O2) as (l2 & v2 & G2 & A2 & B2 & D2).
    pose proof (same_characters _ _ S) as P.
    destruct (greedy_perm _ _ _ G1 _ P) as (w1 & G1' & P1).
    assert (Q1 : length l1 < n -> Forall (fun wf => length (fst wf) = 1) w1) by (intros H; apply (Permutation_Forall P1), B1, H).
    assert (E : l1 = l2).
    { apply (greedy_unique _ _ _ _ _ n G1' G2); try assumption. apply (no_ties_perm _ _ _ P). exact (T _ _ G1 A1). }
    subst l2. pose proof (greedy_det _ _ _ _ G1' G2) as ->.
    destruct (saved_results c1 l1 v1 O1 G1) as (res1 & cache1 & m1 & re1 & ml & F1 & R1 & I1 & _ & C1 & _).
    destruct (saved_results c2 l1 v2 O2 G2) as (res2 & cache2 & m2 & re2 & ml2 & F2 & R2 & _ & _ & C2 & _).
    assert (M1 : m1 = dump_merges (ml_of l1)) by (apply (f_equal f_merges) in F1; cbn in F1; congruence).
    assert (M2 : m2 = dump_merges (ml_of l1)) by (apply (f_equal f_merges) in F2; cbn in F2; congruence).
    rewrite F1 in D1. rewrite F2 in D2. rewrite M1 in D1, R1. rewrite M2 in D2.
    exists (length l1), (dump_merges (ml_of l1)), ml. do 6 eexists.
    split; [exact A1|]. split; [exact D1|]. split; [exact D2|]. cbn [f_merges f_cache].
    split; [reflexivity|]. split; [reflexivity|]. split; [exact R1|].
    split; [apply (f_equal (@length _)) in I1; rewrite !map_length in I1; exact I1|].
    split; [reflexivity|]. split; [exact C1|]. split; [reflexivity|]. split; [exact C2|].
    intros w. unfold get_bpe_subwords. cbn [bd_cache bd_merges].
    rewrite (dget_perm _ (map (fun wf => (List.concat (fst wf), fst wf)) (split_words c2 v2)) (escape w true)); [reflexivity|..].
    - unfold dkeys. rewrite map_map. cbn [fst]. apply (split_words_good _ _ _ O1 G1).
    - apply Permutation_map, same_split; assumption.
  Qed.
End Codes.

(** With ties it is not so: the vocabulary of two files with one word each, computed by one process, can be written with the
    words in either order, since the parts are made in any order.  What is learned from the two files is different. *)
Definition word_files : list str := [lit "ab"; lit "cd"].
Definition part (i : N) (s : string) : pvocab := new_pvocab i (get_vocab [lit s]) 0.
Lemma one_process parts m : Permutation parts [part 0 "ab"; part 1 "cd"] ->
  (exists a b, parts = [a; b] /\ m = add_vocab 2 a b) ->
  exists d r s, reachable 2 1 word_files (Down d r s (Full (write_vocab (pv_counts m)))).
Proof.
  intros P (a & b & -> & ->).
  assert (R : reachable 2 1 word_files (Up (start_run 1 [a; b] 2 (map Plain [a; b]) Absent Absent))).
  { eapply reach_sys; [apply reach_init|].
    eapply (sys_created 2 1 word_files [] Absent Absent _ [0%N; 1%N] [part 0 "ab"; part 1 "cd"]); try reflexivity; try discriminate.
    - repeat constructor; cbn; intuition discriminate.
    - exact P.
    - intros f Hf. apply in_map_iff in Hf as (x & <- & Hx). apply (Permutation_in _ P) in Hx.
      destruct Hx as [<-|[<-|[]]]; reflexivity. }
  assert (Ca : pv_chunk a = 0 /\ pv_chunk b = 0 /\ exists z, vocab_size_line (add_vocab 2 a b) = Ok z).
  { assert (Ia : In a [part 0 "ab"; part 1 "cd"]) by (apply (Permutation_in _ P); left; reflexivity).
    assert (Ib : In b [part 0 "ab"; part 1 "cd"]) by (apply (Permutation_in _ P); right; left; reflexivity).
    destruct Ia as [<-|[<-|[]]], Ib as [<-|[<-|[]]]; repeat split; eexists; vm_compute; reflexivity. }
  destruct Ca as (Ca & Cb & z & Z).
  assert (E : chunks_of [a; b] [] = [0]) by (cbn; rewrite Ca, Cb; reflexivity).
  assert (T : chunk_tickets [a; b] = [0]).
  { unfold chunk_tickets. rewrite E. unfold chunk_size, in_chunk. cbn. rewrite Ca, Cb. reflexivity. }
  unfold start_run in R. rewrite E, T in R. cbn [map repeat app length] in R.
  change [PIdle] with ([] ++ PIdle :: []) in R.
  eapply reach_step in R; [|eapply step_ticket; reflexivity].
  eapply reach_step in R; [|eapply (step_first _ _ _ _ []); [reflexivity|exact Ca]].
  eapply reach_step in R; [|eapply (step_second _ _ _ _ _ [] _ 0 2); [reflexivity|exact Cb|reflexivity|discriminate]].
  eapply reach_step in R; [|apply step_open]. eapply reach_step in R; [|apply step_dump].
  eapply reach_step in R; [|apply step_rm_first]. eapply reach_step in R; [|apply step_rm_second].
  eapply reach_step in R; [|apply step_rename]. eapply reach_step in R; [|apply step_put].
  eapply reach_step in R; [|apply step_stop; reflexivity].
  eapply reach_step in R; [|apply step_last; reflexivity].
  eapply reach_step in R; [|eapply (step_collect _ _ _ _ _ _ []); [reflexivity|exact Ca]].
  eapply reach_step in R; [|apply (step_collected _ _ [])].
  eapply reach_step in R; [|apply step_merged]. eapply reach_step in R; [|apply step_open_stats].
  eapply reach_step in R; [|eapply step_stats; exact Z].
  eapply reach_step in R; [|apply step_open_vocab]. eapply reach_step in R; [|apply step_vocab].
  do 3 eexists. eapply reach_sys; [exact R|]. apply sys_down.
Qed.
Theorem C97_ties_refuted : exists d1 r1 s1 text1 v1 ml1 d2 r2 s2 text2 v2 ml2 b1 b2,
  reachable 2 1 word_files (Down d1 r1 s1 (Full text1)) /\ reachable 2 1 word_files (Down d2 r2 s2 (Full text2))
  /\ text1 <> text2
  /\ load_vocab_dict text1 = Ok b1 /\ do_merges (scratch_vocab b1) 1 = Ok (v1, ml1)
  /\ load_vocab_dict text2 = Ok b2 /\ do_merges (scratch_vocab b2) 1 = Ok (v2, ml2)
  /\ map m_pair (ml_iter ml1) = [(lit "a", lit "b")] /\ map m_pair (ml_iter ml2) = [(lit "c", lit "d")].
Proof.
  destruct (one_process [part 0 "ab"; part 1 "cd"] _ (Permutation_refl _) (ex_intro _ _ (ex_intro _ _ (conj eq_refl eq_refl)))) as (d1 & r1 & s1 & R1).
  destruct (one_process [part 1 "cd"; part 0 "ab"] _ (perm_swap _ _ _) (ex_intro _ _ (ex_intro _ _ (conj eq_refl eq_refl)))) as (d2 & r2 & s2 & R2).
  exists d1, r1, s1. eexists. do 2 eexists. exists d2, r2, s2. do 5 eexists.
  split; [exact R1|]. split; [exact R2|]. clear. split; [vm_compute; discriminate|].
  split; [vm_compute; reflexivity|]. split; [vm_compute; reflexivity|].
  split; [vm_compute; reflexivity|]. split; [vm_compute; reflexivity|]. split; reflexivity.
Qed.

(** ** Concrete cases *)
Example C97_vocabulary_ex : exists d1 r1 s1 text1 d2 r2 s2 text2,
  reachable 2 1 word_files (Down d1 r1 s1 (Full text1)) /\ reachable 2 1 word_files (Down d2 r2 s2 (Full text2))
  /\ text1 <> text2 /\ length text1 = length text2.
Proof.
  destruct C97_ties_refuted as (d1 & r1 & s1 & t1 & _ & _ & d2 & r2 & s2 & t2 & _ & _ & _ & _ & R1 & R2 & N & _).
  exists d1, r1, s1, t1, d2, r2, s2, t2. split; [exact R1|]. split; [exact R2|]. split; [exact N|].
  refine (proj1 (proj2 (C97_vocabulary 2 1 2 1 word_files word_files _ _ _ _ _ _ _ _ _ _ _ _ (Permutation_refl _) R1 R2))); discriminate.
Qed.
Example C97_limit_ex :
  limit_max_vocab 2 [(lit "a", 1%Z); (lit "b", 5%Z); (lit "c", 1%Z)] = Ok [(lit "b", 5%Z)]
  /\ exists d, limit_max_vocab 2 [(lit "c", 1%Z); (lit "b", 5%Z); (lit "a", 1%Z)] = Ok d /\ Permutation [(lit "b", 5%Z)] d.
Proof.
  split; [reflexivity|]. apply (C97_limit 2 [(lit "a", 1%Z); (lit "b", 5%Z); (lit "c", 1%Z)]); [| |reflexivity].
  - repeat constructor; cbn; intuition discriminate.
  - change [(lit "c", 1%Z); (lit "b", 5%Z); (lit "a", 1%Z)] with (rev [(lit "a", 1%Z); (lit "b", 5%Z); (lit "c", 1%Z)]).
    apply Permutation_rev.
Qed.
(** a corpus without ties for two merges, in two orders *)
Definition free_corpus : corpus := {| all_vocab := (lit "y", 7%Z) :: free_base; nonbpe := [lit "y"] |}.
Definition free_corpus' : corpus := {| all_vocab := rev ((lit "y", 7%Z) :: free_base); nonbpe := [lit "y"; lit "y"] |}.
Example C97_codes_ex : corpus_ok free_corpus /\ same_corpus free_corpus free_corpus' /\ tie_free free_corpus 2
  /\ characters free_corpus <> characters free_corpus'.
Proof.
  split; [|split; [|split]].
  - split; [repeat constructor; cbn; intuition discriminate|]. split.
    + repeat constructor; cbn; try discriminate; unfold no_char; cbn; intuition discriminate.
    + repeat constructor. unfold no_char; cbn; intuition discriminate.
  - split; [apply Permutation_rev|]. cbn. intuition.
  - assert (F : forall v p, (forall q, q <> p -> (corpus_count v q < corpus_count v p)%Z) ->
              forall q n l v', greedy v ((q, n) :: l) v' -> q = p).
    { intros v p S q n l v' G. inversion G as [|? ? ? ? ? (M1 & _ & M) _]; subst.
      destruct (Eqb_dec q p) as [|N]; [assumption|]. specialize (S q N). specialize (M p). lia. }
    assert (S1 : forall q, q <> (lit "c", lit "@") ->
      (corpus_count (characters free_corpus) q < corpus_count (characters free_corpus) (lit "c", lit "@"))%Z)
      by (apply strictly_most; vm_compute; reflexivity).
    set (w := map (fun wf => (merge_pair (lit "c", lit "@") (fst wf), snd wf)) (characters free_corpus)).
    assert (S2 : forall q, q <> (lit "a", lit "b") -> (corpus_count w q < corpus_count w (lit "a", lit "b"))%Z)
      by (apply strictly_most; vm_compute; reflexivity).
    intros l v G L. destruct l as [|[p n] l]; [exact I|]. pose proof (F _ _ S1 _ _ _ _ G) as ->.
    cbn [map fst no_ties]. split; [exact S1|]. fold w. inversion G as [|? ? ? ? ? _ G']; subst. fold w in G'.
    destruct l as [|[p n'] l]; [exact I|]. pose proof (F _ _ S2 _ _ _ _ G') as ->.
    cbn [map fst no_ties]. split; [exact S2|]. destruct l; [exact I|]. cbn in L. lia.
  - vm_compute. discriminate.
Qed.
Print Assumptions C97_vocabulary.
Print Assumptions C97_limit.
Print Assumptions C97_codes.
Print Assumptions C97_ties_refuted.
