(** C78: learning with the words as the program keeps them, strings with spaces between the symbols, and the regular
    expression that looks for a pair. *)
From Verif Require Import M_Base L_Base M_Literal S_Bpe L_Bpe M_Merge L_Merge M_BpeEncode L_BpeEncode M_Learn P_Queue L_Learn P_Learn
  M_Vocab M_Registry M_BpeRun P_BpeRun M_LearnStr L_LearnStr.
From Coq Require Import Lia.

(** ** Lemmas *)
Lemma escape_ends k : last (escape k true) 0%N <> 10%N.
Proof. rewrite escape_merged, concat_app. cbn [List.concat]. rewrite app_nil_r. unfold at_str. rewrite last_last. discriminate. Qed.

Lemma unit_ok ch : ch <> 32%N -> ok_sym (unit_of ch).
Proof.
  intros Hc. destruct (unit_of_cases ch) as [[-> ->]|[_ ->]]; split; try discriminate.
  - intros [H|[H|[]]]; discriminate.
  - intros [H|[]]. congruence.
Qed.
Lemma at_ok : ok_sym at_str.
Proof. split; [discriminate|]. intros [H|[]]; discriminate. Qed.

Lemma units_vocab_ok base : base_ok base -> all_syms ok_sym (units_vocab base).
Proof.
  intros [_ H]. unfold all_syms, units_vocab. rewrite Forall_map. eapply Forall_impl; [|exact H]. intros kv (_ & Hn & _). cbn [fst].
  apply Forall_app. split; [|repeat constructor; apply at_ok]. rewrite Forall_map. apply Forall_forall. intros ch Hin.
  apply unit_ok. intros ->. exact (Hn Hin).
Qed.

Lemma units_vocab_pos base : base_ok base -> Forall (fun wf => (0 < snd wf)%Z) (units_vocab base).
Proof.
  intros [_ H]. unfold units_vocab. rewrite Forall_map. eapply Forall_impl; [|exact H]. intros kv (_ & _ & Hp). exact Hp.
Qed.

Lemma greedy_nonempty v l v' : greedy v l v' -> Forall (fun wf => fst wf <> []) v -> Forall (fun wf => fst wf <> []) v'.
Proof.
  induction 1 as [v|v p n l v' M G IH]; intros Hv; [exact Hv|]. apply IH. rewrite Forall_map. eapply Forall_impl; [|exact Hv].
  intros [w f] Hw. cbn [fst] in *. destruct w as [|a [|b w]]; [contradiction|discriminate|]. rewrite merge_pair_cons2.
  destruct (is_pair p a b); discriminate.
Qed.

Lemma state_ok base l0 v : corpus_state base l0 v -> ok_vocab v.
Proof.
  intros C. pose proof (C27_corpus base l0 v 0 v ml_empty C eq_refl) as W. destruct C as [Hb G].
  rewrite (initial_vocab base Hb), (scratch_units base Hb) in G.
  destruct (greedy_syms ok_sym _ _ _ ok_sym_app (units_vocab_pos base Hb) G (units_vocab_ok base Hb)) as [S _].
  assert (N : Forall (fun wf => fst wf <> []) v).
  { apply (greedy_nonempty _ _ _ G). unfold units_vocab. rewrite Forall_map. apply Forall_forall. intros kv _.
    cbn [fst]. destruct (map unit_of (fst kv)); discriminate. }
  apply Forall_forall. intros wf Hin. unfold all_syms in S. rewrite Forall_forall in S, N. split; [|split].
  - exact (N _ Hin).
  - exact (S _ Hin).
  - apply (in_map (fun wf : list str * Z => (List.concat (fst wf), snd wf))) in Hin.
    assert (H : In (List.concat (fst wf), snd wf) (map (fun kv : str * Z => (escape (fst kv) true, snd kv)) base))
      by (rewrite <- W; exact Hin).
    apply in_map_iff in H as (kv & E & _). injection E as E _. rewrite <- E. apply escape_ends.
Qed.

(** the vocabulary as strings with spaces *)
Notation spaced v := (map (fun wf => (join (lit " ") (fst wf), snd wf)) v).

Lemma learn_str py_int (H : forall k, py_int (dec k) = Some (Z.of_N k)) c st n :
  corpus_ok c -> good_state c st -> s_learn py_int c st n = learn py_int c st n.
Proof.
  intros Hc Hg. unfold s_learn, learn.
  assert (R : forall l0 v0 done, greedy (characters c) l0 v0 ->
    (learned <- s_do_merges (to_strings v0) (n - length done) ;;
     let (v', new) := learned in
     let v2 := fold_left (fun d kv => dset d (fst kv) (snd kv)) (other_strings c) v' in
     merges <- ml_add done new ;;
     Ok (if dmem st (length merges) then None else Some (length merges, s_results v2 merges)))
    = (learned <- do_merges v0 (n - length done) ;;
       let (v', new) := learned in
       let v2 := fold_left (fun d kv => dset d (split_on 32 (fst kv)) (snd kv)) (other_strings c) v' in
       merges <- ml_add done new ;;
       Ok (if dmem st (length merges) then None else Some (length merges, results v2 merges)))).
  { intros l0 v0 done G. pose proof (state_ok _ _ _ (greedy_state _ _ _ Hc G)) as Hok.
    destruct (do_merges_str v0 (n - length done) Hok) as [E1 E2]. rewrite E1.
    destruct (do_merges v0 (n - length done)) as [[v' new]|e]; [|reflexivity]. cbn [jmap bind].
    pose proof (ok_vocab_joinable _ (E2 _ _ eq_refl)) as J. pose proof (add_others_str (other_strings c) v' J) as [J2 E3].
    rewrite E3. destruct (ml_add done new) as [ml|e]; [|reflexivity]. cbn [bind]. rewrite (results_str _ _ J2). reflexivity. }
  pose proof (most_merges_spec py_int H st n) as M. destruct (most_merges py_int st n) as [k|].
  - destruct M as (Hin & _). apply in_map_iff in Hin as ([k' d] & E & Hin). cbn [fst] in E. subst k'.
    destruct Hg as [Hn Hs]. rewrite (dget_nodup _ _ _ Hn Hin). destruct (Hs _ _ Hin) as (l0 & v0 & G0 & Hl0 & ->).
    cbn [complete f_merges open_file bind results c_merges].
    destruct (greedy_words _ _ _ Hc G0) as (_ & _ & _ & P1 & P2). rewrite (merges_back l0 P2 P1). cbn [bind].
    assert (Q : s_prepare_resume c (complete (results (split_words c v0) (ml_of l0))) = Ok (to_strings v0, other_strings c)).
    { unfold s_prepare_resume. cbn [complete f_reass open_file bind results c_reass].
      destruct (split_words_good _ _ _ Hc G0) as (T1 & T2 & T3). rewrite (reass_back _ T1 T2 T3). cbn [bind].
      rewrite (separate_split_words c l0 v0 Hc G0). reflexivity. }
    match goal with |- context [s_prepare_resume c ?d] => change (s_prepare_resume c d) with (s_prepare_resume c (complete (results (split_words c v0) (ml_of l0)))) end.
    rewrite Q. rewrite (resume_prepared c l0 v0 _ Hc G0) by reflexivity. cbn [bind]. apply (R l0 v0 _ G0).
  - cbn [bind]. assert (Q : s_prepare_scratch c = (to_strings (characters c), other_strings c)).
    { pose proof (scratch_prepared c Hc) as E. unfold prepare_scratch in E. unfold s_prepare_scratch.
      destruct (separate_vocabs (all_vocab c) (nonbpe c)) as [base other]. rewrite scratch_str.
      f_equal; [exact (f_equal (fun x => to_strings (fst x)) E)|exact (f_equal snd E)]. }
    rewrite Q, (scratch_prepared c Hc). apply (R [] _ _ (greedy_stop _)).
Qed.

Lemma last_app_ne (u x : str) d : x <> [] -> last (u ++ x) d = last x d.
Proof. intros Hx. destruct (exists_last Hx) as (x' & c & ->). rewrite app_assoc, !last_last. reflexivity. Qed.
Lemma last_joined s d : s <> [] -> Forall (fun x => x <> []) s -> last (joined s) d = last (List.concat s) d.
Proof.
  intros Hn Hs. induction Hs as [|x s Hx Hs IH]; [contradiction|]. destruct s as [|y s]; [cbn; rewrite app_nil_r; reflexivity|].
  rewrite join_cons by discriminate. cbn [List.concat] in *. assert (N : y ++ List.concat s <> []).
  { inversion Hs; subst. destruct y; [contradiction|discriminate]. }
  assert (N2 : joined (y :: s) <> []).
  { intros E. specialize (IH ltac:(discriminate)). inversion Hs; subst. destruct y as [|c y]; [contradiction|].
    destruct s; [discriminate|]. rewrite join_cons in E by discriminate. discriminate. }
  rewrite (last_app_ne x _ d N), <- (IH ltac:(discriminate)), app_assoc. apply last_app_ne, N2.
Qed.

(** ** C78 *)

(** A word that is a string of symbols with spaces between them, and does not end with a line feed: looking for the
    pair with the regular expression and cutting out its match, again and again, gives the string of the symbols
    merged from left to right as the textbook says. *)
Theorem C78_word a b word f :
  a <> [] -> b <> [] -> no_char 32 a -> no_char 32 b ->
  Forall (fun x => x <> []) (split_on 32 word) -> last word 0%N <> 10%N ->
  exists ds, s_merge_word (S (length word)) (a, b) f word
             = Ok (join (lit " ") (merge_pair (a, b) (split_on 32 word)), ds).
Proof.
  intros Ha Hb Na Nb Hw Hl. set (s := split_on 32 word) in *. assert (J : joined s = word) by apply join_split.
  assert (Hs : ok_word s).
  { split; [apply split_on_nonempty|]. split.
    - apply Forall_forall. intros x Hx. rewrite Forall_forall in Hw. split; [exact (Hw _ Hx)|exact (proj1 (Forall_forall _ _) (split_on_pieces 32 word) _ Hx)].
    - rewrite <- J in Hl. rewrite last_joined in Hl; [exact Hl|apply split_on_nonempty|exact Hw]. }
  assert (Hp : ok_pair (a, b)) by (repeat split; assumption).
  destruct (merge_word_full (a, b) f s Hp Hs) as (w & ds & E1 & E2 & _). exists ds. rewrite J in E1. rewrite E1.
  destruct (merge_word_spec (S (length s)) (a, b) f s (ok_good_pair _ Hp) ltac:(lia)) as (ds' & E & _).
  rewrite E in E2. injection E2 as <- _. reflexivity.
Qed.
Print Assumptions C78_word.

(** Learning with the strings does, for every corpus and any earlier merges of it, exactly what learning with lists of
    symbols does; so the merges are a run of textbook learning. *)
Theorem C78_greedy base l0 v n :
  corpus_state base l0 v ->
  exists l v' ml,
    s_do_merges (spaced v) n = Ok (spaced v', ml) /\ do_merges v n = Ok (v', ml)
    /\ greedy v l v' /\ recorded ml = map (fun pn => (fst pn, Some (snd pn))) l.
Proof.
  intros C. destruct (do_merges_str v n (state_ok _ _ _ C)) as [E1 _]. fold (to_strings v). rewrite E1.
  destruct (do_merges_spec n _ _ v (corpus_state_learnable _ _ _ C)) as (l & v' & E & _ & _ & G & _).
  exists l, v', (ml_from 0 (map some_freq l)). rewrite E. repeat split; [exact G|]. apply recorded_from.
Qed.
Print Assumptions C78_greedy.

Theorem C78_runs py_int c ns n :
  (forall k, py_int (dec k) = Some (Z.of_N k)) -> corpus_ok c ->
  fold_left (s_run py_int c) ns [] = runs py_int c ns
  /\ s_learn py_int c (runs py_int c ns) n = learn py_int c (runs py_int c ns) n
  /\ exists l v d, greedy (characters c) l v /\ length l <= n
       /\ (length l < n -> Forall (fun wf => length (fst wf) = 1) v)
       /\ dget (fold_left (s_run py_int c) (ns ++ [n]) []) (length l) = Some d /\ has_results c l v d.
Proof.
  intros H Hc. assert (R : forall ns, fold_left (s_run py_int c) ns [] = runs py_int c ns).
  { clear ns. intros ns. pattern ns. apply rev_ind; [reflexivity|]. clear ns. intros k ns IH. unfold runs. rewrite !fold_left_app. cbn [fold_left].
    fold (runs py_int c ns). rewrite IH. unfold s_run, run. rewrite (learn_str py_int H c _ k Hc (runs_good py_int H c ns Hc)). reflexivity. }
  split; [apply R|]. split; [apply (learn_str py_int H c _ n Hc), (runs_good py_int H c ns Hc)|].
  rewrite R. destruct (C54_runs py_int H c ns n Hc) as (_ & _ & (l & v & d & A) & _). exists l, v, d. 
  decompose [and] A. auto 10.
Qed.
Print Assumptions C78_runs.

(** The word must not end with a line feed: [$] matches before it too, so the symbol "b" followed by a line feed is
    taken for "b".  (The words the program learns from end with "@".) *)
Theorem C78_line_feed_refuted :
  let word := lit "a b" ++ [10%N] in
  split_on 32 word = [lit "a"; lit "b" ++ [10%N]]
  /\ s_get_stats [(word, 1%Z)] = [((lit "a", lit "b" ++ [10%N]), 1%Z)]
  /\ exists ds, s_merge_vocab (lit "a", lit "b") [(word, 1%Z)] = Ok ([(lit "ab" ++ [10%N], 1%Z)], ds).
Proof. vm_compute. repeat split. eexists. reflexivity. Qed.
Print Assumptions C78_line_feed_refuted.

(** "aaab", "ab" and a word with the escape sign and characters of the syntax of regular expressions *)
Example C78_ex :
  let base := [(lit "aaab", 2%Z); (lit "ab", 1%Z); (lit "@$.a", 3%Z)] in
  corpus_state base [] (map (fun kv => (initial_split (fst kv), snd kv)) base)
  /\ (exists ds, s_merge_word 12 (lit "a", lit "a") 1%Z (lit "a a a a b @") = Ok (lit "aa aa b @", ds))
  /\ exists ml, s_do_merges [(lit "a a a b @", 2%Z); (lit "a b @", 1%Z); (lit "@@ $ . a @", 3%Z)] 3
       = Ok ([(lit "aa ab @", 2%Z); (lit "ab @", 1%Z); (lit "@@$ . a @", 3%Z)], ml)
     /\ map m_pair (ml_iter ml) = [(lit "a", lit "a"); (lit "a", lit "b"); (lit "@@", lit "$")].
Proof.
  cbv zeta. split; [|split].
  - split; [|constructor]. split; [repeat constructor; intros Hi; repeat (destruct Hi as [Hi|Hi]; [discriminate|]); exact Hi|].
    repeat apply Forall_cons; [..|constructor]; (split; [discriminate|split; [|reflexivity]]);
      intros Hi; repeat (destruct Hi as [Hi|Hi]; [discriminate|]); exact Hi.
  - vm_compute. eexists. reflexivity.
  - vm_compute. eexists. split; reflexivity.
Qed.
