(** * C77: vocabularies of learned bpe codes; C75: words that are not to be split *)
From Verif Require Import M_Base L_Base M_Literal L_Literal S_Bpe L_Bpe M_Merge L_Merge P_Merge M_BpeEncode L_BpeEncode
  M_Learn P_Queue L_Learn P_Learn M_Vocab L_Vocab P_Vocab M_PrepConfig M_Registry P_Registry M_Pipeline M_BpeRun P_BpeRun
  M_Tokens M_Repr M_Api M_Learned P_Learned.
From Coq Require Import Lia Permutation.

(** the symbols of a word of the vocabulary, with the mark of the end of a word: those made by the merges, or one *)
Definition parts_of (ml : merge_list) (nb : list str) (word : str) : res (list str) :=
  if mem word nb then Ok [escape word true] else encode_word ml (escape word true).

(** how often [x] is a part of the words of [vocab] *)
Fixpoint part_count (ml : merge_list) (nb : list str) (x : str) (vocab : dict str Z) : Z :=
  match vocab with
  | [] => 0
  | (word, n) :: rest =>
      (match parts_of ml nb word with Ok parts => n * occurrences x parts | Err _ => 0 end + part_count ml nb x rest)%Z
  end.

(** ** Lemmas *)
Lemma greedy_encoded c l v : corpus_ok c -> greedy (characters c) l v ->
  v = map (fun kv => (apply_merges (map fst l) (initial_split (fst kv)), snd kv)) (words c) /\
  forall kv, In kv (words c) -> encode_word (ml_of l) (escape (fst kv) true) = Ok (apply_merges (map fst l) (initial_split (fst kv))).
Proof.
  intros Hc G. pose proof (greedy_state _ _ _ Hc G) as C. pose proof (corpus_state_learnable _ _ _ C) as L.
  pose proof (learnable_nodup _ _ _ L) as Hnd. destruct L as (Hw0 & Hu & Ho & Ev).
  rewrite <- (initial_vocab _ (words_base _ Hc)) in *. split.
  - rewrite Ev. unfold vapply. rewrite map_map. reflexivity.
  - intros [k f] Hin. cbn [fst]. destruct (words_base _ Hc) as [_ Hf]. rewrite Forall_forall in Hf. destruct (Hf _ Hin) as (Hne & Hs & _).
    cbn [fst] in *. assert (Hnd' : NoDup (map fst (map some_freq l))) by (rewrite map_map; exact Hnd).
    destruct (encode_word_spec (map some_freq l) k Hnd' Hs) as (r & Er & Rr). unfold ml_of. rewrite Er. f_equal.
    rewrite map_map in Rr. cbn [fst some_freq] in Rr. rewrite <- (initial_split_units k Hne Hs) in Rr.
    refine (bpe_result_det _ _ _ _ Rr (learned_is_encoded _ _ Hu (proper_words _ Hw0) Ho _ _)).
    rewrite map_map. cbn [fst]. apply in_map_iff. exists (k, f). split; [reflexivity|exact Hin].
Qed.

Definition count_in (x : str) (v : split_vocab) : Z := fold_right (fun wf n => (snd wf * occurrences x (fst wf) + n)%Z) 0%Z v.
Lemma count_in_app x a b : count_in x (a ++ b) = (count_in x a + count_in x b)%Z.
Proof. unfold count_in. induction a as [|y a IH]; [reflexivity|]. cbn [app fold_right]. rewrite IH. lia. Qed.

Lemma split_words_count c l v x : corpus_ok c -> greedy (characters c) l v ->
  count_in x (split_words c v) = part_count (ml_of l) (nonbpe c) x (all_vocab c) /\
  (existsb (fun wf => mem x (fst wf)) (split_words c v) = true <->
   exists word n parts, In (word, n) (all_vocab c) /\ parts_of (ml_of l) (nonbpe c) word = Ok parts /\ In x parts).
Proof.
  intros Hc G. destruct (greedy_encoded _ _ _ Hc G) as [Ev He]. unfold split_words. split.
  - rewrite count_in_app, Ev. clear Ev G. revert He. unfold words, others. induction (all_vocab c) as [|[k f] d IH]; [reflexivity|].
    cbn [filter fst part_count]. intros He. unfold parts_of. destruct (mem k (nonbpe c)) eqn:M; cbn [negb] in *.
    + cbn [map count_in fold_right fst snd]. rewrite <- IH by exact He. unfold count_in. lia.
    + cbn [map count_in fold_right fst snd]. rewrite (He (k, f) (or_introl eq_refl) : encode_word _ (escape k true) = _).
      rewrite <- IH; [unfold count_in; cbn [fst]; lia|]. intros kv Hin. apply He. right. exact Hin.
  - rewrite existsb_exists. split.
    + intros (wf & Hin & Hm). apply mem_in in Hm. apply in_app_or in Hin. destruct Hin as [Hin|Hin].
      * rewrite Ev in Hin. apply in_map_iff in Hin. destruct Hin as ([k f] & <- & Hin). cbn [fst] in *.
        pose proof (He _ Hin) as E. apply filter_In in Hin. destruct Hin as [Hin M]. cbn [fst] in *. apply negb_true_iff in M.
        eexists k, f, _. split; [exact Hin|]. unfold parts_of. rewrite M. split; [exact E|exact Hm].
      * apply in_map_iff in Hin. destruct Hin as ([k f] & <- & Hin). apply filter_In in Hin. destruct Hin as [Hin M]. cbn [fst] in *.
        eexists k, f, _. split; [exact Hin|]. unfold parts_of. rewrite M. split; [reflexivity|exact Hm].
    + intros (k & f & parts & Hin & Hp & Hx). unfold parts_of in Hp. destruct (mem k (nonbpe c)) eqn:M.
      * injection Hp as <-. exists ([escape k true], f). split; [|apply mem_in, Hx]. apply in_or_app. right. apply in_map_iff.
        exists (k, f). split; [reflexivity|]. apply filter_In. split; [exact Hin|exact M].
      * assert (Hw : In (k, f) (words c)) by (apply filter_In; split; [exact Hin|cbn [fst]; rewrite M; reflexivity]).
        exists (parts, f). split; [|apply mem_in, Hx]. apply in_or_app. left. rewrite Ev. apply in_map_iff. exists (k, f). split; [|exact Hw].
        pose proof (He _ Hw) as E. cbn [fst snd] in *. f_equal. congruence.
Qed.

Lemma dget_removed (nb : list str) (d : dict str Z) word : NoDup (dkeys d) ->
  dget (fold_left (fun d token => if dmem d token then ddel d token else d) nb d) word = if mem word nb then None else dget d word.
Proof.
  revert d. induction nb as [|x nb IH]; intros d Hd; [reflexivity|]. cbn [fold_left mem existsb]. fold (mem word nb).
  assert (Hx : dget (if dmem d x then ddel d x else d) word = if eqb word x then None else dget d word).
  { unfold dmem. destruct (dget d x) eqn:E; [apply dget_ddel, Hd|]. destruct (eqb_spec (word : str) x) as [->|]; [exact E|reflexivity]. }
  rewrite IH, Hx.
  - destruct (mem word nb); [rewrite orb_true_r; reflexivity|rewrite orb_false_r; reflexivity].
  - destruct (dmem d x); [apply ddel_nodup, Hd|exact Hd].
Qed.

Lemma no_limit s : read_merges s (Some 0) = read_merges s None.
Proof.
  unfold read_merges. generalize 0 at 2 3 as idx. generalize ml_empty as ml. induction (file_lines s) as [|line t IH]; intros ml idx; [reflexivity|].
  cbn [read_merges_loop]. destruct (parse_file_entry line) as [e|e]; [|reflexivity]. cbn [bind].
  destruct (ml_append _ _ _ _) as [ml'|e']; [|reflexivity]. cbn [bind]. apply IH.
Qed.

Section Loader.
  Variable py_int : str -> option Z.
  Hypothesis py_int_dec : forall k, py_int (dec k) = Some (Z.of_N k).
  Variable maxsize : Z.
  Variable strip : str -> str.
  Variable is_blank : N -> bool.
  Hypothesis strip_clean : forall s, s <> [] -> is_blank (hd 0%N s) = false -> is_blank (last s 0%N) = false -> strip s = s.
  Hypothesis ascii_clean : forall c, (48 <= c < 128)%N -> is_blank c = false.
  Variable number_of : str -> str -> option str.
  Variable source : str -> str -> dict str Z * str.

  Notation history := (history py_int maxsize strip is_blank number_of source).

  (** [vocab] and [nb] are the vocabulary of the dataset of command [k] and its words that are not to be split *)
  Definition vocab_of (k : learn_cmd) : dict str Z := fst (source (k_dir k) (base_config (k_conf k))).

  (** After any history, the id of a dataset for which codes were learned gives its vocabulary, the words that are not
      to be split, and the vocabulary without these. *)
  Theorem C77_vocabularies w ks k names : history w ks -> In k ks -> Permutation names (dkeys (w_bpe w)) ->
    exists rd i nb base,
      dget (w_bpe w) (bpe_dir_name (k_dir k) (k_conf k)) = Some rd /\ r_id rd = Some i /\
      load_vocab_set (snd (source (k_dir k) (base_config (k_conf k)))) = Ok nb /\
      vl_all strip w names i = Ok (vocab_of k) /\ vl_nonbpe strip w names i = Ok nb /\ vl_base strip w names i = Ok base /\
      forall word, dget base word = if mem word nb then None else dget (vocab_of k) word.
  Proof.
    intros H Hk P. destruct (history_good _ py_int_dec _ _ _ strip_clean ascii_clean _ _ _ _ H) as [G Hc]. specialize (Hc _ Hk).
    destruct Hc as (rd & i & nb & l & v & H1 & H2 & H3 & H4 & H5 & H6 & H7 & H8 & Hv & Hsep).
    pose proof (find_codes _ _ _ _ _ _ _ _ G P H1 H2) as F.
    destruct (gw_dir _ _ _ _ G _ _ H1) as [[K _]|(d & c & i' & nb' & K1 & K2 & K3 & K4 & K5 & K6 & K7 & [K8n K8] & K9 & K10 & K11)]; [congruence|].
    destruct (bpe_dir_inj _ _ _ _ Hv K2 Hsep K3 K1) as [<- Hb].
    assert (Evd : base_vocab_dir strip w names i = Ok (vocab_dir_name (k_dir k) c)).
    { unfold base_vocab_dir. rewrite F. cbn [bind fst]. destruct (C37_directory _ _ Hv Hsep) as [D1 D2]. rewrite D1, D2. cbn [bind].
      f_equal. unfold vocab_dir_name. rewrite <- Hb. reflexivity. }
    assert (Ea : vl_all strip w names i = Ok (vocab_of k)).
    { unfold vl_all. rewrite Evd. cbn [bind]. rewrite K9. unfold vocab_of. rewrite Hb. destruct (source (k_dir k) (base_config c)). reflexivity. }
    assert (En : vl_nonbpe strip w names i = Ok nb).
    { unfold vl_nonbpe. rewrite Evd. cbn [bind]. rewrite K9. rewrite Hb in H3. destruct (source (k_dir k) (base_config c)). exact H3. }
    exists rd, i, nb. eexists. split; [exact H1|]. split; [exact H2|]. split; [exact H3|]. split; [exact Ea|]. split; [exact En|].
    unfold vl_base. rewrite Ea, En. cbn [bind]. split; [reflexivity|]. intros word. apply dget_removed.
    destruct K7 as [K7 _]. cbn [corpus_for all_vocab] in K7. rewrite <- Hb in K7. exact K7.
  Qed.

  (** For every number of merges there is a list for, [bpe] gives the parts that the words are split into by these merges,
      most frequent first, each with the number of times it occurs in the corpus.  After a command there is a list of the number
      of merges it asked for, or one that makes each word one part.  There is no vocabulary for other numbers. *)
  Theorem C77_bpe w ks k names : history w ks -> In k ks -> Permutation names (dkeys (w_bpe w)) ->
    exists rd i nb,
      dget (w_bpe w) (bpe_dir_name (k_dir k) (k_conf k)) = Some rd /\ r_id rd = Some i /\
      load_vocab_set (snd (source (k_dir k) (base_config (k_conf k)))) = Ok nb /\
      (forall m, In m (dkeys (r_lists rd)) ->
         exists l v r, greedy (characters (corpus_for source (k_dir k) (k_conf k) nb)) l v /\ length l = m /\
           vl_bpe strip w names i m = Ok r /\ descending r /\
           forall x,
             ((exists word n parts, In (word, n) (vocab_of k) /\ parts_of (ml_of l) nb word = Ok parts /\ In x parts) ->
              dget r x = Some (part_count (ml_of l) nb x (vocab_of k))) /\
             (~ (exists word n parts, In (word, n) (vocab_of k) /\ parts_of (ml_of l) nb word = Ok parts /\ In x parts) ->
              dget r x = None)) /\
      (exists l v, greedy (characters (corpus_for source (k_dir k) (k_conf k) nb)) l v /\ In (length l) (dkeys (r_lists rd)) /\
         (length l = k_n k \/ length l < k_n k /\ Forall (fun wf => length (fst wf) = 1) v)) /\
      (forall m, ~ In m (dkeys (r_lists rd)) -> vl_bpe strip w names i m = Err ValueError).
  Proof.
    intros H Hk P. destruct (history_good _ py_int_dec _ _ _ strip_clean ascii_clean _ _ _ _ H) as [G Hc]. specialize (Hc _ Hk).
    destruct Hc as (rd & i & nb & l & v & H1 & H2 & H3 & H4 & H5 & H6 & H7 & H8 & Hv & Hsep).
    pose proof (find_codes _ _ _ _ _ _ _ _ G P H1 H2) as F.
    destruct (gw_dir _ _ _ _ G _ _ H1) as [[K _]|(d & c & i' & nb' & K1 & K2 & K3 & K4 & K5 & K6 & K7 & [K8n K8] & K9 & K10 & K11)]; [congruence|].
    destruct (bpe_dir_inj _ _ _ _ Hv K2 Hsep K3 K1) as [<- Hb].
    assert (nb' = nb) by congruence. subst nb'.
    assert (Ec : corpus_for source (k_dir k) c nb = corpus_for source (k_dir k) (k_conf k) nb) by (unfold corpus_for; rewrite Hb; reflexivity).
    rewrite Ec in *.
    exists rd, i, nb. split; [exact H1|]. split; [exact H2|]. split; [exact H3|]. split; [|split].
    - intros m Hm. apply dkeys_in_dget in Hm. destruct Hm as [dd Hdd]. destruct (K8 _ _ (dget_in _ _ _ Hdd)) as (l' & v' & Gl & Hl & ->).
      pose proof (saved_results _ _ _ K7 Gl) as (res & cache & merges & reass & ml & Ed & _ & _ & _ & _ & r & Hr & Hd & Hx).
      exists l', v', r. split; [exact Gl|]. split; [exact Hl|]. split.
      { unfold vl_bpe, vl_bpe_dir. rewrite F. cbn [bind snd]. rewrite Hdd. cbn [bind]. rewrite Ed. cbn [f_res open_file bind]. exact Hr. }
      split; [exact Hd|]. intros x. specialize (Hx x). destruct (split_words_count _ _ _ x K7 Gl) as [C1 C2].
      cbn [corpus_for all_vocab nonbpe] in C1, C2. fold (vocab_of k) in C1, C2. unfold count_in in C1. split; intros E.
      + rewrite (proj2 C2 E), C1 in Hx. exact Hx.
      + destruct (existsb _ _) in Hx, C2; [|exact Hx]. destruct (E (proj1 C2 eq_refl)).
    - exists l, v. split; [exact H4|]. split; [exact H6|]. destruct (Nat.eq_dec (length l) (k_n k)) as [E|E]; [left; exact E|right].
      split; [lia|]. apply H5. lia.
    - intros m Hm. unfold vl_bpe, vl_bpe_dir. rewrite F. cbn [bind snd]. destruct (dget (r_lists rd) m) eqn:E; [|reflexivity].
      destruct Hm. eapply dget_some_key, E.
  Qed.

  (** load_bpe_merges gives the first [m] merges that were learned from the words of this dataset, whatever was learned and
      preprocessed before and afterwards, if a list of at least [m] merges was learned, and is refused otherwise.  For 0
      merges it gives all of the shortest list. *)
  Theorem C77_merges w ks k names : history w ks -> In k ks -> Permutation names (dkeys (w_bpe w)) ->
    exists rd i nb,
      dget (w_bpe w) (bpe_dir_name (k_dir k) (k_conf k)) = Some rd /\ r_id rd = Some i /\
      load_vocab_set (snd (source (k_dir k) (base_config (k_conf k)))) = Ok nb /\
      (forall m, 1 <= m -> (exists j, In j (dkeys (r_lists rd)) /\ m <= j) ->
         exists l v, greedy (characters (corpus_for source (k_dir k) (k_conf k) nb)) l v /\ length l = m /\
                     load_bpe_merges py_int maxsize strip w names i m = Ok (ml_of l)) /\
      (forall m, (forall j, In j (dkeys (r_lists rd)) -> j < m) -> load_bpe_merges py_int maxsize strip w names i m = Err ValueError) /\
      (~ In 0 (dkeys (r_lists rd)) ->
         exists l v, greedy (characters (corpus_for source (k_dir k) (k_conf k) nb)) l v /\ In (length l) (dkeys (r_lists rd)) /\
                     (forall j, In j (dkeys (r_lists rd)) -> length l <= j) /\
                     load_bpe_merges py_int maxsize strip w names i 0 = Ok (ml_of l)).
  Proof.
    intros H Hk P. destruct (history_good _ py_int_dec _ _ _ strip_clean ascii_clean _ _ _ _ H) as [G Hc]. specialize (Hc _ Hk).
    destruct Hc as (rd & i & nb & l & v & H1 & H2 & H3 & H4 & H5 & H6 & H7 & H8 & Hv & Hsep).
    pose proof (find_codes _ _ _ _ _ _ _ _ G P H1 H2) as F.
    destruct (gw_dir _ _ _ _ G _ _ H1) as [[K _]|(d & c & i' & nb' & K1 & K2 & K3 & K4 & K5 & K6 & K7 & [K8n K8] & K9 & K10 & K11)]; [congruence|].
    destruct (bpe_dir_inj _ _ _ _ Hv K2 Hsep K3 K1) as [<- Hb].
    assert (nb' = nb) by congruence. subst nb'.
    assert (Ec : corpus_for source (k_dir k) c nb = corpus_for source (k_dir k) (k_conf k) nb) by (unfold corpus_for; rewrite Hb; reflexivity).
    rewrite Ec in *.
    assert (L : forall j, In j (dkeys (r_lists rd)) -> learned py_int (subdirs rd) (Z.of_nat j))
      by (intros j Hj; apply (learned_iff _ py_int_dec); eauto).
    exists rd, i, nb. split; [exact H1|]. split; [exact H2|]. split; [exact H3|].
    unfold load_bpe_merges. rewrite F. cbn [bind snd]. split; [|split].
    - intros m Hm (j & Hj & Hmj). pose proof (C35_config py_int maxsize (subdirs rd) (Z.of_nat m) ltac:(lia)) as CF.
      destruct (config_dir py_int maxsize (subdirs rd) (Z.of_nat m)) as [mm|e].
      + destruct CF as (CF1 & CF2 & _). apply (learned_iff _ py_int_dec) in CF1. destruct CF1 as (kk & Hkk & ->).
        apply dkeys_in_dget in Hkk. destruct Hkk as [dd Hdd]. destruct (K8 _ _ (dget_in _ _ _ Hdd)) as (l' & v' & Gl & Hl & ->).
        destruct (greedy_words _ _ _ K7 Gl) as (_ & _ & _ & P1 & P2).
        assert (Gm : exists v1, greedy (characters (corpus_for source (k_dir k) (k_conf k) nb)) (firstn m l') v1).
        { pose proof Gl as Gl'. rewrite <- (firstn_skipn m l') in Gl'. apply greedy_prefix in Gl'. destruct Gl' as (v1 & Gl' & _). eauto. }
        destruct Gm as [v1 Gm]. exists (firstn m l'), v1. split; [exact Gm|]. split; [rewrite firstn_length; lia|].
        cbn [bind]. rewrite Nat2Z.id, Hdd. cbn [complete results f_merges c_merges open_file bind].
        rewrite (read_first _ _ P2 P1) by lia. reflexivity.
      + destruct CF as [_ CF]. specialize (CF _ (L _ Hj)). specialize (K11 _ Hj). lia.
    - intros m Hm. assert (1 <= m) by (destruct K10 as (kk & Hkk & _); specialize (Hm _ Hkk); lia).
      pose proof (C35_config py_int maxsize (subdirs rd) (Z.of_nat m) ltac:(lia)) as CF.
      destruct (config_dir py_int maxsize (subdirs rd) (Z.of_nat m)) as [mm|e].
      + destruct CF as (CF1 & CF2 & _). apply (learned_iff _ py_int_dec) in CF1. destruct CF1 as (kk & Hkk & ->). specialize (Hm _ Hkk). lia.
      + destruct CF as [-> _]. reflexivity.
    - intros Z0. unfold config_dir. pose proof (C35_min py_int maxsize (subdirs rd) (Z.of_nat 0)) as CM.
      destruct (get_min_merges py_int maxsize (subdirs rd) (Z.of_nat 0)) as [mm|].
      + destruct CM as (CM1 & CM2 & CM3). apply (learned_iff _ py_int_dec) in CM1. destruct CM1 as (kk & Hkk & ->).
        assert (kk <> 0) by (intros ->; contradiction). destruct (Z.eqb_spec (Z.of_nat kk) 0); [lia|].
        pose proof Hkk as Hkk'. apply dkeys_in_dget in Hkk'. destruct Hkk' as [dd Hdd]. destruct (K8 _ _ (dget_in _ _ _ Hdd)) as (l' & v' & Gl & Hl & ->).
        destruct (greedy_words _ _ _ K7 Gl) as (_ & _ & _ & P1 & P2).
        exists l', v'. split; [exact Gl|]. rewrite Hl. split; [exact Hkk|].
        split; [intros j Hj; specialize (CM3 _ (L _ Hj)); lia|].
        cbn [bind]. rewrite Nat2Z.id, Hdd. cbn [complete results f_merges c_merges open_file bind].
        rewrite no_limit. apply merges_back; assumption.
      + destruct K10 as (kk & Hkk & _). specialize (CM _ (L _ Hkk)). specialize (K11 _ Hkk). lia.
  Qed.
End Loader.
Print Assumptions C77_vocabularies.
Print Assumptions C77_bpe.
Print Assumptions C77_merges.

(** ** Preprocessing with these codes *)
Lemma unescape_whole w : unescape [escape w true] = Ok [w].
Proof.
  destruct (unescape_groups [map unit_of w ++ [at_str]] w) as (ws & U & Ew & Lw & _).
  - cbn [List.concat]. apply app_nil_r.
  - constructor; [|constructor]. destruct (map unit_of w); discriminate.
  - cbn [map] in U. rewrite <- escape_merged in U. refine (eq_trans U _). destruct ws as [|x [|y ws]]; try discriminate Lw.
    cbn [List.concat] in Ew. rewrite app_nil_r in Ew. subst x. reflexivity.
Qed.

(** The words that the codes were learned from are split into exactly the parts that were counted, without the mark. *)
Theorem C77_used nb cache c l v word n :
  corpus_ok c -> greedy (characters c) l v -> nonbpe c = nb ->
  (forall u, dget cache u = if mem u nb then Some [u] else None) ->
  In (word, n) (all_vocab c) -> mem word nb = false -> mem (escape word true) nb = false ->
  exists parts ws, parts_of (ml_of l) nb word = Ok parts /\ unescape parts = Ok ws /\ List.concat ws = word /\
    get_bpe_subwords {| bd_merges := ml_of l; bd_cache := cache |} word = Ok ws.
Proof.
  intros Hc G Hnb Hcache Hin Hw He. destruct Hc as (Hc1 & Hc2 & Hc3). pose proof Hc2 as Hf. rewrite Forall_forall in Hf.
  destruct (Hf _ Hin) as (_ & Hs & _). cbn [fst] in Hs.
  destruct (greedy_words c l v (conj Hc1 (conj Hc2 Hc3)) G) as (_ & _ & _ & _ & Hnd).
  assert (Hnd' : NoDup (map fst (map some_freq l))) by (rewrite map_map; exact Hnd).
  assert (Hno : dget (bd_cache {| bd_merges := ml_of l; bd_cache := cache |}) (escape word true) = None).
  { cbn [bd_cache]. rewrite Hcache, He. reflexivity. }
  destruct (encode_word_spec (map some_freq l) word Hnd' Hs) as (r & Er & Rr).
  destruct (get_bpe_subwords_spec {| bd_merges := ml_of l; bd_cache := cache |} (map some_freq l) word eq_refl Hnd' Hs Hno)
    as (r2 & ws & Rr2 & U & S & Ew & _).
  pose proof (bpe_result_det _ _ _ _ Rr Rr2) as <-. exists r, ws. unfold parts_of. rewrite Hw.
  split; [exact Er|]. split; [exact U|]. split; [exact Ew|exact S].
Qed.
Print Assumptions C77_used.

(** finding: the words that are not to be split are put into the cache as they are, but looked up with the mark of the end
    of a word.  So they are split by the merges like all others: exactly the words that are listed with the mark are kept *)
Theorem C75_kept_refuted :
  (forall nb cache ml word, (forall u, dget cache u = if mem u nb then Some [u] else None) ->
     get_bpe_subwords {| bd_merges := ml; bd_cache := cache |} word =
     if mem (escape word true) nb then Ok [word] else get_bpe_subwords {| bd_merges := ml; bd_cache := [] |} word) /\
  exists cache ml,
    snd (preprocess (fun _ _ => Ok []) (fun _ _ g => (Ok ([], meta0), g))
           (disk_of ex_int ex_max ex_strip no_package ex_world (dkeys (w_bpe ex_world))) None (ex_call "proj_1-1"))
    = Some {| ob_cache := Some cache; ob_merges := Some ml |} /\
    vl_nonbpe ex_strip ex_world (dkeys (w_bpe ex_world)) (lit "proj_1") = Ok [lit "xyz"] /\
    get_bpe_subwords {| bd_merges := ml; bd_cache := cache |} (lit "xyz") = Ok [lit "xy"; lit "z"; []].
Proof.
  split.
  - intros nb cache ml word Hc. unfold get_bpe_subwords. cbn [bd_cache bd_merges]. rewrite Hc.
    destruct (mem (escape word true) nb); [apply unescape_whole|reflexivity].
  - eexists. eexists. split; [vm_compute; reflexivity|]. split; vm_compute; reflexivity.
Qed.
Print Assumptions C75_kept_refuted.

(** finding: codes can be used with any number of merges up to the one learned, but there is a vocabulary only for the one learned *)
Theorem C77_number_refuted :
  let names := dkeys (w_bpe ex_world) in
  data_used ex_world names "proj-1" <> None /\ vl_bpe ex_strip ex_world names (lit "proj") 1 = Err ValueError /\
  data_used ex_world names "proj-2" <> None /\ exists r, vl_bpe ex_strip ex_world names (lit "proj") 2 = Ok r.
Proof.
  cbv zeta. split; [vm_compute; discriminate|]. split; [vm_compute; reflexivity|]. split; [vm_compute; discriminate|].
  eexists. vm_compute. reflexivity.
Qed.
Print Assumptions C77_number_refuted.

Example C77_example :
  let names := dkeys (w_bpe ex_world) in
  vl_all ex_strip ex_world names (lit "proj_1") = Ok [(lit "xy", 5%Z); (lit "xyz", 1%Z)] /\
  vl_base ex_strip ex_world names (lit "proj_1") = Ok [(lit "xy", 5%Z)] /\
  vl_bpe ex_strip ex_world names (lit "proj") 2 = Ok [(lit "ab@", 3%Z); (lit "ab", 2%Z); (lit "c", 2%Z); (lit "@", 2%Z)] /\
  vl_bpe ex_strip ex_world names (lit "proj_1") 2 = Ok [(lit "xy@", 5%Z); (lit "xyz@", 1%Z)].
Proof. cbv zeta. repeat split; vm_compute; reflexivity. Qed.

Example C77_merges_ex :
  let names := dkeys (w_bpe ex_world) in
  let load n := match load_bpe_merges ex_int ex_max ex_strip ex_world names (lit "proj") n with
                | Ok ml => Some (map (fun m => fst (m_pair m) ++ lit " " ++ snd (m_pair m)) (ml_iter ml)) | Err _ => None end in
  load 1 = Some [lit "a b"] /\ load 2 = Some [lit "a b"; lit "ab @"] /\ load 3 = Some [lit "a b"; lit "ab @"; lit "ab c"] /\ load 4 = None /\ load 0 = load 2.
Proof. cbv zeta. repeat split; vm_compute; reflexivity. Qed.
