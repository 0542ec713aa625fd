(** * C87: a corpus from its source files to its vocabulary *)
From Coq Require Import List NArith ZArith Bool String Lia Permutation.
From Verif Require Import M_Base L_Base M_Tokens M_Literal L_Literal M_Repr M_Merge M_BpeEncode M_PrepConfig P_PrepConfig
  L_Repr P_Repr L_Word P_ReprOptions L_Merge P_ReprStrings M_Regex M_Parse L_Regex P_Parse P_ParseRepr M_Registry M_Pipeline
  M_Dataset M_Api P_Api P_Merge S_Bpe L_Bpe L_BpeEncode P_Bpe M_Files P_Files P_Lines M_Vocab L_Vocab P_Vocab P_Pipeline M_Whole.
From Verif Require M_Merger P_Merger.
Import ListNotations.
Local Open Scope list_scope.

Lemma preprocess_file_stages parse repr dk g config id path bytes :
  preprocess_file parse repr dk g config id path bytes
  = bind (parse_file parse path bytes) (represent repr dk g config id).
Proof. reflexivity. Qed.

(** The tokens of a file are those that the functions for texts give for its text, with a newline before the end mark if the
    text is parsed to tokens that end with a newline. *)
Definition eof_mark (config : params) : str := lit "<EOF>" ++ token_end config.
Definition newline_mark (config : params) : str := [10%N] ++ token_end config.

Lemma file_like_text E o parse dk g g' config id path bytes ext l out m :
  mk_prep_config config = Ok config -> extension_of path = Ok ext -> parse (source_text bytes) (Some ext) = Ok l ->
  preprocess_file parse (plain_repr E o) dk g config id path bytes = Ok (out, m) ->
  exists body m',
    fst (preprocess parse (plain_repr E o) dk g' (text_call config id ext (source_text bytes)))
    = Ok (body ++ [eof_mark config], m') /\
    (out = body ++ [eof_mark config] \/
     (exists l', l = l' ++ [NewLine]) /\ param config TABS_NEWLINES = lit "s" /\ out = body ++ [newline_mark config; eof_mark config]).
Proof.
  intros Hc He Hp.
  destruct (file_and_text E o parse dk g g' config id path bytes ext l He Hp) as (k & Hk & E1 & E2). rewrite E1, E2.
  destruct Hk as [(e & ->)|(b & -> & _)]; [discriminate|].
  pose proof (special_repr E o config b ph_ect Hc) as Hs. intros H.
  destruct (trailing_newline l) as [(l' & -> & ->)| ->].
  - assert (Ht : param config TABS_NEWLINES = lit "s" \/ param config TABS_NEWLINES = lit "0").
    { pose proof Hc as H0. apply mk_ok in H0. destruct H0 as [H0 _]. apply check_ok in H0.
      destruct H0 as (_ & en & com & st & sp & tabs & ca & _ & _ & _ & _ & E5 & _ & V).
      destruct V as (? & ? & ? & ? & ? & ? & Es & _ & _ & _ & _ & M5 & _). injection Es as <- <- <- <- <- <-.
      unfold param. rewrite E5. destruct M5 as [<-|[<-|[]]]; [left|right]; reflexivity. }
    destruct Ht as [Ht|Ht].
    + rewrite <- app_assoc in H. destruct (C04_splits _ _ _ _ _ _ _ H) as ([body mb] & r & Hb & _).
      destruct (C06_spaces_kept E o config b Hc Ht) as [Hn _].
      pose proof (C04_compositional _ _ _ _ _ _ _ _ _ _ Hn Hs) as Hns.
      pose proof (C04_compositional _ _ _ _ _ _ _ _ _ _ Hb Hns) as H1.
      pose proof (C04_compositional _ _ _ _ _ _ _ _ _ _ Hb Hs) as H2.
      exists body. eexists. split; [exact H2|]. right. split; [eexists; reflexivity|]. split; [exact Ht|].
      cbn [app] in H, H1. rewrite H in H1. injection H1 as -> _. f_equal.
      unfold newline_mark, eof_mark, token_end. destruct (is_bpe config); reflexivity.
    + rewrite <- app_assoc in H. cbn [app] in H. rewrite (newline_dropped _ _ _ _ _ _ Ht) in H.
      destruct (C04_splits _ _ _ _ _ _ _ H) as ([body mb] & r & Hb & _).
      pose proof (C04_compositional _ _ _ _ _ _ _ _ _ _ Hb Hs) as H2.
      exists body. eexists. split; [exact H2|]. left. rewrite H in H2. injection H2 as -> _. reflexivity.
  - destruct (C04_splits _ _ _ _ _ _ _ H) as ([body mb] & r & Hb & _).
    pose proof (C04_compositional _ _ _ _ _ _ _ _ _ _ Hb Hs) as H2.
    exists body. eexists. split; [exact H2|]. left. rewrite H in H2. injection H2 as -> _. reflexivity.
Qed.

(** ** Counting does not depend on the order of the files, and escaping keeps different tokens different *)
Lemma zcount_perm (a b : list str) w : Permutation a b -> zcount w a = zcount w b.
Proof. intros H. unfold zcount. f_equal. apply (Permutation_count_occ str_dec). exact H. Qed.
Lemma counts_perm d a b : Permutation a b -> counts_exactly d a -> counts_exactly d b.
Proof.
  intros H [N D]. split; [exact N|]. intros w. rewrite D. pose proof (zcount_perm a b w H) as Z.
  destruct (in_dec str_dec w a) as [I|I], (in_dec str_dec w b) as [J|J]; try congruence.
  - exfalso. apply J. eapply Permutation_in; eassumption.
  - exfalso. apply I. eapply Permutation_in; [apply Permutation_sym|]; eassumption.
Qed.
Lemma nodup_map_length {A} (f : A -> A) (dec : forall x y : A, {x = y} + {x <> y}) l :
  (forall x y, In x l -> In y l -> f x = f y -> x = y) -> length (nodup dec (map f l)) = length (nodup dec l).
Proof.
  induction l as [|a l IH]; intros H; [reflexivity|]. cbn [map nodup].
  assert (IH' := IH (fun x y Hx Hy => H x y (or_intror Hx) (or_intror Hy))).
  destruct (in_dec dec a l) as [I|I], (in_dec dec (f a) (map f l)) as [J|J].
  - exact IH'.
  - exfalso. apply J. apply in_map. exact I.
  - exfalso. apply in_map_iff in J. destruct J as (x & Ex & Ix). apply I.
    rewrite <- (H x a (or_intror Ix) (or_introl eq_refl) Ex). exact Ix.
  - cbn [length]. rewrite IH'. reflexivity.
Qed.
Lemma literal_inj a b : valid_str a -> valid_str b -> to_literal_str a = to_literal_str b -> a = b.
Proof.
  intros Ha Hb E. pose proof (non_literal_literal a Ha) as H. rewrite E, (non_literal_literal b Hb) in H. congruence.
Qed.

Section Corpus.
  Variables (E : pycase) (K : charclass) (o : splitters) (lex : str -> str -> list (token_type * str)).
  Variables (dk : disk) (g : globals) (config : params) (id : option str).
  Hypothesis Hc : mk_prep_config config = Ok config.
  Hypotheses (HE : py_ascii E) (HT : py_text E) (HV : case_valid E) (HK : ascii_classes K) (Ho : splitters_solid o).
  Hypothesis HO : forall text name, lexer_ok (lex text name).
  Hypothesis HL : forall text name, lexer_solid (lex text name).
  Hypothesis Hb : is_bpe config = true -> codes_loaded dk config id.
  (** the dataset: names and bytes; the extensions are UTF-8 *)
  Variable files : list (str * str).
  Hypothesis Hext : forall path bytes, In (path, bytes) files -> exists ext, utf8 ext = Ok (splitext path) /\ valid_str ext.
  (** what is collected for learning bpe *)
  Variables (nonprocessable : file_content -> list str) (placeholder_tokens : list str) (base_bpe : bool).
  Hypothesis Hnp : forall c, Forall valid_str (nonprocessable c).

  (** all histories of runs of the corpus functions, with kills, and changes of finished stages *)
  Definition corpus_reached : state file_content -> Prop :=
    reach_mod file_content (length files) (sources files) (parse_stage (parse_text E K lex))
      (prep_stage (plain_repr E o) dk g config id) nonprocessable placeholder_tokens base_bpe.

  (** [out] is what the functions for texts return for the text of the file, except for a newline at the end *)
  Definition like_text (file : str * str) (out : list str) : Prop :=
    forall g', exists ext l body m,
      extension_of (fst file) = Ok ext /\ parse_text E K lex (source_text (snd file)) (Some ext) = Ok l /\
      fst (preprocess (parse_text E K lex) (plain_repr E o) dk g' (text_call config id ext (source_text (snd file))))
      = Ok (body ++ [eof_mark config], m) /\
      (out = body ++ [eof_mark config] \/
       (exists l', l = l' ++ [NewLine]) /\ param config TABS_NEWLINES = lit "s" /\
       out = body ++ [newline_mark config; eof_mark config]).

  Lemma file_done s i path bytes : corpus_reached s -> ph file_content s = Done -> nth_error files i = Some (path, bytes) ->
    exists out m, preprocess_file (parse_text E K lex) (plain_repr E o) dk g config id path bytes = Ok (out, m) /\
      dest file_content (prep file_content s) i = Full (CPrep (preprocessed_content out)) /\ out <> [] /\ Forall solid out.
  Proof.
    intros R D Hi. assert (Hn : i < length files) by (apply nth_error_Some; congruence).
    destruct (C50_result _ _ _ _ _ _ _ _ Hnp s i R D Hn) as (x & Hx & _ & Hd).
    unfold sources in Hx. rewrite Hi in Hx. injection Hx as <-. cbn [fst snd parse_stage] in Hd.
    destruct (Hext path bytes) as (ext & He & Hv); [eapply nth_error_In, Hi|].
    destruct (C67_never_fails E K o lex dk g config id path bytes ext Hc HE HT HK HO Hb He Hv) as (out & m & H).
    exists out, m. split; [exact H|]. split; [|eapply file_solid; eassumption].
    rewrite preprocess_file_stages in H. apply bind_ok in H. destruct H as (l & Hl & Hr).
    rewrite Hl in Hd. cbn [prep_stage] in Hd. rewrite Hr in Hd. exact Hd.
  Qed.

  Lemma done_like_text path bytes out m :
    preprocess_file (parse_text E K lex) (plain_repr E o) dk g config id path bytes = Ok (out, m) -> like_text (path, bytes) out.
  Proof.
    intros H g'. pose proof H as H'. unfold preprocess_file, parse_file in H'. apply bind_ok in H'. destruct H' as (l & Hl & _).
    apply bind_ok in Hl. destruct Hl as (ext & He & Hl).
    destruct (file_like_text E o _ dk g g' config id path bytes ext l out m Hc He Hl H) as (body & m' & H1 & H2).
    exists ext, l, body, m'. cbn [fst snd]. auto.
  Qed.

  (** C87: After a run that has ended regularly the output file of every source file is there and gives back, read line by line
      and word by word, the tokens that the functions for texts return for its text. *)
  Theorem C87_files s i file : corpus_reached s -> ph file_content s = Done -> nth_error files i = Some file ->
    exists text line out,
      dest file_content (prep file_content s) i = Full (CPrep text) /\ file_lines text = [line] /\
      mapM to_non_literal_str (split_on 32 line) = Ok out /\ like_text file out.
  Proof.
    intros R D Hi. destruct file as [path bytes]. destruct (file_done s i path bytes R D Hi) as (out & m & H & Hd & Hne & Hs).
    destruct (read_back out Hne Hs) as (line & H1 & H2).
    exists (preprocessed_content out), line, out. repeat (split; [assumption|]). eapply done_like_text, H.
  Qed.

  Lemma all_done s : corpus_reached s -> ph file_content s = Done ->
    exists outs, Forall2 like_text files outs /\ Forall writable outs /\
      prep_files (length files) (dest file_content (prep file_content s)) = map preprocessed_file outs.
  Proof.
    intros R D. unfold prep_files.
    assert (G : forall k l, (forall i, nth_error l i = nth_error files (k + i)) -> exists outs,
              Forall2 like_text l outs /\ Forall writable outs /\
              map (fun i => match dest file_content (prep file_content s) i with Full (CPrep text) => text | _ => [] end)
                (seq k (length l)) = map preprocessed_file outs).
    2:{ apply (G 0 files). reflexivity. }
    intros k l. revert k. induction l as [|[path bytes] l IH]; intros k Hl; [exists []; repeat split; constructor|].
    destruct (IH (S k)) as (outs & F & W & M).
    { intros i. specialize (Hl (S i)). rewrite Nat.add_succ_r in Hl. exact Hl. }
    pose proof (Hl 0) as H0. rewrite Nat.add_0_r in H0. symmetry in H0.
    destruct (file_done s k path bytes R D H0) as (out & m & H & Hd & Hne & Hs).
    exists (out :: outs). split; [constructor; [eapply done_like_text, H|exact F]|]. split.
    - constructor; [|exact W]. split; [exact Hne|]. rewrite !Forall_forall in *.
      split; intros x Hx; specialize (Hs x Hx); apply solid_iff in Hs; tauto.
    - cbn [length seq map]. rewrite Hd, M. reflexivity.
  Qed.

  (** C87: The corpus size is the number of all tokens, and a vocabulary that has been written, whatever the processes that
      count did and however often they were killed, has exactly these tokens with the numbers of their occurrences.
      [stored] are the output files in any order. *)
  Theorem C87_vocabulary s stored : corpus_reached s -> ph file_content s = Done ->
    Permutation stored (prep_files (length files) (dest file_content (prep file_content s))) ->
    exists outs, Forall2 like_text files outs /\
      calc_corpus_size stored = length (List.concat outs) /\
      forall max_groups n_chunks d ready size text, max_groups <> 0 -> n_chunks <> 0 ->
        M_Merger.reachable max_groups n_chunks stored (M_Merger.Down d ready size (M_Merger.Full text)) ->
        size = M_Merger.Full (Z.of_nat (length (nodup str_dec (List.concat outs)))) /\
        exists vocab, load_vocab_dict text = Ok vocab /\ counts_exactly vocab (List.concat outs).
  Proof.
    intros R D P. destruct (all_done s R D) as (outs & F & W & M). rewrite M in P. exists outs. split; [exact F|].
    apply Permutation_map_inv in P. destruct P as (outs' & -> & P).
    assert (W' : Forall writable outs') by (eapply Permutation_Forall; eassumption).
    assert (PC : Permutation (List.concat outs') (List.concat outs)).
    { clear - P. induction P; cbn [List.concat]; [constructor|apply Permutation_app_head; assumption
        |rewrite !app_assoc; apply Permutation_app_tail, Permutation_app_comm|eapply Permutation_trans; eassumption]. }
    assert (T : corpus_tokens (map preprocessed_file outs') = map to_literal_str (List.concat outs')).
    { clear - W'. unfold corpus_tokens. induction W' as [|ts c Ht Hc IH]; [reflexivity|].
      cbn [map flat_map List.concat]. rewrite map_app, preprocessed_tokens, IH by exact Ht. reflexivity. }
    assert (V : Forall valid_str (List.concat outs')).
    { clear - W'. induction W' as [|ts c (_ & Ht & _) Hc IH]; cbn [List.concat]; [constructor|apply Forall_app; split; assumption]. }
    split.
    - rewrite corpus_size_spec, T, map_length. apply Permutation_length. exact PC.
    - intros mg nc d ready size text Hm Hn Hr.
      destruct (P_Merger.C42_written mg nc _ d ready size text Hm Hn Hr) as (c & -> & Hct & ->). split.
      + f_equal. f_equal. rewrite T, nodup_map_length.
        * apply Permutation_length, NoDup_Permutation; [apply NoDup_nodup|apply NoDup_nodup|].
          intros x. rewrite !nodup_In. split; apply Permutation_in; [exact PC|apply Permutation_sym; exact PC].
        * rewrite Forall_forall in V. intros x y Hx Hy. apply literal_inj; apply V; assumption.
      + destruct (C47_tokens outs' c W' Hct) as (d' & L & Hd'). exists d'. split; [exact L|]. eapply counts_perm; eassumption.
  Qed.
End Corpus.
Print Assumptions C87_files.
Print Assumptions C87_vocabulary.

(** ** A concrete case: two files, all processes killed while the second is being preprocessed, and a second run *)
Definition two_files : list (str * str) := [(lit "A.java", lit "any"); (lit "src/b.py", lit "other")].
Definition lexer_two : str -> str -> list (token_type * str) := fun text name =>
  if eqb text (lit "any") then lexer_ex text name else [(["Name"%string], lit "x"); (["Operator"%string], lit "=")].
Definition two_config : params := combine prep_params (chars_of "uc11su").
Definition two_parse := parse_stage (parse_text ascii_case ascii_K lexer_two).
Definition two_prep := prep_stage (plain_repr ascii_case no_splitters) disk_ex None two_config None.
Definition two_run := go file_content 2 (sources two_files) two_parse two_prep (fun _ => []) [] true.
Definition two_killed := two_run 15 (initial file_content 5%N).
Definition two_ended := two_run 40 (again file_content 7%N (fun _ => []) two_killed).
Definition line_a : str :=
  lit "int x " ++ [92%N] ++ lit "xe9 = " ++ [34%N] ++ lit " a " ++ [92%N; 92%N] ++ lit " b " ++ [34%N; 32%N; 92%N] ++ lit "n <EOF>" ++ [10%N].
Definition line_b : str := lit "x = <EOF>" ++ [10%N].

Example C87_example :
  corpus_reached ascii_case ascii_K no_splitters lexer_two disk_ex None two_config None two_files (fun _ => []) [] true two_ended /\
  ph file_content two_ended = Done /\ dest file_content (prep file_content two_killed) 1 = Missing /\
  prep_files 2 (dest file_content (prep file_content two_ended)) = [line_a; line_b] /\
  calc_corpus_size [line_b; line_a] = 14.
Proof.
  split; [|vm_compute; auto].
  apply reach_reach_mod. refine (run_reach _ _ _ _ _ _ _ _ _ _ (go_run _ _ _ _ _ _ _ _ _ _) _).
  eapply reach_restart; [|apply again_restart; vm_compute; reflexivity].
  refine (run_reach _ _ _ _ _ _ _ _ _ _ (go_run _ _ _ _ _ _ _ _ _ _) _). apply reach_initial.
Qed.
Example C87_vocabulary_example :
  exists d ready size text, M_Merger.reachable 3 2 [line_b; line_a] (M_Merger.Down d ready size (M_Merger.Full text)).
Proof.
  destruct (P_Merger.reachable_start 3 2 [line_b; line_a]) as (r & R & _); [discriminate..|].
  destruct (P_Merger.C43_ends 3 2 _ r ltac:(discriminate) ltac:(discriminate) R) as (k & r' & c & St & Hv & _).
  assert (R' : M_Merger.reachable 3 2 [line_b; line_a] (M_Merger.Up r')).
  { clear Hv. induction St as [|m a b d0 Hab Hs IH]; [exact R|]. apply IH. eapply M_Merger.reach_sys; [exact R|]. constructor. exact Hab. }
  pose proof (M_Merger.reach_sys _ _ _ _ _ R' (M_Merger.sys_down _ _ _ r')) as D. rewrite Hv in D. eauto.
Qed.
(** all hypotheses of C87_vocabulary hold for it *)
Example C87_instance : exists outs d ready size text vocab,
  Forall2 (like_text ascii_case ascii_K no_splitters lexer_two disk_ex two_config None) two_files outs /\
  length (List.concat outs) = 14 /\
  M_Merger.reachable 3 2 [line_b; line_a] (M_Merger.Down d ready size (M_Merger.Full text)) /\
  load_vocab_dict text = Ok vocab /\ counts_exactly vocab (List.concat outs).
Proof.
  destruct C87_example as (R & D & _ & Hp & Hs). destruct C87_vocabulary_example as (d & ready & size & text & Hr).
  destruct C68_example as (Hl & Hsp & Hv & _).
  assert (HO : forall text name, lexer_ok (lexer_two text name)).
  { intros t0 name. unfold lexer_two. destruct (eqb t0 (lit "any")); unfold lexer_ex, lexer_ok;
      repeat (constructor; [split; [discriminate|cbn; intros H; discriminate H]|]); constructor. }
  assert (HL : forall text name, lexer_solid (lexer_two text name)).
  { intros t0 name. unfold lexer_two. destruct (eqb t0 (lit "any")); [apply (Hl t0 name)|]. unfold lexer_solid.
    repeat (constructor; [split; [unfold valid_str; cbn; repeat (constructor; [vm_compute; discriminate|]); constructor
                                 |cbn; intros H; try discriminate H; intuition discriminate]|]). constructor. }
  assert (Hx : forall path bytes, In (path, bytes) two_files -> exists ext, utf8 ext = Ok (splitext path) /\ valid_str ext).
  { intros path bytes [H|[H|[]]]; injection H as <- <-; [exists (lit ".java")|exists (lit ".py")]; (split; [vm_compute; reflexivity|]);
      unfold valid_str; cbn; repeat (constructor; [vm_compute; discriminate|]); constructor. }
  destruct (C87_vocabulary ascii_case ascii_K no_splitters lexer_two disk_ex None two_config None eq_refl ascii_case_py_ascii
              ascii_case_py_text Hv ascii_K_classes Hsp HO HL ltac:(discriminate) two_files Hx (fun _ => []) [] true
              (fun _ => Forall_nil _) two_ended [line_b; line_a] R D) as (outs & F & Hn & Hw).
  { change (length two_files) with 2. rewrite Hp. apply perm_swap. }
  rewrite Hs in Hn. destruct (Hw 3 2 d ready size text ltac:(discriminate) ltac:(discriminate) Hr) as (_ & vocab & Hvo & Hc).
  exists outs, d, ready, size, text, vocab. repeat split; auto; apply Hc.
Qed.
