(** * C92: the token types in the metadata tell what the tokens are *)
From Coq Require Import List NArith ZArith Bool String Lia.
From Verif Require Import M_Base L_Base M_Tokens M_Literal L_Literal M_Repr M_Merge M_BpeEncode M_PrepConfig P_PrepConfig
  L_Repr P_Repr L_Word P_ReprOptions L_Merge P_ReprStrings M_Regex M_Parse L_Regex P_Parse P_ParseRepr.
Import ListNotations.
Local Open Scope list_scope.

(** ** What is expected, in terms of the lexer's tokens *)
Definition bracket_types : list (str * cls) :=
  [(lit ";", CSemicolon); (lit "{", COpeningCurlyBracket); (lit "}", CClosingCurlyBracket);
   (lit "(", COpeningBracket); (lit ")", CClosingBracket)].
Definition operator_type (v : str) (c : cls) : Prop :=
  In (v, c) bracket_types \/ (~ In v (map fst bracket_types) /\ c = COperator).
Definition number_type (v : str) (c : cls) : Prop :=
  (v = lit "0" /\ c = CZero) \/ (v = lit "1" /\ c = COne) \/ (v <> lit "0" /\ v <> lit "1" /\ c = CNumber).
Definition word_types : list cls := [CSplitContainer; CNonEng; CNumber; CNonCodeChar; CNewLine; CTab].

Definition all_of (c : cls) (blk : list (list str * cls)) : Prop := Forall (fun e => snd e = c) blk.
(** one word that is the text of the lexer's token, with the mark if there are marks *)
Definition as_is (marked : bool) (v : str) (c : cls) (blk : list (list str * cls)) : Prop :=
  blk = [([if marked then v ++ lit "</t>" else v], c)].

(** the words that a token of the lexer gives, with their types *)
Definition typed (K : charclass) (marked : bool) (t : token_type) (v : str) (blk : list (list str * cls)) : Prop :=
  (v = [10%N] -> all_of CNewLine blk) /\
  (v <> [10%N] -> Forall (fun c => is_blank K c = true) v \/ v = [9%N] -> all_of CTab blk) /\
  (v <> [10%N] -> v <> [9%N] -> ~ Forall (fun c => is_blank K c = true) v ->
     (forall r, t = ["Operator"%string] \/ t = "Punctuation"%string :: r -> exists c, operator_type v c /\ as_is marked v c blk) /\
     (forall r, t = "Keyword"%string :: r -> as_is marked v CKeyWord blk) /\
     (forall r, t = "Literal"%string :: "Number"%string :: r -> exists w c, number_type v c /\ blk = [(w, c)]) /\
     (forall r, t = "Literal"%string :: "String"%string :: r -> all_of CStringLiteral blk) /\
     (t = ["Comment"; "Single"]%string -> all_of COneLineComment blk) /\
     (forall r, t = "Comment"%string :: r -> t <> ["Comment"; "Single"]%string -> all_of CMultilineComment blk) /\
     (forall r, t = "Name"%string :: r -> Forall (fun e => In (snd e) word_types) blk)).

Definition seg_blk (marked : bool) (s : seg) : list str * cls := (if marked then mark (s_toks s) else s_toks s, s_cls s).

Ltac wt := repeat (apply Forall_cons; [unfold word_types, np_class; cbn [In s_cls]; auto 10|]); try apply Forall_nil.

Section Types.
  Variables (E : pycase) (K : charclass).

  Lemma segs_split_type rc l ss : segs_split E rc l = Ok ss -> Forall (fun s => s_cls s = CSplitContainer) ss.
  Proof.
    unfold segs_split. destruct (in_types rc CSplitContainer); [destruct (bpe rc)|]; rewrite bind_ok; intros (r & _ & [= <-]);
      repeat constructor.
  Qed.

  Lemma segs_word_types rc w t ss : to_parsed_token E K w = Ok t -> segs E rc t = Ok ss -> Forall (fun s => In (s_cls s) word_types) ss.
  Proof.
    unfold to_parsed_token.
    assert (W : forall l ss, segs_split E rc l = Ok ss -> Forall (fun s => In (s_cls s) word_types) ss).
    { intros l ss' H. apply segs_split_type in H. rewrite Forall_forall in *. intros s Hs. rewrite (H s Hs). left. reflexivity. }
    destruct (eqb w s_nl).
    { intros [= <-]. cbn [segs]. destruct (in_types rc CNewLine); intros [= <-]; wt. }
    destruct (eqb w s_tab).
    { intros [= <-]. cbn [segs]. destruct (in_types rc CTab); intros [= <-]; wt. }
    destruct (is_number w).
    { intros [= <-]. unfold mk_number. cbn [segs]. destruct (in_types rc CNumber).
      - rewrite bind_ok. intros (r & _ & [= <-]). wt.
      - intros [= <-]. wt. }
    destruct (fullmatch _ w).
    { unfold split_identifier. rewrite bind_ok. intros (subs & _ & [= <-]). destruct (is_non_eng w); cbn [segs].
      - destruct (in_types rc CNonEng); [destruct (bpe rc)|].
        + rewrite bind_ok. intros (s & _ & H). apply bind_ok in H. destruct H as (x & _ & H). eapply W, H.
        + intros [= <-]. wt.
        + apply W.
      - apply W. }
    intros [= <-]. cbn [segs]. intros [= <-]. wt.
  Qed.

  Lemma segs_list_forall (P : seg -> Prop) rc l : forall ss,
    segs_list E rc l = Ok ss -> (forall t r, In t l -> segs E rc t = Ok r -> Forall P r) -> Forall P ss.
  Proof.
    induction l as [|t l IH]; intros ss H HP; unfold segs_list in *; cbn [segs_list_with] in H.
    - injection H as <-. constructor.
    - apply bind_ok in H. destruct H as (r & Hr & H). apply bind_ok in H. destruct H as (rs & Hrs & [= <-]).
      apply Forall_app. split; [eapply HP; [left; reflexivity|exact Hr]|].
      apply IH; [exact Hrs|]. intros u r' Hu. apply HP. right. exact Hu.
  Qed.

  Lemma words_types rc v l ss : split_into_words E K v = Ok l -> segs_list E rc l = Ok ss ->
    Forall (fun s => In (s_cls s) word_types) ss.
  Proof.
    unfold split_into_words. intros H Hs. eapply segs_list_forall; [exact Hs|]. intros t r Ht Hr.
    destruct (mapM_in _ _ _ _ H Ht) as (w & _ & Hw). cbn beta in Hw. destruct (eqb w four_spaces).
    - injection Hw as <-. cbn [segs] in Hr. destruct (in_types rc CTab); injection Hr as <-; wt.
    - eapply segs_word_types; eassumption.
  Qed.

  Lemma one_token rc t ss : segs_list E rc [t] = Ok ss -> segs E rc t = Ok ss.
  Proof.
    unfold segs_list. cbn [segs_list_with]. rewrite bind_ok. intros (r & Hr & H). cbn [bind] in H. injection H as <-.
    rewrite app_nil_r. exact Hr.
  Qed.

  Lemma comment_types rc l ss : segs E rc (OneLineComment l) = Ok ss -> Forall (fun s => s_cls s = COneLineComment) ss.
  Proof.
    cbn [segs]. destruct (in_types rc _); [intros [= <-]; repeat constructor|]. rewrite bind_ok. intros (r & _ & [= <-]).
    apply Forall_app. split; [|repeat constructor]. apply Forall_map, Forall_forall. reflexivity.
  Qed.
  Lemma mcomment_types rc l ss : segs E rc (MultilineComment l) = Ok ss -> Forall (fun s => s_cls s = CMultilineComment) ss.
  Proof.
    cbn [segs]. destruct (in_types rc _); [intros [= <-]; repeat constructor|]. rewrite bind_ok. intros (r & _ & [= <-]).
    apply Forall_map, Forall_forall. reflexivity.
  Qed.
  Lemma string_types rc l n ss : segs E rc (StringLiteral l n) = Ok ss -> Forall (fun s => s_cls s = CStringLiteral) ss.
  Proof.
    cbn [segs]. destruct (in_types rc _); [intros [= <-]; repeat constructor|].
    destruct (max_str_length rc) as [mx|]; [|discriminate]. destruct (mx <? n)%Z.
    { destruct (full_strings rc); intros [= <-]; repeat constructor. }
    destruct (bpe rc).
    { rewrite bind_ok. intros (s & _ & H). apply bind_ok in H. destruct H as (r & _ & [= <-]). repeat constructor. }
    destruct (full_strings rc).
    { rewrite bind_ok. intros (s & _ & [= <-]). repeat constructor. }
    rewrite bind_ok. intros (r & _ & [= <-]). apply Forall_map, Forall_forall. reflexivity.
  Qed.

  Lemma blk_all (b : bool) c ss : Forall (fun s => s_cls s = c) ss -> all_of c (map (seg_blk b) ss).
  Proof. intros H. apply Forall_map. exact H. Qed.

  Lemma type_is_cons t u : type_is t u = true <-> t = u.
  Proof. unfold type_is. destruct (list_eq_dec string_dec t u); split; intros H; congruence. Qed.

  Lemma type_in_nil r : type_in r [] = true.
  Proof. destruct r; reflexivity. Qed.
  Lemma type_in1 a r : type_in (a :: r) [a] = true.
  Proof. cbn [type_in]. rewrite String.eqb_refl. apply type_in_nil. Qed.
  Lemma type_in2 a b r : type_in (a :: b :: r) [a; b] = true.
  Proof. cbn [type_in]. rewrite !String.eqb_refl. apply type_in_nil. Qed.

  Lemma as_is_blk (b : bool) v c np : as_is b v c (map (seg_blk b) (one_seg c [v] np)).
  Proof. unfold as_is, seg_blk, one_seg. cbn [map s_toks s_cls]. destruct b; reflexivity. Qed.

  Lemma convert_typed rc b t v toks ss : convert E K t v = Ok toks -> segs_list E rc toks = Ok ss ->
    typed K b t v (map (seg_blk b) ss).
  Proof.
    unfold convert, s_nl, s_tab. intros H Hs.
    assert (BL : blank K v = true <-> Forall (fun c => is_blank K c = true) v).
    { unfold blank. rewrite forallb_forall, Forall_forall. reflexivity. }
    destruct (eqb_spec v [10%N]) as [->|N1].
    { injection H as <-. apply one_token in Hs. cbn [segs] in Hs.
      split; [|split; congruence]. intros _. apply blk_all. destruct (in_types rc CNewLine); injection Hs as <-; repeat constructor. }
    split; [congruence|].
    assert (TB : forall r, segs E rc Tab = Ok r -> Forall (fun s => s_cls s = CTab) r).
    { intros r. cbn [segs]. destruct (in_types rc CTab); intros [= <-]; repeat constructor. }
    destruct (eqb_spec v [9%N]) as [->|N2].
    { injection H as <-. apply one_token in Hs. split; [|congruence]. intros _ _. apply blk_all, TB, Hs. }
    destruct (blank K v) eqn:B.
    { injection H as <-. split; [|intros _ _ X; destruct X; apply BL; reflexivity]. intros _ _. apply blk_all.
      eapply segs_list_forall; [exact Hs|]. intros u r Hu. apply repeat_spec in Hu. subst u. apply TB. }
    split; [intros _ [X|X]; [apply BL in X; discriminate|congruence]|]. intros _ _ _. clear BL B TB.
    destruct (type_is t ["Operator"%string] || type_in t ["Punctuation"%string]) eqn:T1.
    { injection H as <-. apply one_token in Hs.
      split; [|repeat split; intros; subst; discriminate T1].
      intros r _. unfold operator_token in Hs.
      destruct (eqb_spec v (lit ";")) as [->|M1];
        [injection Hs as <-; eexists; split; [left; left; reflexivity|apply as_is_blk]|].
      destruct (eqb_spec v (lit "{")) as [->|M2];
        [injection Hs as <-; eexists; split; [left; right; left; reflexivity|apply as_is_blk]|].
      destruct (eqb_spec v (lit "}")) as [->|M3];
        [injection Hs as <-; eexists; split; [left; do 2 right; left; reflexivity|apply as_is_blk]|].
      destruct (eqb_spec v (lit "(")) as [->|M4];
        [injection Hs as <-; eexists; split; [left; do 3 right; left; reflexivity|apply as_is_blk]|].
      destruct (eqb_spec v (lit ")")) as [->|M5];
        [injection Hs as <-; eexists; split; [left; do 4 right; left; reflexivity|apply as_is_blk]|].
      injection Hs as <-. exists COperator. split; [right; split; [|reflexivity]|apply as_is_blk].
      cbn [map fst bracket_types In]. intuition congruence. }
    split.
    { apply orb_false_iff in T1. destruct T1 as [Ta Tb]. intros r [X| ->]; [apply type_is_cons in X; congruence|rewrite type_in1 in Tb; discriminate Tb]. }
    clear T1.
    destruct (type_in t ["Literal"; "Number"]%string) eqn:T2.
    { injection H as <-. apply one_token in Hs.
      assert (Ex : exists w c, number_type v c /\ map (seg_blk b) ss = [(w, c)]).
      { unfold number_token, number_type, mk_number in *.
        destruct (eqb_spec v (lit "0")) as [->|M1]; [injection Hs as <-; do 2 eexists; split; [left; split; reflexivity|reflexivity]|].
        destruct (eqb_spec v (lit "1")) as [->|M2]; [injection Hs as <-; do 2 eexists; split; [right; left; split; reflexivity|reflexivity]|].
        cbn [segs] in Hs. destruct (in_types rc CNumber).
        - apply bind_ok in Hs. destruct Hs as (x & _ & [= <-]). do 2 eexists. split; [right; right; auto|reflexivity].
        - injection Hs as <-. do 2 eexists. split; [right; right; auto|reflexivity]. }
      split; [intros r ->; discriminate T2|]. split; [intros r _; exact Ex|]. repeat split; intros; subst; discriminate T2. }
    assert (G1 : forall r, t = "Literal"%string :: "Number"%string :: r -> False) by (intros r ->; rewrite type_in2 in T2; discriminate T2). clear T2.
    destruct (type_in t ["Name"%string]) eqn:T3.
    { repeat split; intros; subst; try discriminate T3. all: try (apply Forall_map; exact (words_types _ _ _ _ H Hs)). }
    assert (G2 : forall r, t = "Name"%string :: r -> False) by (intros r ->; rewrite type_in1 in T3; discriminate T3). clear T3.
    destruct (type_is t ["Literal"%string] || type_is t ["Literal"; "Date"]%string) eqn:T4.
    { apply orb_true_iff in T4. rewrite !type_is_cons in T4.
      destruct T4 as [->| ->]; repeat split; intros; try discriminate; congruence. }
    clear T4.
    destruct (type_in t ["Keyword"%string]) eqn:T5.
    { injection H as <-. apply one_token in Hs. injection Hs as <-.
      split; [intros r _; apply as_is_blk|]. repeat split; intros; subst; discriminate T5. }
    split; [intros r ->; rewrite type_in1 in T5; discriminate T5|]. split; [intros r X; destruct (G1 r X)|]. clear T5.
    destruct (type_in t ["Literal"; "String"]%string) eqn:T6.
    { apply bind_ok in H. destruct H as (l & _ & [= <-]). apply one_token in Hs.
      split; [intros r _; eapply blk_all, string_types, Hs|]. repeat split; intros; subst; discriminate T6. }
    split; [intros r ->; rewrite type_in2 in T6; discriminate T6|]. clear T6.
    destruct (type_is t ["Comment"; "Single"]%string) eqn:T7.
    { apply type_is_cons in T7. apply bind_ok in H. destruct H as (l & _ & [= <-]). apply one_token in Hs.
      split; [intros _; eapply blk_all, comment_types, Hs|]. split; [congruence|]. intros r X. destruct (G2 r X). }
    split; [intros X; apply type_is_cons in X; congruence|].
    destruct (type_in t ["Comment"%string]) eqn:T8.
    { apply bind_ok in H. destruct H as (l & _ & [= <-]). apply one_token in Hs.
      split; [intros r _ _; eapply blk_all, mcomment_types, Hs|]. intros r X. destruct (G2 r X). }
    split; [intros r ->; rewrite type_in1 in T8; discriminate T8|]. intros r X. destruct (G2 r X).
  Qed.

  Lemma text_typed rc b lexed : forall l ss, convert_text E K lexed = Ok l -> segs_list E rc l = Ok ss ->
    exists blocks, Forall2 (fun tv blk => typed K b (fst tv) (snd tv) blk) lexed blocks /\ map (seg_blk b) ss = List.concat blocks.
  Proof.
    induction lexed as [|[t v] lexed IH]; intros l ss; cbn [convert_text].
    - intros [= <-] [= <-]. exists []. split; [constructor|reflexivity].
    - rewrite bind_ok. intros (a & Ha & H). apply bind_ok in H. destruct H as (r & Hr & [= <-]). intros Hs.
      unfold segs_list in Hs. rewrite segs_list_with_app in Hs. apply bind_ok in Hs. destruct Hs as (sa & Hsa & Hs).
      apply bind_ok in Hs. destruct Hs as (sb & Hsb & [= <-]). destruct (IH r sb Hr Hsb) as (blocks & HF & Eb).
      exists (map (seg_blk b) sa :: blocks). split; [constructor; [eapply convert_typed; eassumption|exact HF]|].
      rewrite map_app, Eb. reflexivity.
  Qed.
End Types.

(** ** C92 *)
(** The words of the output with their types, in order, are those that the tokens of the lexer give, one after the
    other. *)
Theorem C92_types : forall E K o d b lexed l out m,
  convert_text E K lexed = Ok l -> to_repr E o d b l = Ok (out, m) ->
  length (types m) = length (slices (wb m) out) /\
  exists blocks, Forall2 (fun tv blk => typed K (is_bpe d) (fst tv) (snd tv) blk) lexed blocks /\
    combine (slices (wb m) out) (types m) = List.concat blocks.
Proof.
  intros E K o d b lexed l out m Hl H. destruct (to_repr_segs _ _ _ _ _ _ _ H) as (rc & ss & _ & Hss & -> & Ho & Hb & _).
  assert (S : slices (bounds 0 (map s_toks ss)) out = map (fun s => fst (seg_blk (is_bpe d) s)) ss).
  { unfold seg_blk. cbn [fst]. destruct (is_bpe d).
    - destruct (Hb eq_refl) as [Hne ->]. replace (bounds 0 (map s_toks ss)) with (bounds 0 (map (fun s => mark (s_toks s)) ss)).
      + apply slices_bounds0.
      + clear -Hne. generalize 0. induction Hne as [|s ss Hs Hne IH]; intros k; [reflexivity|].
        cbn [map bounds]. rewrite mark_length by exact Hs. rewrite IH. reflexivity.
    - rewrite (Ho eq_refl). apply slices_bounds0. }
  destruct (text_typed E K rc (is_bpe d) lexed l ss Hl Hss) as (blocks & HF & Eb).
  unfold flat. cbn [snd wb types]. rewrite S, !map_length. split; [reflexivity|]. exists blocks. split; [exact HF|].
  rewrite <- Eb. clear. induction ss as [|s ss IH]; [reflexivity|]. cbn [map combine]. rewrite IH. reflexivity.
Qed.

(** The type of a word with other letters than those of English depends on the options: with no_unicode it is that of
    a non-English word if words are not split with BPE, otherwise it is that of a word. *)
Theorem C92_non_english_refuted : exists l,
  convert_text ascii_case accent_K [(["Name"]%string, [233; 233]%N)] = Ok l /\
  (exists out m, to_repr ascii_case no_splitters (combine prep_params (chars_of "Uc10su")) None l = Ok (out, m) /\ types m = [CNonEng]) /\
  (exists out m, to_repr ascii_case no_splitters (combine prep_params (chars_of "uc10su")) None l = Ok (out, m) /\ types m = [CSplitContainer]).
Proof.
  eexists. split; [vm_compute; reflexivity|]. split; do 2 eexists; (split; vm_compute; reflexivity).
Qed.

(** All that the lexer puts below Comment and not into Comment.Single is a multi-line comment, also the directives of the
    preprocessor; no_com hides them. *)
Theorem C92_preprocessor_refuted : exists l,
  convert_text ascii_case ascii_K [(["Comment"; "Preproc"]%string, lit "#define"); (["Text"]%string, lit " ");
     (["Comment"; "Preproc"]%string, lit "MAX")] = Ok l /\
  (exists out m, to_repr ascii_case no_splitters (combine prep_params (chars_of "u010su")) None l = Ok (out, m)
     /\ out = [lit "<comment>"; lit "<comment>"] /\ types m = [CMultilineComment; CMultilineComment]).
Proof. eexists. split; [vm_compute; reflexivity|]. do 2 eexists. split; [vm_compute; reflexivity|]. split; vm_compute; reflexivity. Qed.
Print Assumptions C92_types.
Print Assumptions C92_non_english_refuted.
Print Assumptions C92_preprocessor_refuted.

Example C92_example :
  let lexed := [(["Keyword"]%string, lit "if"); (["Text"]%string, lit " "); (["Punctuation"]%string, lit "("); (["Name"]%string, lit "a_b");
    (["Operator"]%string, lit "=="); (["Literal"; "Number"; "Integer"]%string, lit "1"); (["Punctuation"]%string, lit ")");
    (["Comment"; "Single"]%string, lit "//x"); (["Text"]%string, [10%N])] in
  exists l out m, convert_text ascii_case ascii_K lexed = Ok l
    /\ to_repr ascii_case no_splitters (combine prep_params (chars_of "uc11su")) None l = Ok (out, m)
    /\ combine (slices (wb m) out) (types m)
       = [([lit "if"], CKeyWord); ([lit "("], COpeningBracket); (map lit ["<w>"; "a"; "_"; "b"; "</w>"]%string, CSplitContainer);
          ([lit "=="], COperator); ([lit "1"], COne); ([lit ")"], CClosingBracket); ([lit "/"], COneLineComment); ([lit "/"], COneLineComment);
          ([lit "x"], COneLineComment); ([lit "<EOL>"], COneLineComment); ([s_nl], CNewLine)].
Proof. cbv zeta. do 3 eexists. split; [vm_compute; reflexivity|]. split; [vm_compute; reflexivity|]. vm_compute. reflexivity. Qed.
