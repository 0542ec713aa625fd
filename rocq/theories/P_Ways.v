(** * C100: the way of splitting does not change the tokens that are split *)
From Coq Require Import List NArith ZArith Bool String Lia.
From Verif Require Import M_Base L_Base M_Tokens M_Literal L_Literal M_Repr M_Merge M_BpeEncode M_PrepConfig P_PrepConfig
  L_Repr P_Repr L_Word P_ReprOptions L_Merge P_ReprStrings M_Regex M_Parse L_Regex P_Parse P_ParseRepr P_Split.
Import ListNotations.
Local Open Scope list_scope.

(** a string is one token *)
Definition whole_strings (d : params) : Prop := param d SPLIT = lit "F" \/ is_bpe d = true.
(** both configurations hide strings, or both write them as one token, or both write the same strings in pieces *)
Definition strings_alike (d d' : params) : Prop :=
  (param d STR = lit "0" /\ param d' STR = lit "0") \/
  (param d STR <> lit "0" /\ param d' STR <> lit "0" /\ whole_strings d /\ whole_strings d') \/
  (~ whole_strings d /\ ~ whole_strings d' /\ param d STR = param d' STR).
(** words with other letters than those of English are taken for such words in both or in neither *)
Definition letters_alike (d d' : params) : Prop :=
  (param d EN_ONLY <> lit "U" /\ param d' EN_ONLY <> lit "U") \/
  (param d EN_ONLY = param d' EN_ONLY /\ is_bpe d = is_bpe d').
(** the bpe data are there if they are needed *)
Definition data_given (d : params) (b : option bpe_data) : Prop := is_bpe d = true -> b <> None.

(** forget whether a word has other letters than those of English *)
Definition any_word (c : cls) : cls := match c with CNonEng => CSplitContainer | c => c end.

Section Ways.
  Variables (E : pycase) (c c' : repr_config) (f : cls -> cls).
  Hypothesis Hnl : in_types c CNewLine = in_types c' CNewLine.
  Hypothesis Htab : in_types c CTab = in_types c' CTab.
  Hypothesis Holc : in_types c COneLineComment = in_types c' COneLineComment.
  Hypothesis Hmlc : in_types c CMultilineComment = in_types c' CMultilineComment.
  Hypothesis Hstr : in_types c CStringLiteral = in_types c' CStringLiteral.
  Hypothesis Hone : in_types c CStringLiteral = true \/
    (bpe c || full_strings c = true /\ bpe c' || full_strings c' = true) \/
    (bpe c || full_strings c = false /\ bpe c' || full_strings c' = false /\ max_str_length c = max_str_length c').
  Hypothesis Heng : f CNonEng = f CSplitContainer \/ in_types c CNonEng && negb (bpe c) = in_types c' CNonEng && negb (bpe c').

  Definition kinds (r : list seg) : list cls := map (fun s => f (s_cls s)) r.

  Lemma split_kinds cfg l r : segs_split E cfg l = Ok r -> kinds r = [f CSplitContainer].
  Proof.
    unfold segs_split. destruct (in_types cfg CSplitContainer); [destruct (bpe cfg)|]; rewrite bind_ok; intros (x & _ & [= <-]); reflexivity.
  Qed.

  Lemma kinds_retype k r r' : length r = length r' -> kinds (map (retype k) r) = kinds (map (retype k) r').
  Proof.
    unfold kinds. rewrite !map_map. cbn [retype s_cls]. revert r'. induction r as [|x r IH]; intros [|y r'] H; try discriminate; [reflexivity|].
    cbn [map]. f_equal. apply IH. injection H as H. exact H.
  Qed.
  Lemma kinds_length r r' : kinds r = kinds r' -> length r = length r'.
  Proof. intros H. apply (f_equal (@length cls)) in H. unfold kinds in H. rewrite !map_length in H. exact H. Qed.

  Lemma list_kinds keep l : Forall (fun t => forall r r', segs E c t = Ok r -> segs E c' t = Ok r' -> kinds r = kinds r') l ->
    forall r r', segs_list_with keep (segs E c) l = Ok r -> segs_list_with keep (segs E c') l = Ok r' -> kinds r = kinds r'.
  Proof.
    induction 1 as [|t l Ht _ IH]; intros r r'; cbn [segs_list_with].
    - intros [= <-] [= <-]. reflexivity.
    - destruct (keep t); [|apply IH]. rewrite !bind_ok. intros (x & Hx & H) (x' & Hx' & H').
      apply bind_ok in H. destruct H as (rs & Hrs & [= <-]). apply bind_ok in H'. destruct H' as (rs' & Hrs' & [= <-]).
      unfold kinds in *. rewrite !map_app. f_equal; [apply Ht; assumption|apply IH; assumption].
  Qed.

  Lemma string_kinds cfg l n r : bpe cfg || full_strings cfg = true -> segs E cfg (StringLiteral l n) = Ok r -> kinds r = [f CStringLiteral].
  Proof.
    intros Hw. cbn [segs]. destruct (in_types cfg CStringLiteral); [intros [= <-]; reflexivity|].
    destruct (max_str_length cfg) as [mx|]; [|discriminate]. destruct (mx <? n)%Z.
    { destruct (full_strings cfg); intros [= <-]; reflexivity. }
    destruct (bpe cfg).
    { rewrite bind_ok. intros (s & _ & H). apply bind_ok in H. destruct H as (x & _ & [= <-]). reflexivity. }
    cbn [orb] in Hw. rewrite Hw. rewrite bind_ok. intros (s & _ & [= <-]). reflexivity.
  Qed.

  Lemma same_kinds t : forall r r', segs E c t = Ok r -> segs E c' t = Ok r' -> kinds r = kinds r'.
  Proof.
    induction t using token_nested_ind; intros r r'.
    - cbn [segs]. rewrite <- Hnl. destruct (in_types c CNewLine); intros [= <-] [= <-]; reflexivity.
    - cbn [segs]. rewrite <- Htab. destruct (in_types c CTab); intros [= <-] [= <-]; reflexivity.
    - cbn [segs]. intros [= <-] [= <-]. reflexivity.
    - assert (G : forall cfg r, segs E cfg (Number v) = Ok r -> kinds r = [f CNumber]).
      { intros cfg x. cbn [segs]. destruct (in_types cfg CNumber); [rewrite bind_ok; intros (y & _ & [= <-]); reflexivity|intros [= <-]; reflexivity]. }
      intros H H'. rewrite (G _ _ H), (G _ _ H'). reflexivity.
    - cbn [segs]. intros [= <-] [= <-]. reflexivity.
    - cbn [segs]. intros [= <-] [= <-]. reflexivity.
    - cbn [segs]. intros [= <-] [= <-]. reflexivity.
    - cbn [segs]. intros H H'. rewrite (split_kinds _ _ _ H), (split_kinds _ _ _ H'). reflexivity.
    - assert (G : forall cfg r, segs E cfg (NonEng l) = Ok r ->
        kinds r = [if in_types cfg CNonEng && negb (bpe cfg) then f CNonEng else f CSplitContainer]).
      { intros cfg x. cbn [segs]. destruct (in_types cfg CNonEng); cbn [andb]; [|apply split_kinds].
        destruct (bpe cfg); cbn [negb]; [|intros [= <-]; reflexivity].
        rewrite bind_ok. intros (s & _ & H). apply bind_ok in H. destruct H as (w & _ & H). eapply split_kinds. exact H. }
      intros H H'. rewrite (G _ _ H), (G _ _ H'). f_equal. destruct Heng as [-> | ->]; [destruct (_ && _), (_ && _); reflexivity|reflexivity].
    - cbn [segs]. rewrite <- Holc. destruct (in_types c COneLineComment); [intros [= <-] [= <-]; reflexivity|].
      rewrite !bind_ok. intros (x & Hx & [= <-]) (x' & Hx' & [= <-]). unfold kinds. rewrite !map_app. f_equal.
      apply kinds_retype, kinds_length. eapply list_kinds; eassumption.
    - cbn [segs]. rewrite <- Hmlc. destruct (in_types c CMultilineComment); [intros [= <-] [= <-]; reflexivity|].
      rewrite !bind_ok. intros (x & Hx & [= <-]) (x' & Hx' & [= <-]). apply kinds_retype, kinds_length. eapply list_kinds; eassumption.
    - destruct Hone as [Hs|[[Hw Hw']|(Hw & Hw' & Hm)]].
      + pose proof Hstr as Hs'. cbn [segs]. rewrite Hs in *. rewrite <- Hs'. intros [= <-] [= <-]. reflexivity.
      + intros H1 H2. rewrite (string_kinds _ _ _ _ Hw H1), (string_kinds _ _ _ _ Hw' H2). reflexivity.
      + apply orb_false_iff in Hw, Hw'. destruct Hw as [B F]. destruct Hw' as [B' F']. cbn [segs].
        rewrite <- Hstr, B, F, B', F', <- Hm. destruct (in_types c CStringLiteral); [intros [= <-] [= <-]; reflexivity|].
        destruct (max_str_length c) as [mx|]; [|discriminate]. destruct (mx <? n)%Z; [intros [= <-] [= <-]; reflexivity|].
        rewrite !bind_ok. intros (x & Hx & [= <-]) (x' & Hx' & [= <-]). apply kinds_retype, kinds_length. eapply list_kinds; eassumption.
  Qed.
End Ways.

Lemma param_in1_iff d p x : chars_of x = [lit x] -> (param_in d p x = true <-> param d p = lit x).
Proof.
  intros L. unfold param_in. rewrite L. rewrite mem_in. split.
  - intros [H|[]]. symmetry. exact H.
  - intros H. left. symmetry. exact H.
Qed.

Lemma whole_strings_rc o d b rc : get_repr_config o d b = Ok rc -> data_given d b ->
  (bpe rc || full_strings rc = true <-> whole_strings d).
Proof.
  intros H G. destruct (repr_config_fields _ _ _ _ H) as [Hf _]. rewrite Hf. unfold whole_strings.
  rewrite <- (param_in1_iff d SPLIT "F" eq_refl), orb_true_iff.
  destruct (is_bpe d) eqn:B.
  - destruct (repr_config_bpe _ _ _ _ H B) as (_ & _ & Hb & _). rewrite Hb. destruct b; [tauto|]. destruct (G B eq_refl).
  - rewrite (repr_config_not_bpe _ _ _ _ H B). intuition discriminate.
Qed.
Lemma bpe_rc o d b rc : get_repr_config o d b = Ok rc -> data_given d b -> bpe rc = is_bpe d.
Proof.
  intros H G. destruct (is_bpe d) eqn:B.
  - destruct (repr_config_bpe _ _ _ _ H B) as (_ & _ & Hb & _). rewrite Hb. destruct b; [reflexivity|]. destruct (G B eq_refl).
  - apply (repr_config_not_bpe _ _ _ _ H B).
Qed.

Lemma ways_kinds (f : cls -> cls) E o o' d d' b b' l out m out' m' :
  param d COM = param d' COM -> param d TABS_NEWLINES = param d' TABS_NEWLINES -> strings_alike d d' ->
  data_given d b -> data_given d' b' -> f CNonEng = f CSplitContainer \/ letters_alike d d' ->
  to_repr E o d b l = Ok (out, m) -> to_repr E o' d' b' l = Ok (out', m') ->
  map f (types m) = map f (types m').
Proof.
  intros Hc Ht Hs G G' He H H'.
  destruct (to_repr_segs _ _ _ _ _ _ _ H) as (rc & ss & Hrc & Hss & -> & _).
  destruct (to_repr_segs _ _ _ _ _ _ _ H') as (rc' & ss' & Hrc' & Hss' & -> & _).
  unfold flat. cbn [snd types]. rewrite !map_map. change (kinds f ss = kinds f ss').
  pose proof (repr_config_types _ _ _ _ Hrc) as Ty. pose proof (repr_config_types _ _ _ _ Hrc') as Ty'.
  pose proof (whole_strings_rc _ _ _ _ Hrc G) as W. pose proof (whole_strings_rc _ _ _ _ Hrc' G') as W'.
  pose proof (bpe_rc _ _ _ _ Hrc G) as B. pose proof (bpe_rc _ _ _ _ Hrc' G') as B'.
  destruct (repr_config_fields _ _ _ _ Hrc) as [_ M]. destruct (repr_config_fields _ _ _ _ Hrc') as [_ M'].
  assert (S0 : forall d, param d STR <> lit "0" -> param_in d STR "0" = false).
  { intros x Hx. destruct (param_in x STR "0") eqn:Q; [|reflexivity]. apply (param_in1_iff x STR "0" eq_refl) in Q. contradiction. }
  eapply list_kinds; [|exact Hss|exact Hss']. apply Forall_forall. intros t _. apply same_kinds.
  - unfold in_types. rewrite Ty, Ty', !types_in. unfold param_in. rewrite Ht. reflexivity.
  - unfold in_types. rewrite Ty, Ty', !types_in. unfold param_in. rewrite Ht. reflexivity.
  - unfold in_types. rewrite Ty, Ty', !types_in. unfold param_in. rewrite Hc. reflexivity.
  - unfold in_types. rewrite Ty, Ty', !types_in. unfold param_in. rewrite Hc. reflexivity.
  - unfold in_types. rewrite Ty, Ty', !types_in. destruct Hs as [[E1 E2]|[(E1 & E2 & _)|(_ & _ & E1)]].
    + unfold param_in. rewrite E1, E2. reflexivity.
    + rewrite !S0 by assumption. reflexivity.
    + unfold param_in. rewrite E1. reflexivity.
  - destruct Hs as [[E1 E2]|[(_ & _ & E1 & E2)|(N1 & N2 & E1)]].
    + left. unfold in_types. rewrite Ty, types_in. unfold param_in. rewrite E1. reflexivity.
    + right. left. split; [apply W|apply W']; assumption.
    + right. right. split; [|split].
      * destruct (bpe rc || full_strings rc); [destruct N1; apply W; reflexivity|reflexivity].
      * destruct (bpe rc' || full_strings rc'); [destruct N2; apply W'; reflexivity|reflexivity].
      * rewrite E1, M' in M. injection M as ->. reflexivity.
  - destruct He as [He|He]; [left; exact He|right]. rewrite B, B'. unfold in_types. rewrite Ty, Ty', !types_in.
    destruct He as [[E1 E2]|[E1 E2]].
    + assert (U0 : forall d, param d EN_ONLY <> lit "U" -> param_in d EN_ONLY "U" = false).
      { intros x Hx. destruct (param_in x EN_ONLY "U") eqn:Q; [|reflexivity]. apply (param_in1_iff x EN_ONLY "U" eq_refl) in Q. contradiction. }
      rewrite !U0 by assumption. reflexivity.
    + unfold param_in. rewrite E1, E2. reflexivity.
Qed.

(** ** C100 *)
(** Two ways of splitting, with the same treatment of comments, whitespace and strings: there are as many full tokens, and they have the
    same types, except that a word with other letters than those of English can have the type of any word in one of them. *)
Theorem C100_types : forall E o o' d d' b b' l out m out' m',
  param d COM = param d' COM -> param d TABS_NEWLINES = param d' TABS_NEWLINES -> strings_alike d d' ->
  data_given d b -> data_given d' b' ->
  to_repr E o d b l = Ok (out, m) -> to_repr E o' d' b' l = Ok (out', m') ->
  length (wb m) = length (wb m') /\ map any_word (types m) = map any_word (types m') /\
  (letters_alike d d' -> types m = types m').
Proof.
  intros E o o' d d' b b' l out m out' m' Hc Ht Hs G G' H H'.
  assert (T : map any_word (types m) = map any_word (types m')).
  { eapply ways_kinds; try eassumption. left. reflexivity. }
  split; [|split; [exact T|]].
  - apply (f_equal (@length cls)) in T. rewrite !map_length in T.
    destruct (to_repr_segs _ _ _ _ _ _ _ H) as (rc & ss & _ & _ & -> & _).
    destruct (to_repr_segs _ _ _ _ _ _ _ H') as (rc' & ss' & _ & _ & -> & _).
    unfold flat in *. cbn [snd types wb] in *. rewrite !bounds_length, !map_length in *. congruence.
  - intros Hl. rewrite <- (map_id (types m)), <- (map_id (types m')). eapply ways_kinds; try eassumption. right. exact Hl.
Qed.
Print Assumptions C100_types.

(** The words themselves: with any two of nosplit, basic, splitting of numbers and ronin, with or without marks for the case, the same words
    come back if the parts of each token are put together. *)
Theorem C100_words : forall E o o' d d' b b' l out m out' m',
  mk_prep_config d = Ok d -> mk_prep_config d' = Ok d' -> keeps_text o d -> keeps_text o' d' -> keeps_all d l -> keeps_all d' l ->
  Forall (plain_token E) (all_tokens l) ->
  to_repr E o d b l = Ok (out, m) -> to_repr E o' d' b' l = Ok (out', m') ->
  map (put_together E) (slices (wb m) out) = map (put_together E) (slices (wb m') out').
Proof.
  intros E o o' d d' b b' l out m out' m' D D' T T' A A' P H H'.
  rewrite (C70_tokens E o d b l out m), (C70_tokens E o' d' b' l out' m') by assumption. reflexivity.
Qed.
Print Assumptions C100_words.

(** ** Examples *)
Definition conf_of (s : string) : params := combine prep_params (chars_of s).
Definition ways_lexed : list (token_type * str) :=
  [(["Keyword"]%string, lit "int"); (["Text"]%string, lit " "); (["Name"]%string, lit "aBc_d"); (["Operator"]%string, lit "=");
   (["Literal"; "Number"; "Integer"]%string, lit "12"); (["Punctuation"]%string, lit ";"); (["Comment"; "Single"]%string, lit "// xY");
   (["Literal"; "String"]%string, lit """a  bC""")].

Example C100_example :
  exists l out0 m0 out1 m1 outF mF out8 m8,
  convert_text ascii_case ascii_K ways_lexed = Ok l /\
  to_repr ascii_case no_splitters (conf_of "uc10su") None l = Ok (out0, m0) /\
  to_repr ascii_case no_splitters (conf_of "uc12sl") None l = Ok (out1, m1) /\
  to_repr ascii_case no_splitters (conf_of "uc1Fsu") None l = Ok (outF, mF) /\
  to_repr ascii_case no_splitters (conf_of "uc18su") (Some {| bd_merges := []; bd_cache := [] |}) l = Ok (out8, m8) /\
  (strings_alike (conf_of "uc10su") (conf_of "uc12sl") /\ letters_alike (conf_of "uc10su") (conf_of "uc12sl") /\
   wb m0 <> wb m1 /\ length (types m0) = 13) /\
  (strings_alike (conf_of "uc1Fsu") (conf_of "uc18su") /\ letters_alike (conf_of "uc1Fsu") (conf_of "uc18su") /\
   wb mF <> wb m8 /\ length (types mF) = 10) /\
  map (put_together ascii_case) (slices (wb m1) out1) = out0.
Proof.
  do 9 eexists. do 5 (split; [vm_compute; reflexivity|]). split; [|split; [|vm_compute; reflexivity]].
  - split; [|split; [|split; [vm_compute; discriminate|vm_compute; reflexivity]]].
    + right. right. split; [intros [H|H]; vm_compute in H; discriminate|]. split; [intros [H|H]; vm_compute in H; discriminate|reflexivity].
    + left. split; vm_compute; discriminate.
  - split; [|split; [|split; [vm_compute; discriminate|vm_compute; reflexivity]]].
    + right. left. split; [vm_compute; discriminate|]. split; [vm_compute; discriminate|]. split; [left; reflexivity|right; reflexivity].
    + left. split; vm_compute; discriminate.
Qed.

(** Where strings are not written alike the number of tokens differs: bpe writes a string as one token, the splitting of words does not. *)
Theorem C100_strings_differ : exists l out m out' m',
  convert_text ascii_case ascii_K [(["Literal"; "String"]%string, lit """a b""")] = Ok l /\
  to_repr ascii_case no_splitters (conf_of "uc11su") None l = Ok (out, m) /\
  to_repr ascii_case no_splitters (conf_of "uc18su") (Some {| bd_merges := []; bd_cache := [] |}) l = Ok (out', m') /\
  length (types m) = 4 /\ length (types m') = 1.
Proof. do 5 eexists. repeat (split; [vm_compute; reflexivity|]). vm_compute. reflexivity. Qed.
Print Assumptions C100_strings_differ.
