(** * C98: the placeholders in the output are those of the options, not text of the source *)
From Coq Require Import List NArith ZArith Bool String Lia.
From Verif Require Import M_Base L_Base M_Tokens M_Literal L_Literal M_Repr M_Merge M_BpeEncode M_PrepConfig P_PrepConfig
  L_Repr P_Bpe P_Repr L_Word P_ReprOptions L_Merge P_ReprStrings M_Regex M_Parse L_Regex P_Parse P_ParseRepr P_Split L_Vocab.
Import ListNotations.
Local Open Scope list_scope.

(** ** What is expected, in terms of the lexer's tokens *)
Definition holders : list str := [lit "<comment>"; lit "<str-literal>"; lit "<EOL>"; lit "<non-en>"; lit "<EOF>"].

(** the lexer's token has the given kind and is not white space *)
Definition kind (K : charclass) (pre : list string) (tv : list string * str) : bool :=
  (if list_eq_dec string_dec (firstn (length pre) (fst tv)) pre then true else false) &&
  existsb (fun c => negb (is_blank K c)) (snd tv).
Definition how_many (f : list string * str -> bool) (lexed : list (list string * str)) : nat := length (filter f lexed).
Definition one_line (K : charclass) (tv : list string * str) : bool :=
  kind K ["Comment"; "Single"]%string tv && Nat.eqb (length (fst tv)) 2.

(** how often a token is in the output *)
Definition times (t : str) (out : list str) : nat := length (filter (eqb t) out).
(** how often a placeholder is expected *)
Definition expected (K : charclass) (d : params) (p : str) (lexed : list (list string * str)) : nat :=
  if eqb p (lit "<comment>") then
    if eqb (param d COM) (lit "0") then how_many (kind K ["Comment"%string]) lexed else 0
  else if eqb p (lit "<str-literal>") then
    if eqb (param d STR) (lit "0") then how_many (kind K ["Literal"; "String"]%string) lexed else 0
  else if eqb p (lit "<EOL>") then
    if eqb (param d COM) (lit "0") then 0 else how_many (one_line K) lexed
  else 0.

(** keywords and operators are not placeholders; numbers have no [<] and no spaces *)
Definition lexer_no_holders (lexed : list (token_type * str)) : Prop :=
  Forall (fun tv => snd tv <> [] /\ (plain_type (fst tv) = true -> ~ In (snd tv) holders) /\
                    (type_in (fst tv) ["Literal"; "Number"]%string = true -> no_lt (snd tv) /\ ~ In 32%N (snd tv))) lexed.
(** strings are hidden, or written as words and characters *)
Definition strings_in_pieces (d : params) : Prop :=
  param d STR = lit "0" \/ (is_bpe d = false /\ param d SPLIT <> lit "F").

Lemma times_count t out : times t out = count_occ str_dec out t.
Proof.
  unfold times. induction out as [|x out IH]; [reflexivity|]. cbn [filter count_occ].
  destruct (eqb_spec t x) as [Z|Z], (str_dec x t) as [Y|Y]; cbn [length]; congruence.
Qed.

(** ** Groups without a placeholder *)
Definition shown (b : bool) (g : list str) : list str := if b then mark g else g.
Definition suffix (b : bool) : str := if b then lit "</t>" else [].
Definition clean (b : bool) (p : str) (g : list str) : Prop := ~ In p g /\ (b = true -> Forall no_lt (removelast g)).

Lemma holder_lt p : In p holders -> ~ no_lt p.
Proof. intros [<-|[<-|[<-|[<-|[<-|[]]]]]] H; apply H; left; reflexivity. Qed.

Lemma marker_no_holder x : In x markers -> ~ In x holders.
Proof. intros [<-|[<-|[<-|[<-|[]]]]] [H|[H|[H|[H|[H|[]]]]]]; discriminate H. Qed.

Lemma clean_no_lt b p g : In p holders -> Forall no_lt g -> clean b p g.
Proof.
  intros Hp Hg. rewrite Forall_forall in Hg. split.
  - intros Hin. apply (holder_lt p Hp). apply Hg, Hin.
  - intros _. apply Forall_forall. intros x Hx. apply Hg. destruct g as [|y g]; [destruct Hx|].
    rewrite (app_removelast_last [] (l := y :: g)) by discriminate. apply in_or_app. left. exact Hx.
Qed.
Lemma clean_one b p x : x <> p -> clean b p [x].
Proof. intros H. split; [intros [Hx|[]]; exact (H Hx)|intros _; constructor]. Qed.

Lemma clean_count b p g : In p holders -> clean b p g -> count_occ str_dec (shown b g) (p ++ suffix b) = 0.
Proof.
  intros Hp [H1 H2]. apply count_occ_not_In. destruct b; cbn [shown suffix].
  - unfold mark. rewrite in_app_iff. intros [H|[H|[]]].
    + specialize (H2 eq_refl). rewrite Forall_forall in H2. specialize (H2 _ H). apply (holder_lt p Hp). intros Hin. apply H2.
      apply in_or_app. left. exact Hin.
    + apply app_inv_tail in H. destruct g as [|x g].
      * cbn in H. subst p. destruct Hp as [Hp|[Hp|[Hp|[Hp|[Hp|[]]]]]]; discriminate Hp.
      * apply H1. rewrite <- H. rewrite (app_removelast_last [] (l := x :: g)) at 2 by discriminate.
        apply in_or_app. right. left. reflexivity.
  - rewrite app_nil_r. exact H1.
Qed.

Lemma holder_count b p q : count_occ str_dec (shown b [q]) (p ++ suffix b) = if str_dec q p then 1 else 0.
Proof.
  destruct b; cbn [shown suffix mark removelast last app count_occ].
  - destruct (str_dec (q ++ ph_compound_word_end) (p ++ lit "</t>")) as [H|H], (str_dec q p) as [->|Hn]; try reflexivity.
    + apply app_inv_tail in H. contradiction.
    + destruct H. reflexivity.
  - rewrite app_nil_r. destruct (str_dec q p); reflexivity.
Qed.

(** tokens that are neither comments nor strings *)
Definition fit (E : pycase) (t : token) : Prop :=
  match t with
  | NewLine | Tab | SpaceInString _ | One | Zero => True
  | Number v => v <> [] /\ no_lt v /\ ~ In 32%N v
  | NonProc _ s => ~ In s holders
  | SplitContainer k | NonEng k => k <> [] /\ Forall (plain_sub E) k /\ split_str E k <> [] /\ ~ In 32%N (split_str E k)
  | _ => False
  end.

Section Forge.
  Variables (E : pycase) (cfg : repr_config) (p : str).
  Hypothesis HT : py_text E.
  Hypothesis HL : case_no_lt E.
  Hypothesis Hp : In p holders.
  Hypothesis Hnon : p = lit "<non-en>" -> in_types cfg CNonEng = true -> bpe cfg = true.
  Hypothesis Hbt : bpe cfg = true -> in_types cfg CSplitContainer = true.
  Hypothesis Htypes : in_types cfg CWord = in_types cfg CSplitContainer.
  Hypothesis Hns : forall v ws, v <> [] -> no_lt v -> ~ In 32%N v -> number_splitter cfg v = Ok ws -> Forall no_lt ws.
  Hypothesis Hws : forall v ws, in_types cfg CWord = true -> v <> [] -> no_lt v -> (bpe cfg = true -> ~ In 32%N v) ->
    split_word cfg v = Ok ws -> Forall no_lt ws.

  Definition cleans (r : list seg) : Prop := Forall (fun s => clean (bpe cfg) p (s_toks s)) r.

  Lemma not_holder x : no_lt x -> x <> p.
  Proof using Hp. intros H X. apply (holder_lt p Hp). rewrite <- X. exact H. Qed.
  Lemma marker_not x : In x markers -> x <> p.
  Proof using Hp. intros H X. apply (marker_no_holder x H). rewrite X. exact Hp. Qed.

  Lemma sub_clean s r : bpe cfg = false -> plain_sub E s -> torepr_sub E cfg s = Ok r -> ~ In p r.
  Proof.
    intros Hb Hs. assert (Hf : forall r, Forall no_lt r -> ~ In p r).
    { intros r' H Hin. rewrite Forall_forall in H. exact (not_holder p (H p Hin) eq_refl). }
    assert (Hbf : forall v, bpe cfg = true -> ~ In 32%N v) by (intros v X; congruence).
    destruct s as [|w c]; cbn [torepr_sub].
    - intros [= <-]. apply Hf. constructor; [|constructor]. intros [H|[]]; discriminate.
    - destruct Hs as (H1 & H2 & H3 & H4). destruct (in_types cfg CWord) eqn:Hw.
      + destruct (should_lowercase cfg).
        * rewrite bind_ok. intros (r' & Hr & [= <-]). pose proof (Hf _ (Hws w r' eq_refl H1 H2 (Hbf w) Hr)) as A.
          destruct c; cbn [with_capitalization_prefixes]; try exact A; intros [H|H]; try exact (A H);
            (revert H; apply marker_not; cbn; auto).
        * intros Hr. apply Hf. exact (Hws _ r eq_refl H3 H4 (Hbf _) Hr).
      + intros [= <-]. apply Hf. constructor; [exact H4|constructor].
  Qed.

  Lemma subs_clean k : bpe cfg = false -> Forall (plain_sub E) k -> forall r, torepr_subs E cfg k = Ok r -> ~ In p r.
  Proof.
    intros Hb. induction 1 as [|s k Hs Hf IH]; intros r; cbn [torepr_subs]; [intros [= <-] []|].
    rewrite bind_ok. intros (a & Ha & H). apply bind_ok in H. destruct H as (rs & Hrs & [= <-]).
    rewrite in_app_iff. intros [H|H]; [exact (sub_clean s a Hb Hs Ha H)|exact (IH rs Hrs H)].
  Qed.

  Lemma wrap_clean r : ~ In p r -> ~ In p (wrap_in_word_boundaries_if_necessary r).
  Proof using Hp.
    intros H. assert (Hw : ~ In p ([ph_word_start] ++ r ++ [ph_word_end])).
    { cbn [app In]. rewrite in_app_iff. intros [X|[X|[X|[]]]]; [revert X|exact (H X)|revert X]; apply marker_not; cbn; auto. }
    unfold wrap_in_word_boundaries_if_necessary. destruct r as [|a [|b [|c r]]]; try exact H; try exact Hw.
    destruct (_ || _); [exact H|exact Hw].
  Qed.

  Lemma split_str_no_lt k : Forall (plain_sub E) k -> no_lt (split_str E k).
  Proof using E.
    intros Hf Hin. unfold split_str in Hin. apply in_concat in Hin. destruct Hin as (x & Hx & Hc). apply in_map_iff in Hx.
    destruct Hx as (s & <- & Hs). rewrite Forall_forall in Hf. specialize (Hf s Hs). destruct s as [|w c]; cbn [subtoken_str] in Hc.
    - destruct Hc as [H|[]]; discriminate.
    - apply Hf, Hc.
  Qed.

  Lemma split_clean k r : Forall (plain_sub E) k -> split_str E k <> [] -> (bpe cfg = true -> ~ In 32%N (split_str E k)) ->
    segs_split E cfg k = Ok r -> cleans r.
  Proof.
    intros Hf Hne Hsp. pose proof (fun B => subs_clean k B Hf) as Hsub. pose proof wrap_clean as Hwr. unfold segs_split.
    destruct (in_types cfg CSplitContainer) eqn:Hsc.
    - destruct (bpe cfg) eqn:Hb; rewrite bind_ok; intros (ws & Hw & [= <-]); (constructor; [|constructor]); cbn [s_toks].
      + apply clean_no_lt; [exact Hp|]. eapply Hws; [rewrite Htypes; reflexivity|exact Hne|apply split_str_no_lt, Hf|exact Hsp|exact Hw].
      + rewrite Hb. split; [|discriminate]. apply Hwr. eapply Hsub; first [reflexivity|eassumption].
    - rewrite bind_ok. intros (hs & Hh & [= <-]). constructor; [|constructor]. cbn [s_toks]. apply clean_one, not_holder.
      intros Hin. apply in_concat in Hin. destruct Hin as (x & Hx & Hc).
      destruct (P_Repr.mapM_in _ _ _ _ Hh Hx) as (s & Hs & Hfx). rewrite Forall_forall in Hf. specialize (Hf s Hs).
      destruct s as [|w c]; cbn [torepr_sub] in Hfx.
      + injection Hfx as <-. destruct Hc as [H|[]]; discriminate.
      + rewrite Htypes in Hfx. injection Hfx as <-. apply Hf, Hc.
  Qed.

  Lemma replaced_chars ph (w : str) : forall b c, In c (replace_non_ascii_loop ph b w) -> In c ph \/ In c w.
  Proof.
    induction w as [|x w IH]; intros b c; cbn [replace_non_ascii_loop].
    - destruct b; [auto|intros []].
    - destruct (is_ascii_char x).
      + rewrite in_app_iff. intros [H|[H|H]]; [destruct b; [auto|destruct H]|right; left; exact H|].
        destruct (IH _ _ H) as [X|X]; [auto|right; right; exact X].
      + intros H. destruct (IH _ _ H) as [X|X]; [auto|right; right; exact X].
  Qed.

  Lemma fit_clean t r : fit E t -> segs E cfg t = Ok r -> cleans r.
  Proof.
    pose proof split_clean as Hsplit.
    assert (Hone : forall c x np, x <> p -> cleans (one_seg c [x] np)).
    { intros c x np Hx. constructor; [|constructor]. apply clean_one, Hx. }
    assert (Hlt : forall c x np, no_lt x -> cleans (one_seg c [x] np)).
    { intros c x np Hx. apply Hone, not_holder, Hx. }
    assert (Hlit : forall x : str, mem 60%N x = false -> no_lt x).
    { intros x Hx Hin. apply mem_in in Hin. congruence. }
    destruct t as [| |n|v| | |c s|l|l|l|l|l n]; cbn [fit segs]; intros Ht.
    - destruct (in_types cfg CNewLine); intros [= <-]; [constructor|apply Hlt, Hlit; reflexivity].
    - destruct (in_types cfg CTab); intros [= <-]; [constructor|apply Hlt, Hlit; reflexivity].
    - intros [= <-]. apply Hlt. intros Hin. apply in_concat in Hin. destruct Hin as (x & Hx & Hc).
      apply repeat_spec in Hx. subst x. destruct Hc as [H|[]]; discriminate.
    - destruct Ht as (T1 & T2 & T3). destruct (in_types cfg CNumber); [|intros [= <-]; apply Hlt, T2].
      rewrite bind_ok. intros (ws & Hw & [= <-]). constructor; [|constructor]. cbn [s_toks].
      pose proof (Hns _ _ T1 T2 T3 Hw) as A. destruct (bpe cfg) eqn:Hb.
      + rewrite andb_false_r. apply clean_no_lt; assumption.
      + split; [|discriminate]. destruct (clean_no_lt false p ws Hp A) as [B _]. destruct (_ && _); [|exact B].
        cbn [app In]. rewrite in_app_iff. intros [X|[X|[X|[]]]]; [revert X|exact (B X)|revert X]; apply marker_not; cbn; auto.
    - intros [= <-]. apply Hlt, Hlit. reflexivity.
    - intros [= <-]. apply Hlt, Hlit. reflexivity.
    - intros [= <-]. apply Hone. intros X. apply Ht. rewrite X. exact Hp.
    - destruct Ht as (_ & T2 & T3 & T4). apply Hsplit; auto.
    - destruct Ht as (_ & T2 & T3 & T4). destruct (in_types cfg CNonEng) eqn:Hc; [|apply Hsplit; auto].
      destruct (bpe cfg) eqn:Hb.
      + rewrite bind_ok. intros (s & Hs & H). apply bind_ok in H. destruct H as (w & Hw & H).
        unfold replace_non_ascii_seqs in Hs. cbn [length ph_non_ascii_seq Nat.eqb] in Hs. injection Hs as <-.
        assert (N1 : no_lt (replace_non_ascii_loop ph_non_ascii_seq false (split_str E l))).
        { intros Hin. apply replaced_chars in Hin. destruct Hin as [[X|[]]|X]; [discriminate|exact (split_str_no_lt _ T2 X)]. }
        assert (N2 : ~ In 32%N (replace_non_ascii_loop ph_non_ascii_seq false (split_str E l))).
        { intros Hin. apply replaced_chars in Hin. destruct Hin as [[X|[]]|X]; [discriminate|exact (T4 X)]. }
        assert (N3 : replace_non_ascii_loop ph_non_ascii_seq false (split_str E l) <> []).
        { intros X. rewrite X in Hw. discriminate Hw. }
        destruct (word_text E HT _ _ N2 Hw) as [W1 W2].
        eapply Hsplit; [| | |exact H]; unfold split_str; cbn [map List.concat]; rewrite ?app_nil_r; auto.
        constructor; [|constructor]. exact (word_plain E HT HL _ _ N3 N1 Hw).
      + intros [= <-]. apply Hone. intros X. specialize (Hnon (eq_sym X) eq_refl). congruence.
    - contradiction.
    - contradiction.
    - contradiction.
  Qed.

  Definition hits (ss : list seg) : nat :=
    count_occ str_dec (List.concat (map (fun s => shown (bpe cfg) (s_toks s)) ss)) (p ++ suffix (bpe cfg)).
  Lemma hits_app a b : hits (a ++ b) = hits a + hits b.
  Proof. unfold hits. rewrite map_app, concat_app. apply count_occ_app. Qed.
  Lemma hits_retype c r : hits (map (retype c) r) = hits r.
  Proof. unfold hits. rewrite map_map. reflexivity. Qed.
  Lemma cleans_hits r : cleans r -> hits r = 0.
  Proof.
    induction 1 as [|s r Hs Hr IH]; [reflexivity|]. change (s :: r) with ([s] ++ r). rewrite hits_app, IH. unfold hits.
    cbn [map List.concat]. rewrite app_nil_r, clean_count by assumption. reflexivity.
  Qed.
  Lemma fits_hits keep l : Forall (fit E) l -> forall r, segs_list_with keep (segs E cfg) l = Ok r -> hits r = 0.
  Proof.
    intros Hf r Hr. apply cleans_hits. eapply segs_list_with_forall; [|exact Hr]. eapply Forall_impl; [|exact Hf].
    intros t Ht s Hs. eapply fit_clean; eassumption.
  Qed.
  Lemma hits_one c q np : hits (one_seg c [q] np) = if str_dec q p then 1 else 0.
  Proof. unfold hits, one_seg. cbn [map List.concat s_toks]. rewrite app_nil_r. apply holder_count. Qed.
End Forge.

(** ** Parsed texts *)
Section ParsedForge.
  Variables (E : pycase) (K : charclass).
  Hypothesis HK : ascii_classes K.
  Hypothesis HT : py_text E.
  Hypothesis HL : case_no_lt E.
  Hypothesis HB : is_blank K 10%N = true /\ is_blank K 9%N = true.

  Definition short_np (t : token) : Prop := match t with NonProc _ s => length s = 1 | _ => True end.
  Lemma pieces_np sp ps tss : (forall n, Forall short_np (sp n)) -> Forall2 (piece_tokens E K sp) ps tss -> Forall short_np (List.concat tss).
  Proof.
    intros Hsp HF. induction HF as [|p ts ps tss Hp HF IH]; [constructor|]. cbn [List.concat]. apply Forall_app. split; [|exact IH].
    destruct p as [w|c|n]; cbn [piece_tokens] in Hp.
    - destruct Hp as (t & -> & Hw). constructor; [|constructor]. destruct Hw as [Hn|parts subs]; [exact I|]. destruct (is_ascii _); exact I.
    - subst ts. constructor; [|constructor]. unfold char_token. destruct (N.eqb c 10); [exact I|]. destruct (N.eqb c 9); [exact I|reflexivity].
    - subst ts. apply Hsp.
  Qed.

  Lemma fit_of t : simple_token E t -> plain_token E t -> short_np t -> fit E t.
  Proof.
    destruct t as [| |n|v| | |c s|l|l|l|l|l n]; cbn [simple_token plain_token short_np fit]; try tauto.
    intros _ _ Hl [<-|[<-|[<-|[<-|[<-|[]]]]]]; discriminate Hl.
  Qed.
  Lemma fits_of l : Forall (simple_token E) l -> Forall (plain_token E) l -> Forall short_np l -> Forall (fit E) l.
  Proof. rewrite !Forall_forall. intros H1 H2 H3 t Ht. apply fit_of; auto. Qed.

  Lemma words_fit v toks : split_into_words E K v = Ok toks -> Forall (fit E) toks.
  Proof.
    intros H. apply fits_of; [eapply words_simple; eassumption|eapply words_plain; eassumption|].
    destruct (C13_words E K v toks HK H) as (ps & tss & Hp & HF & ->). eapply pieces_np; [|exact HF].
    intros n. apply Forall_forall. intros t Ht. apply repeat_spec in Ht. subst t. exact I.
  Qed.
  Lemma string_fit v toks : split_string E K v = Ok toks -> Forall (fit E) toks.
  Proof.
    intros H. apply fits_of; [eapply string_simple; eassumption|eapply string_plain; eassumption|].
    destruct (C13_string E K v toks HK H) as (ps & tss & Hp & HF & ->). eapply pieces_np; [|exact HF].
    intros n. constructor; [exact I|constructor].
  Qed.

  Lemma prefix_type_in t pre : type_in t pre = if list_eq_dec string_dec (firstn (length pre) t) pre then true else false.
  Proof.
    revert t. induction pre as [|a pre IH]; intros t.
    - cbn [type_in firstn length]. destruct t; reflexivity.
    - destruct t as [|x t]; cbn [type_in firstn length].
      + destruct (list_eq_dec _ _ _) as [X|]; [discriminate X|reflexivity].
      + destruct (String.eqb_spec a x) as [->|Hn].
        * rewrite IH. destruct (list_eq_dec string_dec (firstn (length pre) t) pre) as [->|X], (list_eq_dec string_dec (x :: _) _) as [Y|Y];
            try reflexivity; [destruct Y; reflexivity|]. injection Y as Y. contradiction.
        * destruct (list_eq_dec string_dec (x :: firstn (length pre) t) (a :: pre)) as [Y|Y]; [|reflexivity]. injection Y as -> _. contradiction.
  Qed.
  Lemma kind_type pre t v : kind K pre (t, v) = type_in t pre && negb (blank K v).
  Proof.
    unfold kind. cbn [fst snd]. rewrite prefix_type_in. f_equal. unfold blank. induction v as [|c v IH]; [reflexivity|].
    cbn [existsb forallb]. rewrite IH, negb_andb. reflexivity.
  Qed.
  Lemma one_line_type t v : one_line K (t, v) = type_is t ["Comment"; "Single"]%string && negb (blank K v).
  Proof.
    unfold one_line. rewrite kind_type. cbn [fst]. rewrite prefix_type_in. unfold type_is.
    destruct (list_eq_dec string_dec t ["Comment"; "Single"]%string) as [->|Hn].
    - destruct (negb (blank K v)); reflexivity.
    - cbn [andb length firstn]. destruct t as [|a [|b [|c t]]].
      + cbn [Nat.eqb length]. apply andb_false_r.
      + cbn [Nat.eqb length]. apply andb_false_r.
      + destruct (list_eq_dec string_dec [a; b] _) as [X|X]; [contradiction|reflexivity].
      + cbn [Nat.eqb length]. apply andb_false_r.
  Qed.

  Variables (o : splitters) (d : params) (b : option bpe_data) (rc : repr_config) (p : str).
  Hypothesis Hrc : get_repr_config o d b = Ok rc.
  Hypothesis Hp : In p holders.
  Hypothesis Hfit : forall keep l r, Forall (fit E) l -> segs_list_with keep (segs E rc) l = Ok r -> hits rc p r = 0.
  Hypothesis Hstr : in_types rc CStringLiteral = true \/ (bpe rc = false /\ full_strings rc = false).

  Lemma hidden_comments c : c = COneLineComment \/ c = CMultilineComment -> in_types rc c = eqb (param d COM) (lit "0").
  Proof.
    intros Hc. unfold in_types. rewrite (repr_config_types _ _ _ _ Hrc), types_in.
    assert (H : param_in d COM "0" = eqb (param d COM) (lit "0")).
    { unfold param_in. cbn [chars_of]. destruct (eqb_spec (param d COM) (lit "0")) as [X|X].
      - apply mem_in. left. symmetry. exact X.
      - destruct (mem _ _) eqn:M; [|reflexivity]. apply mem_in in M. destruct M as [M|[]]. exfalso. apply X. symmetry. exact M. }
    destruct Hc as [->| ->]; exact H.
  Qed.
  Lemma hidden_strings : in_types rc CStringLiteral = eqb (param d STR) (lit "0").
  Proof.
    unfold in_types. rewrite (repr_config_types _ _ _ _ Hrc), types_in.
    unfold param_in. cbn [chars_of]. destruct (eqb_spec (param d STR) (lit "0")) as [X|X].
    - apply mem_in. left. symmetry. exact X.
    - destruct (mem _ _) eqn:M; [|reflexivity]. apply mem_in in M. destruct M as [M|[]]. exfalso. apply X. symmetry. exact M.
  Qed.

  Lemma expected_app l1 l2 : expected K d p (l1 ++ l2) = expected K d p l1 + expected K d p l2.
  Proof.
    unfold expected, how_many. rewrite !filter_app, !app_length.
    repeat match goal with |- context [if ?t then _ else _] => destruct t end; reflexivity.
  Qed.

  Lemma convert_hits t (v : str) toks ss :
    v <> [] -> (plain_type t = true -> ~ In v holders) -> (type_in t ["Literal"; "Number"]%string = true -> no_lt v /\ ~ In 32%N v) ->
    convert E K t v = Ok toks -> segs_list E rc toks = Ok ss -> hits rc p ss = expected K d p [(t, v)].
  Proof.
    intros Hv Hpl Hnum Hc Hs.
    assert (Hz : kind K ["Comment"%string] (t, v) = false -> kind K ["Literal"; "String"]%string (t, v) = false ->
      one_line K (t, v) = false -> expected K d p [(t, v)] = 0).
    { intros A B C. unfold expected, how_many. cbn [filter]. rewrite A, B, C.
      repeat match goal with |- context [if ?t then _ else _] => destruct t end; reflexivity. }
    rewrite !kind_type, one_line_type in Hz.
    assert (Hfz : Forall (fit E) toks -> hits rc p ss = 0).
    { intros F. eapply Hfit; [exact F|exact Hs]. }
    assert (Hblank : blank K v = true -> expected K d p [(t, v)] = 0).
    { intros B. apply Hz; rewrite B; apply andb_false_r. }
    unfold convert in Hc.
    destruct (eqb_spec v s_nl) as [->|N1].
    { injection Hc as Hc. rewrite Hblank by (cbn; rewrite (proj1 HB); reflexivity). apply Hfz. rewrite <- Hc. repeat constructor. }
    destruct (eqb_spec v s_tab) as [->|N2].
    { injection Hc as Hc. rewrite Hblank by (cbn; rewrite (proj2 HB); reflexivity). apply Hfz. rewrite <- Hc. repeat constructor. }
    destruct (blank K v) eqn:B.
    { injection Hc as <-. rewrite (Hblank eq_refl). apply Hfz. apply Forall_forall. intros x Hx. apply repeat_spec in Hx. subst x. exact I. }
    clear Hblank. cbn [negb] in Hz. rewrite !andb_true_r in Hz. unfold plain_type in Hpl.
    assert (Hty : forall a r, t = a :: r -> a <> "Comment"%string -> (a = "Literal"%string -> forall r', r <> "String"%string :: r') ->
                  expected K d p [(t, v)] = 0).
    { intros a r -> Ha Hl. apply Hz.
      - cbn [type_in]. destruct (String.eqb_spec "Comment" a) as [X|_]; [congruence|reflexivity].
      - cbn [type_in]. destruct (String.eqb_spec "Literal" a) as [X|_]; [|reflexivity]. destruct r as [|x r]; cbn [type_in]; [reflexivity|].
        destruct (String.eqb_spec "String" x) as [Y|_]; [|reflexivity]. destruct (Hl (eq_sym X) r). congruence.
      - unfold type_is. destruct (list_eq_dec _ _ _) as [X|_]; [congruence|reflexivity]. }
    assert (Hsing : forall u, toks = [u] -> fit E u -> hits rc p ss = 0).
    { intros u -> Hu. apply Hfz. constructor; [exact Hu|constructor]. }
    destruct (type_is t ["Operator"%string] || type_in t ["Punctuation"%string]) eqn:T1.
    { cbn [orb] in Hpl. specialize (Hpl eq_refl).
      assert (Hx : expected K d p [(t, v)] = 0).
      { destruct t as [|a t]; [discriminate T1|]. apply (Hty a t eq_refl).
        - intros ->. unfold type_is in T1. destruct (list_eq_dec _ _ _) as [X|_]; [discriminate X|discriminate T1].
        - intros ->. unfold type_is in T1. destruct (list_eq_dec _ _ _) as [X|_]; [discriminate X|discriminate T1]. }
      rewrite Hx. injection Hc as <-. eapply Hsing; [reflexivity|]. unfold operator_token.
      repeat match goal with |- context [if ?t then _ else _] => destruct t end; exact Hpl. }
    destruct (type_in t ["Literal"; "Number"]%string) eqn:T2.
    { destruct (Hnum eq_refl) as [A1 A2]. injection Hc as <-. rewrite Hz.
      - eapply Hsing; [reflexivity|]. unfold number_token. destruct (eqb v _); [exact I|]. destruct (eqb v _); [exact I|].
        split; [apply (pt_nonempty E HT), Hv|]. split; [apply HL, A1|apply (pt_no_space E HT), A2].
      - destruct t as [|a t]; [reflexivity|]. cbn [type_in] in T2 |- *. destruct (String.eqb_spec "Literal" a) as [<-|]; [reflexivity|discriminate].
      - destruct t as [|a [|x t]]; try discriminate T2; cbn [type_in] in T2 |- *. all: destruct (String.eqb_spec "Literal" a) as [<-|]; try reflexivity; try discriminate.
        destruct (String.eqb_spec "Number" x) as [<-|]; [reflexivity|discriminate].
      - unfold type_is. destruct (list_eq_dec _ _ _) as [->|_]; [discriminate T2|reflexivity]. }
    destruct (type_in t ["Name"%string]) eqn:T3.
    { rewrite Hfz by (eapply words_fit, Hc). symmetry. destruct t as [|a t]; [discriminate T3|]. cbn [type_in] in T3.
      destruct (String.eqb_spec "Name" a) as [<-|]; [|discriminate]. apply (Hty "Name"%string t eq_refl); discriminate. }
    destruct (type_is t ["Literal"%string] || type_is t ["Literal"; "Date"]%string) eqn:T4.
    { rewrite Hfz by (eapply words_fit, Hc). symmetry. apply orb_true_iff in T4. unfold type_is in T4.
      destruct T4 as [T4|T4]; (destruct (list_eq_dec _ _ _) as [->|] in T4; [|discriminate]); eapply Hty; try reflexivity; try discriminate. }
    destruct (type_in t ["Keyword"%string]) eqn:T5.
    { rewrite orb_true_r in Hpl. injection Hc as <-. rewrite (Hsing _ eq_refl) by (exact (Hpl eq_refl)). symmetry.
      destruct t as [|a t]; [discriminate T5|]. cbn [type_in] in T5.
      destruct (String.eqb_spec "Keyword" a) as [<-|]; [|discriminate]. apply (Hty "Keyword"%string t eq_refl); discriminate. }
    clear Hpl Hnum Hsing Hty.
    assert (Hone : forall u, toks = [u] -> exists r, segs E rc u = Ok r /\ ss = r).
    { intros u ->. unfold segs_list in Hs. cbn [segs_list_with] in Hs. apply bind_ok in Hs. destruct Hs as (r & Hr & H). cbn [bind] in H.
      injection H as <-. exists r. split; [exact Hr|apply app_nil_r]. }
    assert (Hnn : forall v : nat, (if str_dec (lit "<non-en>") p then v else v) = v) by (intros; destruct (str_dec _ _); reflexivity).
    destruct (type_in t ["Literal"; "String"]%string) eqn:T6.
    { apply bind_ok in Hc. destruct Hc as (l & Hl & [= <-]). destruct (Hone _ eq_refl) as (r & Hr & ->).
      assert (Ex : expected K d p [(t, v)] = if eqb p (lit "<str-literal>") then if eqb (param d STR) (lit "0") then 1 else 0 else 0).
      { unfold expected, how_many. cbn [filter]. rewrite !kind_type, one_line_type, T6, B.
        assert (T7 : type_in t ["Comment"%string] = false).
        { destruct t as [|a t]; [reflexivity|]. cbn [type_in] in T6 |- *. destruct (String.eqb_spec "Literal" a) as [<-|]; [reflexivity|discriminate]. }
        assert (T8 : type_is t ["Comment"; "Single"]%string = false).
        { unfold type_is. destruct (list_eq_dec _ _ _) as [->|_]; [discriminate T6|reflexivity]. }
        rewrite T7, T8. cbn [andb negb length].
        destruct (eqb_spec p (lit "<comment>")) as [->|_]; [destruct (eqb (param d COM) _); reflexivity|].
        destruct (eqb p (lit "<str-literal>")); [reflexivity|]. destruct (eqb p _); [|reflexivity]. destruct (eqb (param d COM) _); reflexivity. }
      rewrite Ex, <- hidden_strings. cbn [segs] in Hr.
      destruct (in_types rc CStringLiteral) eqn:Hh.
      - injection Hr as <-. rewrite hits_one. unfold ph_string_literal.
        destruct (str_dec (lit "<str-literal>") p) as [X|X], (eqb_spec p (lit "<str-literal>")) as [Y|Y]; congruence.
      - assert (Hr0 : hits rc p r = 0).
        { destruct Hstr as [X|[X1 X2]]; [discriminate X|]. rewrite X1, X2 in Hr.
          destruct (max_str_length rc) as [mx|]; [|discriminate]. destruct (mx <? _)%Z.
          - injection Hr as <-. unfold hits, one_seg. cbn [map List.concat s_toks shown]. rewrite X1, app_nil_r. cbn [shown suffix].
            rewrite app_nil_r. apply count_occ_not_In. intros [H|[H|[]]]; subst p; destruct Hp as [Hp'|[Hp'|[Hp'|[Hp'|[Hp'|[]]]]]]; discriminate Hp'.
          - apply bind_ok in Hr. destruct Hr as (rs & Hrs & [= <-]). rewrite hits_retype. eapply Hfit; [eapply string_fit, Hl|exact Hrs]. }
        rewrite Hr0. destruct (eqb p _); reflexivity. }
    destruct (type_is t ["Comment"; "Single"]%string) eqn:T7.
    { apply bind_ok in Hc. destruct Hc as (l & Hl & [= <-]). destruct (Hone _ eq_refl) as (r & Hr & ->).
      assert (Ht : t = ["Comment"; "Single"]%string) by (unfold type_is in T7; destruct (list_eq_dec _ _ _); [assumption|discriminate]).
      assert (Ex : expected K d p [(t, v)] = if eqb (param d COM) (lit "0") then if eqb p (lit "<comment>") then 1 else 0
                                            else if eqb p (lit "<EOL>") then 1 else 0).
      { unfold expected, how_many. cbn [filter]. rewrite !kind_type, one_line_type, T7, B, T6. rewrite Ht.
        cbn [andb negb type_in String.eqb Ascii.eqb Bool.eqb length].
        destruct (eqb_spec p (lit "<comment>")) as [->|_]; [destruct (eqb (param d COM) _); reflexivity|].
        destruct (eqb_spec p (lit "<str-literal>")) as [->|_]; [destruct (eqb (param d COM) _), (eqb (param d STR) _); reflexivity|].
        destruct (eqb p (lit "<EOL>")); destruct (eqb (param d COM) _); reflexivity. }
      rewrite Ex, <- (hidden_comments COneLineComment) by auto. cbn [segs] in Hr.
      destruct (in_types rc COneLineComment).
      - injection Hr as <-. rewrite hits_one. unfold ph_comment.
        destruct (str_dec (lit "<comment>") p) as [X|X], (eqb_spec p (lit "<comment>")) as [Y|Y]; congruence.
      - apply bind_ok in Hr. destruct Hr as (rs & Hrs & [= <-]). rewrite hits_app, hits_retype, hits_one.
        rewrite (Hfit _ _ _ (words_fit _ _ Hl) Hrs). unfold ph_olc_end.
        destruct (str_dec (lit "<EOL>") p) as [X|X], (eqb_spec p (lit "<EOL>")) as [Y|Y]; first [reflexivity|congruence]. }
    destruct (type_in t ["Comment"%string]) eqn:T8; [|rewrite Hz by assumption || reflexivity; apply Hfz; eapply words_fit, Hc].
    apply bind_ok in Hc. destruct Hc as (l & Hl & [= <-]). destruct (Hone _ eq_refl) as (r & Hr & ->).
    assert (Ex : expected K d p [(t, v)] = if eqb (param d COM) (lit "0") then if eqb p (lit "<comment>") then 1 else 0 else 0).
    { unfold expected, how_many. cbn [filter]. rewrite !kind_type, one_line_type, T7, B, T6, T8. cbn [andb negb length].
      destruct (eqb_spec p (lit "<comment>")) as [->|_]; [destruct (eqb (param d COM) _); reflexivity|].
      destruct (eqb_spec p (lit "<str-literal>")) as [->|_]; [destruct (eqb (param d COM) _), (eqb (param d STR) _); reflexivity|].
      destruct (eqb p (lit "<EOL>")); destruct (eqb (param d COM) _); reflexivity. }
    rewrite Ex, <- (hidden_comments CMultilineComment) by auto. cbn [segs] in Hr.
    destruct (in_types rc CMultilineComment).
    - injection Hr as <-. rewrite hits_one. unfold ph_comment.
      destruct (str_dec (lit "<comment>") p) as [X|X], (eqb_spec p (lit "<comment>")) as [Y|Y]; congruence.
    - apply bind_ok in Hr. destruct Hr as (rs & Hrs & [= <-]). rewrite hits_retype. eapply Hfit; [eapply words_fit, Hl|exact Hrs].
  Qed.

  Lemma text_hits lexed l ss : lexer_no_holders lexed -> convert_text E K lexed = Ok l -> segs_list E rc l = Ok ss ->
    hits rc p ss = expected K d p lexed.
  Proof.
    intros HA. revert l ss. induction HA as [|[t v] rest (H1 & H2 & H3) HA IH]; intros l ss; cbn [convert_text].
    - intros [= <-] Hs. injection Hs as <-. unfold expected. cbn.
      repeat match goal with |- context [if ?t then _ else _] => destruct t end; reflexivity.
    - rewrite bind_ok. intros (a & Ha & Hl) Hs. apply bind_ok in Hl. destruct Hl as (r & Hr & [= <-]).
      unfold segs_list in Hs. rewrite segs_list_with_app in Hs. apply bind_ok in Hs. destruct Hs as (sa & Hsa & Hs).
      apply bind_ok in Hs. destruct Hs as (sb & Hsb & [= <-]). rewrite hits_app.
      change ((t, v) :: rest) with ([(t, v)] ++ rest). rewrite expected_app.
      rewrite (convert_hits t v a sa H1 H2 H3 Ha Hsa), (IH r sb Hr Hsb). reflexivity.
  Qed.
End ParsedForge.

Lemma bpe_no_lt bd merges v ws : usable bd merges -> no_lt v -> ~ In 32%N v -> bpe_call (Some bd) v = Ok ws -> Forall no_lt ws.
Proof.
  intros (U1 & U2 & U3) Hv Hs Hw. cbn [bpe_call] in Hw.
  destruct (C16_subwords_concatenate bd merges v U1 U2 U3 Hs) as (ws' & Hw' & Hc & _).
  rewrite Hw in Hw'. injection Hw' as <-. apply Forall_forall. intros x Hx Hin. apply Hv. unfold str in *. rewrite <- Hc.
  apply in_concat. exists x. auto.
Qed.

Lemma number_splitter_plain o d b rc : get_repr_config o d b = Ok rc -> is_bpe d = false ->
  forall v ws, number_splitter rc v = Ok ws -> ws = [v] \/ ws = map (fun c => [c]) v.
Proof.
  intros Hrc Hb v ws Hw. unfold get_repr_config in Hrc. rewrite Hb in Hrc. unfold get_number_splitter in Hrc.
  unfold is_bpe in Hb. rewrite Hb in Hrc.
  destruct (param_in d SPLIT "0F1").
  - cbn [bind] in Hrc. apply bind_ok in Hrc. destruct Hrc as (? & _ & Hrc). apply bind_ok in Hrc.
    destruct Hrc as (? & _ & [= <-]). cbn [number_splitter] in Hw. injection Hw as <-. auto.
  - destruct (param_in d SPLIT "23s"); [|discriminate]. cbn [bind] in Hrc.
    apply bind_ok in Hrc. destruct Hrc as (? & _ & Hrc). apply bind_ok in Hrc.
    destruct Hrc as (? & _ & [= <-]). cbn [number_splitter] in Hw. injection Hw as <-. auto.
Qed.

Lemma word_splitter_plain o d b rc : get_repr_config o d b = Ok rc -> is_bpe d = false ->
  forall v ws, split_word rc v = Ok ws -> ws = [v] \/ ws = ronin_split o v \/ ws = map (stem o) (ronin_split o v).
Proof.
  intros Hrc Hb v ws Hw. unfold get_repr_config in Hrc. rewrite Hb in Hrc. unfold get_word_splitter in Hrc.
  unfold is_bpe in Hb. rewrite Hb in Hrc.
  apply bind_ok in Hrc. destruct Hrc as (? & _ & Hrc).
  apply bind_ok in Hrc. destruct Hrc as (wsp & Hwsp & Hrc). apply bind_ok in Hrc.
  destruct Hrc as (? & _ & [= <-]). unfold split_word in Hw. cbn [word_splitter] in Hw.
  destruct (param_in d SPLIT "12"); [injection Hwsp as <-; injection Hw as <-; auto|].
  destruct (param_in d SPLIT "3"); [injection Hwsp as <-; injection Hw as <-; auto|].
  destruct (param_in d SPLIT "s"); [injection Hwsp as <-; injection Hw as <-; auto|].
  destruct (param_in d SPLIT "0F"); [injection Hwsp as <-; discriminate|discriminate].
Qed.

Theorem C98_placeholders : forall E K o d b lexed l out m p,
  ascii_classes K -> is_blank K 10%N = true /\ is_blank K 9%N = true -> py_text E -> case_no_lt E ->
  lexer_no_holders lexed -> splitters_plain o -> strings_in_pieces d ->
  (is_bpe d = true -> exists bd merges, b = Some bd /\ usable bd merges) ->
  convert_text E K lexed = Ok l -> to_repr E o d b l = Ok (out, m) ->
  In p holders -> (p = lit "<non-en>" -> param d EN_ONLY <> lit "U" \/ is_bpe d = true) ->
  times (p ++ if is_bpe d then lit "</t>" else []) out = expected K d p lexed.
Proof.
  intros E K o d b lexed l out m p HK HB HT HL Hlx [Ho1 Ho2] Hst Hb Hl H Hp Hne.
  destruct (to_repr_segs _ _ _ _ _ _ _ H) as (rc & ss & Hrc & Hss & -> & Hnb & Hbo & _).
  assert (Hbpe : bpe rc = is_bpe d).
  { destruct (is_bpe d) eqn:X; [|apply (repr_config_not_bpe _ _ _ _ Hrc X)].
    destruct (Hb eq_refl) as (bd & merges & -> & _). destruct (repr_config_bpe _ _ _ _ Hrc X) as (_ & _ & E3 & _). exact E3. }
  assert (Hout : out = List.concat (map (fun s => shown (bpe rc) (s_toks s)) ss)).
  { rewrite Hbpe. destruct (is_bpe d); cbn [shown]; [apply (proj2 (Hbo eq_refl))|apply (Hnb eq_refl)]. }
  rewrite times_count, Hout. change (if is_bpe d then lit "</t>" else []) with (suffix (is_bpe d)). rewrite <- Hbpe.
  change (hits rc p ss = expected K d p lexed).
  destruct (repr_config_fields _ _ _ _ Hrc) as [Hfull _].
  assert (Hno : forall v ws, v <> [] -> no_lt v -> ws = [v] \/ ws = ronin_split o v \/ ws = map (stem o) (ronin_split o v) -> Forall no_lt ws).
  { intros v ws Hv Hn Hx. destruct (Ho1 v Hv Hn) as [_ B]. destruct Hx as [->|[->| ->]].
    - constructor; [exact Hn|constructor].
    - exact B.
    - apply Forall_map. eapply Forall_impl; [|exact B]. exact Ho2. }
  eapply (text_hits E K HK HT HL HB o d b rc p Hrc Hp); [| |exact Hlx|exact Hl|exact Hss].
  - intros keep k r Hk Hr. refine (fits_hits E rc p HT HL Hp _ _ _ _ _ keep k Hk r Hr).
    + intros -> Hu. rewrite Hbpe. destruct (Hne eq_refl) as [X|X]; [|exact X]. exfalso. apply X.
      unfold in_types in Hu. rewrite (repr_config_types _ _ _ _ Hrc), types_in in Hu. unfold param_in in Hu. apply mem_in in Hu.
      destruct Hu as [Hu|[]]. symmetry. exact Hu.
    + rewrite Hbpe. intros X. destruct (repr_config_bpe _ _ _ _ Hrc X) as (_ & _ & _ & _ & E5 & _). exact E5.
    + unfold in_types. rewrite (repr_config_types _ _ _ _ Hrc), !types_in. reflexivity.
    + intros v ws Hv Hn Hs Hw. destruct (is_bpe d) eqn:X.
      * destruct (Hb eq_refl) as (bd & merges & -> & Hu). destruct (repr_config_bpe _ _ _ _ Hrc X) as (E1 & _).
        rewrite E1 in Hw. eapply bpe_no_lt; eassumption.
      * destruct (number_splitter_plain _ _ _ _ Hrc X _ _ Hw) as [->| ->]; [constructor; [exact Hn|constructor]|].
        apply Forall_map. apply Forall_forall. intros c Hc [Hx|[]]. subst c. contradiction.
    + intros v ws _ Hv Hn Hs Hw. destruct (is_bpe d) eqn:X.
      * destruct (Hb eq_refl) as (bd & merges & -> & Hu). destruct (repr_config_bpe _ _ _ _ Hrc X) as (_ & E2 & _).
        unfold split_word in Hw. rewrite E2 in Hw. eapply bpe_no_lt; [exact Hu|exact Hn|apply Hs; congruence|exact Hw].
      * apply (Hno v ws Hv Hn). eapply word_splitter_plain; eassumption.
  - rewrite (hidden_strings o d b rc Hrc), Hbpe. destruct Hst as [X|[X1 X2]]; [left; rewrite X; reflexivity|right].
    split; [exact X1|]. rewrite Hfull. unfold param_in. destruct (mem _ _) eqn:M; [|reflexivity].
    apply mem_in in M. destruct M as [M|[]]. exfalso. apply X2. symmetry. exact M.
Qed.
Print Assumptions C98_placeholders.

Lemma ascii_case_no_lt : case_no_lt ascii_case.
Proof.
  assert (Hl : forall c, ascii_to_lower c = 60%N -> c = 60%N).
  { intros c. unfold ascii_to_lower, ascii_upper_ch. destruct (N.leb_spec 65 c), (N.leb_spec c 90); cbn [andb]; lia. }
  assert (Hu : forall c, ascii_to_upper c = 60%N -> c = 60%N).
  { intros c. unfold ascii_to_upper, ascii_lower_ch. destruct (N.leb_spec 97 c), (N.leb_spec c 122); cbn [andb]; lia. }
  intros s Hs. unfold no_lt in *. cbn [lower upper capitalize ascii_case]. repeat split.
  - rewrite in_map_iff. intros (c & Hc & Hin). apply Hl in Hc. congruence.
  - rewrite in_map_iff. intros (c & Hc & Hin). apply Hu in Hc. congruence.
  - destruct s as [|c s]; [intros []|]. intros [H|H].
    + apply Hu in H. apply Hs. left. exact H.
    + apply in_map_iff in H. destruct H as (x & Hx & Hin). apply Hl in Hx. apply Hs. right. congruence.
Qed.
Lemma no_splitters_plain : splitters_plain no_splitters.
Proof. split; intros s; cbn; [intros _ H; split; [discriminate|constructor; [exact H|constructor]]|auto]. Qed.

(** a comment and a string that talk about placeholders, with comments shown and strings in pieces; and both hidden *)
Definition talk : list (token_type * str) :=
  [(["Comment"; "Single"]%string, lit "// <comment> <str-literal>"); (["Literal"; "String"]%string, lit "'<EOL>'");
   (["Name"]%string, lit "comment"); (["Operator"]%string, lit "<"); (["Comment"; "Multiline"]%string, lit "/* <EOF> */")].
Lemma talk_ok : lexer_no_holders talk.
Proof.
  repeat (constructor; [split; [discriminate|split; intros H; vm_compute in H; try discriminate H; intros X; vm_compute in X; intuition discriminate]|]). constructor.
Qed.
Example C98_example :
  exists l1 out1 m1 l2 out2 m2,
  let d1 := combine prep_params (chars_of "uc11su") in
  let d2 := combine prep_params (chars_of "u001su") in
  py_text ascii_case /\ case_no_lt ascii_case /\ splitters_plain no_splitters /\ lexer_no_holders talk /\
  strings_in_pieces d1 /\ convert_text ascii_case ascii_K talk = Ok l1 /\ to_repr ascii_case no_splitters d1 None l1 = Ok (out1, m1) /\
  map (fun p => times p out1) holders = [0; 0; 1; 0; 0] /\
  strings_in_pieces d2 /\ convert_text ascii_case ascii_K talk = Ok l2 /\ to_repr ascii_case no_splitters d2 None l2 = Ok (out2, m2) /\
  map (fun p => times p out2) holders = [2; 1; 0; 0; 0].
Proof.
  do 6 eexists. cbv zeta. split; [exact ascii_case_py_text|]. split; [exact ascii_case_no_lt|]. split; [exact no_splitters_plain|].
  split; [exact talk_ok|]. split; [right; split; [reflexivity|discriminate]|].
  split; [vm_compute; reflexivity|]. split; [vm_compute; reflexivity|]. split; [vm_compute; reflexivity|].
  split; [left; reflexivity|]. split; [vm_compute; reflexivity|]. split; vm_compute; reflexivity.
Qed.

(** A piece of a string (as between the braces of an f-string) that reads [<comment>] looks like a comment if strings are kept whole. *)
Theorem C98_string_refuted : exists E K o d lexed l out m,
  ascii_classes K /\ (is_blank K 10%N = true /\ is_blank K 9%N = true) /\ py_text E /\ case_no_lt E /\
  lexer_no_holders lexed /\ splitters_plain o /\ mk_prep_config d = Ok d /\ is_bpe d = false /\
  convert_text E K lexed = Ok l /\ to_repr E o d None l = Ok (out, m) /\
  how_many (kind K ["Comment"%string]) lexed = 0 /\ In (lit "<comment>") out.
Proof.
  exists ascii_case, ascii_K, no_splitters, (combine prep_params (chars_of "uc1Fsu")), [(["Literal"; "String"; "Double"]%string, lit "<comment>")].
  do 3 eexists. split; [exact ascii_K_classes|]. split; [split; reflexivity|]. split; [exact ascii_case_py_text|]. split; [exact ascii_case_no_lt|].
  split.
  { repeat (constructor; [split; [discriminate|split; intros H; vm_compute in H; try discriminate H; intros X; vm_compute in X; intuition discriminate]|]). constructor. }
  split; [exact no_splitters_plain|]. split; [reflexivity|]. split; [reflexivity|].
  split; [vm_compute; reflexivity|]. split; [vm_compute; reflexivity|]. split; [vm_compute; reflexivity|]. vm_compute. auto.
Qed.
Print Assumptions C98_string_refuted.
