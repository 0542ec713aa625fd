(** * C68: a preprocessed file gives back the tokens *)
From Coq Require Import List NArith ZArith Bool String Lia.
From Verif Require Import M_Base L_Base M_Tokens M_Literal L_Literal M_Repr M_Merge M_BpeEncode M_PrepConfig P_PrepConfig
  L_Repr P_Repr L_Word P_ReprOptions L_Merge P_ReprStrings M_Regex M_Parse L_Regex P_Parse P_ParseRepr M_Registry M_Pipeline
  M_Dataset M_Api P_Api P_Merge S_Bpe L_Bpe L_BpeEncode P_Bpe M_Files P_Files.
Import ListNotations.
Local Open Scope list_scope.

(** characters of Python strings other than the space *)
Definition solid_ch (c : N) : Prop := c <> 32%N /\ (c <= 1114111)%N.
Definition solid (s : str) : Prop := Forall solid_ch s.

(** ** Writing and reading *)
Lemma hex_no_space k n : no_char 32 (hex k n).
Proof.
  revert n; induction k as [|k IH]; intros n; cbn [hex]; [intros []|]. unfold no_char in *. rewrite in_app_iff.
  intros [H|[H|[]]]; [exact (IH _ H)|]. unfold hex_digit in H. revert H. generalize (n mod 16)%N. intros m. destruct (m <? 10)%N; lia.
Qed.

Lemma solid_no_space s : solid s -> no_char 32 (to_literal_str s).
Proof.
  intros Hs Hin. unfold to_literal_str in Hin. apply in_concat in Hin. destruct Hin as (x & Hx & Hin).
  apply in_map_iff in Hx. destruct Hx as (c & <- & Hc). unfold solid in Hs. rewrite Forall_forall in Hs.
  destruct (Hs c Hc) as [H1 _]. revert Hin. change (no_char 32 (esc_char c)). unfold esc_char.
  repeat match goal with |- context [if ?b then _ else _] => destruct b end;
    try (intros Hin; cbn in Hin; intuition congruence);
    (unfold no_char; rewrite in_app_iff; intros [Hin|Hin]; [cbn in Hin; intuition congruence|exact (hex_no_space _ _ Hin)]).
Qed.

Lemma split_join (l : list str) : l <> [] -> Forall (no_char 32) l -> split_on 32 (join (lit " ") l) = l.
Proof.
  intros Hn H. induction H as [|x l Hx Hl IH]; [congruence|]. destruct l as [|y l].
  - apply split_on_no_char, Hx.
  - rewrite join_cons by discriminate. change (lit " " ++ join (lit " ") (y :: l)) with (32%N :: join (lit " ") (y :: l)).
    rewrite split_on_app_sep, (split_on_no_char 32 x Hx). cbn [app]. f_equal. apply IH. discriminate.
Qed.

(** one line; its parts between spaces are the tokens *)
Lemma read_back tokens : tokens <> [] -> Forall solid tokens ->
  exists line, file_lines (preprocessed_content tokens) = [line] /\
    mapM to_non_literal_str (split_on 32 line) = Ok tokens.
Proof.
  intros Hn Hs. exists (to_literal_str (join (lit " ") tokens)). split.
  - unfold preprocessed_content. pose proof (file_lines_write [to_literal_str (join (lit " ") tokens)]) as H.
    unfold write_lines in H. cbn [map List.concat] in H. rewrite app_nil_r in H. apply H;
      (constructor; [|constructor]); apply literal_no_char; unfold printable; lia.
  - rewrite literal_join, split_join.
    + clear Hn. induction Hs as [|t ts Ht Hs IH]; [reflexivity|]. cbn [map mapM]. rewrite non_literal_literal.
      * cbn [bind]. rewrite IH. reflexivity.
      * eapply Forall_impl; [|exact Ht]. intros c Hc. apply Hc.
    + destruct tokens; [congruence|discriminate].
    + apply Forall_map. eapply Forall_impl; [|exact Hs]. apply solid_no_space.
Qed.

(** ** Tokens of solid text have solid representations *)
Lemma solid_lit s : forallb (fun c => negb (N.eqb c 32) && N.leb c 1114111)%N s = true -> solid s.
Proof.
  intros H. apply Forall_forall. intros c Hc. rewrite forallb_forall in H. specialize (H c Hc).
  apply andb_true_iff in H. destruct H as [H1 H2]. apply negb_true_iff, N.eqb_neq in H1. apply N.leb_le in H2. split; assumption.
Qed.

Lemma concat_solid (l : list str) : Forall solid l -> solid (List.concat l).
Proof. induction 1; [constructor|]. cbn [List.concat]. apply Forall_app. split; assumption. Qed.

Definition solid_sub (E : pycase) (s : subtoken) : Prop :=
  match s with Underscore => True | Word w c => solid w /\ solid (with_preserved_case E w c) end.
Definition solid_token (E : pycase) (t : token) : Prop :=
  match t with
  | Number v => solid v
  | NonProc _ s => solid s
  | SplitContainer k | NonEng k => Forall (solid_sub E) k
  | StringLiteral _ _ => solid (tok_str E t)
  | _ => True
  end.

Section Solid.
  Variables (E : pycase) (cfg : repr_config).
  Hypothesis HE : py_ascii E.
  Hypothesis Hbsc : bpe cfg = true -> in_types cfg CSplitContainer = true.
  Hypothesis Hns : forall v ws, solid v -> number_splitter cfg v = Ok ws -> Forall solid ws.
  Hypothesis Hws : forall v ws, solid v -> split_word cfg v = Ok ws -> Forall solid ws.

  Lemma sub_solid s r : solid_sub E s -> torepr_sub E cfg s = Ok r -> Forall solid r.
  Proof.
    intros Hs. destruct s as [|w c]; cbn [torepr_sub].
    - intros [= <-]. constructor; [apply solid_lit; reflexivity|constructor].
    - destruct Hs as [H1 H2]. destruct (in_types cfg CWord).
      + destruct (should_lowercase cfg).
        * rewrite bind_ok. intros (r' & Hr & [= <-]).
          assert (Forall solid r') by (eapply Hws; [exact H1|exact Hr]).
          destruct c; cbn [with_capitalization_prefixes]; try assumption; constructor; try assumption;
            apply solid_lit; reflexivity.
        * intros Hr. eapply Hws; [exact H2|exact Hr].
      + intros [= <-]. constructor; [exact H2|constructor].
  Qed.

  Lemma split_str_solid k : Forall (solid_sub E) k -> solid (split_str E k).
  Proof.
    intros Hk. unfold split_str. apply concat_solid, Forall_map. eapply Forall_impl; [|exact Hk].
    intros [|w c] H; [apply solid_lit; reflexivity|apply H].
  Qed.

  Lemma split_solid k r : Forall (solid_sub E) k -> segs_split E cfg k = Ok r -> Forall (fun s => Forall solid (s_toks s)) r.
  Proof.
    intros Hk. unfold segs_split. destruct (in_types cfg CSplitContainer) eqn:Hsc.
    - destruct (bpe cfg) eqn:Hb.
      + rewrite bind_ok. intros (ws & Hw & [= <-]). constructor; [|constructor]. cbn [s_toks].
        eapply Hws; [apply split_str_solid, Hk|exact Hw].
      + rewrite bind_ok. intros (ws & Hw & [= <-]). constructor; [|constructor]. cbn [s_toks].
        assert (Hf : Forall solid ws).
        { clear -Hws Hw Hk. revert ws Hw.
          induction Hk as [|s k Hs Hk IH]; intros ws; cbn [torepr_subs]; [intros [= <-]; constructor|].
          rewrite bind_ok. intros (r & Hr & H). apply bind_ok in H. destruct H as (rs & Hrs & [= <-]).
          apply Forall_app. split; [|apply IH, Hrs]. eapply sub_solid; [exact Hs|exact Hr]. }
        assert (Hl : solid (lit "<w>") /\ solid (lit "</w>")) by (split; apply solid_lit; reflexivity).
        unfold wrap_in_word_boundaries_if_necessary.
        assert (Hwr : Forall solid ([ph_word_start] ++ ws ++ [ph_word_end])).
        { constructor; [apply Hl|]. apply Forall_app. split; [exact Hf|]. constructor; [apply Hl|constructor]. }
        destruct ws as [|a [|b [|c ws]]]; try exact Hwr; try exact Hf. destruct (_ || _)%bool; assumption.
    - rewrite bind_ok. intros (hs & Hh & [= <-]). constructor; [|constructor]. cbn [s_toks].
      constructor; [|constructor]. apply concat_solid. apply Forall_forall. intros x Hx.
      destruct (P_Repr.mapM_in _ _ _ _ Hh Hx) as (s & Hs & Hf). apply bind_ok in Hf. destruct Hf as (r' & Hr & Hx').
      destruct r' as [|y r']; [discriminate|]. injection Hx' as ->. rewrite Forall_forall in Hk.
      assert (Hf : Forall solid (x :: r')); [|inversion Hf; assumption].
      eapply sub_solid; [apply Hk, Hs|exact Hr].
  Qed.

  Lemma text_solid t s : solid (tok_str E t) -> string_text E cfg t = Ok s -> solid s.
  Proof.
    intros Ht Hs. apply Forall_forall. intros y Hy. unfold solid in Ht. rewrite Forall_forall in Ht.
    destruct (string_text_chars _ _ _ _ _ Hs Hy) as [[_ H0]|[_ [->|[->|[H0 _]]]]]; try (apply Ht, H0); split; lia.
  Qed.

  Lemma segs_solid t r : Forall (solid_token E) (subterms t) -> segs E cfg t = Ok r -> Forall (fun s => Forall solid (s_toks s)) r.
  Proof.
    pose proof split_solid as Hsplit.
    assert (Hone : forall c x np, solid x -> Forall (fun s => Forall solid (s_toks s)) (one_seg c [x] np)).
    { intros c x np Hx. constructor; [|constructor]. constructor; [exact Hx|constructor]. }
    assert (Hlist : forall keep l r,
      Forall (fun t => forall r, Forall (solid_token E) (subterms t) -> segs E cfg t = Ok r ->
                Forall (fun s => Forall solid (s_toks s)) r) l ->
      Forall (solid_token E) (List.concat (map subterms l)) ->
      segs_list_with keep (segs E cfg) l = Ok r -> Forall (fun s => Forall solid (s_toks s)) r).
    { intros keep l r' Hf Hsp Hr. eapply segs_list_with_forall; [|exact Hr].
      apply Forall_forall. intros x Hx s Hs. rewrite Forall_forall in Hf. apply (Hf x Hx); [|exact Hs].
      rewrite Forall_forall in *. intros u Hu. apply Hsp. apply in_concat. exists (subterms x). split; [apply in_map, Hx|exact Hu]. }
    revert r. induction t using token_nested_ind; intros r Hm; cbn [segs]; cbn [subterms] in Hm;
      apply Forall_cons_iff in Hm; destruct Hm as [Ht Hm]; cbn [solid_token] in Ht.
    - destruct (in_types cfg CNewLine); intros [= <-]; [constructor|apply Hone, solid_lit; reflexivity].
    - destruct (in_types cfg CTab); intros [= <-]; [constructor|apply Hone, solid_lit; reflexivity].
    - intros [= <-]. apply Hone. apply concat_solid. apply Forall_forall. intros x Hx. apply repeat_spec in Hx. subst x.
      apply solid_lit; reflexivity.
    - destruct (in_types cfg CNumber); [|intros [= <-]; apply Hone, Ht].
      rewrite bind_ok. intros (ws & Hw & [= <-]). constructor; [|constructor]. cbn [s_toks].
      assert (Hf : Forall solid ws) by (eapply Hns; eassumption).
      destruct (_ && _)%bool; [|exact Hf].
      constructor; [apply solid_lit; reflexivity|]. apply Forall_app. split; [exact Hf|].
      constructor; [apply solid_lit; reflexivity|constructor].
    - intros [= <-]. apply Hone, solid_lit. reflexivity.
    - intros [= <-]. apply Hone, solid_lit. reflexivity.
    - intros [= <-]. apply Hone, Ht.
    - intros Hr. eapply Hsplit; [exact Ht|exact Hr].
    - destruct (in_types cfg CNonEng); [|intros Hr; eapply Hsplit; [exact Ht|exact Hr]].
      destruct (bpe cfg) eqn:Hb; [|intros [= <-]; apply Hone, solid_lit; reflexivity].
      rewrite bind_ok. intros (s & Hr1 & H). apply bind_ok in H. destruct H as (w & Hw & H).
      assert (Hs : Forall solid_ch s).
      { apply Forall_forall. intros c Hc. split.
        - intros ->. refine (replace_non_ascii_no_space _ _ Hr1 _ Hc). intros Hin. apply split_str_solid in Ht.
          unfold solid in Ht. rewrite Forall_forall in Ht. destruct (Ht _ Hin) as [Hx _]. apply Hx. reflexivity.
        - pose proof (replace_non_ascii_plain _ _ Hr1) as Hp. rewrite Forall_forall in Hp. destruct (Hp c Hc) as [Hx| ->]; lia. }
      assert (Hcase : forall c, solid_ch c -> solid_ch (ascii_to_lower c) /\ solid_ch (ascii_to_upper c)).
      { intros c [H1 H2]. destruct (case_not_space c H1) as [H3 H4]. split; split; try assumption;
          unfold ascii_to_lower, ascii_to_upper, ascii_upper_ch, ascii_lower_ch;
          destruct (N.leb_spec 65 c), (N.leb_spec c 90), (N.leb_spec 97 c), (N.leb_spec c 122); cbn [andb]; lia. }
      unfold segs_split in H. rewrite (Hbsc eq_refl), Hb in H. apply bind_ok in H. destruct H as (ws & Hsp & [= <-]).
      constructor; [|constructor]. cbn [s_toks]. eapply Hws; [|exact Hsp]. unfold split_str. cbn [map List.concat].
      rewrite app_nil_r. apply (word_from_chars E solid_ch s w HE Hcase); [eapply replace_non_ascii_plain, Hr1|exact Hs|exact Hw].
    - destruct (in_types cfg COneLineComment); [intros [= <-]; apply Hone, solid_lit; reflexivity|].
      rewrite bind_ok. intros (rs & Hrs & [= <-]).
      apply Forall_app. split; [|apply Hone, solid_lit; reflexivity]. apply Forall_map. cbn [retype s_toks].
      eapply Hlist; [exact H|exact Hm|exact Hrs].
    - destruct (in_types cfg CMultilineComment); [intros [= <-]; apply Hone, solid_lit; reflexivity|].
      rewrite bind_ok. intros (rs & Hrs & [= <-]). apply Forall_map. cbn [retype s_toks].
      eapply Hlist; [exact H|exact Hm|exact Hrs].
    - destruct (in_types cfg CStringLiteral); [intros [= <-]; apply Hone, solid_lit; reflexivity|].
      destruct (max_str_length cfg) as [mx|]; [|discriminate].
      destruct (mx <? n)%Z.
      { intros [= <-]. destruct (full_strings cfg); [apply Hone, solid_lit; reflexivity|].
        constructor; [|constructor]. constructor; [apply solid_lit; reflexivity|].
        constructor; [apply solid_lit; reflexivity|constructor]. }
      destruct (bpe cfg) eqn:Hb.
      { rewrite bind_ok. intros (s & Hs & H'). apply bind_ok in H'. destruct H' as (w & Hw & [= <-]).
        constructor; [|constructor]. cbn [s_toks]. eapply Hws; [|exact Hw]. eapply text_solid; eassumption. }
      destruct (full_strings cfg).
      { rewrite bind_ok. intros (s & Hs & [= <-]). apply Hone. eapply text_solid; eassumption. }
      rewrite bind_ok. intros (rs & Hrs & [= <-]). apply Forall_map. cbn [retype s_toks].
      eapply Hlist; [exact H|exact Hm|exact Hrs].
  Qed.
End Solid.

(** the external splitters work inside words *)
Definition splitters_solid (o : splitters) : Prop :=
  (forall s, solid s -> Forall solid (ronin_split o s)) /\ (forall s, solid s -> solid (stem o s)).

Lemma mark_solid g : Forall solid g -> Forall solid (L_Repr.mark g).
Proof.
  intros Hg. unfold L_Repr.mark. apply Forall_app. split.
  - apply Forall_forall. intros x Hx. rewrite Forall_forall in Hg. apply Hg.
    destruct g as [|y g]; [destruct Hx|].
    rewrite (app_removelast_last [] (l := y :: g)) by discriminate. apply in_or_app. left. exact Hx.
  - constructor; [|constructor]. apply Forall_app. split; [|apply solid_lit; reflexivity].
    destruct g as [|y g]; [constructor|]. rewrite Forall_forall in Hg. apply Hg.
    rewrite (app_removelast_last [] (l := y :: g)) at 2 by discriminate. apply in_or_app. right. left. reflexivity.
Qed.

Lemma bpe_solid bd merges v ws : usable bd merges -> solid v -> bpe_call (Some bd) v = Ok ws -> Forall solid ws.
Proof.
  intros (U1 & U2 & U3) Hv Hw. cbn [bpe_call] in Hw. unfold solid in Hv. rewrite Forall_forall in Hv.
  destruct (C16_subwords_concatenate bd merges v U1 U2 U3) as (ws' & Hw' & Hc & _).
  { intros Hin. destruct (Hv _ Hin) as [Hx _]. apply Hx. reflexivity. }
  rewrite Hw in Hw'. injection Hw' as <-. apply Forall_forall. intros x Hx. apply Forall_forall. intros c Hcx.
  apply Hv. unfold str in *. rewrite <- Hc. apply in_concat. exists x. auto.
Qed.

Lemma to_repr_solid E o d b l out m :
  py_ascii E -> splitters_solid o ->
  (is_bpe d = true -> exists bd merges, b = Some bd /\ usable bd merges) ->
  Forall (solid_token E) (all_tokens l) -> to_repr E o d b l = Ok (out, m) -> Forall solid out.
Proof.
  intros HE [Ho1 Ho2] Hb Hm Hto.
  destruct (to_repr_segs _ _ _ _ _ _ _ Hto) as (rc & ss & Hrc & Hss & -> & Hnb & Hbo & _).
  assert (Hf : Forall (fun s => Forall solid (s_toks s)) ss).
  { eapply segs_list_with_forall; [|exact Hss].
    apply Forall_forall. intros t Ht r Hr.
    assert (Hsub : Forall (solid_token E) (subterms t)).
    { rewrite Forall_forall in *. intros u Hu. apply Hm. apply in_concat. exists (subterms t). split; [apply in_map, Ht|exact Hu]. }
    refine (segs_solid E rc HE _ _ _ t r Hsub Hr).
    - destruct (is_bpe d) eqn:Hbd.
      + intros _. destruct (Hb eq_refl) as (bd & merges & -> & _).
        destruct (repr_config_bpe _ _ _ _ Hrc Hbd) as (E1 & E2 & E3 & E4 & E5 & E6 & E7). exact E5.
      + rewrite (repr_config_not_bpe _ _ _ _ Hrc Hbd). discriminate.
    - intros v ws Hv Hw. destruct (is_bpe d) eqn:Hbd.
      + destruct (Hb eq_refl) as (bd & merges & -> & Hu).
        destruct (repr_config_bpe _ _ _ _ Hrc Hbd) as (E1 & E2 & E3 & E4 & E5 & E6 & E7).
        rewrite E1 in Hw. eapply bpe_solid; eassumption.
      + assert (Hx : ws = [v] \/ ws = map (fun c => [c]) v).
        { clear -Hrc Hbd Hw. unfold get_repr_config in Hrc. rewrite Hbd in Hrc. unfold get_number_splitter in Hrc.
          unfold is_bpe in Hbd. rewrite Hbd in Hrc.
          destruct (param_in d SPLIT "0F1").
          - cbn [bind] in Hrc. apply bind_ok in Hrc. destruct Hrc as (? & _ & Hrc). apply bind_ok in Hrc.
            destruct Hrc as (? & _ & [= <-]). cbn [number_splitter] in Hw. injection Hw as <-. auto.
          - destruct (param_in d SPLIT "23s"); [|discriminate]. cbn [bind] in Hrc.
            apply bind_ok in Hrc. destruct Hrc as (? & _ & Hrc). apply bind_ok in Hrc.
            destruct Hrc as (? & _ & [= <-]). cbn [number_splitter] in Hw. injection Hw as <-. auto. }
        destruct Hx as [->| ->]; [constructor; [exact Hv|constructor]|].
        apply Forall_map. eapply Forall_impl; [|exact Hv]. intros c Hc. constructor; [exact Hc|constructor].
    - intros v ws Hv Hw. destruct (is_bpe d) eqn:Hbd.
      + destruct (Hb eq_refl) as (bd & merges & -> & Hu).
        destruct (repr_config_bpe _ _ _ _ Hrc Hbd) as (E1 & E2 & E3 & E4 & E5 & E6 & E7).
        unfold split_word in Hw. rewrite E2 in Hw. eapply bpe_solid; eassumption.
      + assert (Hx : ws = [v] \/ ws = ronin_split o v \/ ws = map (stem o) (ronin_split o v)).
        { clear -Hrc Hbd Hw. unfold get_repr_config in Hrc. rewrite Hbd in Hrc. unfold get_word_splitter in Hrc.
          unfold is_bpe in Hbd. rewrite Hbd in Hrc.
          apply bind_ok in Hrc. destruct Hrc as (? & _ & Hrc).
          apply bind_ok in Hrc. destruct Hrc as (wsp & Hwsp & Hrc). apply bind_ok in Hrc.
          destruct Hrc as (? & _ & [= <-]). unfold split_word in Hw. cbn [word_splitter] in Hw.
          destruct (param_in d SPLIT "12"); [injection Hwsp as <-; injection Hw as <-; auto|].
          destruct (param_in d SPLIT "3"); [injection Hwsp as <-; injection Hw as <-; auto|].
          destruct (param_in d SPLIT "s"); [injection Hwsp as <-; injection Hw as <-; auto|].
          destruct (param_in d SPLIT "0F"); [injection Hwsp as <-; discriminate|discriminate]. }
        destruct Hx as [->|[->| ->]].
        * constructor; [exact Hv|constructor].
        * apply Ho1, Hv.
        * apply Forall_map. eapply Forall_impl; [|apply Ho1, Hv]. intros x Hx. apply Ho2, Hx. }
  destruct (is_bpe d).
  - destruct (Hbo eq_refl) as [_ ->]. apply Forall_concat, Forall_map. eapply Forall_impl; [|exact Hf]. intros s. apply mark_solid.
  - rewrite (Hnb eq_refl). apply Forall_concat, Forall_map. exact Hf.
Qed.

(** ** Parsed text is solid *)
Definition case_valid (E : pycase) : Prop :=
  forall s, valid_str s -> valid_str (lower E s) /\ valid_str (upper E s) /\ valid_str (capitalize E s).

Lemma solid_iff s : solid s <-> ~ In 32%N s /\ valid_str s.
Proof.
  unfold solid, valid_str, solid_ch. rewrite !Forall_forall. split.
  - intros H. split; [intros Hin; destruct (H _ Hin) as [Hx _]; apply Hx; reflexivity|]. intros c Hc. apply (H c Hc).
  - intros [H1 H2] c Hc. split; [intros ->; contradiction|apply H2, Hc].
Qed.

Section ParsedSolid.
  Variables (E : pycase) (K : charclass).
  Hypothesis HK : ascii_classes K.
  Hypothesis HT : py_text E.
  Hypothesis HV : case_valid E.

  Lemma case_solid s : solid s -> solid (lower E s) /\ solid (upper E s) /\ solid (capitalize E s).
  Proof.
    rewrite !solid_iff. intros [H1 H2]. destruct (pt_no_space E HT s H1) as (A1 & A2 & A3). destruct (HV s H2) as (B1 & B2 & B3).
    repeat split; assumption.
  Qed.

  Lemma word_solid p s : solid p -> word_from E p = Ok s -> solid_sub E s.
  Proof.
    intros Hp H. destruct s as [|w k]; [exact I|]. assert (Hw : solid w).
    { destruct p as [|c rest]; [discriminate|]. unfold word_from, mk_word in H.
      destruct (case_solid _ Hp) as (H1 & _). inversion Hp as [|? ? Hc Hr]; subst.
      destruct (case_solid [c]) as (H2 & _); [constructor; [exact Hc|constructor]|].
      destruct (islower E (c :: rest)); [destruct (canonic_ok E _); [|discriminate]; injection H as <- _; exact Hp|].
      destruct (isupper E (c :: rest)); [destruct (canonic_ok E _); [|discriminate]; injection H as <- _; exact H1|].
      destruct (isupper E [c]); (destruct (canonic_ok E _); [|discriminate]); injection H as <- _; [|exact Hp].
      apply Forall_app. split; assumption. }
    split; [exact Hw|]. destruct (case_solid w Hw) as (_ & H2 & H3). destruct k; cbn; assumption.
  Qed.

  Lemma word_token_solid w t : solid w -> word_token E K w t -> solid_token E t.
  Proof.
    intros Hw [Hn|parts subs _ <- _ _ HF]; [apply case_solid, Hw|].
    assert (Hs : Forall (solid_sub E) subs).
    { clear -HF Hw HT HV. induction HF as [|p s ps ss Hp HF IH]; [constructor|]. cbn [List.concat] in Hw.
      apply Forall_app in Hw. destruct Hw as [H1 H2]. constructor; [|apply IH, H2].
      destruct Hp as [[_ ->]|[_ Hp]]; [exact I|]. apply (word_solid p); assumption. }
    destruct (is_ascii (List.concat parts)); exact Hs.
  Qed.

  Lemma pieces_solid sp s ps tss :
    (forall n, Forall (solid_token E) (sp n)) -> valid_str s -> pieces K s ps ->
    Forall2 (piece_tokens E K sp) ps tss -> Forall (solid_token E) (List.concat tss).
  Proof.
    intros Hsp Hs (-> & Hok & _) HF. revert Hok Hs. induction HF as [|p ts ps tss Hp HF IH]; intros Hok Hs; [constructor|].
    inversion Hok as [|? ? Hq Hqs]; subst. cbn [map List.concat] in Hs. apply Forall_app in Hs. destruct Hs as [Hs1 Hs2].
    cbn [List.concat]. apply Forall_app. split; [|apply IH; assumption].
    destruct p as [w|c|n]; cbn [piece_tokens piece_ok piece_text] in *.
    - destruct Hp as (t & -> & Hw). constructor; [|constructor]. apply (word_token_solid w); [|exact Hw].
      apply solid_iff. split; [apply (word_no_space K HK), Hq|exact Hs1].
    - subst ts. constructor; [|constructor]. unfold char_token. destruct (N.eqb c 10); [exact I|]. destruct (N.eqb c 9); [exact I|].
      cbn. apply solid_iff. split; [intros [H|[]]; apply (proj2 Hq), H|exact Hs1].
    - subst ts. apply Hsp.
  Qed.

  Lemma words_solid s toks : valid_str s -> split_into_words E K s = Ok toks -> Forall (solid_token E) toks.
  Proof.
    intros Hs H. destruct (C13_words E K s toks HK H) as (ps & tss & Hp & HF & ->).
    eapply pieces_solid; [|exact Hs|exact Hp|exact HF].
    intros n. apply Forall_forall. intros t Ht. apply repeat_spec in Ht. subst t. exact I.
  Qed.
  Lemma string_solid s toks : valid_str s -> split_string E K s = Ok toks -> Forall (solid_token E) toks.
  Proof.
    intros Hs H. destruct (C13_string E K s toks HK H) as (ps & tss & Hp & HF & ->).
    eapply pieces_solid; [|exact Hs|exact Hp|exact HF]. intros n. constructor; [exact I|constructor].
  Qed.

  Lemma simple_str_solid t : simple_token E t -> solid_token E t -> solid (tok_str E t).
  Proof.
    destruct t; cbn [simple_token solid_token]; unfold tok_str; cbn [nonprep_none join]; try tauto;
      try (intros _ _; apply solid_lit; reflexivity).
    - intros _ _. apply concat_solid. apply Forall_forall. intros x Hx. apply repeat_spec in Hx. subst x. apply solid_lit; reflexivity.
    - intros _ Hk. apply split_str_solid, Hk.
    - intros _ Hk. apply split_str_solid, Hk.
  Qed.

  Definition all_solid (t : token) : Prop := Forall (solid_token E) (subterms t).

  Lemma simple_all_solid l : Forall (simple_token E) l -> Forall (solid_token E) l -> Forall (solid_token E) (List.concat (map subterms l)).
  Proof.
    intros H1 H2. apply Forall_concat, Forall_map. rewrite Forall_forall in *. intros t Ht.
    rewrite (simple_subterms E t (H1 t Ht)). constructor; [apply H2, Ht|constructor].
  Qed.

  Lemma convert_solid t (v : str) toks :
    valid_str v -> (plain_type t = true -> ~ In 32%N v) -> convert E K t v = Ok toks -> Forall all_solid toks.
  Proof.
    intros Hs Hp. unfold convert.
    assert (Hw : forall toks, split_into_words E K v = Ok toks -> Forall all_solid toks).
    { intros ts H. pose proof (words_simple E K HK HT v ts H) as H1. pose proof (words_solid v ts Hs H) as H2.
      rewrite Forall_forall in *. intros x Hx. unfold all_solid. rewrite (simple_subterms E x (H1 x Hx)).
      constructor; [apply H2, Hx|constructor]. }
    destruct (eqb v s_nl); [intros [= <-]; repeat constructor|]. destruct (eqb v s_tab); [intros [= <-]; repeat constructor|].
    destruct (blank K v).
    { intros [= <-]. apply Forall_forall. intros x Hx. apply repeat_spec in Hx. subst x. constructor; [exact I|constructor]. }
    unfold plain_type in Hp.
    destruct (type_is t ["Operator"%string] || type_in t ["Punctuation"%string]).
    { specialize (Hp eq_refl). assert (Hv : solid v) by (apply solid_iff; split; assumption).
      intros [= <-]. constructor; [|constructor]. unfold operator_token.
      destruct (eqb v _); [constructor; [exact Hv|constructor]|]. destruct (eqb v _); [constructor; [exact Hv|constructor]|].
      destruct (eqb v _); [constructor; [exact Hv|constructor]|]. destruct (eqb v _); [constructor; [exact Hv|constructor]|].
      destruct (eqb v _); (constructor; [exact Hv|constructor]). }
    destruct (type_in t ["Literal"; "Number"]%string) eqn:Hn.
    { specialize (Hp eq_refl). assert (Hv : solid v) by (apply solid_iff; split; assumption).
      intros [= <-]. constructor; [|constructor]. unfold number_token.
      destruct (eqb v _); [constructor; [exact I|constructor]|]. destruct (eqb v _); [constructor; [exact I|constructor]|].
      constructor; [apply case_solid, Hv|constructor]. }
    destruct (type_in t ["Name"%string]); [apply Hw|]. destruct (type_is t _ || type_is t _); [apply Hw|].
    destruct (type_in t ["Keyword"%string]).
    { specialize (Hp eq_refl). intros [= <-]. constructor; [|constructor]. constructor; [|constructor].
      apply solid_iff. split; assumption. }
    destruct (type_in t ["Literal"; "String"]%string).
    { rewrite bind_ok. intros (l & Hl & [= <-]). pose proof (string_simple E K HK HT v l Hl) as H1.
      pose proof (string_solid v l Hs Hl) as H2. constructor; [|constructor]. constructor; [|apply simple_all_solid; assumption].
      unfold solid_token, tok_str. cbn [nonprep_none join]. apply concat_solid, Forall_map. rewrite Forall_forall in *.
      intros x Hx. apply simple_str_solid; [apply H1, Hx|apply H2, Hx]. }
    destruct (type_is t ["Comment"; "Single"]%string).
    { rewrite bind_ok. intros (l & Hl & [= <-]). constructor; [|constructor]. constructor; [exact I|].
      apply simple_all_solid; [eapply (words_simple E K HK HT), Hl|eapply words_solid; eassumption]. }
    destruct (type_in t ["Comment"%string]); [|apply Hw].
    rewrite bind_ok. intros (l & Hl & [= <-]). constructor; [|constructor]. constructor; [exact I|].
    apply simple_all_solid; [eapply (words_simple E K HK HT), Hl|eapply words_solid; eassumption].
  Qed.

  (** no spaces inside operators, punctuation, numbers and keywords *)
  Definition lexer_solid (lexed : list (token_type * str)) : Prop :=
    Forall (fun tv => valid_str (snd tv) /\ (plain_type (fst tv) = true -> ~ In 32%N (snd tv))) lexed.

  Lemma text_solid_tokens lexed l : lexer_solid lexed -> convert_text E K lexed = Ok l -> Forall (solid_token E) (all_tokens l).
  Proof.
    intros HA Hl. apply Forall_concat, Forall_map. revert l Hl.
    induction HA as [|[t v] rest [H1 H2] HA IH]; intros l; cbn [convert_text].
    - intros [= <-]. constructor.
    - rewrite bind_ok. intros (a & Ha & Hl). apply bind_ok in Hl. destruct Hl as (r & Hr & [= <-]).
      apply Forall_app. split; [|apply IH, Hr]. eapply convert_solid; eassumption.
  Qed.
End ParsedSolid.

(** ** C68 *)
Lemma file_solid : forall E K o lex dk g config id path bytes out m,
  mk_prep_config config = Ok config -> py_ascii E -> py_text E -> ascii_classes K -> case_valid E -> splitters_solid o ->
  (forall text name, lexer_solid (lex text name)) -> (is_bpe config = true -> codes_loaded dk config id) ->
  preprocess_file (parse_text E K lex) (plain_repr E o) dk g config id path bytes = Ok (out, m) ->
  out <> [] /\ Forall solid out.
Proof.
  intros E K o lex dk g config id path bytes out m Hc HE HT HK HV Ho HL Hb H.
  assert (Hout : exists b l, to_repr E o config b (l ++ [NonProc NpSpecialToken ph_ect]) = Ok (out, m) /\
            Forall (solid_token E) (all_tokens l) /\
            (is_bpe config = true -> exists bd merges, b = Some bd /\ usable bd merges)).
  { unfold preprocess_file, parse_file in H. apply bind_ok in H. destruct H as (l & Hl & H).
    apply bind_ok in Hl. destruct Hl as (e & _ & Hl). unfold parse_text in Hl.
    assert (Hs : Forall (solid_token E) (all_tokens l)).
    { eapply text_solid_tokens; [exact HK|exact HT|exact HV| |exact Hl]. apply HL. }
    destruct (is_bpe config) eqn:Hbp.
    - destruct (Hb eq_refl) as (x & i & custom & c & ml & merges & -> & Hcu & Hi & B1 & B2 & B3).
      rewrite Hcu in H. cbn [bind] in H.
      replace (init_bpe_data dk g config custom true) with (init_bpe_data dk None config custom true) in H by (destruct g; reflexivity).
      rewrite Hi in H. exists (Some {| bd_merges := ml; bd_cache := c |}), l. split; [exact H|]. split; [exact Hs|].
      intros _. do 2 eexists. split; [reflexivity|]. split; [exact B1|]. split; [exact B2|]. intros w parts Hw.
      cbn [bd_cache] in Hw. rewrite B3 in Hw. discriminate.
    - rewrite (plain_repr_no_bpe E o config _ g None Hbp) in H. exists None, l. split; [exact H|]. split; [exact Hs|]. discriminate. }
  destruct Hout as (b & l & Hr & Hl & Hbd). split.
  - destruct (C04_splits _ _ _ _ _ _ _ Hr) as ([body mb] & r & Hbo & _).
    pose proof (C04_compositional _ _ _ _ _ _ _ _ _ _ Hbo (special_repr E o config b ph_ect Hc)) as Hx.
    rewrite Hr in Hx. injection Hx as -> _. intros Hn. apply app_eq_nil in Hn. destruct Hn as [_ Hn]. discriminate.
  - eapply to_repr_solid; [exact HE|exact Ho|exact Hbd| |exact Hr].
    unfold all_tokens. rewrite map_app, concat_app. apply Forall_app. split; [exact Hl|].
    constructor; [|constructor]. apply solid_lit. reflexivity.
Qed.
Theorem C68_read_back : forall E K o lex dk g config id path bytes out m,
  mk_prep_config config = Ok config -> py_ascii E -> py_text E -> ascii_classes K -> case_valid E -> splitters_solid o ->
  (forall text name, lexer_solid (lex text name)) -> (is_bpe config = true -> codes_loaded dk config id) ->
  preprocess_file (parse_text E K lex) (plain_repr E o) dk g config id path bytes = Ok (out, m) ->
  exists line, file_lines (preprocessed_content out) = [line] /\ mapM to_non_literal_str (split_on 32 line) = Ok out.
Proof.
  intros E K o lex dk g config id path bytes out m Hc HE HT HK HV Ho HL Hb H.
  destruct (file_solid E K o lex dk g config id path bytes out m Hc HE HT HK HV Ho HL Hb H). apply read_back; assumption.
Qed.
Print Assumptions C68_read_back.

(** The premise on keywords is not met by the lexer of Java, for which "import static" is one keyword: the line has
    one token more than the file. *)
Definition java_like : str -> str -> list (token_type * str) := fun text _ =>
  if eqb text (lit "import static") then [(["Keyword"; "Namespace"]%string, text)] else [].

Theorem C68_import_static_refuted : exists out m line back,
  preprocess_file (parse_text ascii_case ascii_K java_like) (plain_repr ascii_case no_splitters) disk_ex None
    (combine prep_params (chars_of "Uc11su")) None (lit "A.java") (lit "import static") = Ok (out, m) /\
  file_lines (preprocessed_content out) = [line] /\
  mapM to_non_literal_str (split_on 32 line) = Ok back /\
  out = [lit "import static"; lit "<EOF>"] /\ back = [lit "import"; lit "static"; lit "<EOF>"].
Proof. do 4 eexists. repeat split; vm_compute; reflexivity. Qed.
Print Assumptions C68_import_static_refuted.

(** tokens with a newline, a backslash and a character outside ascii *)
Definition lexer_ex : str -> str -> list (token_type * str) := fun text _ =>
  [(["Keyword"%string], lit "int"); (["Text"%string], lit " "); (["Name"%string], lit "x" ++ [233%N]);
   (["Operator"%string], lit "="); (["Literal"; "String"]%string, lit """a" ++ [92%N] ++ lit " b"""); (["Text"%string], [10%N])].
Example C68_example :
  (forall text name, lexer_solid (lexer_ex text name)) /\ splitters_solid no_splitters /\ case_valid ascii_case /\
  match preprocess_file (parse_text ascii_case ascii_K lexer_ex) (plain_repr ascii_case no_splitters) disk_ex None
    (combine prep_params (chars_of "uc11su")) None (lit "A.java") (lit "any") with
  | Ok (out, _) =>
      out = [lit "int"; lit "x"; [233%N]; lit "="; [34%N]; lit "a"; [92%N]; lit "b"; [34%N]; [10%N]; lit "<EOF>"] /\
      file_lines (preprocessed_content out)
      = [lit "int x " ++ [92%N] ++ lit "xe9 = " ++ [34%N] ++ lit " a " ++ [92%N; 92%N] ++ lit " b " ++ [34%N; 32%N; 92%N] ++ lit "n <EOF>"]
  | Err _ => False
  end.
Proof.
  split; [|split; [|split; [|vm_compute; auto]]].
  - intros text name. unfold lexer_ex, lexer_solid.
    repeat (constructor; [split; [unfold valid_str; cbn; repeat (constructor; [vm_compute; discriminate|]); constructor
                                 |cbn; intros H; try discriminate H; intuition discriminate]|]). constructor.
  - split; intros s Hs; [constructor; [exact Hs|constructor]|exact Hs].
  - assert (Hl : forall c, (c <= 1114111)%N -> (ascii_to_lower c <= 1114111)%N).
    { intros c Hc. unfold ascii_to_lower. destruct (ascii_upper_ch c) eqn:Hu; [|exact Hc].
      unfold ascii_upper_ch in Hu. apply andb_true_iff in Hu. destruct Hu as [_ Hu]. apply N.leb_le in Hu. lia. }
    assert (Hu : forall c, (c <= 1114111)%N -> (ascii_to_upper c <= 1114111)%N).
    { intros c Hc. unfold ascii_to_upper. destruct (ascii_lower_ch c); [|exact Hc]. lia. }
    intros s Hs. split; [|split]; cbn [lower upper capitalize ascii_case]; unfold valid_str in *.
    + apply Forall_map. eapply Forall_impl; [exact Hl|exact Hs].
    + apply Forall_map. eapply Forall_impl; [exact Hu|exact Hs].
    + destruct Hs as [|c t Hc Ht]; [constructor|]. constructor; [apply Hu, Hc|].
      apply Forall_map. eapply Forall_impl; [exact Hl|exact Ht].
Qed.
