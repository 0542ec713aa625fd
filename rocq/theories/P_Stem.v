(** * C88: stemming *)
From Coq Require Import List NArith ZArith Bool String Lia.
From Verif Require Import M_Base L_Base M_Tokens M_Literal L_Literal M_Repr M_Merge M_BpeEncode M_PrepConfig P_PrepConfig
  L_Repr P_Repr L_Word P_ReprOptions L_Merge P_ReprStrings M_Regex M_Parse L_Regex P_Parse P_ParseRepr P_Split M_Stem.
Import ListNotations.
Local Open Scope list_scope.

(** two configurations that differ in the splitting only: ronin and stemming *)
Definition ronin_and_stem (d3 ds : params) : Prop :=
  param d3 SPLIT = lit "3" /\ param ds SPLIT = lit "s" /\ forall p, p <> SPLIT -> param ds p = param d3 p.

(** the parts of words replaced by their stems *)
Definition stemming (o : splitters) : splitters :=
  {| ronin_split := fun s => map (stem o) (ronin_split o s); stem := stem o |}.

Lemma stem_config o d3 ds b : ronin_and_stem d3 ds ->
  is_bpe d3 = false /\ is_bpe ds = false /\ get_repr_config o ds b = get_repr_config (stemming o) d3 b.
Proof.
  intros (H3 & Hs & H). assert (P : forall p k, p <> SPLIT -> param_in ds p k = param_in d3 p k).
  { intros p k Hp. unfold param_in. rewrite (H p Hp). reflexivity. }
  assert (I3 : is_bpe d3 = false) by (unfold is_bpe, param_in; rewrite H3; reflexivity).
  assert (Is : is_bpe ds = false) by (unfold is_bpe, param_in; rewrite Hs; reflexivity).
  split; [exact I3|]. split; [exact Is|]. unfold get_repr_config. rewrite I3, Is.
  assert (G : get_types_to_be_repr ds = get_types_to_be_repr d3).
  { unfold get_types_to_be_repr. rewrite !(P COM), !(P STR), !(P EN_ONLY), !(P TABS_NEWLINES) by discriminate.
    unfold param_in. rewrite H3, Hs. reflexivity. }
  rewrite G, (P CASE), (H STR) by discriminate. unfold get_number_splitter, get_word_splitter, param_in. rewrite H3, Hs.
  reflexivity.
Qed.

(** C88: The output with stem=True is the output with ronin=True with the parts of the words replaced by their stems: the output
    for a splitter whose parts are the stems. *)
Theorem C88_ronin : forall E o d3 ds b l, ronin_and_stem d3 ds -> to_repr E o ds b l = to_repr E (stemming o) d3 b l.
Proof.
  intros E o d3 ds b l H. destruct (stem_config o d3 ds b H) as (H3 & Hs & Hc). unfold to_repr. rewrite H3, Hs, Hc. reflexivity.
Qed.
Print Assumptions C88_ronin.

(** ** Nothing else changes *)
Section Positions.
  Variables (E : pycase) (o : splitters) (c3 cs : repr_config).
  Hypothesis Ho : splitters_plain o.
  Hypothesis Ht : types_to_be_repr cs = types_to_be_repr c3.
  Hypothesis Hb3 : bpe c3 = false.
  Hypothesis Hbs : bpe cs = false.
  Hypothesis Hlow : should_lowercase cs = should_lowercase c3.
  Hypothesis Hnum : number_splitter cs = number_splitter c3.
  Hypothesis Hfull : full_strings cs = full_strings c3.
  Hypothesis Hmax : max_str_length cs = max_str_length c3.
  Hypothesis Hw3 : word_splitter c3 = Some (fun s => Ok (ronin_split o s)).
  Hypothesis Hws : word_splitter cs = Some (fun s => Ok (map (stem o) (ronin_split o s))).
  Hypothesis Hsc : in_types c3 CSplitContainer = true.

  Definition stemmed (a b : str) : Prop := b = a \/ b = stem o a.
  (** a part of a word has no [<] *)
  Definition stemmed_part (a b : str) : Prop := b = a \/ b = stem o a /\ no_lt a.
  Definition like (x y : seg) : Prop := s_cls y = s_cls x /\ s_np y = s_np x /\ Forall2 stemmed (s_toks x) (s_toks y).

  Lemma in_types_same c : in_types cs c = in_types c3 c.
  Proof. unfold in_types. rewrite Ht. reflexivity. Qed.

  Lemma same_parts r : Forall2 stemmed_part r r.
  Proof. induction r; constructor; [left; reflexivity|assumption]. Qed.
  Lemma same_toks r : Forall2 stemmed r r.
  Proof. induction r; constructor; [left; reflexivity|assumption]. Qed.
  Lemma like_refl r : Forall2 like r r.
  Proof. induction r as [|s r IH]; constructor; [|exact IH]. split; [reflexivity|]. split; [reflexivity|]. apply same_toks. Qed.
  Lemma parts_toks a b : Forall2 stemmed_part a b -> Forall2 stemmed a b.
  Proof. induction 1 as [|x y a b [H|[H _]] _ IH]; constructor; try assumption; [left|right]; exact H. Qed.

  Lemma stems_parts w : w <> [] -> no_lt w -> Forall2 stemmed_part (ronin_split o w) (map (stem o) (ronin_split o w)).
  Proof.
    intros Hw Hn. destruct (proj1 Ho w Hw Hn) as [_ Hf]. induction Hf as [|x l Hx Hf IH]; constructor; [right; auto|exact IH].
  Qed.

  Lemma sub_like s r : plain_sub E s -> torepr_sub E c3 s = Ok r ->
    exists r', torepr_sub E cs s = Ok r' /\ Forall2 stemmed_part r r'.
  Proof.
    destruct s as [|w c]; cbn [torepr_sub plain_sub].
    - intros _ [= <-]. eexists. split; [reflexivity|apply same_parts].
    - intros (H1 & H2 & H3 & H4). rewrite in_types_same, Hlow. unfold split_word. rewrite Hw3, Hws.
      destruct (in_types c3 CWord); [|intros [= <-]; eexists; split; [reflexivity|apply same_parts]].
      destruct (should_lowercase c3); cbn [bind]; intros [= <-]; eexists; (split; [reflexivity|]); [|apply stems_parts; assumption].
      pose proof (stems_parts w H1 H2) as Hp. destruct c; cbn [with_capitalization_prefixes app];
        try (constructor; [left; reflexivity|]); exact Hp.
  Qed.
  Lemma subs_like k r : Forall (plain_sub E) k -> torepr_subs E c3 k = Ok r ->
    exists r', torepr_subs E cs k = Ok r' /\ Forall2 stemmed_part r r'.
  Proof.
    intros Hk. revert r. induction Hk as [|s k Hs Hk IH]; intros r; cbn [torepr_subs].
    - intros [= <-]. eexists. split; [reflexivity|constructor].
    - rewrite bind_ok. intros (a & Ha & H). apply bind_ok in H. destruct H as (rs & Hrs & [= <-]).
      destruct (sub_like s a Hs Ha) as (a' & Ea & Ra). destruct (IH rs Hrs) as (rs' & Ers & Rrs).
      rewrite Ea, Ers. eexists. split; [reflexivity|apply Forall2_app; assumption].
  Qed.
  Lemma not_case a : no_lt a -> eqb a ph_capitals || eqb a ph_capital = false.
  Proof.
    intros Hn. destruct (eqb_spec a ph_capitals) as [->|_]; [exfalso; apply Hn; left; reflexivity|].
    destruct (eqb_spec a ph_capital) as [->|_]; [exfalso; apply Hn; left; reflexivity|reflexivity].
  Qed.
  Lemma wrap_like r r' : Forall2 stemmed_part r r' ->
    Forall2 stemmed (wrap_in_word_boundaries_if_necessary r) (wrap_in_word_boundaries_if_necessary r').
  Proof.
    intros H. assert (W : Forall2 stemmed ([ph_word_start] ++ r ++ [ph_word_end]) ([ph_word_start] ++ r' ++ [ph_word_end])).
    { apply Forall2_app; [apply same_toks|]. apply Forall2_app; [apply parts_toks, H|apply same_toks]. }
    destruct H as [|a a' r r' Ha H]; [exact W|]. destruct H as [|b b' r r' Hb H].
    - constructor; [|constructor]. destruct Ha as [Ha|[Ha _]]; [left|right]; exact Ha.
    - destruct H as [|x x' r r' Hx H]; [|exact W]. cbn [wrap_in_word_boundaries_if_necessary].
      assert (Ee : eqb a' ph_capitals || eqb a' ph_capital = eqb a ph_capitals || eqb a ph_capital).
      { destruct Ha as [->|[-> Hn]]; [reflexivity|]. rewrite (not_case a Hn), (not_case _ (proj2 Ho a Hn)). reflexivity. }
      rewrite Ee. destruct (eqb a ph_capitals || eqb a ph_capital); [|exact W].
      apply parts_toks. repeat (constructor; [assumption|]). constructor.
  Qed.
  Lemma split_like k r : Forall (plain_sub E) k -> segs_split E c3 k = Ok r ->
    exists r', segs_split E cs k = Ok r' /\ Forall2 like r r'.
  Proof.
    intros Hk. unfold segs_split. rewrite in_types_same, Hsc, Hb3, Hbs, bind_ok. intros (ws & Hw & [= <-]).
    destruct (subs_like k ws Hk Hw) as (ws' & -> & R). eexists. split; [reflexivity|]. constructor; [|constructor].
    split; [reflexivity|]. split; [reflexivity|]. apply wrap_like, R.
  Qed.
  Lemma retype_like c r r' : Forall2 like r r' -> Forall2 like (map (retype c) r) (map (retype c) r').
  Proof. induction 1 as [|x y r r' (H1 & H2 & H3) _ IH]; constructor; [|exact IH]. split; [reflexivity|]. split; assumption. Qed.

  Lemma segs_like t r : Forall (plain_token E) (subterms t) -> segs E c3 t = Ok r ->
    exists r', segs E cs t = Ok r' /\ Forall2 like r r'.
  Proof.
    assert (Same : forall r, exists r' : list seg, Ok r = Ok r' /\ Forall2 like r r') by (intros r0; exists r0; split; [reflexivity|apply like_refl]).
    assert (Hlist : forall keep l r,
      Forall (fun t => forall r, Forall (plain_token E) (subterms t) -> segs E c3 t = Ok r ->
                exists r', segs E cs t = Ok r' /\ Forall2 like r r') l ->
      Forall (plain_token E) (List.concat (map subterms l)) ->
      segs_list_with keep (segs E c3) l = Ok r -> exists r', segs_list_with keep (segs E cs) l = Ok r' /\ Forall2 like r r').
    { intros keep l. induction l as [|x l IH]; intros r0 Hf Hp; cbn [segs_list_with].
      - intros [= <-]. apply Same.
      - cbn [map List.concat] in Hp. apply Forall_app in Hp. destruct Hp as [Hx Hp]. inversion Hf as [|? ? Fx Fl]; subst.
        destruct (keep x); [|intros H; apply (IH r0 Fl Hp H)].
        rewrite bind_ok. intros (a & Ha & H). apply bind_ok in H. destruct H as (rs & Hrs & [= <-]).
        destruct (Fx a Hx Ha) as (a' & -> & Ra). destruct (IH rs Fl Hp Hrs) as (rs' & Ers & Rrs). cbn [bind].
        fold (segs_list_with keep (segs E cs)). rewrite Ers. eexists. split; [reflexivity|apply Forall2_app; assumption]. }
    revert r. induction t using token_nested_ind; intros r Hm; cbn [segs]; cbn [subterms] in Hm;
      apply Forall_cons_iff in Hm; destruct Hm as [Hp Hm]; cbn [plain_token] in Hp; rewrite ?in_types_same.
    - destruct (in_types c3 CNewLine); intros [= <-]; apply Same.
    - destruct (in_types c3 CTab); intros [= <-]; apply Same.
    - intros [= <-]. apply Same.
    - rewrite Hnum, Hbs, Hb3. intros ->. apply Same.
    - intros [= <-]. apply Same.
    - intros [= <-]. apply Same.
    - intros [= <-]. apply Same.
    - apply split_like, Hp.
    - rewrite Hb3, Hbs. destruct (in_types c3 CNonEng); [intros [= <-]; apply Same|apply split_like, Hp].
    - destruct (in_types c3 COneLineComment); [intros [= <-]; apply Same|].
      rewrite bind_ok. intros (rs & Hrs & [= <-]). destruct (Hlist _ _ _ H Hm Hrs) as (rs' & -> & R).
      eexists. split; [reflexivity|]. apply Forall2_app; [apply retype_like, R|apply like_refl].
    - destruct (in_types c3 CMultilineComment); [intros [= <-]; apply Same|].
      rewrite bind_ok. intros (rs & Hrs & [= <-]). destruct (Hlist _ _ _ H Hm Hrs) as (rs' & -> & R).
      eexists. split; [reflexivity|]. apply retype_like, R.
    - destruct (in_types c3 CStringLiteral); [intros [= <-]; apply Same|]. rewrite Hmax, Hbs, Hb3, Hfull.
      destruct (max_str_length c3) as [mx|]; [|discriminate]. destruct (mx <? n)%Z; [intros [= <-]; apply Same|].
      destruct (full_strings c3).
      + unfold string_text. rewrite in_types_same. intros ->. apply Same.
      + rewrite bind_ok. intros (rs & Hrs & [= <-]). destruct (Hlist _ _ _ H Hm Hrs) as (rs' & -> & R).
        eexists. split; [reflexivity|]. apply retype_like, R.
  Qed.
  Lemma segs_list_like l r : Forall (plain_token E) (all_tokens l) -> segs_list E c3 l = Ok r ->
    exists r', segs_list E cs l = Ok r' /\ Forall2 like r r'.
  Proof.
    intros Hp. unfold segs_list. revert r. unfold all_tokens in Hp.
    induction l as [|x l IH]; intros r; cbn [segs_list_with].
    - intros [= <-]. eexists. split; [reflexivity|constructor].
    - cbn [map List.concat] in Hp. apply Forall_app in Hp. destruct Hp as [Hx Hp].
      rewrite bind_ok. intros (a & Ha & H). apply bind_ok in H. destruct H as (rs & Hrs & [= <-]).
      destruct (segs_like x a Hx Ha) as (a' & -> & Ra). destruct (IH Hp rs Hrs) as (rs' & Ers & Rrs). cbn [bind].
      fold (segs_list_with (fun _ => true) (segs E cs)). rewrite Ers. eexists. split; [reflexivity|apply Forall2_app; assumption].
  Qed.
  Lemma like_flat r r' : Forall2 like r r' -> snd (flat r') = snd (flat r) /\ Forall2 stemmed (List.concat (map s_toks r)) (List.concat (map s_toks r')).
  Proof.
    intros H. unfold flat. cbn [snd]. split.
    - assert (B : forall k, bounds k (map s_toks r') = bounds k (map s_toks r)).
      { induction H as [|x y r r' (_ & _ & Hx) _ IH]; intros k; [reflexivity|]. cbn [map bounds].
        assert (L : length (s_toks y) = length (s_toks x)) by (clear - Hx; induction Hx; cbn; congruence).
        rewrite L, IH. reflexivity. }
      f_equal; [| apply B |]; clear B; induction H as [|x y r r' (H1 & H2 & Hx) _ IH]; cbn [map List.concat]; congruence.
    - induction H as [|x y r r' (_ & _ & Hx) _ IH]; cbn [map List.concat]; [constructor|apply Forall2_app; assumption].
  Qed.
End Positions.

(** C88: With stem=True there are the same tokens at the same places, with the same word boundaries and types, as with
    ronin=True; each is the same or the stem. *)
Theorem C88_places : forall E o d3 ds b l out m, ronin_and_stem d3 ds -> splitters_plain o ->
  Forall (plain_token E) (all_tokens l) -> to_repr E o d3 b l = Ok (out, m) ->
  exists out', to_repr E o ds b l = Ok (out', m) /\ Forall2 (fun x y => y = x \/ y = stem o x) out out'.
Proof.
  intros E o d3 ds b l out m H Ho Hp Hr. destruct (stem_config o d3 ds b H) as (I3 & Is & Hc).
  destruct (to_repr_segs _ _ _ _ _ _ _ Hr) as (c3 & ss & H3 & Hss & -> & Hout & _ & _). rewrite (Hout I3).
  unfold to_repr, to_repr_cfg. rewrite Hc, Is.
  assert (G : exists cs, get_repr_config (stemming o) d3 b = Ok cs /\ types_to_be_repr cs = types_to_be_repr c3 /\ bpe c3 = false /\
            bpe cs = false /\ should_lowercase cs = should_lowercase c3 /\ number_splitter cs = number_splitter c3 /\
            full_strings cs = full_strings c3 /\ max_str_length cs = max_str_length c3 /\
            word_splitter c3 = Some (fun s => Ok (ronin_split o s)) /\
            word_splitter cs = Some (fun s => Ok (map (stem o) (ronin_split o s))) /\ in_types c3 CSplitContainer = true).
  { clear - H3 I3 H. destruct H as (Hp & _). unfold get_repr_config in *. rewrite I3 in *.
    apply bind_ok in H3. destruct H3 as (ns & Hns & H3). rewrite Hns. cbn [bind].
    unfold get_word_splitter, param_in in *. rewrite Hp in *. cbn [bind] in *.
    apply bind_ok in H3. destruct H3 as (wsp & Hwsp & H3). injection Hwsp as <-. 
    apply bind_ok in H3. destruct H3 as (ml & Hml & [= <-]). rewrite Hml. cbn [bind]. eexists. split; [reflexivity|].
    repeat (split; [reflexivity|]). unfold in_types. cbn [types_to_be_repr]. rewrite types_in. unfold param_in. rewrite Hp. reflexivity. }
  destruct G as (cs & -> & G1 & G2 & G3 & G4 & G5 & G6 & G7 & G8 & G9 & G10). cbn [bind].
  destruct (segs_list_like E o c3 cs Ho G1 G2 G3 G4 G5 G6 G7 G8 G9 G10 l ss Hp Hss) as (ss' & Hs' & R).
  rewrite to_repr_list_segs, Hs'. cbn [flat_res bind]. destruct (like_flat o ss ss' R) as [Em Rt].
  exists (List.concat (map s_toks ss')). split; [|exact Rt]. rewrite <- Em. reflexivity.
Qed.
Print Assumptions C88_places.

(** ** The case of stems *)
Definition small (w : str) : Prop := Forall (fun c => ascii_lower_ch c = true) w.
Definition big (w : str) : Prop := Forall (fun c => ascii_upper_ch c = true) w.
Definition letters (w : str) : Prop := w <> [] /\ Forall (fun c => ascii_lower_ch c = true \/ ascii_upper_ch c = true) w.
(** what is assumed of the stemmer of nltk: it puts words into lower case first and leaves some letters *)
Definition porter_lower (porter : str -> str) : Prop :=
  forall w, letters w -> porter w = porter (map ascii_to_lower w) /\ porter w <> [] /\ small (porter w).

Lemma letter_cases c : ascii_lower_ch c = true -> ascii_upper_ch c = false.
Proof.
  unfold ascii_lower_ch, ascii_upper_ch. intros H. apply andb_true_iff in H. destruct H as [H _]. apply N.leb_le in H.
  apply andb_false_iff. right. apply N.leb_gt. lia.
Qed.
Lemma small_lower w : small w -> map ascii_to_lower w = w.
Proof.
  induction 1 as [|c w Hc _ IH]; [reflexivity|]. cbn [map]. unfold ascii_to_lower at 1. rewrite (letter_cases c Hc), IH. reflexivity.
Qed.
Lemma lower_to_upper c : ascii_lower_ch c = true -> ascii_upper_ch (ascii_to_upper c) = true /\ ascii_to_lower (ascii_to_upper c) = c.
Proof.
  intros H. assert (U : ascii_upper_ch (ascii_to_upper c) = true).
  { unfold ascii_to_upper. rewrite H. unfold ascii_lower_ch in H. apply andb_true_iff in H. destruct H as [H1 H2].
    apply N.leb_le in H1, H2. unfold ascii_upper_ch. apply andb_true_iff. split; apply N.leb_le; lia. }
  split; [exact U|]. unfold ascii_to_lower. rewrite U. unfold ascii_to_upper. rewrite H. unfold ascii_lower_ch in H.
  apply andb_true_iff in H. destruct H as [H1 _]. apply N.leb_le in H1. lia.
Qed.
Lemma upper_to_lower c : ascii_upper_ch c = true -> ascii_lower_ch (ascii_to_lower c) = true.
Proof.
  intros H. unfold ascii_to_lower. rewrite H. unfold ascii_upper_ch in H. apply andb_true_iff in H. destruct H as [H1 H2].
  apply N.leb_le in H1, H2. unfold ascii_lower_ch. apply andb_true_iff. split; apply N.leb_le; lia.
Qed.
Lemma letters_lower w : letters w -> letters (map ascii_to_lower w) /\ small (map ascii_to_lower w).
Proof.
  intros [Hn Hw]. assert (S : small (map ascii_to_lower w)).
  { apply Forall_map. eapply Forall_impl; [|exact Hw]. intros c [H|H]; [|apply upper_to_lower, H].
    unfold ascii_to_lower. rewrite (letter_cases c H). exact H. }
  split; [|exact S]. split; [destruct w; [congruence|discriminate]|]. eapply Forall_impl; [|exact S]. auto.
Qed.
Lemma small_upper w : small w -> big (map ascii_to_upper w) /\ map ascii_to_lower (map ascii_to_upper w) = w.
Proof.
  induction 1 as [|c w Hc _ [IH1 IH2]]; [split; [constructor|reflexivity]|]. destruct (lower_to_upper c Hc) as [H1 H2].
  split; [constructor; assumption|]. cbn [map]. rewrite H2, IH2. reflexivity.
Qed.
Lemma letter_plain c : ascii_lower_ch c = true \/ ascii_upper_ch c = true -> plain c.
Proof.
  unfold ascii_lower_ch, ascii_upper_ch. intros H. left.
  destruct H as [H|H]; apply andb_true_iff in H; destruct H as [_ H]; apply N.leb_le in H; lia.
Qed.

Lemma isupper_big E w : py_ascii E -> letters w -> (isupper E w = true <-> big w).
Proof.
  intros [HE _] [Hn Hw]. unfold isupper. split.
  - intros H. apply andb_true_iff in H. destruct H as [H _]. apply negb_true_iff in H.
    apply Forall_forall. intros c Hc. rewrite Forall_forall in Hw. destruct (Hw c Hc) as [Hl|Hu]; [|exact Hu]. exfalso.
    assert (X : existsb (fun c => is_lower_ch E c || is_title_ch E c) w = true); [|congruence].
    apply existsb_exists. exists c. split; [exact Hc|]. destruct (HE c (letter_plain c (or_introl Hl))) as (-> & _ & _). rewrite Hl. reflexivity.
  - intros H. unfold big in H. rewrite Forall_forall in H. apply andb_true_iff. split.
    + apply negb_true_iff. destruct (existsb _ w) eqn:X; [|reflexivity]. exfalso. apply existsb_exists in X. destruct X as (c & Hc & X).
      specialize (H c Hc). destruct (HE c (letter_plain c (or_intror H))) as (E1 & _ & E3). rewrite E1, E3, orb_false_r in X.
      pose proof (letter_cases c X). congruence.
    + destruct w as [|c w]; [congruence|]. cbn [existsb]. specialize (H c (or_introl eq_refl)).
      destruct (HE c (letter_plain c (or_intror H))) as (_ & -> & _). rewrite H. reflexivity.
Qed.

(** C88: The stem of a word of letters has the case of the word: upper case if all letters are; only the first letter in upper
    case if the first letter of the word is (and not all are); otherwise lower case.  Apart from the case it is the stem of the
    word in lower case. *)
Theorem C88_case : forall E porter c t, py_ascii E -> porter_lower porter -> letters (c :: t) ->
  let w := c :: t in let s := stem_word E porter w in
  map ascii_to_lower s = stem_word E porter (map ascii_to_lower w) /\ s <> [] /\
  (big w -> big s) /\
  (ascii_upper_ch c = true -> ~ big w -> exists x r, s = x :: r /\ ascii_upper_ch x = true /\ small r) /\
  (ascii_lower_ch c = true -> small s).
Proof.
  intros E porter c t HE Hp Hw w s. destruct (Hp w Hw) as (P1 & P2 & P3).
  assert (Hs : forall v, small v -> letters v -> stem_word E porter v = porter v).
  { intros v Sv Lv. destruct v as [|a v]; [destruct Lv; congruence|]. unfold stem_word. inversion Sv as [|? ? Ha Hv]; subst.
    assert (I1 : isupper E (a :: v) = false).
    { destruct (isupper E (a :: v)) eqn:I; [|reflexivity]. apply (isupper_big E _ HE Lv) in I. inversion I as [|? ? Ua _]; subst.
      rewrite (letter_cases a Ha) in Ua. discriminate. }
    assert (I2 : isupper E [a] = false).
    { destruct (isupper E [a]) eqn:I; [|reflexivity]. apply (isupper_big E [a] HE) in I; [|split; [discriminate|constructor; [auto|constructor]]].
      inversion I as [|? ? Ua _]; subst. rewrite (letter_cases a Ha) in Ua. discriminate. }
    rewrite I1, I2. reflexivity. }
  destruct (letters_lower w Hw) as [L1 L2]. rewrite (Hs _ L2 L1), <- P1.
  assert (Pl : Forall plain (porter w)) by (eapply Forall_impl; [|exact P3]; intros x Hx; apply letter_plain; auto).
  destruct HE as [HE1 HE2]. destruct (HE2 _ Pl) as (_ & Eu & Ec).
  subst s. unfold stem_word, w. fold w.
  destruct (isupper E w) eqn:I1.
  - apply (isupper_big E w (conj HE1 HE2) Hw) in I1. rewrite Eu. cbn [upper ascii_case]. destruct (small_upper _ P3) as [U1 U2].
    split; [exact U2|]. split; [destruct (porter w); [congruence|discriminate]|]. split; [auto|]. split; [intros _ N; contradiction|].
    intros Hc. inversion I1 as [|? ? Uc _]; subst. rewrite (letter_cases c Hc) in Uc. discriminate.
  - assert (NB : ~ big w) by (intros B; apply (isupper_big E w (conj HE1 HE2) Hw) in B; congruence).
    assert (I2 : isupper E [c] = true <-> ascii_upper_ch c = true).
    { rewrite (isupper_big E [c] (conj HE1 HE2)).
      - split; [intros H; inversion H; assumption|intros H; constructor; [exact H|constructor]].
      - split; [discriminate|]. destruct Hw as [_ Hw]. inversion Hw; subst. constructor; [assumption|constructor]. }
    destruct (isupper E [c]).
    + rewrite Ec. cbn [capitalize ascii_case]. destruct (porter w) as [|x r]; [congruence|].
      inversion P3 as [|? ? Hx Hr]; subst. destruct (lower_to_upper x Hx) as [X1 X2]. rewrite (small_lower r Hr).
      split; [cbn [map]; rewrite X2, (small_lower r Hr); reflexivity|]. split; [discriminate|]. split; [intros B; contradiction|].
      split; [intros _ _; exists (ascii_to_upper x), r; auto|]. intros Hc. rewrite (letter_cases c Hc) in I2. destruct I2 as [I2 _].
      discriminate (I2 eq_refl).
    + split; [apply small_lower, P3|]. split; [exact P2|]. split; [intros B; contradiction|]. split; [|intros _; exact P3].
      intros Hc. destruct I2 as [_ I2]. discriminate (I2 Hc).
Qed.
Print Assumptions C88_case.

Lemma str_value_known no_str mx : mem (create_str_value no_str mx) possible_str_values = true.
Proof.
  unfold create_str_value. destruct no_str; [reflexivity|]. destruct (_ && _)%bool; [reflexivity|].
  destruct ((2 <=? mx)%Z && (mx <? Z.of_nat (length possible_str_values))%Z) eqn:H; [|reflexivity].
  apply andb_true_iff in H. destruct H as [H1 H2]. apply Z.leb_le in H1. apply Z.ltb_lt in H2.
  apply mem_in, nth_In. lia.
Qed.

(** C88: The options stem=True and ronin=True give such configurations, whatever the other options and split_numbers. *)
Theorem C88_options : forall sn sn' ro no_spaces no_unicode no_case no_com no_str mx,
  exists d3 ds,
    basic_config sn' true false no_spaces no_unicode no_case no_com no_str mx = Ok d3 /\
    basic_config sn ro true no_spaces no_unicode no_case no_com no_str mx = Ok ds /\ ronin_and_stem d3 ds.
Proof.
  intros. unfold basic_config, create_prep_config. pose proof (str_value_known no_str mx) as Hst.
  generalize dependent (create_str_value no_str mx). intros st Hst.
  assert (C : forall sp, sp = lit "3" \/ sp = lit "s" -> forall d,
    d = [(EN_ONLY, if no_unicode then lit "U" else lit "u"); (COM, if no_com then lit "0" else lit "c"); (STR, st); (SPLIT, sp);
         (TABS_NEWLINES, if no_spaces then lit "0" else lit "s"); (CASE, if no_case then lit "l" else lit "u")] ->
    mk_prep_config d = Ok d).
  { intros sp Hsp d ->. unfold mk_prep_config, check_invariants. cbn [length Nat.eqb negb].
    replace (check_values _ _) with (if mem st possible_str_values then Ok tt else Err ValueError)
      by (destruct Hsp as [-> | ->], no_unicode, no_com, no_spaces, no_case; reflexivity).
    rewrite Hst. destruct Hsp as [-> | ->], no_case; reflexivity. }
  do 2 eexists. split; [eapply C; [|reflexivity]; left; reflexivity|]. split; [eapply C; [|reflexivity]; right; reflexivity|].
  split; [reflexivity|]. split; [reflexivity|]. intros p Hp. destruct p; try reflexivity. congruence.
Qed.
Print Assumptions C88_options.

(** ** Concrete cases: a stemmer that takes off a final s *)
Fixpoint no_final_s (w : str) : str :=
  match w with [] => [] | [c] => if N.eqb c 115 then [] else [c] | c :: t => c :: no_final_s t end.
Definition porter_ex (w : str) : str :=
  let v := map ascii_to_lower w in match no_final_s v with [] => v | x => x end.
Lemma porter_ex_lower : porter_lower porter_ex.
Proof.
  intros w Hw. destruct (letters_lower w Hw) as [L1 L2]. unfold porter_ex. rewrite (small_lower _ L2).
  assert (S : forall v, small v -> small (no_final_s v)).
  { induction v as [|c v IH]; intros H; [constructor|]. inversion H as [|? ? Hc Hv]; subst. cbn [no_final_s]. destruct v as [|b v].
    - destruct (N.eqb c 115); constructor; [exact Hc|constructor].
    - constructor; [exact Hc|apply IH, Hv]. }
  specialize (S _ L2). destruct (no_final_s _) as [|x r]; (split; [reflexivity|]).
  - split; [apply L1|exact L2].
  - split; [discriminate|exact S].
Qed.
(** ronin that splits before "speed" *)
Definition splitters_ex : splitters :=
  {| ronin_split := fun s => if eqb s (lit "Vehiclesspeed") then [lit "Vehicles"; lit "speed"] else [s];
     stem := stem_word ascii_case porter_ex |}.
Definition ronin_ex : params := combine prep_params (chars_of "uc13su").
Definition stem_ex : params := combine prep_params (chars_of "uc1ssu").
Example C88_ronin_example :
  ronin_and_stem ronin_ex stem_ex /\
  match convert_text ascii_case ascii_K [(["Name"%string], lit "movingVehiclesspeed"); (["Operator"%string], lit "=");
                                         (["Literal"; "Number"; "Integer"]%string, lit "12")] with
  | Ok l =>
      match to_repr ascii_case splitters_ex ronin_ex None l, to_repr ascii_case splitters_ex stem_ex None l with
      | Ok (a, m), Ok (b, m') =>
          a = [lit "<w>"; lit "moving"; lit "Vehicles"; lit "speed"; lit "</w>"; lit "="; lit "<w>"; lit "1"; lit "2"; lit "</w>"] /\
          b = [lit "<w>"; lit "moving"; lit "Vehicle"; lit "speed"; lit "</w>"; lit "="; lit "<w>"; lit "1"; lit "2"; lit "</w>"] /\
          m' = m
      | _, _ => False
      end
  | Err _ => False
  end.
Proof.
  split; [|vm_compute; auto]. split; [reflexivity|]. split; [reflexivity|]. intros p Hp. destruct p; try reflexivity. congruence.
Qed.
Example C88_places_example : splitters_plain splitters_ex.
Proof.
  assert (Low : forall c, c <> 60%N -> ascii_to_lower c <> 60%N).
  { intros c Hc. unfold ascii_to_lower. destruct (ascii_upper_ch c) eqn:U; [|exact Hc]. unfold ascii_upper_ch in U.
    apply andb_true_iff in U. destruct U as [U _]. apply N.leb_le in U. lia. }
  assert (Upp : forall c, c <> 60%N -> ascii_to_upper c <> 60%N).
  { intros c Hc. unfold ascii_to_upper. destruct (ascii_lower_ch c) eqn:U; [|exact Hc]. unfold ascii_lower_ch in U.
    apply andb_true_iff in U. destruct U as [U _]. apply N.leb_le in U. lia. }
  assert (F : forall s, no_lt s <-> Forall (fun c => c <> 60%N) s).
  { intros s. unfold no_lt. rewrite Forall_forall. split; [intros H c Hc ->; auto|intros H Hin; apply (H _ Hin eq_refl)]. }
  assert (M : forall f s, (forall c, c <> 60%N -> f c <> 60%N) -> no_lt s -> no_lt (map f s)).
  { intros f s Hf Hs. apply F. apply F in Hs. apply Forall_map. eapply Forall_impl; [|exact Hs]. exact Hf. }
  assert (S : forall v, no_lt v -> no_lt (no_final_s v)).
  { intros v Hv Hin. apply Hv. clear Hv. induction v as [|c v IH]; [exact Hin|]. cbn [no_final_s] in Hin. destruct v as [|b v].
    - destruct (N.eqb c 115); [destruct Hin|exact Hin].
    - destruct Hin as [Hin|Hin]; [left; exact Hin|right; apply IH, Hin]. }
  assert (P : forall s, no_lt s -> no_lt (porter_ex s)).
  { intros s Hs. unfold porter_ex. pose proof (M _ s Low Hs) as Hm. specialize (S _ Hm). destruct (no_final_s _); assumption. }
  split.
  - intros s Hs Hn. cbn [ronin_split splitters_ex]. match goal with |- context [if ?b then _ else _] => destruct b end.
    + split; [discriminate|]. repeat (constructor; [apply F; repeat (constructor; [discriminate|]); constructor|]). constructor.
    + split; [discriminate|]. constructor; [exact Hn|constructor].
  - intros s Hs. cbn [stem splitters_ex]. unfold stem_word. destruct s as [|c t]; [exact Hs|]. specialize (P _ Hs).
    destruct (isupper ascii_case (c :: t)); [apply (M _ _ Upp P)|]. destruct (isupper ascii_case [c]); [|exact P].
    cbn [capitalize ascii_case]. destruct (porter_ex (c :: t)) as [|x r]; [exact P|].
    apply F. apply F in P. inversion P; subst. constructor; [apply Upp; assumption|]. apply F, M; [exact Low|]. apply F. assumption.
Qed.
Example C88_case_example :
  porter_lower porter_ex /\ stem_word ascii_case porter_ex (lit "NAMES") = lit "NAME" /\
  stem_word ascii_case porter_ex (lit "Names") = lit "Name" /\ stem_word ascii_case porter_ex (lit "names") = lit "name".
Proof. split; [exact porter_ex_lower|]. vm_compute. auto. Qed.
