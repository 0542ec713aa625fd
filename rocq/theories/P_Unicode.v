(** * C102: no_unicode *)
From Coq Require Import List NArith ZArith Bool String Lia.
From Verif Require Import M_Base L_Base M_Tokens M_Literal L_Literal M_Repr M_Merge M_BpeEncode M_PrepConfig P_PrepConfig
  L_Repr P_Repr L_Word P_ReprOptions L_Merge P_ReprStrings M_Regex M_Parse L_Regex P_Parse P_ParseRepr P_Split M_Stem P_Stem P_Case.
Import ListNotations.
Local Open Scope list_scope.

(** ** What holds of all tokens of the parser *)
Section Lift.
  Variables (E : pycase) (K : charclass) (G : N -> Prop) (Q : str -> Prop) (P : token -> Prop).
  Hypothesis HK : ascii_classes K.
  Hypothesis Pnl : P NewLine.
  Hypothesis Ptab : P Tab.
  Hypothesis Pone : P One.
  Hypothesis Pzero : P Zero.
  Hypothesis Pnp : forall c s, P (NonProc c s).
  Hypothesis Pnumber : forall v, Forall G v -> Q v -> P (Number (lower E v)).
  Hypothesis Pword : forall w t, Forall G w -> w <> [] -> forallb (is_w K) w = true -> word_token E K w t -> P t.

  (** the tokens of strings can also be spaces *)
  Definition one_deep (t : token) : Prop :=
    match t with
    | OneLineComment l | MultilineComment l => Forall P l
    | StringLiteral l _ => Forall (fun u => is_space_in_string u = true \/ P u) l
    | _ => P t
    end.

  Lemma pieces_lift (R : token -> Prop) sp (s : str) ps tss :
    (forall t, P t -> R t) -> (forall n, Forall R (sp n)) -> Forall G s -> pieces K s ps ->
    Forall2 (piece_tokens E K sp) ps tss -> Forall R (List.concat tss).
  Proof.
    intros HR Hsp Hg (-> & Hok & _) HF. revert Hg Hok. induction HF as [|p ts ps tss Hp HF IH]; intros Hg Hok; [constructor|].
    inversion Hok as [|? ? Hq Hqs]; subst. cbn [map List.concat] in Hg |- *. apply Forall_app in Hg. destruct Hg as [Hg1 Hg2].
    apply Forall_app. split; [|apply IH; assumption].
    destruct p as [w|c|n]; cbn [piece_tokens piece_ok piece_text] in *.
    - destruct Hp as (t & -> & Hw). constructor; [|constructor]. apply HR, (Pword w); [exact Hg1|apply Hq|apply Hq|exact Hw].
    - subst ts. constructor; [|constructor]. apply HR. unfold char_token. destruct (N.eqb c 10); [exact Pnl|]. destruct (N.eqb c 9); [exact Ptab|apply Pnp].
    - subst ts. apply Hsp.
  Qed.
  Lemma words_lift s toks : Forall G s -> split_into_words E K s = Ok toks -> Forall P toks.
  Proof.
    intros Hg H. destruct (C13_words E K s toks HK H) as (ps & tss & Hp & HF & ->).
    eapply (pieces_lift P); [auto| |exact Hg|exact Hp|exact HF].
    intros n. apply Forall_forall. intros t Ht. apply repeat_spec in Ht. subst t. exact Ptab.
  Qed.
  Lemma string_lift s toks : Forall G s -> split_string E K s = Ok toks -> Forall (fun u => is_space_in_string u = true \/ P u) toks.
  Proof.
    intros Hg H. destruct (C13_string E K s toks HK H) as (ps & tss & Hp & HF & ->).
    eapply pieces_lift; [auto| |exact Hg|exact Hp|exact HF]. intros n. constructor; [left; reflexivity|constructor].
  Qed.
  Lemma convert_lift t (v : str) toks : py_text E -> Forall G v -> (type_in t ["Literal"; "Number"]%string = true -> Q v) ->
    convert E K t v = Ok toks -> Forall one_deep toks.
  Proof.
    intros HT Hg Hq. unfold convert.
    assert (Hone : forall u, P u -> one_deep u = P u -> Forall one_deep [u]).
    { intros u H1 H2. constructor; [|constructor]. rewrite H2. exact H1. }
    assert (Hw : forall toks, split_into_words E K v = Ok toks -> Forall one_deep toks).
    { intros ts H. pose proof (words_simple E K HK HT v ts H) as H1. pose proof (words_lift v ts Hg H) as H2.
      rewrite Forall_forall in *. intros x Hx. specialize (H1 x Hx). specialize (H2 x Hx). destruct x; try exact H2; destruct H1. }
    destruct (eqb v s_nl); [intros [= <-]; apply Hone; [exact Pnl|reflexivity]|]. destruct (eqb v s_tab); [intros [= <-]; apply Hone; [exact Ptab|reflexivity]|].
    destruct (blank K v).
    { intros [= <-]. apply Forall_forall. intros x Hx. apply repeat_spec in Hx. subst x. exact Ptab. }
    destruct (type_is t ["Operator"%string] || type_in t ["Punctuation"%string]).
    { intros [= <-]. unfold operator_token. repeat destruct (eqb v _); (apply Hone; [apply Pnp|reflexivity]). }
    destruct (type_in t ["Literal"; "Number"]%string).
    { intros [= <-]. unfold number_token. destruct (eqb v _); [apply Hone; [exact Pzero|reflexivity]|]. destruct (eqb v _); [apply Hone; [exact Pone|reflexivity]|].
      apply Hone; [|reflexivity]. apply Pnumber; auto. }
    destruct (type_in t ["Name"%string]); [apply Hw|]. destruct (type_is t _ || type_is t _); [apply Hw|].
    destruct (type_in t ["Keyword"%string]); [intros [= <-]; apply Hone; [apply Pnp|reflexivity]|].
    destruct (type_in t ["Literal"; "String"]%string).
    { rewrite bind_ok. intros (l & Hl & [= <-]). constructor; [|constructor]. eapply string_lift; eassumption. }
    destruct (type_is t ["Comment"; "Single"]%string).
    { rewrite bind_ok. intros (l & Hl & [= <-]). constructor; [|constructor]. eapply words_lift; eassumption. }
    destruct (type_in t ["Comment"%string]); [|apply Hw].
    rewrite bind_ok. intros (l & Hl & [= <-]). constructor; [|constructor]. eapply words_lift; eassumption.
  Qed.
  Lemma text_lift lexed l : py_text E ->
    Forall (fun tv => Forall G (snd tv) /\ (type_in (fst tv) ["Literal"; "Number"]%string = true -> Q (snd tv))) lexed ->
    convert_text E K lexed = Ok l -> Forall one_deep l.
  Proof.
    intros HT HA. revert l. induction HA as [|[t v] rest [H1 H2] HA IH]; intros l; cbn [convert_text].
    - intros [= <-]. constructor.
    - rewrite bind_ok. intros (a & Ha & Hl). apply bind_ok in Hl. destruct Hl as (r & Hr & [= <-]).
      apply Forall_app. split; [exact (convert_lift t v a HT H1 H2 Ha)|apply IH, Hr].
  Qed.
End Lift.

(** ** C102 *)
(** two configurations that differ in no_unicode only; words are split or not, strings are written in pieces or as a whole *)
Definition unicode_and_not (d d' : params) : Prop :=
  In (param d SPLIT) [lit "0"; lit "F"; lit "1"; lit "2"; lit "3"; lit "s"] /\ param d EN_ONLY = lit "u" /\ param d' EN_ONLY = lit "U" /\
  forall p, p <> EN_ONLY -> param d' p = param d p.

(** what is assumed of ronin and the stemmer: whether there are non-ascii characters does not change *)
Definition splitters_same_ascii (o : splitters) : Prop :=
  (forall s, is_ascii (List.concat (ronin_split o s)) = is_ascii s) /\ (forall s, is_ascii (stem o s) = is_ascii s).

(** a string written as a whole: between the spaces every run of non-ascii characters becomes one placeholder *)
Definition collapsed_string (x y : list str) : Prop :=
  exists ps qs, x = [join [160%N] ps] /\ y = [join [160%N] qs] /\ Forall (fun p => ~ In 160%N p) ps /\ Forall2 (collapsed [247%N]) ps qs.

Lemma is_ascii_app a b : is_ascii (a ++ b) = is_ascii a && is_ascii b.
Proof. apply forallb_app. Qed.

Section Unicode.
  Variables (E : pycase) (K : charclass) (G : N -> Prop) (lo up : N -> N).
  Hypothesis HK : ascii_classes K.
  Hypothesis HS : simple_case E K G lo up.
  Hypothesis Hlo : forall c, G c -> is_ascii_char (lo c) = is_ascii_char c.

  Lemma lo_ascii s : Forall G s -> is_ascii (map lo s) = is_ascii s.
  Proof. unfold is_ascii. induction 1 as [|c s Hc _ IH]; [reflexivity|]. cbn [map forallb]. rewrite (Hlo c Hc), IH. reflexivity. Qed.

  (** with or without the marks for the case a subtoken has non-ascii characters or not *)
  Definition ascii_sub (s : subtoken) : Prop :=
    match s with Underscore => True | Word w c => is_ascii w = is_ascii (with_preserved_case E w c) end.
  Definition uni_token (t : token) : Prop :=
    match t with
    | Number v => is_ascii v = true
    | SplitContainer k => Forall ascii_sub k /\ is_ascii (split_str E k) = true
    | NonEng k => Forall ascii_sub k /\ is_ascii (split_str E k) = false
    | NewLine | Tab | One | Zero | NonProc _ _ => True
    | _ => False
    end.

  Lemma part_ascii p t s : Forall G p -> part_ok K p t -> p <> lit "_" -> word_from E p = Ok s -> ascii_sub s /\ subtoken_str E s = p.
  Proof.
    intros Hg Hp Hu Hs.
    destruct (part_stable E K G lo up HS (fun c _ => digit_uncased K HK c) p t Hg Hp Hu) as (wd & Hw & Hstr). rewrite Hs in Hw. injection Hw as <-.
    split; [|exact Hstr]. destruct s as [|w c]; [exact I|]. cbn [ascii_sub]. cbn [subtoken_str] in Hstr. rewrite Hstr.
    destruct p as [|a p]; [discriminate|]. unfold word_from, mk_word in Hs. inversion Hg as [|? ? Ha Hp']; subst.
    assert (Ga : Forall G [a]) by (constructor; [exact Ha|constructor]).
    rewrite (sc_lower _ _ _ _ _ HS _ Hg), (sc_lower _ _ _ _ _ HS _ Ga) in Hs.
    destruct (islower E (a :: p)); [destruct (canonic_ok E _) in Hs; [|discriminate]; injection Hs as <- _; reflexivity|].
    destruct (isupper E (a :: p)); [destruct (canonic_ok E _) in Hs; [|discriminate]; injection Hs as <- _; exact (lo_ascii (a :: p) Hg)|].
    destruct (isupper E [a]); (destruct (canonic_ok E _) in Hs; [|discriminate]); injection Hs as <- _; [|reflexivity].
    cbn [map app]. change (lo a :: p) with ([lo a] ++ p). change (a :: p) with ([a] ++ p). rewrite !is_ascii_app. f_equal. apply (lo_ascii [a] Ga).
  Qed.
  Lemma uni_word w t : Forall G w -> w <> [] -> forallb (is_w K) w = true -> word_token E K w t -> uni_token t.
  Proof.
    intros Hg _ _ [Hn|parts subs _ <- _ Hok HF].
    - cbn. rewrite (sc_lower _ _ _ _ _ HS _ Hg), (lo_ascii w Hg). pose proof (number_ascii w Hn) as Ha. apply forallb_forall. intros c Hc.
      unfold ascii in Ha. rewrite Forall_forall in Ha. apply N.ltb_lt, Ha, Hc.
    - assert (Hs : Forall ascii_sub subs /\ split_str E subs = List.concat parts).
      { revert Hg Hok. induction HF as [|p s ps ss Hx HF IH]; intros Hg Hok; [split; [constructor|reflexivity]|]. cbn [List.concat parts_ok] in *.
        apply Forall_app in Hg. destruct Hg as [G1 G2]. destruct Hok as [O1 O2]. destruct (IH G2 O2) as [I1 I2].
        unfold split_str in *. cbn [map List.concat]. rewrite I2.
        destruct Hx as [[-> ->]|[Hu Hx]]; [split; [constructor; [exact I|exact I1]|reflexivity]|].
        destruct (part_ascii p _ s G1 O1 Hu Hx) as [A1 A2]. rewrite A2. split; [constructor; assumption|reflexivity]. }
      destruct Hs as [S1 S2]. destruct (is_ascii (List.concat parts)) eqn:X; cbn; rewrite S2; auto.
  Qed.

  (** *** Representations *)
  Variables (cu cn : repr_config).
  Hypothesis Ht : forall c, c <> CNonEng -> in_types cn c = in_types cu c.
  Hypothesis Hne : in_types cn CNonEng = true.
  Hypothesis Hne' : in_types cu CNonEng = false.
  Hypothesis Hbu : bpe cu = false.
  Hypothesis Hbn : bpe cn = false.
  Hypothesis Hlow : should_lowercase cn = should_lowercase cu.
  Hypothesis Hnum : number_splitter cn = number_splitter cu.
  Hypothesis Hnum' : forall v ws, number_splitter cu v = Ok ws -> List.concat ws = v.
  Hypothesis Hfn : full_strings cn = full_strings cu.
  Hypothesis Hmax : max_str_length cn = max_str_length cu.
  Hypothesis Hw : word_splitter cn = word_splitter cu.
  Hypothesis Hwa : forall s r, split_word cu s = Ok r -> is_ascii (List.concat r) = is_ascii s.
  Hypothesis Hwt : in_types cu CWord = in_types cu CSplitContainer.

  Definition swapped (np : list str) (x y : cls * list str) : Prop :=
    (y = x /\ (is_ascii (List.concat (snd x)) = false -> exists z, snd x = [z] /\ In z np)) \/
    (is_ascii (List.concat (snd x)) = false /\ snd y = [lit "<non-en>"] /\ (fst y = fst x \/ fst x = CSplitContainer /\ fst y = CNonEng)).
  Definition swap_seg (x y : seg) : Prop := s_np y = s_np x /\ swapped (s_np x) (s_cls x, s_toks x) (s_cls y, s_toks y).

  Definition top_seg (x y : seg) : Prop :=
    swap_seg x y \/
    (full_strings cu = true /\ s_np y = s_np x /\ s_cls x = CStringLiteral /\ s_cls y = CStringLiteral /\ collapsed_string (s_toks x) (s_toks y)).
  Lemma swap_top r r' : Forall2 swap_seg r r' -> Forall2 top_seg r r'.
  Proof. induction 1; constructor; [left; assumption|assumption]. Qed.

  Lemma split_word_same s : split_word cn s = split_word cu s.
  Proof. unfold split_word. rewrite Hw. reflexivity. Qed.
  Lemma sub_same s : torepr_sub E cn s = torepr_sub E cu s.
  Proof. destruct s as [|w c]; cbn [torepr_sub]; [reflexivity|]. rewrite Ht by discriminate. rewrite Hlow, !split_word_same. reflexivity. Qed.
  Lemma subs_same k : torepr_subs E cn k = torepr_subs E cu k.
  Proof. induction k as [|s k IH]; cbn [torepr_subs]; [reflexivity|]. rewrite sub_same, IH. reflexivity. Qed.
  Lemma split_same k : segs_split E cn k = segs_split E cu k.
  Proof.
    unfold segs_split. rewrite Ht by discriminate. rewrite Hbn, Hbu, subs_same. destruct (in_types cu CSplitContainer); [reflexivity|].
    assert (X : mapM (fun s => r <- torepr_sub E cn s ;; match r with [] => Err IndexError | x :: _ => Ok x end) k =
                mapM (fun s => r <- torepr_sub E cu s ;; match r with [] => Err IndexError | x :: _ => Ok x end) k).
    { induction k as [|s k IH]; cbn [mapM]; [reflexivity|]. rewrite sub_same, IH. reflexivity. }
    rewrite X. reflexivity.
  Qed.

  Lemma sub_ascii s r : ascii_sub s -> torepr_sub E cu s = Ok r -> is_ascii (List.concat r) = is_ascii (subtoken_str E s).
  Proof.
    destruct s as [|w c]; cbn [torepr_sub ascii_sub subtoken_str]; [intros _ [= <-]; reflexivity|]. intros Ha.
    case (in_types cu CWord); [|intros [= <-]; cbn; rewrite app_nil_r; reflexivity].
    destruct (should_lowercase cu); [|apply Hwa]. rewrite bind_ok. intros (q & Hq & [= <-]). apply Hwa in Hq. rewrite <- Ha, <- Hq.
    destruct c; reflexivity.
  Qed.
  Lemma split_ascii k r : Forall ascii_sub k -> segs_split E cu k = Ok r ->
    exists toks, r = one_seg CSplitContainer toks [] /\ is_ascii (List.concat toks) = is_ascii (split_str E k).
  Proof.
    intros Hk. unfold segs_split. pose proof Hwt as Hi. revert Hi. case (in_types cu CSplitContainer); intros Hi.
    - rewrite Hbu, bind_ok. intros (ws & Hws & [= <-]). eexists. split; [reflexivity|].
      assert (X : is_ascii (List.concat ws) = is_ascii (split_str E k)).
      { revert ws Hws. induction Hk as [|s k Hs Hk IH]; intros ws; cbn [torepr_subs]; [intros [= <-]; reflexivity|].
        rewrite bind_ok. intros (a & Ha & H). apply bind_ok in H. destruct H as (rs & Hrs & [= <-]).
        rewrite concat_app. unfold split_str. cbn [map List.concat]. rewrite !is_ascii_app, (sub_ascii s a Hs Ha), (IH rs Hrs). reflexivity. }
      rewrite <- X. assert (W : is_ascii (List.concat ([ph_word_start] ++ ws ++ [ph_word_end])) = is_ascii (List.concat ws)).
      { rewrite !concat_app, !is_ascii_app. cbn. apply andb_true_r. }
      unfold wrap_in_word_boundaries_if_necessary. destruct ws as [|a [|b [|c ws]]]; try exact W; [reflexivity|]. destruct (_ || _); [reflexivity|exact W].
    - rewrite bind_ok. intros (hs & Hhs & [= <-]). eexists. split; [reflexivity|]. cbn [List.concat]. rewrite app_nil_r.
      revert hs Hhs. induction Hk as [|s k Hs Hk IH]; intros hs; cbn [mapM]; [intros [= <-]; reflexivity|].
      rewrite bind_ok. intros (a & Ha & H). apply bind_ok in H. destruct H as (rs & Hrs & [= <-]).
      unfold split_str. cbn [map List.concat]. rewrite !is_ascii_app, (IH rs Hrs). unfold split_str. f_equal.
      apply bind_ok in Ha. destruct Ha as (q & Hq & Ha). rewrite <- (sub_ascii s q Hs Hq). destruct q as [|x q]; [discriminate|]. injection Ha as <-.
      destruct s as [|w c]; cbn [torepr_sub] in Hq; [injection Hq as <- <-; reflexivity|]. rewrite Hi in Hq. injection Hq as <- <-.
      cbn [List.concat]. rewrite app_nil_r. reflexivity.
  Qed.

  Lemma same_one c toks np : is_ascii (List.concat toks) = true -> exists r', Ok (one_seg c toks np) = Ok r' /\ Forall2 swap_seg (one_seg c toks np) r'.
  Proof.
    intros H. eexists. split; [reflexivity|]. constructor; [|constructor]. split; [reflexivity|]. left. split; [reflexivity|]. cbn [snd s_toks]. rewrite H. discriminate.
  Qed.
  Lemma kept_one c x np : In x np -> exists r', Ok (one_seg c [x] np) = Ok r' /\ Forall2 swap_seg (one_seg c [x] np) r'.
  Proof.
    intros H. eexists. split; [reflexivity|]. constructor; [|constructor]. split; [reflexivity|]. left. split; [reflexivity|]. intros _. exists x. split; [reflexivity|exact H].
  Qed.

  Lemma simple_swap t r : uni_token t -> segs E cu t = Ok r -> exists r', segs E cn t = Ok r' /\ Forall2 swap_seg r r'.
  Proof.
    destruct t as [| |n|v| | |c s|k|k|k|k|k n]; cbn [uni_token segs]; intros Hu; try contradiction; rewrite ?(Ht CNewLine), ?(Ht CTab), ?(Ht CNumber) by discriminate.
    - destruct (in_types cu CNewLine); intros [= <-]; [eexists; split; [reflexivity|constructor]|apply kept_one; left; reflexivity].
    - destruct (in_types cu CTab); intros [= <-]; [eexists; split; [reflexivity|constructor]|apply kept_one; left; reflexivity].
    - rewrite Hnum, Hbu, Hbn. destruct (in_types cu CNumber).
      + rewrite bind_ok. intros (ws & Hws & [= <-]). rewrite Hws. cbn [bind]. apply same_one. pose proof (Hnum' _ _ Hws) as Hc.
        destruct (1 <? length ws)%nat; cbn [andb negb]; [|rewrite Hc; exact Hu].
        change (is_ascii (List.concat ([ph_word_start] ++ ws ++ [ph_word_end])) = true). rewrite !concat_app, !is_ascii_app, Hc, Hu. reflexivity.
      + intros [= <-]. apply same_one. cbn. rewrite app_nil_r. exact Hu.
    - intros [= <-]. apply same_one. reflexivity.
    - intros [= <-]. apply same_one. reflexivity.
    - intros [= <-]. apply kept_one. left. reflexivity.
    - destruct Hu as [H1 H2]. rewrite split_same. intros Hr. rewrite Hr. destruct (split_ascii k r H1 Hr) as (toks & -> & Ha). apply same_one. congruence.
    - destruct Hu as [H1 H2]. rewrite Hne, Hne', Hbn. intros Hr. destruct (split_ascii k r H1 Hr) as (toks & -> & Ha). eexists. split; [reflexivity|].
      constructor; [|constructor]. split; [reflexivity|]. right. cbn [fst snd s_cls s_toks]. rewrite Ha. auto.
  Qed.
  Lemma list_swap (keep : token -> bool) l r : Forall (fun u => keep u = true -> uni_token u) l ->
    segs_list_with keep (segs E cu) l = Ok r -> exists r', segs_list_with keep (segs E cn) l = Ok r' /\ Forall2 swap_seg r r'.
  Proof.
    intros H. revert r. induction H as [|x l Hx Hl IH]; intros r; cbn [segs_list_with]; [intros [= <-]; eexists; split; [reflexivity|constructor]|].
    destruct (keep x) eqn:Hk; [|apply IH].
    rewrite bind_ok. intros (a & Ha & H'). apply bind_ok in H'. destruct H' as (rs & Hrs & [= <-]).
    destruct (simple_swap x a (Hx eq_refl) Ha) as (a' & -> & Ra). destruct (IH rs Hrs) as (rs' & Ers & Rrs). cbn [bind].
    fold (segs_list_with keep (segs E cn)). rewrite Ers. eexists. split; [reflexivity|apply Forall2_app; assumption].
  Qed.
  Lemma retype_swap c r r' : Forall2 swap_seg r r' -> Forall2 swap_seg (map (retype c) r) (map (retype c) r').
  Proof.
    induction 1 as [|x y r r' (H1 & H2) _ IH]; constructor; [|exact IH]. split; [exact H1|]. destruct H2 as [[H2 H3]|(H2 & H3 & _)].
    - left. cbn [retype s_cls s_toks s_np snd fst] in *. injection H2 as _ H2. rewrite H2. auto.
    - right. cbn [retype s_cls s_toks s_np snd fst] in *. auto.
  Qed.
  Lemma token_swap t r : one_deep uni_token t -> segs E cu t = Ok r -> exists r', segs E cn t = Ok r' /\ Forall2 top_seg r r'.
  Proof.
    assert (Top : forall x r, (exists r', x = Ok r' /\ Forall2 swap_seg r r') -> exists r' : list seg, x = Ok r' /\ Forall2 top_seg r r').
    { intros x r0 (r' & -> & R). exists r'. split; [reflexivity|apply swap_top, R]. }
    destruct t as [| |n|v| | |c s|k|k|k|k|k n]; try (intros Hu Hr; apply Top; apply simple_swap; assumption);
      cbn [one_deep segs]; intros Hk; rewrite Ht by discriminate.
    - destruct (in_types cu COneLineComment); [intros [= <-]; apply Top, same_one; reflexivity|]. rewrite bind_ok. intros (rs & Hrs & [= <-]).
      destruct (list_swap (fun _ => true) k rs) as (rs' & -> & R); [eapply Forall_impl; [|exact Hk]; auto|exact Hrs|].
      destruct (same_one COneLineComment [ph_olc_end] []) as (r' & [= <-] & R'); [reflexivity|].
      eexists. split; [reflexivity|]. apply swap_top, Forall2_app; [apply retype_swap, R|exact R'].
    - destruct (in_types cu CMultilineComment); [intros [= <-]; apply Top, same_one; reflexivity|]. rewrite bind_ok. intros (rs & Hrs & [= <-]).
      destruct (list_swap (fun _ => true) k rs) as (rs' & -> & R); [eapply Forall_impl; [|exact Hk]; auto|exact Hrs|].
      eexists. split; [reflexivity|]. apply swap_top, retype_swap, R.
    - destruct (in_types cu CStringLiteral); [intros [= <-]; apply Top, same_one; reflexivity|]. rewrite Hmax, Hbu, Hbn, Hfn.
      destruct (max_str_length cu) as [mx|]; [|discriminate].
      destruct (mx <? n)%Z; [intros [= <-]; apply Top; destruct (full_strings cu); apply same_one; reflexivity|].
      destruct (full_strings cu) eqn:Hf.
      + unfold string_text. rewrite Hne, Hne'. cbn [bind]. intros [= <-].
        set (x := tok_str E (StringLiteral k n)).
        destruct (mapM_total (fun p => replace_non_ascii_seqs p ph_non_ascii_seq) (split_on 160 x)) as (qs & Hqs).
        { intros p _. unfold replace_non_ascii_seqs. cbn. eauto. }
        rewrite Hqs. cbn [bind]. eexists. split; [reflexivity|]. constructor; [|constructor]. right. cbn [s_np s_cls s_toks].
        do 4 (split; [first [exact Hf|reflexivity]|]). exists (split_on 160 x), qs. split; [rewrite join_split; reflexivity|].
        split; [reflexivity|]. split; [apply split_on_pieces|]. clear -Hqs. revert qs Hqs. induction (split_on 160 x) as [|p ps IH]; intros qs; cbn [mapM].
        * intros [= <-]. constructor.
        * rewrite bind_ok. intros (q & Hq & H). apply bind_ok in H. destruct H as (qs' & Hqs & [= <-]). constructor; [|apply IH, Hqs].
          apply (C15_runs_collapse [247%N]); [reflexivity|exact Hq].
      + rewrite bind_ok. intros (rs & Hrs & [= <-]).
        destruct (list_swap (fun u => negb (is_space_in_string u)) k rs) as (rs' & -> & R); [|exact Hrs|].
        { eapply Forall_impl; [|exact Hk]. intros u [Hs|Hs]; [rewrite Hs; discriminate|auto]. }
        eexists. split; [reflexivity|]. apply swap_top, retype_swap, R.
  Qed.
  Lemma all_swap l r : Forall (one_deep uni_token) l -> segs_list E cu l = Ok r -> exists r', segs_list E cn l = Ok r' /\ Forall2 top_seg r r'.
  Proof.
    intros Hp. unfold segs_list. revert r. induction Hp as [|x l Hx Hp IH]; intros r; cbn [segs_list_with].
    - intros [= <-]. eexists. split; [reflexivity|constructor].
    - rewrite bind_ok. intros (a & Ha & H). apply bind_ok in H. destruct H as (rs & Hrs & [= <-]).
      destruct (token_swap x a Hx Ha) as (a' & -> & Ra). destruct (IH rs Hrs) as (rs' & Ers & Rrs). cbn [bind].
      fold (segs_list_with (fun _ => true) (segs E cn)). rewrite Ers. eexists. split; [reflexivity|apply Forall2_app; assumption].
  Qed.
End Unicode.

(** C102: With no_unicode there are the same full tokens.  Those without non-ascii characters are the same and have the same
    type; each word with a non-ascii character is replaced by <non-en>, and typed as a non-English word unless it is in a
    comment or a string; only a token that is not a word (a single character) stays although it is not ascii.  In a string
    that is written as a whole every run of non-ascii characters between two spaces is replaced by one character. *)
Theorem C102_no_unicode : forall E K G lo up o d d' b lexed l out m,
  ascii_classes K -> simple_case E K G lo up -> py_text E -> (forall c, G c -> is_ascii_char (lo c) = is_ascii_char c) ->
  splitters_same_ascii o -> unicode_and_not d d' ->
  Forall (fun tv => Forall G (snd tv) /\ (type_in (fst tv) ["Literal"; "Number"]%string = true -> is_ascii (snd tv) = true)) lexed ->
  convert_text E K lexed = Ok l -> to_repr E o d b l = Ok (out, m) ->
  exists out' m', to_repr E o d' b l = Ok (out', m') /\ nonproc m' = nonproc m /\
    List.concat (slices (wb m) out) = out /\ List.concat (slices (wb m') out') = out' /\
    length (types m) = length (slices (wb m) out) /\ length (types m') = length (slices (wb m') out') /\
    Forall2 (fun x y : cls * list str =>
        (y = x /\ (is_ascii (List.concat (snd x)) = false -> exists z, snd x = [z] /\ In z (nonproc m))) \/
        (is_ascii (List.concat (snd x)) = false /\ snd y = [lit "<non-en>"] /\ (fst y = fst x \/ fst x = CSplitContainer /\ fst y = CNonEng)) \/
        (param d SPLIT = lit "F" /\ fst x = CStringLiteral /\ fst y = CStringLiteral /\ collapsed_string (snd x) (snd y)))
      (combine (types m) (slices (wb m) out)) (combine (types m') (slices (wb m') out')).
Proof.
  intros E K G lo up o d d' b lexed l out m HK HS HT Hlo Ho (Hsp & Hcu & Hcl & Hsame) Hg Hl H.
  assert (Hb : is_bpe d = false) by (unfold is_bpe, param_in; destruct Hsp as [<-|[<-|[<-|[<-|[<-|[<-|[]]]]]]]; reflexivity).
  assert (Hb' : is_bpe d' = false) by (unfold is_bpe, param_in in *; rewrite (Hsame SPLIT) by discriminate; exact Hb).
  destruct (to_repr_segs _ _ _ _ _ _ _ H) as (cu & ss & Hcfg & Hss & -> & Hout & _ & _). specialize (Hout Hb). subst out.
  assert (C : exists cn, get_repr_config o d' b = Ok cn /\ (forall c, c <> CNonEng -> in_types cn c = in_types cu c) /\
    in_types cn CNonEng = true /\ in_types cu CNonEng = false /\ bpe cu = false /\ bpe cn = false /\
    should_lowercase cn = should_lowercase cu /\ number_splitter cn = number_splitter cu /\
    (forall v ws, number_splitter cu v = Ok ws -> List.concat ws = v) /\ full_strings cn = full_strings cu /\ full_strings cu = mem (param d SPLIT) (chars_of "F") /\
    max_str_length cn = max_str_length cu /\ word_splitter cn = word_splitter cu /\
    (forall s r, split_word cu s = Ok r -> is_ascii (List.concat r) = is_ascii s) /\ in_types cu CWord = in_types cu CSplitContainer).
  { unfold get_repr_config in Hcfg |- *. rewrite Hb in Hcfg. rewrite Hb'.
    unfold get_number_splitter, get_word_splitter in *. unfold param_in in *. rewrite (Hsame SPLIT), (Hsame STR), (Hsame CASE) by discriminate.
    apply bind_ok in Hcfg. destruct Hcfg as (ns & Hns & Hcfg). rewrite Hns. cbn [bind].
    apply bind_ok in Hcfg. destruct Hcfg as (wsp & Hwsp & Hcfg). rewrite Hwsp. cbn [bind].
    apply bind_ok in Hcfg. destruct Hcfg as (ml & Hml & [= <-]). rewrite Hml. cbn [bind].
    eexists. split; [reflexivity|]. unfold in_types, split_word.
    cbn [types_to_be_repr bpe should_lowercase number_splitter full_strings max_str_length word_splitter].
    split. { intros c Hc. rewrite !types_in. unfold param_in. destruct c; rewrite ?Hsame by discriminate; try reflexivity. congruence. }
    rewrite !types_in. unfold param_in. rewrite Hcu, Hcl.
    assert (Hn : forall v ws, ns v = Ok ws -> List.concat ws = v).
    { clear - Hns Hsp. intros v ws. destruct Hsp as [Hs|[Hs|[Hs|[Hs|[Hs|[Hs|[]]]]]]]; rewrite <- Hs in Hns; injection Hns as <-; intros [= <-];
        [apply app_nil_r|apply app_nil_r|apply app_nil_r| | |]; (induction v as [|c v IH]; [reflexivity|]; cbn; rewrite IH; reflexivity). }
    split; [reflexivity|]. split; [reflexivity|]. split; [reflexivity|]. split; [reflexivity|]. split; [reflexivity|]. split; [reflexivity|].
    split; [exact Hn|]. split; [reflexivity|]. split; [reflexivity|]. split; [reflexivity|]. split; [reflexivity|]. split.
    - destruct Ho as [O1 O2]. intros s r. destruct Hsp as [Hs|[Hs|[Hs|[Hs|[Hs|[Hs|[]]]]]]]; rewrite <- Hs in Hwsp; injection Hwsp as <-; try discriminate; intros [= <-].
      + cbn. rewrite app_nil_r. reflexivity.
      + cbn. rewrite app_nil_r. reflexivity.
      + apply O1.
      + rewrite <- (O1 s). clear - O2. induction (ronin_split o s) as [|x q IH]; [reflexivity|]. cbn [map List.concat]. rewrite !is_ascii_app, O2, IH. reflexivity.
    - reflexivity. }
  destruct C as (cn & Hcfg' & C1 & C2 & C3 & C4 & C5 & C6 & C7 & C8 & C9 & C10 & C11 & C12 & C13 & C14).
  assert (Hd : Forall (one_deep (uni_token E)) l).
  { apply (text_lift E K G (fun v => is_ascii v = true) (uni_token E) HK) with (lexed := lexed); try exact I; try assumption.
    - intros; exact I.
    - intros v Gv Av. cbn. rewrite (sc_lower _ _ _ _ _ HS _ Gv), (lo_ascii G lo Hlo v Gv). exact Av.
    - apply (uni_word E K G lo up HK HS Hlo). }
  destruct (all_swap E cu cn C1 C2 C3 C4 C5 C6 C7 C8 C9 C11 C12 C13 C14 l ss Hd Hss) as (ss' & Hs' & R).
  unfold to_repr, to_repr_cfg. rewrite Hcfg'. cbn [bind]. rewrite to_repr_list_segs, Hs', Hb'. cbn [flat_res bind].
  exists (List.concat (map s_toks ss')), (snd (flat ss')). split; [reflexivity|]. unfold flat. cbn [snd types nonproc wb]. rewrite !slices_bounds0, !map_length.
  assert (Hf : full_strings cu = true -> param d SPLIT = lit "F").
  { rewrite C10. intros Hm. apply mem_in in Hm. destruct Hm as [<-|[]]. reflexivity. }
  clear - R Hf. split; [induction R as [|x y r r' [(R2 & _)|(_ & R2 & _)] _ IH]; cbn [map List.concat]; congruence|].
  do 4 (split; [reflexivity|]).
  assert (Sub : forall y, In y (List.concat (map s_np ss)) -> In y (List.concat (map s_np ss))) by auto.
  revert Sub. generalize (List.concat (map s_np ss)) at 2 3. intros np Sub.
  induction R as [|x y r r' R3 _ IH]; cbn [map combine]; constructor.
  - destruct R3 as [(_ & [[R3 R4]|R3])|(Ft & _ & R3)]; [|right; left; exact R3|right; right; split; [exact (Hf Ft)|exact R3]].
    left. split; [exact R3|]. intros Hx. destruct (R4 Hx) as (z & Hz & Hi). exists z. split; [exact Hz|].
    apply Sub. cbn [map List.concat]. apply in_or_app. left. exact Hi.
  - apply IH. intros z Hz. apply Sub. cbn [map List.concat]. apply in_or_app. right. exact Hz.
Qed.
Print Assumptions C102_no_unicode.

(** the options: no_unicode with and without, all other options the same *)
Theorem C102_options : forall sn ronin st no_spaces no_case no_com no_str mx full,
  (exists d d',
    basic_config sn ronin st no_spaces false no_case no_com no_str mx = Ok d /\
    basic_config sn ronin st no_spaces true no_case no_com no_str mx = Ok d' /\ unicode_and_not d d') /\
  (exists d d',
    nosplit_config no_spaces false no_com no_str full mx = Ok d /\
    nosplit_config no_spaces true no_com no_str full mx = Ok d' /\ unicode_and_not d d').
Proof.
  intros. unfold basic_config, nosplit_config, create_prep_config. pose proof (str_value_known no_str mx) as Hst.
  generalize dependent (create_str_value no_str mx). intros sv Hst.
  assert (C : forall (no_unicode nc : bool) (sp : str) (d : params),
    In sp [lit "0"; lit "F"; lit "1"; lit "2"; lit "3"; lit "s"] -> nc && mem sp [lit "0"; lit "F"] = false ->
    d = [(EN_ONLY, if no_unicode then lit "U" else lit "u"); (COM, if no_com then lit "0" else lit "c"); (STR, sv); (SPLIT, sp);
         (TABS_NEWLINES, if no_spaces then lit "0" else lit "s"); (CASE, if nc then lit "l" else lit "u")] ->
    mk_prep_config d = Ok d).
  { intros nu nc sp d Hin Hnc ->. unfold mk_prep_config, check_invariants. cbn [length Nat.eqb negb].
    replace (check_values _ _) with (if mem sv possible_str_values then Ok tt else Err ValueError)
      by (destruct Hin as [<-|[<-|[<-|[<-|[<-|[<-|[]]]]]]]; destruct nu, no_com, no_spaces, nc; reflexivity).
    rewrite Hst. destruct Hin as [<-|[<-|[<-|[<-|[<-|[<-|[]]]]]]]; destruct nc; try reflexivity; discriminate. }
  split.
  - set (sp := create_split_value StBasic None false sn ronin st).
    assert (Hin : In sp [lit "0"; lit "F"; lit "1"; lit "2"; lit "3"; lit "s"]) by (unfold sp; destruct st, ronin, sn; cbn; auto 8).
    assert (Hn : no_case && mem sp [lit "0"; lit "F"] = false) by (unfold sp; destruct st, ronin, sn, no_case; reflexivity).
    do 2 eexists. split; [eapply (C false _ _ _ Hin Hn); reflexivity|]. split; [eapply (C true _ _ _ Hin Hn); reflexivity|].
    split; [exact Hin|]. split; [reflexivity|]. split; [reflexivity|]. intros p Hp. destruct p; try reflexivity. congruence.
  - set (sp := create_split_value StNosplit None full false false false).
    assert (Hin : In sp [lit "0"; lit "F"; lit "1"; lit "2"; lit "3"; lit "s"]) by (unfold sp; destruct full; cbn; auto 8).
    assert (Hn : false && mem sp [lit "0"; lit "F"] = false) by reflexivity.
    do 2 eexists. split; [eapply (C false _ _ _ Hin Hn); reflexivity|]. split; [eapply (C true _ _ _ Hin Hn); reflexivity|].
    split; [exact Hin|]. split; [reflexivity|]. split; [reflexivity|]. intros p Hp. destruct p; try reflexivity. congruence.
Qed.
Print Assumptions C102_options.

(** ** A concrete case *)
(** every character that is not ascii is a letter without case *)
Definition letters_K : charclass :=
  {| is_w := fun c => ascii_word_ch c || (192 <=? c)%N; is_up := ascii_upper_ch; is_low := ascii_lower_ch; is_blank := is_blank ascii_K |}.
Lemma letters_simple : simple_case ascii_case letters_K (fun _ => True) ascii_to_lower ascii_to_upper /\
  ascii_classes letters_K /\ (forall c, is_ascii_char (ascii_to_lower c) = is_ascii_char c) /\ splitters_same_ascii no_splitters.
Proof.
  split; [|split; [|split]].
  - constructor; try reflexivity; try (intros; exact I).
    + intros c _. repeat split.
    + intros c _ Hu. change (is_up letters_K c) with (ascii_upper_ch c) in Hu. split; [apply to_lower_of_upper, Hu|].
      unfold ascii_to_lower, ascii_to_upper. rewrite Hu. unfold ascii_upper_ch in Hu. apply andb_true_iff in Hu. destruct Hu as [H1 H2].
      apply N.leb_le in H1, H2. unfold ascii_lower_ch. replace (97 <=? c + 32)%N with true by (symmetry; apply N.leb_le; lia).
      replace (c + 32 <=? 122)%N with true by (symmetry; apply N.leb_le; lia). cbn [andb]. lia.
    + intros c _ Hl. change (is_low letters_K c) with (ascii_lower_ch c) in Hl. change (is_up letters_K c) with (ascii_upper_ch c).
      assert (Hu : ascii_upper_ch c = false).
      { unfold ascii_lower_ch in Hl. unfold ascii_upper_ch. apply andb_true_iff in Hl. destruct Hl as [H1 _]. apply N.leb_le in H1.
        apply andb_false_iff. right. apply N.leb_gt. lia. }
      split; [unfold ascii_to_lower; rewrite Hu; reflexivity|exact Hu].
  - intros c Hc. split; [|split; reflexivity]. cbn [is_w letters_K]. replace (192 <=? c)%N with false by (symmetry; apply N.leb_gt; lia). apply orb_false_r.
  - intros c. unfold ascii_to_lower. destruct (ascii_upper_ch c) eqn:Hu; [|reflexivity]. unfold ascii_upper_ch in Hu.
    apply andb_true_iff in Hu. destruct Hu as [_ H2]. apply N.leb_le in H2. unfold is_ascii_char.
    transitivity true; [apply N.ltb_lt; lia|symmetry; apply N.ltb_lt; lia].
  - split; intros s; cbn; rewrite ?app_nil_r; reflexivity.
Qed.

(** größe = "é xy" # naïve § *)
Example C102_example :
  let lexed := [(["Name"%string], lit "gr" ++ [246; 223]%N ++ lit "e"); (["Text"%string], lit " "); (["Operator"%string], lit "=");
                (["Text"%string], lit " "); (["Literal"; "String"]%string, [34; 233; 32; 120; 121; 34]%N); (["Text"%string], lit " ");
                (["Comment"; "Single"]%string, lit "# na" ++ [239]%N ++ lit "ve " ++ [167]%N)] in
  match convert_text ascii_case letters_K lexed with
  | Ok l =>
      match to_repr ascii_case no_splitters (combine prep_params (chars_of "uc11su")) None l,
            to_repr ascii_case no_splitters (combine prep_params (chars_of "Uc11su")) None l,
            to_repr ascii_case no_splitters (combine prep_params (chars_of "uc1Fsu")) None l,
            to_repr ascii_case no_splitters (combine prep_params (chars_of "Uc1Fsu")) None l with
      | Ok (a, m), Ok (b, m'), Ok (f, n), Ok (g, n') =>
          slices (wb m) a = [[lit "<w>"; lit "gr"; [246%N]; [223%N]; lit "e"; lit "</w>"]; [lit "="]; [[34%N]]; [[233%N]]; [lit "xy"]; [[34%N]]; [lit "#"];
                             [lit "<w>"; lit "na"; [239%N]; lit "ve"; lit "</w>"]; [[167%N]]; [lit "<EOL>"]] /\
          slices (wb m') b = [[lit "<non-en>"]; [lit "="]; [[34%N]]; [lit "<non-en>"]; [lit "xy"]; [[34%N]]; [lit "#"];
                             [lit "<non-en>"]; [[167%N]]; [lit "<EOL>"]] /\
          nth_error (slices (wb n) f) 2 = Some [[34; 233; 160; 120; 121; 34]%N] /\
          nth_error (slices (wb n') g) 2 = Some [[34; 247; 160; 120; 121; 34]%N]
      | _, _, _, _ => False
      end
  | Err _ => False
  end.
Proof. vm_compute. repeat split. Qed.
