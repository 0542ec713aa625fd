(** * C101: no_case *)
From Coq Require Import List NArith ZArith Bool String Lia.
From Verif Require Import M_Base L_Base M_Tokens M_Literal L_Literal M_Repr M_Merge M_BpeEncode M_PrepConfig P_PrepConfig
  L_Repr P_Repr L_Word P_ReprOptions L_Merge P_ReprStrings M_Regex M_Parse L_Regex P_Parse P_ParseRepr P_Split M_Stem P_Stem.
Import ListNotations.
Local Open Scope list_scope.

(** two configurations that differ in no_case only, without ronin and stemming *)
Definition case_and_no_case (d d' : params) : Prop :=
  In (param d SPLIT) [lit "1"; lit "2"] /\ param d CASE = lit "u" /\ param d' CASE = lit "l" /\
  forall p, p <> CASE -> param d' p = param d p.

Definition no_upper (K : charclass) (x : str) : Prop := Forall (fun c => is_up K c = false) x.

(** how a part is written with no_case: all letters in upper case, the first one, or neither *)
Definition recase (K : charclass) (lo : N -> N) (x : str) : list str :=
  if negb (existsb (is_up K) x) then [x]
  else if negb (existsb (is_low K) x) then [lit "<CAPS>"; map lo x]
  else match x with
       | c :: rest => if is_up K c then [lit "<Cap>"; lo c :: rest] else [x]
       | [] => [x]
       end.

(** the marks, and tokens that are not words *)
Definition case_kept (m : meta) (x : str) : Prop := x = lit "<EOL>" \/ In x (nonproc m).

Section Cases.
  Variables (E : pycase) (K : charclass) (G : N -> Prop) (lo up : N -> N).
  Hypothesis HK : ascii_classes K.
  Hypothesis HS : simple_case E K G lo up.
  Hypothesis HT : py_text E.
  (** characters that are not in upper case stay *)
  Hypothesis Hlo : forall c, G c -> is_up K c = false -> lo c = c.

  Lemma existsb_no_upper x : existsb (is_up K) x = false <-> no_upper K x.
  Proof.
    unfold no_upper. induction x as [|c x IH]; cbn [existsb]; [split; [constructor|reflexivity]|].
    rewrite orb_false_iff, IH. split; [intros [H1 H2]; constructor; assumption|]. intros H. inversion H; subst. auto.
  Qed.
  Lemma recase_id x : no_upper K x -> recase K lo x = [x].
  Proof. intros H. unfold recase. apply existsb_no_upper in H. rewrite H. reflexivity. Qed.
  Lemma ascii_no_upper x : Forall (fun c => (c < 128)%N /\ ascii_upper_ch c = false) x -> no_upper K x.
  Proof. intros H. eapply Forall_impl; [|exact H]. intros c [H1 H2]. destruct (HK c H1) as (_ & -> & _). exact H2. Qed.
  Ltac ascii_text := apply ascii_no_upper; repeat constructor.

  Lemma lower_no_upper x : Forall G x -> no_upper K (map lo x).
  Proof.
    intros H. apply Forall_map. eapply Forall_impl; [|exact H]. intros c Hc. destruct (is_up K c) eqn:U.
    - destruct (sc_up _ _ _ _ _ HS c Hc U) as [L _]. apply (sc_low _ _ _ _ _ HS (lo c)); [apply (sc_closed _ _ _ _ _ HS), Hc|exact L].
    - rewrite (Hlo c Hc U). exact U.
  Qed.

  (** a subtoken that was made of a part: the part is written again if the case is kept; what is written without it *)
  Definition case_sub (s : subtoken) : Prop :=
    exists p, subtoken_str E s = p /\ p <> [] /\ no_lt p /\
      (match s with Underscore => [s_underscore] | Word w c => with_capitalization_prefixes c [w] end) = recase K lo p /\
      Forall (fun x => x = lit "<CAPS>" \/ x = lit "<Cap>" \/ no_upper K x) (recase K lo p).

  Lemma part_recase p s : Forall G p -> word_from E p = Ok s -> exists w c, s = Word w c /\ with_capitalization_prefixes c [w] = recase K lo p.
  Proof.
    intros Hg H. destruct p as [|a p]; [discriminate|]. unfold word_from, mk_word in H. unfold recase.
    rewrite (islower_G E K G lo up HS _ Hg), (isupper_G E K G lo up HS _ Hg) in H. inversion Hg as [|? ? Ha Hp]; subst.
    assert (Ga : Forall G [a]) by (constructor; [exact Ha|constructor]).
    rewrite (isupper_G E K G lo up HS _ Ga), (sc_lower _ _ _ _ _ HS _ Hg), (sc_lower _ _ _ _ _ HS _ Ga) in H.
    assert (Hal : is_up K a = true -> is_low K a = false).
    { intros U. destruct (is_low K a) eqn:L; [|reflexivity]. rewrite (proj2 (sc_low _ _ _ _ _ HS a Ha L)) in U. discriminate. }
    assert (Hne : existsb (is_up K) (a :: p) = false -> is_up K a = false).
    { cbn [existsb]. intros X. apply orb_false_iff in X. apply X. }
    assert (Hone : existsb (is_up K) [a] = is_up K a /\ existsb (is_low K) [a] = is_low K a) by (cbn; rewrite !orb_false_r; auto).
    destruct Hone as [O1 O2]. rewrite O1, O2 in H.
    destruct (existsb (is_up K) (a :: p)) eqn:U, (existsb (is_low K) (a :: p)) eqn:L; cbn [negb andb] in *.
    - destruct (is_up K a) eqn:Ua.
      + rewrite (Hal eq_refl) in H. cbn [negb andb] in H. destruct (canonic_ok E _) in H; [|discriminate]. injection H as <-.
        do 2 eexists. split; reflexivity.
      + rewrite andb_false_r in H. destruct (canonic_ok E _) in H; [|discriminate]. injection H as <-. do 2 eexists. split; reflexivity.
    - destruct (canonic_ok E _) in H; [|discriminate]. injection H as <-. do 2 eexists. split; reflexivity.
    - destruct (canonic_ok E _) in H; [|discriminate]. injection H as <-. do 2 eexists. split; reflexivity.
    - rewrite (Hne eq_refl), andb_false_r in H. destruct (canonic_ok E _) in H; [|discriminate]. injection H as <-. do 2 eexists. split; reflexivity.
  Qed.

  Lemma digit_uncased c : is_digit c = true -> is_low K c = false /\ is_up K c = false.
  Proof.
    intros H. assert (R : (48 <= c <= 57)%N).
    { unfold is_digit in H. apply andb_true_iff in H. destruct H as [H1 H2]. apply N.leb_le in H1, H2. lia. }
    destruct (HK c) as (_ & -> & ->); [lia|]. unfold ascii_upper_ch, ascii_lower_ch.
    split; apply andb_false_iff; left; apply N.leb_gt; lia.
  Qed.

  (** the parts of an identifier have their upper-case letters in front, or nothing else *)
  Lemma part_lowered p t : Forall G p -> part_ok K p t ->
    Forall (fun x => x = lit "<CAPS>" \/ x = lit "<Cap>" \/ no_upper K x) (recase K lo p).
  Proof.
    intros Hg Hp. unfold recase. destruct (existsb (is_up K) p) eqn:U; cbn [negb].
    2: { constructor; [|constructor]. right. right. apply existsb_no_upper, U. }
    destruct (existsb (is_low K) p) eqn:L; cbn [negb].
    2: { constructor; [auto|]. constructor; [|constructor]. right. right. apply lower_no_upper, Hg. }
    destruct Hp as [->|[Hn Hd] _|cap w -> Hcap Hw Hlow _|Hn Hup _ _|c -> H1 H2 H3 H4].
    - exfalso. cbn in U. destruct (HK 95%N eq_refl) as (_ & X & _). rewrite X in U. discriminate.
    - exfalso. apply existsb_exists in U. destruct U as (c & Hc & U). rewrite forallb_forall in Hd.
      rewrite (proj2 (digit_uncased c (Hd c Hc))) in U. discriminate.
    - apply Forall_app in Hg. destruct Hg as [Hgc Hgw].
      pose proof (all_low_no_up E K G lo up HS w Hgw Hlow) as Nw. apply existsb_no_upper in Nw.
      destruct Hcap as [->|(c & -> & Hc)]; cbn [app] in *.
      + exfalso. apply existsb_no_upper in Nw. congruence.
      + rewrite Hc. constructor; [auto|]. constructor; [|constructor]. right. right. constructor; [|exact Nw].
        inversion Hgc as [|? ? Gc _]; subst. destruct (sc_up _ _ _ _ _ HS c Gc Hc) as [X _].
        apply (sc_low _ _ _ _ _ HS (lo c)); [apply (sc_closed _ _ _ _ _ HS), Gc|exact X].
    - exfalso. rewrite (all_up_no_low E K G lo up HS p Hg Hup) in L. discriminate.
    - exfalso. cbn in U. rewrite H4 in U. discriminate.
  Qed.

  Lemma part_case p s t : Forall G p -> p <> [] -> no_lt p -> part_ok K p t -> p <> lit "_" -> word_from E p = Ok s -> case_sub s.
  Proof.
    intros Hg Hne Hlt Hp Hu Hs. exists p.
    destruct (part_stable E K G lo up HS (fun c _ => digit_uncased c) p t Hg Hp Hu) as (wd & Hw & Hstr). rewrite Hs in Hw. injection Hw as <-.
    split; [exact Hstr|]. split; [exact Hne|]. split; [exact Hlt|].
    destruct (part_recase p s Hg Hs) as (w & c & -> & Hr). split; [exact Hr|]. exact (part_lowered p t Hg Hp).
  Qed.
  Lemma underscore_case : case_sub Underscore.
  Proof.
    assert (X : no_upper K (lit "_")) by ascii_text.
    exists (lit "_"). split; [reflexivity|]. split; [discriminate|]. split; [intros [H|[]]; discriminate H|]. rewrite (recase_id _ X).
    split; [reflexivity|]. constructor; [auto|constructor].
  Qed.

  (** *** Tokens *)
  Definition case_token (t : token) : Prop :=
    match t with
    | Number v => no_upper K v
    | SplitContainer k | NonEng k => Forall case_sub k
    | _ => True
    end.

  Lemma word_case w t : Forall G w -> no_lt w -> word_token E K w t -> case_token t.
  Proof.
    intros Hg Hw [Hn|parts subs _ <- Hp Hok HF].
    - cbn. rewrite (sc_lower _ _ _ _ _ HS _ Hg). apply lower_no_upper, Hg.
    - assert (Hs : Forall case_sub subs).
      { revert Hg Hw Hok. induction HF as [|p s ps ss Hx HF IH]; intros Hg Hw Hok; [constructor|]. cbn [List.concat parts_ok] in *.
        inversion Hp; subst. apply Forall_app in Hg. destruct Hg as [G1 G2]. destruct Hok as [O1 O2]. unfold no_lt in Hw. rewrite in_app_iff in Hw.
        constructor; [|apply IH; [assumption|exact G2|unfold no_lt; tauto|exact O2]].
        destruct Hx as [[_ ->]|[Hu Hx]]; [exact underscore_case|].
        apply (part_case p s (List.concat ps) G1); [assumption|unfold no_lt; tauto|exact O1|exact Hu|exact Hx]. }
      destruct (is_ascii (List.concat parts)); exact Hs.
  Qed.

  Lemma pieces_case sp (s : str) ps tss :
    (forall n, Forall case_token (sp n)) -> Forall G s -> pieces K s ps ->
    Forall2 (piece_tokens E K sp) ps tss -> Forall case_token (List.concat tss).
  Proof.
    intros Hsp Hg (-> & Hok & _) HF. revert Hg Hok. induction HF as [|p ts ps tss Hp HF IH]; intros Hg Hok; [constructor|].
    inversion Hok as [|? ? Hq Hqs]; subst. cbn [map List.concat] in Hg |- *. apply Forall_app in Hg. destruct Hg as [Hg1 Hg2].
    apply Forall_app. split; [|apply IH; assumption].
    destruct p as [w|c|n]; cbn [piece_tokens piece_ok piece_text] in *.
    - destruct Hp as (t & -> & Hw). constructor; [|constructor]. apply (word_case w); [exact Hg1|apply (word_no_lt K HK), Hq|exact Hw].
    - subst ts. constructor; [|constructor]. unfold char_token. destruct (N.eqb c 10); [exact I|]. destruct (N.eqb c 9); exact I.
    - subst ts. apply Hsp.
  Qed.
  Lemma words_case s toks : Forall G s -> split_into_words E K s = Ok toks -> Forall case_token toks.
  Proof.
    intros Hg H. destruct (C13_words E K s toks HK H) as (ps & tss & Hp & HF & ->).
    eapply pieces_case; [|exact Hg|exact Hp|exact HF].
    intros n. apply Forall_forall. intros t Ht. apply repeat_spec in Ht. subst t. exact I.
  Qed.
  Lemma string_case s toks : Forall G s -> split_string E K s = Ok toks -> Forall case_token toks.
  Proof.
    intros Hg H. destruct (C13_string E K s toks HK H) as (ps & tss & Hp & HF & ->).
    eapply pieces_case; [|exact Hg|exact Hp|exact HF]. intros n. constructor; [exact I|constructor].
  Qed.

  Definition deep (t : token) : Prop := Forall case_token (subterms t).
  Lemma convert_case t (v : str) toks : Forall G v -> convert E K t v = Ok toks -> Forall deep toks.
  Proof.
    intros Hg. unfold convert.
    assert (Hone : forall u, case_token u -> subterms u = [u] -> Forall deep [u]).
    { intros u H1 H2. constructor; [|constructor]. unfold deep. rewrite H2. constructor; [exact H1|constructor]. }
    assert (Hw : forall toks, split_into_words E K v = Ok toks -> Forall deep toks).
    { intros ts H. pose proof (words_simple E K HK HT v ts H) as H1. pose proof (words_case v ts Hg H) as H2.
      rewrite Forall_forall in *. intros x Hx. unfold deep. rewrite (simple_subterms E x (H1 x Hx)).
      constructor; [apply H2, Hx|constructor]. }
    destruct (eqb v s_nl); [intros [= <-]; apply Hone; [exact I|reflexivity]|]. destruct (eqb v s_tab); [intros [= <-]; apply Hone; [exact I|reflexivity]|].
    destruct (blank K v).
    { intros [= <-]. apply Forall_forall. intros x Hx. apply repeat_spec in Hx. subst x. constructor; [exact I|constructor]. }
    destruct (type_is t ["Operator"%string] || type_in t ["Punctuation"%string]).
    { intros [= <-]. unfold operator_token. repeat destruct (eqb v _); (apply Hone; [exact I|reflexivity]). }
    destruct (type_in t ["Literal"; "Number"]%string).
    { intros [= <-]. unfold number_token. destruct (eqb v _); [apply Hone; [exact I|reflexivity]|]. destruct (eqb v _); [apply Hone; [exact I|reflexivity]|].
      apply Hone; [|reflexivity]. cbn. rewrite (sc_lower _ _ _ _ _ HS _ Hg). apply lower_no_upper, Hg. }
    destruct (type_in t ["Name"%string]); [apply Hw|]. destruct (type_is t _ || type_is t _); [apply Hw|].
    destruct (type_in t ["Keyword"%string]); [intros [= <-]; apply Hone; [exact I|reflexivity]|].
    destruct (type_in t ["Literal"; "String"]%string).
    { rewrite bind_ok. intros (l & Hl & [= <-]). constructor; [|constructor]. constructor; [exact I|].
      apply (simple_all E); [eapply (string_simple E K HK HT), Hl|eapply string_case; eassumption]. }
    destruct (type_is t ["Comment"; "Single"]%string).
    { rewrite bind_ok. intros (l & Hl & [= <-]). constructor; [|constructor]. constructor; [exact I|].
      apply (simple_all E); [eapply (words_simple E K HK HT), Hl|eapply words_case; eassumption]. }
    destruct (type_in t ["Comment"%string]); [|apply Hw].
    rewrite bind_ok. intros (l & Hl & [= <-]). constructor; [|constructor]. constructor; [exact I|].
    apply (simple_all E); [eapply (words_simple E K HK HT), Hl|eapply words_case; eassumption].
  Qed.
  Lemma text_case lexed l : Forall (fun tv => Forall G (snd tv)) lexed -> convert_text E K lexed = Ok l -> Forall deep l.
  Proof.
    intros HA. revert l. induction HA as [|[t v] rest H1 HA IH]; intros l; cbn [convert_text].
    - intros [= <-]. constructor.
    - rewrite bind_ok. intros (a & Ha & Hl). apply bind_ok in Hl. destruct Hl as (r & Hr & [= <-]).
      apply Forall_app. split; [exact (convert_case t v a H1 Ha)|apply IH, Hr].
  Qed.

  (** *** Representations *)
  Variables (cu cl : repr_config).
  Hypothesis Hspace : is_up K 160 = false.
  Hypothesis Ht : types_to_be_repr cl = types_to_be_repr cu.
  Hypothesis Hbu : bpe cu = false.
  Hypothesis Hbl : bpe cl = false.
  Hypothesis Hlu : should_lowercase cu = false.
  Hypothesis Hll : should_lowercase cl = true.
  Hypothesis Hnum : number_splitter cl = number_splitter cu.
  Hypothesis Hnum' : forall v ws, number_splitter cu v = Ok ws -> List.concat ws = v.
  Hypothesis Hfu : full_strings cu = false.
  Hypothesis Hfl : full_strings cl = false.
  Hypothesis Hmax : max_str_length cl = max_str_length cu.
  Hypothesis Hwu : word_splitter cu = Some (fun s => Ok [s]).
  Hypothesis Hwl : word_splitter cl = Some (fun s => Ok [s]).
  Hypothesis Hsc : in_types cu CSplitContainer = true.
  Hypothesis Hwd : in_types cu CWord = true.

  Definition lowered (x : str) : Prop := x = lit "<CAPS>" \/ x = lit "<Cap>" \/ no_upper K x.
  Definition recased (np : list str) (g g' : list str) : Prop :=
    (g' = flat_map (recase K lo) g /\ Forall lowered g') \/ (g' = g /\ exists x, g = [x] /\ (x = lit "<EOL>" \/ In x np)).
  Definition alike (x y : seg) : Prop := s_cls y = s_cls x /\ s_np y = s_np x /\ recased (s_np x) (s_toks x) (s_toks y).

  Lemma in_types_eq c : in_types cl c = in_types cu c.
  Proof. unfold in_types. rewrite Ht. reflexivity. Qed.
  Lemma recased_id np g : Forall (no_upper K) g -> recased np g g.
  Proof.
    intros H. left. split.
    - induction H as [|x g Hx _ IH]; [reflexivity|]. cbn [flat_map]. rewrite (recase_id x Hx), <- IH. reflexivity.
    - eapply Forall_impl; [|exact H]. intros x Hx. right. right. exact Hx.
  Qed.
  Lemma same_seg c toks np : Forall (no_upper K) toks -> Forall2 alike (one_seg c toks np) (one_seg c toks np).
  Proof. intros H. constructor; [|constructor]. split; [reflexivity|]. split; [reflexivity|]. apply recased_id, H. Qed.
  Lemma kept_seg c x np : x = lit "<EOL>" \/ In x np -> Forall2 alike (one_seg c [x] np) (one_seg c [x] np).
  Proof. intros H. constructor; [|constructor]. split; [reflexivity|]. split; [reflexivity|]. right. split; [reflexivity|]. exists x. split; [reflexivity|exact H]. Qed.

  Lemma subs_case k r : Forall case_sub k -> torepr_subs E cu k = Ok r ->
    r = map (subtoken_str E) k /\ Forall no_lt r /\
    torepr_subs E cl k = Ok (flat_map (recase K lo) r) /\ Forall lowered (flat_map (recase K lo) r).
  Proof.
    intros Hk. revert r. induction Hk as [|s k (p & H1 & H2 & H3 & H4 & H5) Hk IH]; intros r; cbn [torepr_subs].
    - intros [= <-]. repeat split; constructor.
    - rewrite bind_ok. intros (a & Ha & H). apply bind_ok in H. destruct H as (rs & Hrs & [= <-]).
      destruct (IH rs Hrs) as (I1 & I2 & I3 & I4).
      assert (Hs : a = [p] /\ torepr_sub E cl s = Ok (recase K lo p)).
      { destruct s as [|w c]; cbn [torepr_sub subtoken_str] in *.
        - injection Ha as <-. rewrite <- H4, <- H1. auto.
        - rewrite Hwd, Hlu in Ha. rewrite in_types_eq, Hwd, Hll. unfold split_word in *. rewrite Hwu in Ha. rewrite Hwl. cbn [bind].
          injection Ha as <-. rewrite H1, H4. auto. }
      destruct Hs as [-> ->]. rewrite I3. cbn [bind app map flat_map]. rewrite H1, <- I1.
      split; [reflexivity|]. split; [constructor; assumption|]. split; [reflexivity|]. apply Forall_app. auto.
  Qed.

  Lemma recase_cases x : recase K lo x = [x] \/ exists m y, recase K lo x = [m; y] /\ (m = lit "<CAPS>" \/ m = lit "<Cap>").
  Proof.
    unfold recase. destruct (negb _); [auto|]. destruct (negb _); [right; eauto|]. destruct x as [|c x]; [auto|]. destruct (is_up K c); [right; eauto|auto].
  Qed.
  Lemma wrap_case np r : Forall no_lt r -> Forall lowered (flat_map (recase K lo) r) ->
    recased np (wrap_in_word_boundaries_if_necessary r) (wrap_in_word_boundaries_if_necessary (flat_map (recase K lo) r)).
  Proof.
    intros Hr Hl. left.
    assert (N1 : no_upper K ph_word_start) by ascii_text. assert (N2 : no_upper K ph_word_end) by ascii_text.
    assert (W : flat_map (recase K lo) ([ph_word_start] ++ r ++ [ph_word_end]) = [ph_word_start] ++ flat_map (recase K lo) r ++ [ph_word_end]).
    { rewrite !flat_map_app. cbn [flat_map]. rewrite (recase_id _ N1), (recase_id _ N2). reflexivity. }
    assert (F : Forall lowered ([ph_word_start] ++ flat_map (recase K lo) r ++ [ph_word_end])).
    { repeat (apply Forall_app; split); [constructor; [|constructor]| exact Hl |constructor; [|constructor]]; right; right; assumption. }
    destruct Hr as [|a r Ha Hr]; [split; [symmetry; exact W|exact F]|]. destruct Hr as [|b r Hb Hr].
    - cbn [flat_map wrap_in_word_boundaries_if_necessary]. cbn [flat_map] in Hl. rewrite app_nil_r in *.
      destruct (recase_cases a) as [Ea|(m & y & Ea & Hm)]; rewrite Ea in *; cbn [wrap_in_word_boundaries_if_necessary]; [auto|].
      assert (X : eqb m ph_capitals || eqb m ph_capital = true) by (destruct Hm as [-> | ->]; reflexivity). rewrite X. auto.
    - assert (X : wrap_in_word_boundaries_if_necessary (a :: b :: r) = [ph_word_start] ++ (a :: b :: r) ++ [ph_word_end]).
      { cbn [wrap_in_word_boundaries_if_necessary]. destruct r; [|reflexivity]. rewrite (not_case a Ha). reflexivity. }
      rewrite X, W.
      assert (Y : wrap_in_word_boundaries_if_necessary (flat_map (recase K lo) (a :: b :: r)) =
                  [ph_word_start] ++ flat_map (recase K lo) (a :: b :: r) ++ [ph_word_end]).
      { cbn [flat_map]. destruct (recase_cases a) as [Ea|(m & y & Ea & _)], (recase_cases b) as [Eb|(m' & y' & Eb & _)]; rewrite Ea, Eb; cbn [app];
          try reflexivity. destruct (flat_map (recase K lo) r); [|reflexivity]. cbn [wrap_in_word_boundaries_if_necessary]. rewrite (not_case a Ha). reflexivity. }
      rewrite Y. split; [reflexivity|exact F].
  Qed.
  Lemma split_case k r : Forall case_sub k -> segs_split E cu k = Ok r -> exists r', segs_split E cl k = Ok r' /\ Forall2 alike r r'.
  Proof.
    intros Hk. unfold segs_split. rewrite in_types_eq, Hsc, Hbu, Hbl, bind_ok. intros (ws & Hw & [= <-]).
    destruct (subs_case k ws Hk Hw) as (_ & H2 & -> & H4). eexists. split; [reflexivity|]. constructor; [|constructor].
    split; [reflexivity|]. split; [reflexivity|]. apply wrap_case; assumption.
  Qed.
  Lemma retype_case c r r' : Forall2 alike r r' -> Forall2 alike (map (retype c) r) (map (retype c) r').
  Proof. induction 1 as [|x y r r' (H1 & H2 & H3) _ IH]; constructor; [|exact IH]. split; [reflexivity|]. split; assumption. Qed.

  Lemma segs_case t r : deep t -> segs E cu t = Ok r -> exists r', segs E cl t = Ok r' /\ Forall2 alike r r'.
  Proof.
    unfold deep.
    assert (Same : forall c toks np, Forall (no_upper K) toks -> exists r', Ok (one_seg c toks np) = Ok r' /\ Forall2 alike (one_seg c toks np) r').
    { intros c toks np H. eexists. split; [reflexivity|apply same_seg, H]. }
    assert (Hlist : forall keep l r,
      Forall (fun t => forall r, Forall case_token (subterms t) -> segs E cu t = Ok r -> exists r', segs E cl t = Ok r' /\ Forall2 alike r r') l ->
      Forall case_token (List.concat (map subterms l)) ->
      segs_list_with keep (segs E cu) l = Ok r -> exists r', segs_list_with keep (segs E cl) l = Ok r' /\ Forall2 alike r r').
    { intros keep l. induction l as [|x l IH]; intros r0 Hf Hp; cbn [segs_list_with].
      - intros [= <-]. eexists. split; [reflexivity|constructor].
      - cbn [map List.concat] in Hp. apply Forall_app in Hp. destruct Hp as [Hx Hp]. inversion Hf as [|? ? Fx Fl]; subst.
        destruct (keep x); [|intros H; apply (IH r0 Fl Hp H)].
        rewrite bind_ok. intros (a & Ha & H). apply bind_ok in H. destruct H as (rs & Hrs & [= <-]).
        destruct (Fx a Hx Ha) as (a' & -> & Ra). destruct (IH rs Fl Hp Hrs) as (rs' & Ers & Rrs). cbn [bind].
        fold (segs_list_with keep (segs E cl)). rewrite Ers. eexists. split; [reflexivity|apply Forall2_app; assumption]. }
    assert (Kept : forall c x np, x = lit "<EOL>" \/ In x np -> exists r', Ok (one_seg c [x] np) = Ok r' /\ Forall2 alike (one_seg c [x] np) r').
    { intros c x np H. eexists. split; [reflexivity|apply kept_seg, H]. }
    assert (None' : exists r' : list seg, Ok [] = Ok r' /\ Forall2 alike [] r') by (eexists; split; [reflexivity|constructor]).
    revert r. induction t using token_nested_ind; intros r Hm; cbn [segs]; cbn [subterms] in Hm;
      apply Forall_cons_iff in Hm; destruct Hm as [Hp Hm]; cbn [case_token] in Hp; rewrite ?in_types_eq.
    - destruct (in_types cu CNewLine); intros [= <-]; [exact None'|apply Kept; right; left; reflexivity].
    - destruct (in_types cu CTab); intros [= <-]; [exact None'|apply Kept; right; left; reflexivity].
    - intros [= <-]. apply Same. constructor; [|constructor]. apply Forall_concat, Forall_forall. intros x Hx. apply repeat_spec in Hx. subst x.
      constructor; [exact Hspace|constructor].
    - rewrite Hnum, Hbl, Hbu. destruct (in_types cu CNumber).
      + rewrite bind_ok. intros (ws & Hws & [= <-]). rewrite Hws. cbn [bind]. apply Same.
        pose proof (Hnum' _ _ Hws) as Hc. assert (Fw : Forall (no_upper K) ws).
        { clear - Hc Hp. subst. unfold no_upper in *. induction ws as [|w ws IH]; [constructor|]. cbn [List.concat] in Hp.
          apply Forall_app in Hp. constructor; [apply Hp|apply IH, Hp]. }
        destruct (1 <? length ws)%nat; cbn [andb negb]; [|exact Fw]. constructor; [ascii_text|]. apply Forall_app. split; [exact Fw|constructor; [ascii_text|constructor]].
      + intros [= <-]. apply Same. constructor; [exact Hp|constructor].
    - intros [= <-]. apply Same. constructor; [ascii_text|constructor].
    - intros [= <-]. apply Same. constructor; [ascii_text|constructor].
    - intros [= <-]. apply Kept. right. left. reflexivity.
    - apply split_case, Hp.
    - rewrite Hbu, Hbl. destruct (in_types cu CNonEng); [intros [= <-]; apply Same; constructor; [ascii_text|constructor]|apply split_case, Hp].
    - destruct (in_types cu COneLineComment); [intros [= <-]; apply Same; constructor; [ascii_text|constructor]|].
      rewrite bind_ok. intros (rs & Hrs & [= <-]). destruct (Hlist _ _ _ H Hm Hrs) as (rs' & -> & R).
      eexists. split; [reflexivity|]. apply Forall2_app; [apply retype_case, R|apply kept_seg; left; reflexivity].
    - destruct (in_types cu CMultilineComment); [intros [= <-]; apply Same; constructor; [ascii_text|constructor]|].
      rewrite bind_ok. intros (rs & Hrs & [= <-]). destruct (Hlist _ _ _ H Hm Hrs) as (rs' & -> & R).
      eexists. split; [reflexivity|]. apply retype_case, R.
    - destruct (in_types cu CStringLiteral); [intros [= <-]; apply Same; constructor; [ascii_text|constructor]|]. rewrite Hmax, Hbu, Hbl, Hfu, Hfl.
      destruct (max_str_length cu) as [mx|]; [|discriminate]. destruct (mx <? n)%Z.
      { intros [= <-]. apply Same. constructor; [ascii_text|constructor; [ascii_text|constructor]]. }
      rewrite bind_ok. intros (rs & Hrs & [= <-]). destruct (Hlist _ _ _ H Hm Hrs) as (rs' & -> & R).
      eexists. split; [reflexivity|]. apply retype_case, R.
  Qed.
  Lemma segs_list_case l r : Forall deep l -> segs_list E cu l = Ok r -> exists r', segs_list E cl l = Ok r' /\ Forall2 alike r r'.
  Proof.
    intros Hp. unfold segs_list. revert r. induction Hp as [|x l Hx Hp IH]; intros r; cbn [segs_list_with].
    - intros [= <-]. eexists. split; [reflexivity|constructor].
    - rewrite bind_ok. intros (a & Ha & H). apply bind_ok in H. destruct H as (rs & Hrs & [= <-]).
      destruct (segs_case x a Hx Ha) as (a' & -> & Ra). destruct (IH rs Hrs) as (rs' & Ers & Rrs). cbn [bind].
      fold (segs_list_with (fun _ => true) (segs E cl)). rewrite Ers. eexists. split; [reflexivity|apply Forall2_app; assumption].
  Qed.
End Cases.

(** C101: no_case: the same full tokens of the same types.  In each of them every part is replaced by the mark of its case and
    the part in lower case (for <Cap>: with its first letter in lower case), after which no letter in upper case is left.  Only
    keywords, operators and other tokens that are not words (and <EOL>) stay as they are. *)
Theorem C101_no_case : forall E K G lo up o d d' b lexed l out m,
  ascii_classes K -> simple_case E K G lo up -> py_text E -> is_up K 160 = false ->
  (forall c, G c -> is_up K c = false -> lo c = c) ->
  case_and_no_case d d' -> Forall (fun tv => Forall G (snd tv)) lexed ->
  convert_text E K lexed = Ok l -> to_repr E o d b l = Ok (out, m) ->
  exists out' m', to_repr E o d' b l = Ok (out', m') /\
    types m' = types m /\ nonproc m' = nonproc m /\
    List.concat (slices (wb m) out) = out /\ List.concat (slices (wb m') out') = out' /\
    Forall2 (fun g g' =>
      (g' = flat_map (recase K lo) g /\
       Forall (fun x => x = lit "<CAPS>" \/ x = lit "<Cap>" \/ no_upper K x) g') \/
      (g' = g /\ exists x, g = [x] /\ case_kept m x)) (slices (wb m) out) (slices (wb m') out').
Proof.
  intros E K G lo up o d d' b lexed l out m HK HS HT H160 Hlo (Hsp & Hcu & Hcl & Hsame) Hg Hl H.
  assert (Hb : is_bpe d = false) by (unfold is_bpe, param_in; destruct Hsp as [<-|[<-|[]]]; reflexivity).
  assert (Hb' : is_bpe d' = false) by (unfold is_bpe, param_in in *; rewrite (Hsame SPLIT) by discriminate; exact Hb).
  destruct (to_repr_segs _ _ _ _ _ _ _ H) as (cu & ss & Hcfg & Hss & -> & Hout & _ & _). specialize (Hout Hb). subst out.
  assert (C : exists cl, get_repr_config o d' b = Ok cl /\ types_to_be_repr cl = types_to_be_repr cu /\ bpe cu = false /\ bpe cl = false /\
    should_lowercase cu = false /\ should_lowercase cl = true /\ number_splitter cl = number_splitter cu /\
    (forall v ws, number_splitter cu v = Ok ws -> List.concat ws = v) /\ full_strings cu = false /\ full_strings cl = false /\
    max_str_length cl = max_str_length cu /\ word_splitter cu = Some (fun s => Ok [s]) /\ word_splitter cl = Some (fun s => Ok [s]) /\
    in_types cu CSplitContainer = true /\ in_types cu CWord = true).
  { unfold get_repr_config in Hcfg |- *. rewrite Hb in Hcfg. rewrite Hb'.
    assert (T : get_types_to_be_repr d' = get_types_to_be_repr d) by (unfold get_types_to_be_repr, param_in; rewrite !Hsame by discriminate; reflexivity).
    rewrite T. unfold get_number_splitter, get_word_splitter, param_in in *. rewrite (Hsame SPLIT), (Hsame STR), Hcl by discriminate.
    rewrite Hcu in Hcfg.
    apply bind_ok in Hcfg. destruct Hcfg as (ns & Hns & Hcfg). rewrite Hns. cbn [bind].
    apply bind_ok in Hcfg. destruct Hcfg as (wsp & Hwsp & Hcfg). rewrite Hwsp. cbn [bind].
    apply bind_ok in Hcfg. destruct Hcfg as (ml & Hml & [= <-]). rewrite Hml. cbn [bind].
    eexists. split; [reflexivity|]. cbn [types_to_be_repr bpe should_lowercase number_splitter full_strings max_str_length word_splitter].
    repeat (split; [reflexivity|]).
    assert (Hn : forall v ws, ns v = Ok ws -> List.concat ws = v).
    { clear - Hns Hsp. intros v ws. destruct Hsp as [Hs|[Hs|[]]]; rewrite <- Hs in Hns; injection Hns as <-; intros [= <-].
      - apply app_nil_r.
      - induction v as [|c v IH]; [reflexivity|]. cbn. rewrite IH. reflexivity. }
    assert (Hw : wsp = Some (fun s => Ok [s])) by (destruct Hsp as [Hs|[Hs|[]]]; rewrite <- Hs in Hwsp; injection Hwsp as <-; reflexivity).
    assert (Hf : mem (param d SPLIT) (chars_of "F") = false) by (destruct Hsp as [<-|[<-|[]]]; reflexivity).
    split; [exact Hn|]. split; [exact Hf|]. split; [exact Hf|]. split; [reflexivity|]. split; [exact Hw|]. split; [exact Hw|].
    unfold in_types. cbn [types_to_be_repr]. rewrite !types_in. unfold param_in. destruct Hsp as [<-|[<-|[]]]; split; reflexivity. }
  destruct C as (cl & Hcfg' & C1 & C2 & C3 & C4 & C5 & C6 & C7 & C8 & C9 & C10 & C11 & C12 & C13 & C14).
  pose proof (text_case E K G lo up HK HS HT Hlo lexed l Hg Hl) as Hd.
  destruct (segs_list_case E K lo HK cu cl H160 C1 C2 C3 C4 C5 C6 C7 C8 C9 C10 C11 C12 C13 C14 l ss Hd Hss) as (ss' & Hs' & R).
  unfold to_repr, to_repr_cfg. rewrite Hcfg'. cbn [bind]. rewrite to_repr_list_segs, Hs', Hb'. cbn [flat_res bind].
  exists (List.concat (map s_toks ss')), (snd (flat ss')). split; [reflexivity|]. unfold flat. cbn [snd types nonproc wb]. rewrite !slices_bounds0.
  clear - R. split; [|split].
  - induction R as [|x y r r' (R1 & _) _ IH]; cbn [map]; congruence.
  - induction R as [|x y r r' (_ & R2 & _) _ IH]; cbn [map List.concat]; congruence.
  - split; [reflexivity|]. split; [reflexivity|].
    assert (Sub : forall y, In y (List.concat (map s_np ss)) -> In y (nonproc {| nonproc := List.concat (map s_np ss); wb := bounds 0 (map s_toks ss); types := map s_cls ss |})) by auto.
    revert Sub. generalize (@Build_meta (List.concat (map s_np ss)) (bounds 0 (map s_toks ss)) (map s_cls ss)). intros m Sub.
    induction R as [|x y r r' (_ & _ & R3) _ IH]; cbn [map]; constructor.
    + destruct R3 as [R3|(R3 & z & Hz & Hk)]; [left; exact R3|]. right. split; [exact R3|]. exists z. split; [exact Hz|].
      destruct Hk as [Hk|Hk]; [left; exact Hk|]. right. apply Sub. cbn [map List.concat]. apply in_or_app. left. exact Hk.
    + apply IH. intros z Hz. apply Sub. cbn [map List.concat]. apply in_or_app. right. exact Hz.
Qed.
Print Assumptions C101_no_case.

(** C101: The option no_case gives such configurations, whatever the other options *)
Theorem C101_options : forall sn no_spaces no_unicode no_com no_str mx,
  exists d d',
    basic_config sn false false no_spaces no_unicode false no_com no_str mx = Ok d /\
    basic_config sn false false no_spaces no_unicode true no_com no_str mx = Ok d' /\ case_and_no_case d d'.
Proof.
  intros. unfold basic_config, create_prep_config. pose proof (str_value_known no_str mx) as Hst.
  generalize dependent (create_str_value no_str mx). intros st Hst.
  assert (C : forall (no_case : bool) (d : params),
    d = [(EN_ONLY, if no_unicode then lit "U" else lit "u"); (COM, if no_com then lit "0" else lit "c"); (STR, st); (SPLIT, if sn then lit "2" else lit "1");
         (TABS_NEWLINES, if no_spaces then lit "0" else lit "s"); (CASE, if no_case then lit "l" else lit "u")] ->
    mk_prep_config d = Ok d).
  { intros nc d ->. unfold mk_prep_config, check_invariants. cbn [length Nat.eqb negb].
    replace (check_values _ _) with (if mem st possible_str_values then Ok tt else Err ValueError)
      by (destruct sn, no_unicode, no_com, no_spaces, nc; reflexivity).
    rewrite Hst. destruct sn, nc; reflexivity. }
  do 2 eexists. split; [eapply (C false); reflexivity|]. split; [eapply (C true); reflexivity|].
  split; [destruct sn; cbn; auto|]. split; [reflexivity|]. split; [reflexivity|]. intros p Hp. destruct p; try reflexivity. congruence.
Qed.
Print Assumptions C101_options.

(** ** A concrete case *)
Example C101_example :
  let lexed := [(["Name"%string], lit "myHTMLParser"); (["Operator"%string], lit "="); (["Keyword"; "Constant"]%string, lit "None");
                (["Comment"; "Single"]%string, lit "# See ABC")] in
  match convert_text ascii_case ascii_K lexed with
  | Ok l =>
      match to_repr ascii_case no_splitters (combine prep_params (chars_of "uc11su")) None l,
            to_repr ascii_case no_splitters (combine prep_params (chars_of "uc11sl")) None l with
      | Ok (a, m), Ok (b, m') =>
          slices (wb m) a = map (map lit) [["<w>"; "my"; "HTML"; "Parser"; "</w>"]; ["="]; ["None"]; ["#"]; ["See"]; ["ABC"]; ["<EOL>"]]%string /\
          slices (wb m') b = map (map lit) [["<w>"; "my"; "<CAPS>"; "html"; "<Cap>"; "parser"; "</w>"]; ["="]; ["None"]; ["#"]; ["<Cap>"; "see"];
                                            ["<CAPS>"; "abc"]; ["<EOL>"]]%string
      | _, _ => False
      end
  | Err _ => False
  end.
Proof. vm_compute. split; reflexivity. Qed.
(** the hypotheses on characters hold for ascii *)
Example C101_ascii : forall E K, py_ascii E -> ascii_classes K ->
  simple_case E K (fun c => (c < 128)%N) ascii_to_lower ascii_to_upper /\
  (forall c, (c < 128)%N -> is_up K c = false -> ascii_to_lower c = c).
Proof.
  intros E K HE HK. split; [apply ascii_simple_case; assumption|]. intros c Hc. destruct (HK c Hc) as (_ & -> & _).
  unfold ascii_to_lower. intros ->. reflexivity.
Qed.
