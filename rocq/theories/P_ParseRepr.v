(** C10 and the properties of parsed text: what the parser produces meets what the representation needs. *)
From Verif Require Import M_Base L_Base M_Tokens M_Regex M_Parse L_Regex M_Repr M_Merge M_BpeEncode S_Bpe L_BpeEncode P_Bpe
     M_PrepConfig P_PrepConfig L_Repr P_Repr L_Word P_ReprOptions L_Merge P_ReprStrings P_Parse.
From Coq Require Import Arith.

(** * C10 *)
(** Characters of [G] have a simple case: the case functions work character by character, Python and the regex
    package agree on the case of a character, and a character of upper case is the upper case of its lower case.
    True for ascii, the other latin letters but for a few (U+0130, U+1E9E ...), cyrillic and so on. *)
Record simple_case (E : pycase) (K : charclass) (G : N -> Prop) (lo up : N -> N) : Prop := {
  sc_class : forall c, G c -> is_lower_ch E c = is_low K c /\ is_upper_ch E c = is_up K c /\ is_title_ch E c = false;
  sc_closed : forall c, G c -> G (lo c);
  sc_lower : forall s, Forall G s -> lower E s = map lo s;
  sc_upper : forall s, Forall G s -> upper E s = map up s;
  sc_capitalize : forall c s, Forall G (c :: s) -> capitalize E (c :: s) = up c :: map lo s;
  sc_up : forall c, G c -> is_up K c = true -> is_low K (lo c) = true /\ up (lo c) = c;
  sc_low : forall c, G c -> is_low K c = true -> lo c = c /\ is_up K c = false
}.

Section Stable.
  Variables (E : pycase) (K : charclass) (G : N -> Prop) (lo up : N -> N).
  Hypothesis HS : simple_case E K G lo up.

  Lemma isupper_G s : Forall G s -> isupper E s = negb (existsb (is_low K) s) && existsb (is_up K) s.
  Proof.
    intros Hs. unfold isupper. f_equal; [f_equal|]; apply existsb_ext_in; intros c Hc; rewrite Forall_forall in Hs;
      destruct (sc_class _ _ _ _ _ HS c (Hs c Hc)) as (H1 & H2 & H3); rewrite ?H1, ?H2, ?H3; try reflexivity. apply orb_false_r.
  Qed.
  Lemma islower_G s : Forall G s -> islower E s = negb (existsb (is_up K) s) && existsb (is_low K) s.
  Proof.
    intros Hs. unfold islower. f_equal; [f_equal|]; apply existsb_ext_in; intros c Hc; rewrite Forall_forall in Hs;
      destruct (sc_class _ _ _ _ _ HS c (Hs c Hc)) as (H1 & H2 & H3); rewrite ?H1, ?H2, ?H3; try reflexivity. apply orb_false_r.
  Qed.

  Lemma canonic_G c s : Forall G (c :: s) -> isupper E (c :: s) = false -> is_up K c = false -> canonic_ok E (c :: s) = true.
  Proof.
    intros Hs H1 H2. unfold canonic_ok, is_strictly_upper. rewrite H1. inversion Hs as [|? ? Hc Hr]; subst.
    rewrite (isupper_G [c]) by (constructor; [exact Hc|constructor]). cbn [existsb]. rewrite H2, andb_false_r. reflexivity.
  Qed.

  Lemma existsb_none (p : N -> bool) l : forallb (fun c => negb (p c)) l = true -> existsb p l = false.
  Proof.
    induction l as [|c l IH]; [reflexivity|]. cbn. intros H. apply andb_true_iff in H. destruct H as [H1 H2].
    rewrite (IH H2). destruct (p c); [discriminate|reflexivity].
  Qed.

  Lemma all_low_no_up s : Forall G s -> forallb (is_low K) s = true -> existsb (is_up K) s = false.
  Proof.
    intros Hs H. apply existsb_none. apply forallb_forall. intros c Hc. rewrite Forall_forall in Hs.
    rewrite forallb_forall in H. rewrite (proj2 (sc_low _ _ _ _ _ HS c (Hs c Hc) (H c Hc))). reflexivity.
  Qed.
  Lemma all_up_no_low s : Forall G s -> forallb (is_up K) s = true -> existsb (is_low K) s = false.
  Proof.
    intros Hs H. apply existsb_none. apply forallb_forall. intros c Hc. rewrite Forall_forall in Hs.
    rewrite forallb_forall in H. destruct (is_low K c) eqn:Hl; [|reflexivity].
    pose proof (proj2 (sc_low _ _ _ _ _ HS c (Hs c Hc) Hl)) as Hu. rewrite (H c Hc) in Hu. discriminate.
  Qed.
  Lemma map_lo_low s : Forall G s -> forallb (is_low K) s = true -> map lo s = s.
  Proof.
    intros Hs H. rewrite <- (map_id s) at 2. apply map_ext_in. intros c Hc. rewrite Forall_forall in Hs.
    rewrite forallb_forall in H. apply (sc_low _ _ _ _ _ HS c (Hs c Hc) (H c Hc)).
  Qed.

  Lemma uncased_part c s :
    Forall G (c :: s) -> existsb (is_low K) (c :: s) = false -> existsb (is_up K) (c :: s) = false ->
    exists wd, word_from E (c :: s) = Ok wd /\ subtoken_str E wd = c :: s.
  Proof.
    intros Hs H1 H2. inversion Hs as [|? ? Hc Hr]; subst. unfold word_from.
    rewrite (islower_G _ Hs), (isupper_G _ Hs), H1, H2. cbn [negb andb].
    assert (Hu : is_up K c = false) by (cbn in H2; apply orb_false_iff in H2; apply H2).
    rewrite (isupper_G [c]) by (constructor; [exact Hc|constructor]). cbn [existsb]. rewrite Hu, andb_false_r.
    unfold mk_word. rewrite canonic_G; [eexists; split; reflexivity|exact Hs| |exact Hu].
    rewrite (isupper_G _ Hs), H2, andb_false_r. reflexivity.
  Qed.

  Hypothesis Hdigits : forall c, G c -> is_digit c = true -> is_low K c = false /\ is_up K c = false.

  (** a part of an identifier is rebuilt from the stored word *)
  Lemma part_stable u t :
    Forall G u -> part_ok K u t -> u <> lit "_" -> exists wd, word_from E u = Ok wd /\ subtoken_str E wd = u.
  Proof.
    intros Hu Hp Hne. destruct Hp as [->|[Hn Hd] _|cap w -> Hcap Hw Hlow _|Hn Hup _ _|c -> H1 H2 H3 H4].
    - congruence.
    - destruct u as [|c u]; [congruence|]. apply uncased_part; [exact Hu| |]; apply existsb_none, forallb_forall; intros d Hin;
        rewrite Forall_forall in Hu; rewrite forallb_forall in Hd;
        destruct (Hdigits d (Hu d Hin) (Hd d Hin)) as [Hx Hy]; rewrite ?Hx, ?Hy; reflexivity.
    - apply Forall_app in Hu. destruct Hu as [Hgc Hgw]. destruct Hcap as [->|(c & -> & Hc)].
      + cbn [app]. destruct w as [|c w]; [congruence|]. unfold word_from. rewrite (islower_G _ Hgw).
        rewrite (all_low_no_up _ Hgw Hlow). pose proof Hlow as Hl. cbn [forallb] in Hl. apply andb_true_iff in Hl.
        destruct Hl as [Hl _]. cbn [existsb negb andb]. rewrite Hl. cbn [orb]. unfold mk_word. rewrite canonic_G; [eexists; split; reflexivity|exact Hgw| |].
        * rewrite (isupper_G _ Hgw), (all_low_no_up _ Hgw Hlow), andb_false_r. reflexivity.
        * inversion Hgw as [|? ? Hg _]; subst. apply (sc_low _ _ _ _ _ HS c Hg Hl).
      + inversion Hgc as [|? ? Hg _]; subst. cbn [app].
        assert (Hgs : Forall G (c :: w)) by (constructor; assumption).
        destruct (sc_up _ _ _ _ _ HS c Hg Hc) as [Hlc Hul]. pose proof (sc_closed _ _ _ _ _ HS c Hg) as Hgl.
        assert (Hlow' : existsb (is_low K) (c :: w) = true).
        { destruct w as [|d w]; [congruence|]. cbn in Hlow |- *. apply andb_true_iff in Hlow. destruct Hlow as [-> _].
          rewrite orb_true_r. reflexivity. }
        unfold word_from. rewrite (islower_G _ Hgs), (isupper_G _ Hgs), Hlow'. cbn [existsb]. rewrite Hc. cbn [orb negb andb].
        rewrite (isupper_G [c]) by (constructor; [exact Hg|constructor]). cbn [existsb]. rewrite Hc.
        assert (Hncl : is_low K c = false).
        { destruct (is_low K c) eqn:Hx; [|reflexivity]. rewrite (proj2 (sc_low _ _ _ _ _ HS c Hg Hx)) in Hc. discriminate. }
        rewrite Hncl. cbn [orb negb andb]. rewrite (sc_lower _ _ _ _ _ HS [c]) by (constructor; [exact Hg|constructor]). cbn [map app].
        assert (Hgs' : Forall G (lo c :: w)) by (constructor; assumption).
        unfold mk_word. rewrite canonic_G; [eexists; split; [reflexivity|]|exact Hgs'| |].
        * cbn [subtoken_str with_preserved_case]. rewrite (sc_capitalize _ _ _ _ _ HS (lo c) w Hgs'), Hul, (map_lo_low w Hgw Hlow). reflexivity.
        * rewrite (isupper_G _ Hgs'). cbn [existsb]. rewrite Hlc. reflexivity.
        * apply (sc_low _ _ _ _ _ HS (lo c) Hgl Hlc).
    - destruct u as [|c u]; [congruence|]. unfold word_from. rewrite (islower_G _ Hu), (isupper_G _ Hu), (all_up_no_low _ Hu Hup).
      pose proof Hup as Hc. cbn [forallb] in Hc. apply andb_true_iff in Hc. destruct Hc as [Hc _].
      rewrite andb_false_r. cbn [existsb negb andb]. rewrite Hc. cbn [orb].
      rewrite (sc_lower _ _ _ _ _ HS _ Hu).
      assert (Hgl : Forall G (map lo (c :: u))).
      { apply Forall_map. eapply Forall_impl; [|exact Hu]. apply (sc_closed _ _ _ _ _ HS). }
      assert (Hll : forallb (is_low K) (map lo (c :: u)) = true).
      { apply forallb_forall. intros d Hd. apply in_map_iff in Hd. destruct Hd as (x & <- & Hx).
        rewrite Forall_forall in Hu. rewrite forallb_forall in Hup. apply (sc_up _ _ _ _ _ HS x (Hu x Hx) (Hup x Hx)). }
      unfold mk_word. cbn [map] in *. rewrite canonic_G; [eexists; split; [reflexivity|]|exact Hgl| |].
      + cbn [subtoken_str with_preserved_case]. change (lo c :: map lo u) with (map lo (c :: u)) in *.
        rewrite (sc_upper _ _ _ _ _ HS _ Hgl), map_map. rewrite <- (map_id (c :: u)) at 2. apply map_ext_in. intros d Hd.
        rewrite Forall_forall in Hu. rewrite forallb_forall in Hup. apply (sc_up _ _ _ _ _ HS d (Hu d Hd) (Hup d Hd)).
      + rewrite (isupper_G _ Hgl), (all_low_no_up _ Hgl Hll), andb_false_r. reflexivity.
      + pose proof (all_low_no_up _ Hgl Hll) as Hx. cbn in Hx. apply orb_false_iff in Hx. apply Hx.
    - apply uncased_part; [exact Hu| |]; cbn; rewrite ?H3, ?H4; reflexivity.
  Qed.

  Lemma identifier_stable w :
    ~ In 32%N w -> Forall G w ->
    exists subs, mapM (fun p => if eqb p s_underscore then Ok Underscore else word_from E p) (finditer (identifier_re K) w) = Ok subs /\
      split_str E subs = w.
  Proof.
    intros Hs Hg. destruct (identifier_parts K w Hs) as (H1 & _ & H3).
    assert (Hgp : Forall (Forall G) (finditer (identifier_re K) w)).
    { rewrite <- H1 in Hg. clear -Hg. induction (finditer (identifier_re K) w) as [|p ps IH]; [constructor|].
      cbn [List.concat] in Hg. apply Forall_app in Hg. constructor; [apply Hg|apply IH, Hg]. }
    rewrite <- H1. rewrite H1. clear Hg Hs.
    assert (Hx : exists subs, mapM (fun p => if eqb p s_underscore then Ok Underscore else word_from E p) (finditer (identifier_re K) w) = Ok subs /\
              split_str E subs = List.concat (finditer (identifier_re K) w)).
    { clear H1. induction (finditer (identifier_re K) w) as [|p ps IH]; [exists []; split; reflexivity|].
      inversion Hgp as [|? ? Hgp1 Hgp2]; subst. destruct H3 as [Hp Hps]. destruct (IH Hps Hgp2) as (subs & Hm & Hc).
      cbn [mapM]. destruct (eqb_spec p s_underscore) as [->|Hne].
      - exists (Underscore :: subs). cbn [bind]. rewrite Hm. split; [reflexivity|]. unfold split_str in *. cbn [map List.concat].
        rewrite Hc. reflexivity.
      - destruct (part_stable p _ Hgp1 Hp Hne) as (wd & Hwd & Hst). exists (wd :: subs). rewrite Hwd. cbn [bind]. rewrite Hm.
        split; [reflexivity|]. unfold split_str in *. cbn [map List.concat]. rewrite Hc, Hst. reflexivity. }
    destruct Hx as (subs & Hm & Hc). exists subs. split; [exact Hm|]. rewrite Hc. exact H1.
  Qed.
End Stable.

(** what nosplit says about splitting: the configurations that prepconfig calls 'No splitting' *)
Definition nosplit (d : params) : Prop := param d SPLIT = lit "0" \/ param d SPLIT = lit "F".
(** Python and regex: word characters are not stripped *)
Definition words_not_blank (K : charclass) : Prop := forall c, is_w K c = true -> is_blank K c = false.


Lemma convert_name E K t (w : str) :
  type_in t ["Name"%string] = true -> words_not_blank K -> ascii_classes K ->
  w <> [] -> forallb (is_w K) w = true -> convert E K t w = split_into_words E K w.
Proof.
  intros Ht HB HK Hne Hw. unfold convert.
  assert (H10 : forall n, is_w K n = false -> w <> [n]).
  { intros n Hn ->. cbn in Hw. rewrite Hn in Hw. discriminate. }
  destruct (eqb_spec w s_nl) as [->|_]; [exfalso; eapply (H10 10%N); [|reflexivity]; rewrite (w_ascii K HK) by reflexivity; reflexivity|].
  destruct (eqb_spec w s_tab) as [->|_]; [exfalso; eapply (H10 9%N); [|reflexivity]; rewrite (w_ascii K HK) by reflexivity; reflexivity|].
  assert (Hb : blank K w = false).
  { destruct w as [|c w]; [congruence|]. cbn in Hw |- *. apply andb_true_iff in Hw. rewrite (HB c) by apply Hw. reflexivity. }
  rewrite Hb. destruct t as [|a t]; [discriminate Ht|]. cbn [type_in] in Ht. destruct (String.eqb_spec "Name" a) as [<-|]; [|discriminate].
  replace (type_is ("Name"%string :: t) ["Operator"%string]) with false;
    [change (type_in ("Name"%string :: t) ["Name"%string]) with (type_in t []); rewrite Ht; reflexivity|].
  unfold type_is. destruct (list_eq_dec string_dec ("Name"%string :: t) ["Operator"%string]) as [Hx|_]; [discriminate Hx|reflexivity].
Qed.

Lemma words_of_word E K (w : str) : ascii_classes K -> w <> [] -> forallb (is_w K) w = true ->
  split_into_words E K w = (t <- to_parsed_token E K w ;; Ok [t]).
Proof.
  intros HK Hne Hw. unfold split_into_words. destruct w as [|c w]; [congruence|].
  pose proof Hw as Hw'. cbn [forallb] in Hw'. apply andb_true_iff in Hw'. destruct Hw' as [Hc Hr].
  assert (Hsp : span (is_w K) w = (w, [])).
  { clear -Hr. induction w as [|d w IH]; [reflexivity|]. cbn in Hr |- *. apply andb_true_iff in Hr. destruct Hr as [-> Hr].
    rewrite (IH Hr). reflexivity. }
  destruct (alt_word_first K (Alt (Chr not_space) (Str four_spaces)) c w Hc) as [l Hl]. rewrite Hsp in Hl. cbn [snd] in Hl.
  rewrite <- (app_nil_r (c :: w)) at 1. rewrite (finditer_match _ (c :: w) [] l); [|discriminate|rewrite app_nil_r; exact Hl].
  rewrite finditer_nil. cbn [mapM].
  destruct (eqb_spec (c :: w : str) four_spaces) as [Hx|_].
  { injection Hx as -> _. rewrite (w_ascii K HK) in Hc by reflexivity. discriminate. }
  destruct (to_parsed_token E K (c :: w)); reflexivity.
Qed.

Lemma nosplit_out E o d b k :
  mk_prep_config d = Ok d -> nosplit d ->
  exists m, to_repr E o d b [SplitContainer k] = Ok ([split_str E k], m).
Proof.
  intros Hd Hn. destruct (valid_repr_config o d b Hd) as (rc & Hrc & _).
  assert (Hnb : is_bpe d = false) by (unfold is_bpe, param_in; destruct Hn as [-> | ->]; reflexivity).
  assert (Hty : in_types rc CSplitContainer = false /\ in_types rc CWord = false).
  { unfold in_types. rewrite (repr_config_types _ _ _ _ Hrc), !types_in. unfold param_in. destruct Hn as [-> | ->]; split; reflexivity. }
  destruct Hty as [H1 H2]. unfold to_repr. rewrite Hrc. cbn [bind]. unfold to_repr_cfg. rewrite to_repr_list_segs.
  assert (Hh : mapM (fun s => r <- torepr_sub E rc s ;; match r with [] => Err IndexError | x :: _ => Ok x end) k = Ok (map (subtoken_str E) k)).
  { induction k as [|[|w c] k IH]; [reflexivity|..]; cbn [mapM torepr_sub]; [|rewrite H2]; cbn [bind]; rewrite IH; reflexivity. }
  unfold segs_list. cbn [segs_list_with segs]. unfold segs_split. rewrite H1, Hh. cbn [bind flat_res]. rewrite Hnb. eexists. reflexivity.
Qed.

Lemma nosplit_out_noneng E o d b k :
  mk_prep_config d = Ok d -> nosplit d -> param d EN_ONLY <> lit "U" ->
  exists m, to_repr E o d b [NonEng k] = Ok ([split_str E k], m).
Proof.
  intros Hd Hn Hu. destruct (valid_repr_config o d b Hd) as (rc & Hrc & _).
  assert (Hnb : is_bpe d = false) by (unfold is_bpe, param_in; destruct Hn as [-> | ->]; reflexivity).
  assert (Hty : in_types rc CSplitContainer = false /\ in_types rc CWord = false).
  { unfold in_types. rewrite (repr_config_types _ _ _ _ Hrc), !types_in. unfold param_in. destruct Hn as [-> | ->]; split; reflexivity. }
  assert (Hen : in_types rc CNonEng = false).
  { unfold in_types. rewrite (repr_config_types _ _ _ _ Hrc), types_in. unfold param_in.
    destruct (mem _ _) eqn:Hx; [|reflexivity]. apply mem_in in Hx. destruct Hx as [Hx|[]]. symmetry in Hx. contradiction. }
  destruct Hty as [H1 H2]. unfold to_repr. rewrite Hrc. cbn [bind]. unfold to_repr_cfg. rewrite to_repr_list_segs.
  assert (Hh : mapM (fun s => r <- torepr_sub E rc s ;; match r with [] => Err IndexError | x :: _ => Ok x end) k = Ok (map (subtoken_str E) k)).
  { induction k as [|[|w c] k IH]; [reflexivity|..]; cbn [mapM torepr_sub]; [|rewrite H2]; cbn [bind]; rewrite IH; reflexivity. }
  unfold segs_list. cbn [segs_list_with segs]. rewrite Hen. unfold segs_split. rewrite H1, Hh. cbn [bind flat_res]. rewrite Hnb. eexists. reflexivity.
Qed.

(** identifiers as the lexer delivers them: a word that is not a number *)
Theorem C10_verbatim :
  forall E K G lo up o d b t (w : str),
  ascii_classes K -> words_not_blank K -> simple_case E K G lo up ->
  mk_prep_config d = Ok d -> nosplit d ->
  type_in t ["Name"%string] = true -> w <> [] -> forallb (is_w K) w = true -> ~ number_literal w ->
  Forall G w -> (is_ascii w = true \/ param d EN_ONLY <> lit "U") ->
  exists l m, convert_text E K [(t, w)] = Ok l /\ to_repr E o d b l = Ok ([w], m).
Proof.
  intros E K G lo up o d b t w HK HB HS Hd Hn Ht Hne Hw Hnum Hg Hor. cbn [convert_text].
  rewrite (convert_name E K t w Ht HB HK Hne Hw), (words_of_word E K w HK Hne Hw). unfold to_parsed_token.
  assert (H10 : forall n, is_w K n = false -> w <> [n]).
  { intros n Hx ->. cbn in Hw. rewrite Hx in Hw. discriminate. }
  destruct (eqb_spec w s_nl) as [->|_]; [exfalso; eapply (H10 10%N); [|reflexivity]; rewrite (w_ascii K HK) by reflexivity; reflexivity|].
  destruct (eqb_spec w s_tab) as [->|_]; [exfalso; eapply (H10 9%N); [|reflexivity]; rewrite (w_ascii K HK) by reflexivity; reflexivity|].
  destruct (is_number w) eqn:Hx; [exfalso; apply Hnum, C14_number_grammar, Hx|].
  replace (fullmatch (Plus (Chr (is_w K))) w) with true by (symmetry; apply fullmatch_plus; auto).
  assert (Hdg : forall c, G c -> is_digit c = true -> is_low K c = false /\ is_up K c = false).
  { intros c _ Hc. unfold is_digit in Hc. apply andb_true_iff in Hc. destruct Hc as [H1 H2]. apply N.leb_le in H1, H2.
    destruct (HK c) as (_ & -> & ->); [lia|]. unfold ascii_lower_ch, ascii_upper_ch.
    split; apply andb_false_iff; left; apply N.leb_gt; lia. }
  destruct (identifier_stable E K G lo up HS Hdg w (word_no_space K HK w Hw) Hg) as (subs & Hm & Hs).
  unfold split_identifier. rewrite Hm. cbn [bind app]. unfold is_non_eng. destruct (is_ascii w) eqn:Ha; cbn [negb].
  - destruct (nosplit_out E o d b subs Hd Hn) as (m & Hr). rewrite Hs in Hr. eexists. exists m. split; [reflexivity|exact Hr].
  - destruct (nosplit_out_noneng E o d b subs Hd Hn) as (m & Hr); [destruct Hor; [discriminate|assumption]|].
    rewrite Hs in Hr. eexists. exists m. split; [reflexivity|exact Hr].
Qed.
Print Assumptions C10_verbatim.

Lemma ascii_simple_case E K : py_ascii E -> ascii_classes K ->
  simple_case E K (fun c => (c < 128)%N) ascii_to_lower ascii_to_upper.
Proof.
  intros [HE HF] HK.
  assert (Hp : forall s, Forall (fun c => (c < 128)%N) s -> Forall plain s).
  { intros s. apply Forall_impl. intros c Hc. left. exact Hc. }
  constructor.
  - intros c Hc. destruct (HE c (or_introl Hc)) as (-> & -> & ->). destruct (HK c Hc) as (_ & -> & ->). auto.
  - intros c Hc. unfold ascii_to_lower. destruct (ascii_upper_ch c) eqn:Hu; [|exact Hc].
    unfold ascii_upper_ch in Hu. apply andb_true_iff in Hu. destruct Hu as [_ Hu]. apply N.leb_le in Hu. lia.
  - intros s Hs. apply (HF s (Hp s Hs)).
  - intros s Hs. apply (HF s (Hp s Hs)).
  - intros c s Hs. apply (HF (c :: s) (Hp _ Hs)).
  - intros c Hc Hu. destruct (HK c Hc) as (_ & Hk & _). rewrite Hk in Hu. pose proof (to_lower_of_upper c Hu) as Hl. split.
    + destruct (HK (ascii_to_lower c)) as (_ & _ & ->); [|exact Hl].
      unfold ascii_lower_ch in Hl. apply andb_true_iff in Hl. destruct Hl as [_ Hl]. apply N.leb_le in Hl. lia.
    + apply to_upper_to_lower. destruct (ascii_lower_ch c) eqn:Hx; [|reflexivity].
      unfold ascii_upper_ch, ascii_lower_ch in *. apply andb_true_iff in Hu, Hx. destruct Hu as [_ Hu], Hx as [Hx _].
      apply N.leb_le in Hu, Hx. lia.
  - intros c Hc Hl. destruct (HK c Hc) as (_ & Hu & Hk). rewrite Hk in Hl.
    assert (Hn : ascii_upper_ch c = false).
    { destruct (ascii_upper_ch c) eqn:Hx; [|reflexivity].
      unfold ascii_upper_ch, ascii_lower_ch in *. apply andb_true_iff in Hx, Hl. destruct Hx as [_ Hx], Hl as [Hl _].
      apply N.leb_le in Hx, Hl. lia. }
    split; [apply to_lower_id, Hn|congruence].
Qed.

Theorem C10_ascii :
  forall E K o d b t (w : str),
  py_ascii E -> ascii_classes K -> words_not_blank K -> mk_prep_config d = Ok d -> nosplit d ->
  type_in t ["Name"%string] = true -> w <> [] -> forallb (is_w K) w = true -> ~ number_literal w -> is_ascii w = true ->
  exists l m, convert_text E K [(t, w)] = Ok l /\ to_repr E o d b l = Ok ([w], m).
Proof.
  intros E K o d b t w HE HK HB Hd Hn Ht Hne Hw Hnum Ha.
  apply (C10_verbatim E K _ _ _ o d b t w HK HB (ascii_simple_case E K HE HK)); auto.
  unfold is_ascii in Ha. apply Forall_forall. intros c Hc. rewrite forallb_forall in Ha. apply N.ltb_lt, Ha, Hc.
Qed.
Print Assumptions C10_ascii.

(** Not for every identifier: U+1E9E, the capital sharp s, is the upper case letter whose lower case is U+00DF,
    whose upper case in turn is SS. *)
Definition capital_sharp_s (E : pycase) (K : charclass) : Prop :=
  is_w K 7838%N = true /\ is_up K 7838%N = true /\ is_low K 7838%N = false /\
  is_upper_ch E 7838%N = true /\ is_lower_ch E 7838%N = false /\ is_title_ch E 7838%N = false /\
  is_lower_ch E 223%N = true /\ is_upper_ch E 223%N = false /\
  lower E [7838%N] = [223%N] /\ upper E [223%N] = lit "SS".

Theorem C10_refuted :
  forall E K o d b t,
  ascii_classes K -> words_not_blank K -> capital_sharp_s E K -> mk_prep_config d = Ok d -> nosplit d ->
  param d EN_ONLY <> lit "U" -> type_in t ["Name"%string] = true ->
  exists l m, convert_text E K [(t, [7838%N])] = Ok l /\ to_repr E o d b l = Ok ([lit "SS"], m).
Proof.
  intros E K o d b t HK HB (H1 & H2 & H3 & H4 & H5 & H6 & H7 & H8 & H9 & H10) Hd Hn Hu Ht.
  assert (Hw : forallb (is_w K) [7838%N] = true) by (cbn; rewrite H1; reflexivity).
  cbn [convert_text]. rewrite (convert_name E K t [7838%N] Ht HB HK) by (try discriminate; exact Hw).
  rewrite (words_of_word E K [7838%N] HK) by (try discriminate; exact Hw). unfold to_parsed_token.
  change (eqb [7838%N] s_nl) with false. change (eqb [7838%N] s_tab) with false. change (is_number [7838%N]) with false. cbn iota.
  replace (fullmatch (Plus (Chr (is_w K))) [7838%N]) with true by (symmetry; apply fullmatch_plus; split; [discriminate|exact Hw]).
  assert (Hf : finditer (identifier_re K) [7838%N] = [[7838%N]]).
  { cbn. rewrite H2. cbn. rewrite ?H3. cbn. rewrite ?H2. reflexivity. }
  assert (Hwf : word_from E [7838%N] = Ok (Word [223%N] CapAll)).
  { unfold word_from, islower, isupper. cbn [existsb]. rewrite H4, H5, H6. cbn [orb negb andb]. rewrite H9.
    unfold mk_word, canonic_ok, is_strictly_upper, isupper. cbn [existsb]. rewrite H7, H8. reflexivity. }
  unfold split_identifier. rewrite Hf. cbn [mapM]. change (eqb [7838%N] s_underscore) with false. cbn iota. rewrite Hwf. cbn [bind app].
  change (is_non_eng [7838%N]) with true. cbn iota.
  destruct (nosplit_out_noneng E o d b [Word [223%N] CapAll] Hd Hn Hu) as (m & Hm). unfold split_str in Hm. cbn [map List.concat subtoken_str with_preserved_case] in Hm.
  rewrite H10 in Hm. cbn [app] in Hm. eexists. exists m. split; [reflexivity|exact Hm].
Qed.
Print Assumptions C10_refuted.

(** ascii with the sharp s *)
Definition sharp_E : pycase := {|
  is_lower_ch c := ascii_lower_ch c || N.eqb c 223;
  is_upper_ch c := ascii_upper_ch c || N.eqb c 7838;
  is_title_ch _ := false;
  lower := map (fun c => if N.eqb c 7838 then 223%N else ascii_to_lower c);
  upper s := List.concat (map (fun c => if N.eqb c 223 then lit "SS" else [ascii_to_upper c]) s);
  capitalize := capitalize ascii_case |}.
Definition sharp_K : charclass := {|
  is_w c := ascii_word_ch c || N.eqb c 223 || N.eqb c 7838;
  is_up c := ascii_upper_ch c || N.eqb c 7838;
  is_low c := ascii_lower_ch c || N.eqb c 223;
  is_blank := ch_in " " |}.

Lemma below_128_neq c n : (c < 128)%N -> (128 <= n)%N -> N.eqb c n = false.
Proof. intros H1 H2. apply N.eqb_neq. lia. Qed.

Example C10_refuted_example :
  ascii_classes sharp_K /\ words_not_blank sharp_K /\ capital_sharp_s sharp_E sharp_K /\
  mk_prep_config (combine prep_params (chars_of "uc10su")) = Ok (combine prep_params (chars_of "uc10su")).
Proof.
  repeat split; cbn; try (rewrite !below_128_neq by (try assumption; lia); rewrite ?orb_false_r; reflexivity).
  intros c Hc. cbn in Hc |- *. unfold ch_in. cbn. destruct (N.eqb_spec c 32) as [->|H]; [discriminate|].
  destruct c as [|q]; [reflexivity|]. destruct (Pos.eqb_spec q 32) as [->|Hx]; [congruence|]. reflexivity.
Qed.

Example C10_example :
  let w := lit "myHTMLParser_V2b" in
  forallb (is_w ascii_K) w = true /\ is_ascii w = true /\ ~ number_literal w /\
  match (l <- convert_text ascii_case ascii_K [(["Name"; "Function"]%string, w)] ;;
         to_repr ascii_case no_splitters (combine prep_params (chars_of "Uc10su")) None l) with Ok r => fst r | _ => [] end
  = [w].
Proof.
  cbv zeta. split; [reflexivity|]. split; [reflexivity|]. split; [|vm_compute; reflexivity].
  rewrite <- C14_number_grammar. vm_compute. discriminate.
Qed.

(** * Parsed text *)
(** Facts about Python's case functions: they do not delete text, create no spaces, and lower() is stable. *)
Record py_text (E : pycase) : Prop := {
  pt_nonempty : forall s, s <> [] -> lower E s <> [] /\ upper E s <> [] /\ capitalize E s <> [];
  pt_no_space : forall s, ~ In 32%N s -> ~ In 32%N (lower E s) /\ ~ In 32%N (upper E s) /\ ~ In 32%N (capitalize E s);
  pt_idem : forall s, lower E (lower E s) = lower E s;
  pt_first : forall s c t, lower E s = c :: t -> lower E [c] = [c]
}.

Lemma ascii_case_py_text : py_text ascii_case.
Proof.
  assert (Hl : forall s, ~ In 32%N s -> ~ In 32%N (map ascii_to_lower s)).
  { intros s Hs Hin. apply in_map_iff in Hin. destruct Hin as (c & Hc & Hin).
    destruct (N.eq_dec c 32) as [->|Hn]; [contradiction|]. exact (proj1 (case_not_space c Hn) Hc). }
  assert (Hu : forall s, ~ In 32%N s -> ~ In 32%N (map ascii_to_upper s)).
  { intros s Hs Hin. apply in_map_iff in Hin. destruct Hin as (c & Hc & Hin).
    destruct (N.eq_dec c 32) as [->|Hn]; [contradiction|]. exact (proj2 (case_not_space c Hn) Hc). }
  assert (Hid : forall c, ascii_to_lower (ascii_to_lower c) = ascii_to_lower c).
  { intros c. apply to_lower_id, to_lower_not_upper. }
  constructor.
  - intros [|c s] H; [congruence|]. repeat split; discriminate.
  - intros s Hs. split; [apply Hl, Hs|]. split; [apply Hu, Hs|]. destruct s as [|c s]; [exact Hs|]. cbn.
    intros [H|H].
    + apply (Hu [c]); [intros [->|[]]; apply Hs; left; reflexivity|left; exact H].
    + apply (Hl s); [intros Hx; apply Hs; right; exact Hx|exact H].
  - intros s. cbn. rewrite map_map. apply map_ext, Hid.
  - intros [|x s] c t; cbn; [discriminate|]. intros [= <- _]. rewrite Hid. reflexivity.
Qed.

Section Parsed.
  Variables (E : pycase) (K : charclass).
  Hypothesis HK : ascii_classes K.
  Hypothesis HT : py_text E.

  Lemma word_from_total s : s <> [] -> exists w, word_from E s = Ok w.
  Proof.
    intros Hne. destruct s as [|c rest]; [congruence|]. unfold word_from, mk_word.
    assert (Hstrict : forall t, isupper E t = false -> is_strictly_upper E t = false).
    { intros t Ht. unfold is_strictly_upper. rewrite Ht. reflexivity. }
    assert (Hstable : forall t, lower E t = t -> is_strictly_upper E t = false).
    { intros t Ht. unfold is_strictly_upper. rewrite Ht. destruct (isupper E t); reflexivity. }
    destruct (islower E (c :: rest)) eqn:Hl.
    { unfold canonic_ok. unfold islower in Hl. apply andb_true_iff in Hl. destruct Hl as [Hn _].
      apply negb_true_iff in Hn.
      assert (Hu : forall t, (forall x, In x t -> In x (c :: rest)) -> isupper E t = false).
      { intros t Ht. unfold isupper. apply andb_false_iff. right. destruct (existsb (is_upper_ch E) t) eqn:Hx; [|reflexivity].
        apply existsb_exists in Hx. destruct Hx as (x & Hx & Hxu). exfalso.
        assert (existsb (fun c => is_upper_ch E c || is_title_ch E c) (c :: rest) = true); [|congruence].
        apply existsb_exists. exists x. split; [apply Ht, Hx|rewrite Hxu; reflexivity]. }
      rewrite (Hstrict (c :: rest)), (Hstrict [c]); [(eexists; reflexivity)| |]; apply Hu; [intros x [<-|[]]; left; reflexivity|auto]. }
    destruct (isupper E (c :: rest)) eqn:Hu.
    { unfold canonic_ok. rewrite (Hstable (lower E (c :: rest))) by apply (pt_idem E HT).
      destruct (lower E (c :: rest)) as [|d t] eqn:Hd; [(eexists; reflexivity)|].
      rewrite (Hstable [d]) by (eapply (pt_first E HT); exact Hd). (eexists; reflexivity). }
    destruct (isupper E [c]) eqn:Hc.
    { unfold canonic_ok. rewrite (Hstrict (lower E [c] ++ rest)).
      - destruct (lower E [c] ++ rest) as [|d t] eqn:Hd; [(eexists; reflexivity)|].
        rewrite (Hstable [d]); [(eexists; reflexivity)|]. destruct (lower E [c]) as [|x y] eqn:Hx.
        + exfalso. apply (proj1 (pt_nonempty E HT [c] ltac:(discriminate))). exact Hx.
        + cbn in Hd. injection Hd as <- _. eapply (pt_first E HT). exact Hx.
      - unfold isupper. apply andb_false_iff. left. apply negb_false_iff. rewrite existsb_app.
        apply orb_true_iff. right. unfold isupper in Hc, Hu. apply andb_true_iff in Hc. destruct Hc as [Hc1 Hc2].
        cbn [existsb] in Hc1, Hc2. rewrite orb_false_r in Hc1, Hc2. cbn [existsb] in Hu. rewrite Hc2 in Hu.
        apply negb_true_iff in Hc1. rewrite Hc1 in Hu. cbn [orb] in Hu. rewrite andb_true_r in Hu. apply negb_false_iff, Hu. }
    unfold canonic_ok. rewrite (Hstrict _ Hu), (Hstrict [c] Hc). (eexists; reflexivity).
  Qed.

  (** what a stored word is shown as *)
  Lemma word_text p s : ~ In 32%N p -> word_from E p = Ok s -> subtoken_str E s <> [] /\ ~ In 32%N (subtoken_str E s).
  Proof.
    intros Hp Hw. destruct p as [|c rest]; [discriminate|]. unfold word_from, mk_word in Hw.
    assert (Hcap : forall t k, t <> [] -> ~ In 32%N t -> subtoken_str E (Word t k) <> [] /\ ~ In 32%N (subtoken_str E (Word t k))).
    { intros t k Ht Hs. destruct (pt_nonempty E HT t Ht) as (_ & H2 & H3). destruct (pt_no_space E HT t Hs) as (_ & H5 & H6).
      destruct k; cbn; auto. }
    destruct (pt_nonempty E HT (c :: rest)) as (N1 & _); [discriminate|].
    destruct (pt_nonempty E HT [c]) as (N2 & _); [discriminate|].
    destruct (pt_no_space E HT _ Hp) as (S1 & _).
    destruct (pt_no_space E HT [c]) as (S2 & _); [intros [->|[]]; apply Hp; left; reflexivity|].
    destruct (islower E (c :: rest)); [destruct (canonic_ok E _); [|discriminate]; injection Hw as <-; apply Hcap; [discriminate|exact Hp]|].
    destruct (isupper E (c :: rest)); [destruct (canonic_ok E _); [|discriminate]; injection Hw as <-; apply Hcap; assumption|].
    destruct (isupper E [c]); [destruct (canonic_ok E _); [|discriminate]; injection Hw as <-; apply Hcap|].
    - destruct (lower E [c]); [congruence|discriminate].
    - rewrite in_app_iff. intros [H|H]; [exact (S2 H)|]. apply Hp. right. exact H.
    - destruct (canonic_ok E _); [|discriminate]. injection Hw as <-. apply Hcap; [discriminate|exact Hp].
  Qed.

  (** tokens made of words and characters; no comments, no strings *)
  Definition simple_token (t : token) : Prop :=
    match t with
    | NewLine | Tab | SpaceInString _ | One | Zero => True
    | Number v => v <> [] /\ ~ In 32%N v
    | NonProc c s => ~ In 32%N s
    | SplitContainer k | NonEng k => split_str E k <> [] /\ ~ In 32%N (split_str E k)
    | _ => False
    end.

  Lemma split_str_parts parts subs :
    Forall (fun p => p <> []) parts -> ~ In 32%N (List.concat parts) ->
    Forall2 (fun p s => (p = lit "_" /\ s = Underscore) \/ (p <> lit "_" /\ word_from E p = Ok s)) parts subs ->
    ~ In 32%N (split_str E subs) /\ (parts <> [] -> split_str E subs <> []).
  Proof.
    intros Hne Hs HF. induction HF as [|p s ps ss Hp HF IH]; [split; [intros []|intros H; exfalso; apply H; reflexivity]|].
    inversion Hne as [|? ? Hn1 Hn2]; subst. cbn [List.concat] in Hs. rewrite in_app_iff in Hs.
    destruct IH as [IH1 _]; [exact Hn2|tauto|]. unfold split_str in *. cbn [map List.concat].
    assert (Hsub : subtoken_str E s <> [] /\ ~ In 32%N (subtoken_str E s)).
    { destruct Hp as [[-> ->]|[_ Hp]]; [split; [discriminate|intros [H|[]]; discriminate]|].
      apply (word_text p); [tauto|exact Hp]. }
    split; [rewrite in_app_iff; tauto|]. intros _ H. apply app_eq_nil in H. destruct Hsub as [Hsub _], H as [H _]. exact (Hsub H).
  Qed.

  Lemma word_token_simple w t : w <> [] -> ~ In 32%N w -> word_token E K w t -> simple_token t.
  Proof.
    intros Hne Hs [Hn|parts subs _ <- Hp _ HF].
    - cbn. split; [apply (pt_nonempty E HT w Hne)|apply (pt_no_space E HT w Hs)].
    - destruct (split_str_parts _ _ Hp Hs HF) as [H1 H2].
      assert (parts <> []) by (intros ->; apply Hne; reflexivity).
      destruct (is_ascii (List.concat parts)); cbn; auto.
  Qed.

  Lemma pieces_simple sp s ps tss :
    (forall n, Forall simple_token (sp n)) -> pieces K s ps -> Forall2 (piece_tokens E K sp) ps tss ->
    Forall simple_token (List.concat tss).
  Proof.
    intros Hsp (_ & Hok & _) HF. revert Hok. induction HF as [|p ts ps tss Hp HF IH]; intros Hok; [constructor|].
    inversion Hok as [|? ? Hq Hqs]; subst. cbn [List.concat]. apply Forall_app. split; [|apply IH, Hqs].
    destruct p as [w|c|n]; cbn [piece_tokens piece_ok] in *.
    - destruct Hp as (t & -> & Hw). constructor; [|constructor]. apply (word_token_simple w); try apply Hq; try assumption.
      apply (word_no_space K HK), Hq.
    - subst ts. constructor; [|constructor]. unfold char_token. destruct (N.eqb c 10); [exact I|]. destruct (N.eqb c 9); [exact I|].
      cbn. intros [H|[]]. destruct Hq as [_ Hq]. exact (Hq H).
    - subst ts. apply Hsp.
  Qed.

  Lemma words_simple s toks : split_into_words E K s = Ok toks -> Forall simple_token toks.
  Proof.
    intros H. destruct (C13_words E K s toks HK H) as (ps & tss & Hp & HF & ->). eapply pieces_simple; [|exact Hp|exact HF].
    intros n. apply Forall_forall. intros t Ht. apply repeat_spec in Ht. subst t. exact I.
  Qed.
  Lemma string_simple s toks : split_string E K s = Ok toks -> Forall simple_token toks.
  Proof.
    intros H. destruct (C13_string E K s toks HK H) as (ps & tss & Hp & HF & ->). eapply pieces_simple; [|exact Hp|exact HF].
    intros n. constructor; [exact I|constructor].
  Qed.

  Lemma parsed_total (w : str) : w <> [] -> ~ In 32%N w -> exists t, to_parsed_token E K w = Ok t.
  Proof.
    intros Hne Hs. unfold to_parsed_token. destruct (eqb w s_nl); [eauto|]. destruct (eqb w s_tab); [eauto|].
    destruct (is_number w); [eauto|]. destruct (fullmatch (Plus (Chr (is_w K))) w); [|eauto]. unfold split_identifier.
    destruct (identifier_parts K w Hs) as (_ & Hp & _).
    destruct (mapM_total (fun p => if eqb p s_underscore then Ok Underscore else word_from E p) (finditer (identifier_re K) w)) as (r & Hr).
    - intros p Hin. rewrite Forall_forall in Hp. destruct (eqb p s_underscore); [eauto|]. apply word_from_total, Hp, Hin.
    - rewrite Hr. eexists. reflexivity.
  Qed.

  Lemma chunk_total (s : str) r (f : str -> res token) (chunks : piece -> list str) :
    (exists ps, pieces K s ps /\ finditer r s = List.concat (map chunks ps)) ->
    (forall w, chunks (PWord w) = [w]) -> (forall c, chunks (PChar c) = [[c]]) ->
    (forall n m, In m (chunks (PSpaces n)) -> 0 < n -> exists t, f m = Ok t) ->
    (forall m, f m = to_parsed_token E K m \/ exists t, f m = Ok t) ->
    exists toks, mapM f (finditer r s) = Ok toks.
  Proof.
    intros (ps & (_ & Hok & _) & ->) Hcw Hcc Hsp Hf. apply mapM_total. intros m Hm. apply in_concat in Hm.
    destruct Hm as (l & Hl & Hm). apply in_map_iff in Hl. destruct Hl as (p & <- & Hp).
    rewrite Forall_forall in Hok. specialize (Hok p Hp). destruct p as [w|c|n]; cbn [piece_ok] in Hok.
    - rewrite Hcw in Hm. destruct Hm as [<-|[]]. destruct (Hf w) as [->|Hx]; [|exact Hx]. apply parsed_total; [apply Hok|].
      apply (word_no_space K HK), Hok.
    - rewrite Hcc in Hm. destruct Hm as [<-|[]]. destruct (Hf [c]) as [->|Hx]; [|exact Hx]. apply parsed_total; [discriminate|].
      intros [H|[]]. destruct Hok as [_ Hok]. exact (Hok H).
    - eapply Hsp; eassumption.
  Qed.

  Lemma w32 : is_w K 32%N = false.
  Proof. rewrite (w_ascii K HK) by reflexivity. reflexivity. Qed.

  Lemma words_total s : exists toks, split_into_words E K s = Ok toks.
  Proof.
    apply (chunk_total s (words_re K) (fun m => if eqb m four_spaces then Ok Tab else to_parsed_token E K m) words_chunks).
    - apply segment; try reflexivity.
      + intros c t Hc. apply alt_word_first, Hc.
      + intros c t Hc Hn. apply alt_char_first; assumption.
      + intros n t Ht _. apply words_spaces; [apply w32|exact Ht].
    - reflexivity.
    - reflexivity.
    - intros n m Hm _. apply repeat_spec in Hm. subst m. exists Tab. reflexivity.
    - intros m. destruct (eqb m four_spaces); [right; eauto|left; reflexivity].
  Qed.
  Lemma string_total s : exists toks, split_string E K s = Ok toks.
  Proof.
    apply (chunk_total s (string_re K) (fun m => if fullmatch spaces_re m then Ok (SpaceInString (length m)) else to_parsed_token E K m) string_chunks).
    - apply segment; try reflexivity.
      + intros c t Hc. apply alt_word_first, Hc.
      + intros c t Hc Hn. apply alt_char_first; assumption.
      + intros n t Ht Hn. apply string_spaces; [apply w32|exact Ht|exact Hn].
    - reflexivity.
    - reflexivity.
    - intros n m [<-|[]] Hn. replace (fullmatch spaces_re (repeat 32%N n)) with true; [eauto|].
      symmetry. apply fullmatch_plus. split; [destruct n; [lia|discriminate]|]. clear. induction n; [reflexivity|exact IHn].
    - intros m. destruct (fullmatch spaces_re m); [right; eauto|left; reflexivity].
  Qed.

  (** parsed tokens: simple ones, comments and strings of simple ones *)
  Definition parsed_token (t : token) : Prop :=
    match t with
    | OneLineComment l | MultilineComment l | StringLiteral l _ => Forall simple_token l
    | NonProc _ _ => True
    | _ => simple_token t
    end.

  Lemma simple_parsed t : simple_token t -> parsed_token t.
  Proof. destruct t; cbn; tauto. Qed.

  Lemma convert_parsed t (v : str) toks :
    v <> [] -> (type_in t ["Literal"; "Number"]%string = true -> ~ In 32%N v) ->
    convert E K t v = Ok toks -> Forall parsed_token toks.
  Proof.
    intros Hne Hnum. unfold convert.
    assert (Hw : forall toks, split_into_words E K v = Ok toks -> Forall parsed_token toks).
    { intros ts H. eapply Forall_impl; [apply simple_parsed|]. eapply words_simple, H. }
    destruct (eqb v s_nl); [intros [= <-]; repeat constructor|]. destruct (eqb v s_tab); [intros [= <-]; repeat constructor|].
    destruct (blank K v).
    { intros [= <-]. apply Forall_forall. intros x Hx. apply repeat_spec in Hx. subst x. exact I. }
    destruct (type_is t _ || type_in t _).
    { intros [= <-]. constructor; [|constructor]. unfold operator_token.
      destruct (eqb v _); [exact I|]. destruct (eqb v _); [exact I|]. destruct (eqb v _); [exact I|].
      destruct (eqb v _); [exact I|]. destruct (eqb v _); exact I. }
    destruct (type_in t ["Literal"; "Number"]%string) eqn:Hn.
    { intros [= <-]. constructor; [|constructor]. unfold number_token. destruct (eqb v _); [exact I|]. destruct (eqb v _); [exact I|].
      cbn. split; [apply (pt_nonempty E HT v Hne)|apply (pt_no_space E HT v (Hnum eq_refl))]. }
    destruct (type_in t ["Name"%string]); [apply Hw|]. destruct (type_is t _ || type_is t _); [apply Hw|].
    destruct (type_in t ["Keyword"%string]); [intros [= <-]; repeat constructor|].
    destruct (type_in t ["Literal"; "String"]%string).
    { rewrite bind_ok. intros (l & Hl & [= <-]). constructor; [|constructor]. cbn. eapply string_simple, Hl. }
    destruct (type_is t ["Comment"; "Single"]%string).
    { rewrite bind_ok. intros (l & Hl & [= <-]). constructor; [|constructor]. cbn. eapply words_simple, Hl. }
    destruct (type_in t ["Comment"%string]); [|apply Hw].
    rewrite bind_ok. intros (l & Hl & [= <-]). constructor; [|constructor]. cbn. eapply words_simple, Hl.
  Qed.

  Lemma convert_total t v : exists toks, convert E K t v = Ok toks.
  Proof.
    unfold convert. destruct (words_total v) as (ws & Hw). destruct (string_total v) as (ss & Hs). rewrite Hw, Hs. cbn [bind].
    repeat match goal with |- context [if ?b then _ else _] => destruct b; [eexists; reflexivity|] end. eexists; reflexivity.
  Qed.

  Lemma convert_text_total lexed : exists l, convert_text E K lexed = Ok l.
  Proof.
    induction lexed as [|[t v] rest [l IH]]; [exists []; reflexivity|]. destruct (convert_total t v) as (a & Ha).
    cbn [convert_text]. rewrite Ha. cbn [bind]. rewrite IH. cbn [bind]. eauto.
  Qed.

  (** pygments delivers no empty tokens (get_tokens drops them), and no spaces inside numbers *)
  Definition lexer_ok (lexed : list (token_type * str)) : Prop :=
    Forall (fun tv => snd tv <> [] /\ (type_in (fst tv) ["Literal"; "Number"]%string = true -> ~ In 32%N (snd tv))) lexed.

  Lemma convert_text_parsed lexed l : lexer_ok lexed -> convert_text E K lexed = Ok l -> Forall parsed_token l.
  Proof.
    intros H. revert l. induction H as [|[t v] rest [Hv Hn] H IH]; intros l; cbn [convert_text].
    - intros [= <-]. constructor.
    - rewrite bind_ok. intros (a & Ha & Hl). apply bind_ok in Hl. destruct Hl as (r & Hr & [= <-]).
      apply Forall_app. split; [eapply convert_parsed; eassumption|apply IH, Hr].
  Qed.

  Lemma simple_subterms t : simple_token t -> subterms t = [t].
  Proof. destruct t; cbn; tauto. Qed.

  Lemma parsed_subterms t u : parsed_token t -> In u (subterms t) -> parsed_token u.
  Proof.
    intros Ht Hu. assert (Hin : forall l, Forall simple_token l -> In u (List.concat (map subterms l)) -> parsed_token u).
    { intros l Hl Hc. apply in_concat in Hc. destruct Hc as (x & Hx & Hc). apply in_map_iff in Hx. destruct Hx as (y & <- & Hy).
      rewrite Forall_forall in Hl. specialize (Hl y Hy). rewrite (simple_subterms y Hl) in Hc. destruct Hc as [<-|[]].
      apply simple_parsed, Hl. }
    destruct t; cbn [subterms] in Hu; try (destruct Hu as [<-|[]]; exact Ht); destruct Hu as [<-|Hu]; try exact Ht; eapply Hin; eassumption.
  Qed.

  Lemma parsed_all l u : Forall parsed_token l -> In u (all_tokens l) -> parsed_token u.
  Proof.
    intros Hl Hu. apply in_concat in Hu. destruct Hu as (x & Hx & Hu). apply in_map_iff in Hx. destruct Hx as (t & <- & Ht).
    rewrite Forall_forall in Hl. eapply parsed_subterms; [apply Hl, Ht|exact Hu].
  Qed.

  Lemma simple_text t : simple_token t -> ~ In 32%N (tok_str E t).
  Proof.
    destruct t; cbn [simple_token]; unfold tok_str; cbn [nonprep_none join]; try tauto; try (intros _; cbn; intuition discriminate).
    intros _ H. apply in_concat in H. destruct H as (x & Hx & H). apply repeat_spec in Hx. subst x. destruct H as [H|[]]. discriminate H.
  Qed.

  Lemma parsed_spaceless l : Forall parsed_token l -> spaceless E l.
  Proof.
    intros Hl t Ht Htx. pose proof (parsed_all l t Hl Ht) as Hp. destruct t; try discriminate Htx; try (apply simple_text, Hp).
    cbn [parsed_token] in Hp. unfold tok_str. cbn [nonprep_none join]. intros Hin. apply in_concat in Hin.
    destruct Hin as (x & Hx & Hin). apply in_map_iff in Hx. destruct Hx as (y & <- & Hy).
    rewrite Forall_forall in Hp. exact (simple_text y (Hp y Hy) Hin).
  Qed.
  Lemma parsed_words_nonempty l : Forall parsed_token l -> words_nonempty E l.
  Proof. intros Hl k Hk. apply (parsed_all l _ Hl Hk). Qed.
  Lemma parsed_numbers l : Forall parsed_token l -> ~ In (Number []) (all_tokens l).
  Proof. intros Hl H. destruct (parsed_all l _ Hl H) as [Hx _]. apply Hx. reflexivity. Qed.
End Parsed.

(** what the other theorems ask of tokens holds for every text *)
Theorem C61_parser_output :
  forall E K lexed l, ascii_classes K -> py_text E -> lexer_ok lexed -> convert_text E K lexed = Ok l ->
  spaceless E l /\ words_nonempty E l /\ ~ In (Number []) (all_tokens l).
Proof.
  intros E K lexed l HK HT HL H. pose proof (convert_text_parsed E K HK HT lexed l HL H) as Hp.
  split; [apply (parsed_spaceless E l Hp)|]. split; [apply (parsed_words_nonempty E l Hp)|apply (parsed_numbers E l Hp)].
Qed.
Print Assumptions C61_parser_output.

(** preprocessing a text never raises *)
Theorem C61_text_never_raises :
  forall E K o d b lexed,
  mk_prep_config d = Ok d -> py_ascii E -> py_text E -> ascii_classes K -> lexer_ok lexed ->
  (is_bpe d = true -> exists bd merges, b = Some bd /\ usable bd merges) ->
  exists l out m, convert_text E K lexed = Ok l /\ to_repr E o d b l = Ok (out, m).
Proof.
  intros E K o d b lexed Hd HE HT HK HL Hb. destruct (convert_text_total E K HK HT lexed) as (l & Hl).
  destruct (C61_parser_output E K lexed l HK HT HL Hl) as (H1 & H2 & _).
  destruct (C61_never_raises E o d b l Hd HE Hb H1 H2) as (out & m & Hr). exists l, out, m. auto.
Qed.
Print Assumptions C61_text_never_raises.

Theorem C01_text_boundaries :
  forall E K o d b lexed l out m,
  py_text E -> ascii_classes K -> lexer_ok lexed ->
  convert_text E K lexed = Ok l -> to_repr E o d b l = Ok (out, m) ->
  hd 1 (wb m) = 0 /\ increasing (wb m) /\ last (wb m) 0 = length out /\ length (types m) = length (wb m) - 1.
Proof.
  intros E K o d b lexed l out m HT HK HL Hl H.
  destruct (C61_parser_output E K lexed l HK HT HL Hl) as (_ & _ & Hn). exact (C01_metadata_boundaries E o d b l out m H Hn).
Qed.
Print Assumptions C01_text_boundaries.

(** splitting a text with bpe loses nothing *)
Theorem C03_text_lossless :
  forall E K o d b merges lexed l out m,
  py_text E -> ascii_classes K -> lexer_ok lexed -> usable b merges -> is_bpe d = true -> param d EN_ONLY <> lit "U" ->
  convert_text E K lexed = Ok l -> to_repr E o d (Some b) l = Ok (out, m) ->
  exists tokens mF, to_repr E o (whole d) None l = Ok (tokens, mF) /\ types mF = types m /\
    map (@List.concat N) (slices (wb m) out) = map (fun t => t ++ lit "</t>") tokens /\
    List.concat (slices (wb m) out) = out.
Proof.
  intros E K o d b merges lexed l out m HT HK HL Hu Hd Hen Hl H.
  destruct (C61_parser_output E K lexed l HK HT HL Hl) as (Hs & _ & _).
  apply (C03_lossless E o d b merges l out m Hu Hd Hs); [|exact H]. intros Hx. contradiction.
Qed.
Print Assumptions C03_text_lossless.

Example C61_text_example :
  let lexed := [(["Keyword"%string], lit "int"); (["Text"%string], lit " "); (["Name"%string], lit "aB");
                (["Operator"%string], lit "="); (["Literal"; "Number"; "Integer"]%string, lit "12");
                (["Punctuation"%string], lit ";"); (["Comment"; "Single"]%string, lit "// x");
                (["Literal"; "String"]%string, lit """a  b""")] in
  lexer_ok lexed /\
  match (l <- convert_text ascii_case ascii_K lexed ;;
   to_repr ascii_case no_splitters (combine prep_params (chars_of "Uc11su")) None l) with Ok r => fst r | _ => [] end
  = map lit ["int"; "<w>"; "a"; "B"; "</w>"; "="; "12"; ";"; "/"; "/"; "x"; "<EOL>"; """"; "a"; "b"; """"]%string.
Proof.
  cbv zeta. split; [|vm_compute; reflexivity].
  repeat (constructor; [split; [discriminate|cbn; intros H; try discriminate H; intuition discriminate]|]). constructor.
Qed.

(** ** C09 for texts *)
Section ParsedAscii.
  Variables (E : pycase) (K : charclass).
  Hypothesis HK : ascii_classes K.
  Hypothesis HE : py_ascii E.

  Lemma case_ascii s : ascii s -> ascii (lower E s) /\ ascii (upper E s) /\ ascii (capitalize E s).
  Proof.
    intros Hs. destruct HE as [_ HF]. destruct (HF s) as (-> & -> & ->).
    { eapply Forall_impl; [|exact Hs]. intros c Hc. left. exact Hc. }
    assert (Hl : forall c, (c < 128)%N -> (ascii_to_lower c < 128)%N).
    { intros c Hc. unfold ascii_to_lower. destruct (ascii_upper_ch c) eqn:Hu; [|exact Hc].
      unfold ascii_upper_ch in Hu. apply andb_true_iff in Hu. destruct Hu as [_ Hu]. apply N.leb_le in Hu. lia. }
    assert (Hu : forall c, (c < 128)%N -> (ascii_to_upper c < 128)%N).
    { intros c Hc. unfold ascii_to_upper. destruct (ascii_lower_ch c); [|exact Hc]. lia. }
    assert (HL : ascii (map ascii_to_lower s)) by (apply Forall_map; eapply Forall_impl; [exact Hl|exact Hs]).
    assert (HU : ascii (map ascii_to_upper s)) by (apply Forall_map; eapply Forall_impl; [exact Hu|exact Hs]).
    split; [exact HL|]. split; [exact HU|]. destruct s as [|c s]; [exact Hs|]. inversion Hs; subst. inversion HL; subst.
    constructor; [apply Hu; assumption|assumption].
  Qed.

  Lemma word_ascii p w k : ascii p -> word_from E p = Ok (Word w k) -> ascii w /\ ascii (with_preserved_case E w k).
  Proof.
    intros Hp H. assert (Hw : ascii w).
    { destruct p as [|c rest]; [discriminate|]. unfold word_from, mk_word in H.
      destruct (case_ascii _ Hp) as (H1 & _). inversion Hp as [|? ? Hc Hr]; subst.
      destruct (case_ascii [c]) as (H2 & _); [constructor; [exact Hc|constructor]|].
      destruct (islower E (c :: rest)); [destruct (canonic_ok E _); [|discriminate]; injection H as <- _; exact Hp|].
      destruct (isupper E (c :: rest)); [destruct (canonic_ok E _); [|discriminate]; injection H as <- _; exact H1|].
      destruct (isupper E [c]); (destruct (canonic_ok E _); [|discriminate]); injection H as <- _; [|exact Hp].
      apply Forall_app. split; assumption. }
    split; [exact Hw|]. destruct (case_ascii w Hw) as (_ & H2 & H3). destruct k; cbn; assumption.
  Qed.

  Definition marked_token (t : token) : Prop :=
    match t with
    | Number v => ascii v
    | NonProc _ s => ascii s
    | SplitContainer k => forall w c, In (Word w c) k -> ascii w /\ ascii (with_preserved_case E w c)
    | _ => True
    end.
  (** characters outside words *)
  Definition ascii_outside_words (s : str) : Prop := forall c, In c s -> is_w K c = false -> (c < 128)%N.

  Lemma number_ascii w : number_literal w -> ascii w.
  Proof.
    assert (Hd : forall p s, (forall c, p c = true -> (c < 128)%N) -> forallb p s = true -> ascii s).
    { intros p s Hp Hs. apply Forall_forall. intros c Hc. rewrite forallb_forall in Hs. apply Hp, Hs, Hc. }
    assert (Hr : forall a b c, (b < 128)%N -> in_range a b c = true -> (c < 128)%N).
    { intros a b c Hb H. unfold in_range in H. apply andb_true_iff in H. destruct H as [_ H]. apply N.leb_le in H. lia. }
    assert (Hdig : forall c, is_digit c = true -> (c < 128)%N).
    { intros c H. unfold is_digit in H. apply andb_true_iff in H. destruct H as [_ H]. apply N.leb_le in H. lia. }
    assert (Hhex : forall c, is_hex c = true -> (c < 128)%N).
    { intros c H. unfold is_hex in H. apply orb_true_iff in H. destruct H as [H|H]; [|eapply Hr; [|exact H]; reflexivity].
      apply orb_true_iff in H. destruct H as [H|H]; [apply Hdig, H|eapply Hr; [|exact H]; reflexivity]. }
    assert (Hbin : forall c, is_bin c = true -> (c < 128)%N) by (intros c; apply Hr; reflexivity).
    assert (Hopt : forall chars s, is_ascii (lit chars) = true -> optional chars s -> ascii s).
    { intros chars s Ha [->|(c & Hc & ->)]; [constructor|]. constructor; [|constructor]. unfold is_ascii in Ha.
      rewrite forallb_forall in Ha. apply N.ltb_lt, Ha, Hc. }
    assert (Hgr : forall p s, (forall c, p c = true -> (c < 128)%N) -> grouped p s -> ascii s).
    { intros p s Hp (gs & _ & Hg & ->). apply Forall_forall. intros c Hc. apply join_chars in Hc.
      destruct Hc as [[<-|[]]|(x & Hx & Hc)]; [reflexivity|]. rewrite Forall_forall in Hg. destruct (Hg x Hx) as [_ Hf].
      rewrite forallb_forall in Hf. apply Hp, Hf, Hc. }
    assert (Hex : forall s, exponent s -> ascii s).
    { intros s (e & sg & ds & He & Hs & [_ Hds] & ->). constructor.
      - destruct He as [<-|[<-|[]]]; reflexivity.
      - apply Forall_app. split; [eapply Hopt; [|exact Hs]; reflexivity|apply (Hd is_digit); assumption]. }
    destruct 1 as [body suf Hb Hs|body suf Hb Hs|body suf Hb Hs|whole frac ex suf Hw Hf _ Hx Hs|whole ex suf [_ Hw] Hx Hs].
    - apply (proj2 (Forall_app _ (lit "0x") _)). split; [repeat constructor|]. apply Forall_app.
      split; [eapply Hgr; [exact Hhex|exact Hb]|eapply Hopt; [|exact Hs]; reflexivity].
    - apply (proj2 (Forall_app _ (lit "0b") _)). split; [repeat constructor|]. apply Forall_app.
      split; [eapply Hgr; [exact Hbin|exact Hb]|eapply Hopt; [|exact Hs]; reflexivity].
    - apply Forall_app. split; [eapply Hgr; [exact Hdig|exact Hb]|eapply Hopt; [|exact Hs]; reflexivity].
    - apply Forall_app. split; [apply (Hd is_digit); assumption|]. apply (proj2 (Forall_app _ (lit ".") _)). split; [repeat constructor|].
      apply Forall_app. split; [apply (Hd is_digit); assumption|]. apply Forall_app.
      split; [destruct Hx as [->|Hx]; [constructor|apply Hex, Hx]|eapply Hopt; [|exact Hs]; reflexivity].
    - apply Forall_app. split; [apply (Hd is_digit); assumption|]. apply Forall_app.
      split; [apply Hex, Hx|eapply Hopt; [|exact Hs]; reflexivity].
  Qed.

  Lemma word_token_marked w t : word_token E K w t -> marked_token t.
  Proof.
    intros [Hn|parts subs _ <- _ _ HF].
    - cbn. apply case_ascii, number_ascii, Hn.
    - destruct (is_ascii (List.concat parts)) eqn:Ha; [|exact I]. cbn. intros w0 c Hin.
      assert (Hp : exists p, In p parts /\ word_from E p = Ok (Word w0 c)).
      { clear Ha. induction HF as [|p s ps ss Hp HF IH]; [destruct Hin|]. destruct Hin as [->|Hin].
        - exists p. split; [left; reflexivity|]. destruct Hp as [[_ Hx]|[_ Hp]]; [discriminate|exact Hp].
        - destruct (IH Hin) as (q & Hq & Hx). exists q. split; [right; exact Hq|exact Hx]. }
      destruct Hp as (p & Hp & Hx). apply (word_ascii p); [|exact Hx].
      apply Forall_forall. intros y Hy. unfold is_ascii in Ha. rewrite forallb_forall in Ha. apply N.ltb_lt, Ha.
      apply in_concat. exists p. auto.
  Qed.

  Lemma pieces_marked sp s ps tss :
    (forall n, Forall marked_token (sp n)) -> ascii_outside_words s -> pieces K s ps ->
    Forall2 (piece_tokens E K sp) ps tss -> Forall marked_token (List.concat tss).
  Proof.
    intros Hsp Hs (-> & Hok & _) HF. revert Hok Hs. induction HF as [|p ts ps tss Hp HF IH]; intros Hok Hs; [constructor|].
    inversion Hok as [|? ? Hq Hqs]; subst. cbn [List.concat]. apply Forall_app. split.
    - destruct p as [w|c|n]; cbn [piece_tokens piece_ok] in *.
      + destruct Hp as (t & -> & Hw). constructor; [|constructor]. apply (word_token_marked w), Hw.
      + subst ts. constructor; [|constructor]. unfold char_token. destruct (N.eqb c 10); [exact I|]. destruct (N.eqb c 9); [exact I|].
        cbn. constructor; [|constructor]. apply Hs; [left; reflexivity|apply Hq].
      + subst ts. apply Hsp.
    - apply IH; [exact Hqs|]. intros c Hc. apply Hs. cbn [map List.concat]. apply in_or_app. right. exact Hc.
  Qed.

  Lemma words_marked s toks : ascii_outside_words s -> split_into_words E K s = Ok toks -> Forall marked_token toks.
  Proof.
    intros Hs H. destruct (C13_words E K s toks HK H) as (ps & tss & Hp & HF & ->).
    eapply pieces_marked; [|exact Hs|exact Hp|exact HF].
    intros n. apply Forall_forall. intros t Ht. apply repeat_spec in Ht. subst t. exact I.
  Qed.
  Lemma string_marked s toks : ascii_outside_words s -> split_string E K s = Ok toks -> Forall marked_token toks.
  Proof.
    intros Hs H. destruct (C13_string E K s toks HK H) as (ps & tss & Hp & HF & ->).
    eapply pieces_marked; [|exact Hs|exact Hp|exact HF]. intros n. constructor; [exact I|constructor].
  Qed.

  (** operators, punctuation, keywords and numbers of the lexer *)
  Definition plain_type (t : token_type) : bool :=
    type_is t ["Operator"%string] || type_in t ["Punctuation"%string] || type_in t ["Literal"; "Number"]%string ||
    type_in t ["Keyword"%string].

  Definition marked_deep (t : token) : Prop :=
    match t with
    | OneLineComment l | MultilineComment l | StringLiteral l _ => Forall marked_token l
    | _ => marked_token t
    end.

  Lemma convert_marked t (v : str) toks :
    py_text E -> ascii_outside_words v -> (plain_type t = true -> ascii v) -> convert E K t v = Ok toks -> Forall marked_deep toks.
  Proof.
    intros HT Hs Hp. unfold convert.
    assert (Hw : forall toks, split_into_words E K v = Ok toks -> Forall marked_deep toks).
    { intros ts H. pose proof (words_simple E K HK HT v ts H) as H1. pose proof (words_marked v ts Hs H) as H2.
      rewrite Forall_forall in *. intros x Hx. specialize (H1 x Hx). specialize (H2 x Hx). destruct x; try exact H2; destruct H1. }
    destruct (eqb v s_nl); [intros [= <-]; repeat constructor|]. destruct (eqb v s_tab); [intros [= <-]; repeat constructor|].
    destruct (blank K v).
    { intros [= <-]. apply Forall_forall. intros x Hx. apply repeat_spec in Hx. subst x. exact I. }
    unfold plain_type in Hp.
    destruct (type_is t ["Operator"%string] || type_in t ["Punctuation"%string]).
    { specialize (Hp eq_refl). intros [= <-]. constructor; [|constructor]. unfold operator_token.
      destruct (eqb v _); [exact Hp|]. destruct (eqb v _); [exact Hp|]. destruct (eqb v _); [exact Hp|].
      destruct (eqb v _); [exact Hp|]. destruct (eqb v _); exact Hp. }
    destruct (type_in t ["Literal"; "Number"]%string) eqn:Hn.
    { specialize (Hp eq_refl). intros [= <-]. constructor; [|constructor]. unfold number_token. destruct (eqb v _); [exact I|]. destruct (eqb v _); [exact I|].
      cbn. apply case_ascii, Hp. }
    destruct (type_in t ["Name"%string]); [apply Hw|]. destruct (type_is t _ || type_is t _); [apply Hw|].
    destruct (type_in t ["Keyword"%string]); [specialize (Hp eq_refl); intros [= <-]; constructor; [exact Hp|constructor]|].
    destruct (type_in t ["Literal"; "String"]%string).
    { rewrite bind_ok. intros (l & Hl & [= <-]). constructor; [|constructor]. cbn. eapply string_marked; eassumption. }
    destruct (type_is t ["Comment"; "Single"]%string).
    { rewrite bind_ok. intros (l & Hl & [= <-]). constructor; [|constructor]. cbn. eapply words_marked; eassumption. }
    destruct (type_in t ["Comment"%string]); [|apply Hw].
    rewrite bind_ok. intros (l & Hl & [= <-]). constructor; [|constructor]. cbn. eapply words_marked; eassumption.
  Qed.

  (** no non-ascii character outside words; no non-ascii keyword, operator or number *)
  Definition lexer_ascii (lexed : list (token_type * str)) : Prop :=
    Forall (fun tv => ascii_outside_words (snd tv) /\ (plain_type (fst tv) = true -> ascii (snd tv))) lexed.

  Lemma text_marked lexed l : py_text E -> lexer_ok lexed -> lexer_ascii lexed -> convert_text E K lexed = Ok l -> marked E l.
  Proof.
    intros HT HL HA Hl.
    assert (Hd : Forall marked_deep l).
    { clear HL. revert l Hl. induction HA as [|[t v] rest [H1 H2] HA IH]; intros l; cbn [convert_text].
      - intros [= <-]. constructor.
      - rewrite bind_ok. intros (a & Ha & Hl). apply bind_ok in Hl. destruct Hl as (r & Hr & [= <-]).
        apply Forall_app. split; [eapply convert_marked; eassumption|apply IH, Hr]. }
    pose proof (convert_text_parsed E K HK HT lexed l HL Hl) as Hp.
    intros u Hu. change (marked_token u). apply in_concat in Hu. destruct Hu as (x & Hx & Hu). apply in_map_iff in Hx.
    destruct Hx as (t & <- & Ht). rewrite Forall_forall in Hd, Hp. specialize (Hd t Ht). specialize (Hp t Ht).
    assert (Hin : forall k, Forall (simple_token E) k -> Forall marked_token k -> In u (List.concat (map subterms k)) -> marked_token u).
    { intros k Hk Hm Hc. apply in_concat in Hc. destruct Hc as (x & Hx & Hc). apply in_map_iff in Hx. destruct Hx as (y & <- & Hy).
      rewrite Forall_forall in Hk, Hm. rewrite (simple_subterms E y (Hk y Hy)) in Hc. destruct Hc as [<-|[]]. apply Hm, Hy. }
    destruct t; cbn [subterms] in Hu; try (destruct Hu as [<-|[]]; exact Hd); (destruct Hu as [<-|Hu]; [exact I|]); eapply Hin; eassumption.
  Qed.
End ParsedAscii.

Theorem C09_text_no_unicode :
  forall E K o d b lexed l out m,
  mk_prep_config d = Ok d -> py_ascii E -> py_text E -> ascii_classes K -> splitters_ascii o ->
  (is_bpe d = true -> exists bd merges, b = Some bd /\ usable bd merges) ->
  param d EN_ONLY = lit "U" -> lexer_ok lexed -> lexer_ascii K lexed ->
  convert_text E K lexed = Ok l -> to_repr E o d b l = Ok (out, m) ->
  Forall (Forall shown) out.
Proof.
  intros E K o d b lexed l out m Hd HE HT HK Ho Hb Hen HL HA Hl H.
  destruct (C61_parser_output E K lexed l HK HT HL Hl) as (Hs & _ & _).
  apply (C09_no_unicode E o d b l out m Hd HE Ho Hb Hen Hs); [|exact H].
  apply (text_marked E K HK HE lexed l HT HL HA Hl).
Qed.
Print Assumptions C09_text_no_unicode.

(** the condition on characters outside words is needed: a typographic quote in a comment *)
Theorem C09_text_refuted :
  exists lexed l out m, lexer_ok lexed /\
  convert_text ascii_case ascii_K lexed = Ok l /\
  to_repr ascii_case no_splitters (combine prep_params (chars_of "Uc11su")) None l = Ok (out, m) /\ In [8220%N] out.
Proof.
  exists [(["Comment"; "Single"]%string, lit "# " ++ [8220%N])]. do 3 eexists.
  split; [constructor; [split; [discriminate|cbn; discriminate]|constructor]|].
  split; [vm_compute; reflexivity|]. split; [vm_compute; reflexivity|]. right. left. reflexivity.
Qed.
Print Assumptions C09_text_refuted.

(** classes with one letter outside ascii, for the theorem on no_unicode *)
Definition accent_K : charclass :=
  {| is_w := fun c => ascii_word_ch c || N.eqb c 233; is_up := ascii_upper_ch; is_low := fun c => ascii_lower_ch c || N.eqb c 233;
     is_blank := is_blank ascii_K |}.
Lemma accent_K_classes : ascii_classes accent_K.
Proof.
  intros c Hc. cbn. replace (N.eqb c 233) with false; [rewrite !orb_false_r; auto|]. symmetry. apply N.eqb_neq. lia.
Qed.
Example C09_text_example :
  let lexed := [(["Keyword"%string], lit "int"); (["Text"%string], lit " "); (["Name"%string], lit "caf" ++ [233%N]);
                (["Operator"%string], lit "="); (["Comment"; "Single"]%string, lit "// " ++ [233%N])] in
  exists l out m, lexer_ok lexed /\ lexer_ascii accent_K lexed /\ convert_text ascii_case accent_K lexed = Ok l /\
  to_repr ascii_case no_splitters (combine prep_params (chars_of "Uc11su")) None l = Ok (out, m) /\
  out = [lit "int"; lit "<non-en>"; lit "="; lit "/"; lit "/"; lit "<non-en>"; lit "<EOL>"] /\ Forall (Forall shown) out /\
  hd 1 (wb m) = 0 /\ last (wb m) 0 = 7.
Proof.
  cbv zeta. match goal with |- context [lexer_ok ?x] => set (lexed := x) end.
  assert (H1 : lexer_ok lexed).
  { repeat (constructor; [split; [discriminate|cbn; intros H; try discriminate H; intuition discriminate]|]). constructor. }
  assert (H2 : lexer_ascii accent_K lexed).
  { repeat (constructor; [split; [intros c Hc Hw; cbn in Hc; repeat (destruct Hc as [<-|Hc]; [first [discriminate Hw|reflexivity]|]); destruct Hc|
      intros Hp; first [discriminate Hp|repeat constructor]]|]). constructor. }
  assert (E1 : exists l, convert_text ascii_case accent_K lexed = Ok l) by (eexists; vm_compute; reflexivity). destruct E1 as (l & E1).
  assert (E2 : exists r, to_repr ascii_case no_splitters (combine prep_params (chars_of "Uc11su")) None l = Ok r)
    by (vm_compute in E1; injection E1 as <-; eexists; vm_compute; reflexivity).
  destruct E2 as ([out m] & E2). exists l, out, m. split; [exact H1|]. split; [exact H2|].
  split; [exact E1|]. split; [exact E2|]. split; [clear -E1 E2; vm_compute in E1; injection E1 as <-; vm_compute in E2; injection E2 as <- _; reflexivity|].
  split.
  - apply (C09_text_no_unicode ascii_case accent_K no_splitters (combine prep_params (chars_of "Uc11su")) None lexed l out m);
      try assumption; try reflexivity; try exact ascii_case_py_ascii; try exact ascii_case_py_text; try exact accent_K_classes.
    + split; intros s Hs; [repeat constructor; exact Hs|exact Hs].
    + discriminate.
  - destruct (C01_text_boundaries ascii_case accent_K no_splitters _ _ lexed l out m ascii_case_py_text accent_K_classes H1 E1 E2) as (B0 & _ & B1 & _).
    split; [exact B0|]. rewrite B1. clear -E1 E2; vm_compute in E1; injection E1 as <-; vm_compute in E2; injection E2 as <- _; reflexivity.
Qed.
