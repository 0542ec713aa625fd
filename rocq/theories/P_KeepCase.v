(** * C71, C86: without any condition on numbers, every visible character of the source is in the output up to its case

    P_Source and P_Keep ask for numbers in lower case.  Here numbers are arbitrary: each visible character of the output
    is then the one of the source at this place, or its lower case form. *)
From Verif Require Import M_Base L_Base M_Tokens M_Regex M_Parse L_Regex M_Repr M_PrepConfig L_Repr P_Repr L_Word
     M_Merge M_BpeEncode L_BpeEncode P_PrepConfig P_ReprOptions P_ReprStrings P_Parse P_ParseRepr P_Source P_Split P_Keep.
From Coq Require Import Arith.

(** ** Specification *)

(** character by character the same, or put into lower case *)
Definition lowered (lo : N -> N) : str -> str -> Prop := Forall2 (fun c x => x = c \/ x = lo c).

(** only letters in upper case have another lower case form, and it is not white space *)
Definition plain_case (K : charclass) (G : N -> Prop) (lo : N -> N) : Prop :=
  forall c, G c -> (is_up K c = false -> lo c = c) /\ is_blank K (lo c) = is_blank K c.

(** the source: characters with simple case, and nothing that looks like the mark *)
Definition source_any (K : charclass) (G : N -> Prop) (lexed : list (token_type * str)) : Prop :=
  Forall (fun tv => Forall G (snd tv) /\ visible K (snd tv) <> lit "<EOL>") lexed.

Lemma lowered_refl lo s : lowered lo s s.
Proof. unfold lowered. induction s; constructor; auto. Qed.
Lemma lowered_app lo a b a' b' : lowered lo a a' -> lowered lo b b' -> lowered lo (a ++ b) (a' ++ b').
Proof. apply Forall2_app. Qed.
Lemma lowered_map lo s : lowered lo s (map lo s).
Proof. unfold lowered. induction s; constructor; auto. Qed.

Section KeepCase.
  Variables (E : pycase) (K : charclass) (G : N -> Prop) (lo up : N -> N).
  Hypothesis HK : ascii_classes K.
  Hypothesis HS : simple_case E K G lo up.
  Hypothesis HB : blanks_ok K.
  Hypothesis HP : plain_case K G lo.

  Lemma lowered_visible s s' : Forall G s -> lowered lo s s' -> lowered lo (visible K s) (visible K s').
  Proof.
    intros Hg H. induction H as [|c x s s' Hx H IH]; [constructor|]. inversion Hg as [|? ? G1 G2]; subst. cbn [visible filter].
    assert (Hb : is_blank K x = is_blank K c) by (destruct Hx as [-> | ->]; [reflexivity|apply HP, G1]).
    rewrite Hb. destruct (is_blank K c); cbn [negb]; [exact (IH G2)|constructor; [exact Hx|exact (IH G2)]].
  Qed.

  (** a character that is no letter in lower case is the one of the source *)
  Lemma lowered_char c x : G c -> x = c \/ x = lo c -> is_low K x = false -> x = c.
  Proof.
    intros Hg [H|H] Hx; [exact H|]. destruct (is_up K c) eqn:Hu.
    - destruct (sc_up _ _ _ _ _ HS c Hg Hu) as [H1 _]. congruence.
    - rewrite (proj1 (HP c Hg) Hu) in H. exact H.
  Qed.
  Lemma lowered_eol s : Forall G s -> lowered lo s (lit "<EOL>") -> s = lit "<EOL>".
  Proof.
    assert (L : Forall (fun x => is_low K x = false) (lit "<EOL>")).
    { apply Forall_forall. intros x Hx. cbn in Hx.
      destruct (HK x) as (_ & _ & ->); [repeat (destruct Hx as [<-|Hx]; [reflexivity|]); destruct Hx|].
      repeat (destruct Hx as [<-|Hx]; [reflexivity|]). destruct Hx. }
    intros Hg H. revert Hg L. induction H as [|c x s s' Hx H IH]; intros Hg L; [reflexivity|].
    inversion Hg as [|? ? G1 G2]; inversion L as [|? ? L1 L2]; subst. rewrite (IH G2 L2), (lowered_char c x G1 Hx L1). reflexivity.
  Qed.
  Lemma visible_eol s : Forall G s -> lowered lo (visible K s) (lit "<EOL>") -> visible K s = lit "<EOL>".
  Proof.
    intros Hg. apply lowered_eol. apply Forall_forall. intros c Hc. rewrite Forall_forall in Hg. apply Hg.
    unfold visible in Hc. apply filter_In in Hc. apply Hc.
  Qed.

  Lemma word_lowered w t : Forall G w -> word_token E K w t -> lowered lo w (spelling E t).
  Proof.
    intros Hg Ht. destruct Ht as [Hn|parts subs Hn Hc Hne Hp Hf].
    - cbn [spelling tok_str nonprep_none join]. change (lowered lo w (lower E w)). rewrite (sc_lower _ _ _ _ _ HS w Hg). apply lowered_map.
    - rewrite (word_spelled E K G lo up HK HS w _ Hg (wt_identifier E K w parts subs Hn Hc Hne Hp Hf)); [apply lowered_refl|].
      intros H. contradiction.
  Qed.

  Lemma pieces_lowered sp (s : str) ps tss :
    (forall n, spell E (sp n) = []) -> Forall G s -> s = List.concat (map piece_text ps) ->
    Forall2 (piece_tokens E K sp) ps tss ->
    lowered lo (visible K s) (visible K (spell E (List.concat tss))).
  Proof.
    intros Hsp Hg -> Hf. revert Hg. induction Hf as [|p ts ps tss Hp Hf IH]; intros Hg; [constructor|].
    cbn [map List.concat] in Hg |- *. apply Forall_app in Hg. destruct Hg as [Hg1 Hg2].
    rewrite spell_app, !visible_app. apply lowered_app; [|exact (IH Hg2)].
    destruct p as [w|c|n]; cbn [piece_tokens piece_text] in *.
    - destruct Hp as (t & -> & Ht). rewrite spell_one. apply (lowered_visible _ _ Hg1), (word_lowered w t Hg1 Ht).
    - subst ts. rewrite spell_one. rewrite (char_spelled E K (proj1 HB)). apply lowered_refl.
    - subst ts. rewrite Hsp, (spaces_invisible K (proj1 HB)). constructor.
  Qed.

  Lemma words_lowered (v : str) l : Forall G v -> split_into_words E K v = Ok l -> lowered lo (visible K v) (visible K (spell E l)).
  Proof.
    intros Hg H. destruct (C13_words E K v l HK H) as (ps & tss & Hps & Hf & ->).
    eapply pieces_lowered; [|exact Hg|apply Hps|exact Hf]. intros n. apply spell_tabs.
  Qed.
  Lemma string_lowered (v : str) l : Forall G v -> split_string E K v = Ok l -> lowered lo (visible K v) (visible K (spell E l)).
  Proof.
    intros Hg H. destruct (C13_string E K v l HK H) as (ps & tss & Hps & Hf & ->).
    eapply pieces_lowered; [|exact Hg|apply Hps|exact Hf]. intros n. reflexivity.
  Qed.

  Lemma convert_lowered t (v : str) l : Forall G v -> convert E K t v = Ok l -> lowered lo (visible K v) (visible K (spell E l)).
  Proof.
    intros Hg. unfold convert. destruct HB as ((H32 & H9 & H10) & _).
    destruct (eqb_spec v s_nl) as [->|_]; [intros [= <-]; cbn; rewrite H10; constructor|].
    destruct (eqb_spec v s_tab) as [->|_]; [intros [= <-]; cbn; rewrite H9; constructor|].
    destruct (blank K v) eqn:Hb; [intros Hx; inversion Hx; subst l; rewrite spell_tabs, (blank_invisible K v Hb); constructor|].
    destruct (type_is t ["Operator"]%string || type_in t ["Punctuation"]%string).
    { intros [= <-]. rewrite spell_one. unfold operator_token. repeat destruct (eqb v _); apply lowered_refl. }
    destruct (type_in t ["Literal"; "Number"]%string) eqn:Hnum.
    { intros [= <-]. rewrite spell_one. unfold number_token. destruct (eqb_spec v (lit "0")) as [->|_]; [apply lowered_refl|].
      destruct (eqb_spec v (lit "1")) as [->|_]; [apply lowered_refl|]. unfold mk_number.
      change (spelling E (Number (lower E v))) with (lower E v). apply (lowered_visible _ _ Hg). rewrite (sc_lower _ _ _ _ _ HS v Hg). apply lowered_map. }
    destruct (type_in t ["Name"]%string); [apply (words_lowered v l Hg)|].
    destruct (type_is t ["Literal"]%string || type_is t ["Literal"; "Date"]%string); [apply (words_lowered v l Hg)|].
    destruct (type_in t ["Keyword"]%string); [intros [= <-]; rewrite spell_one; apply lowered_refl|].
    destruct (type_in t ["Literal"; "String"]%string).
    { rewrite bind_ok. intros (k & Hk & [= <-]). rewrite spell_one. exact (string_lowered v k Hg Hk). }
    destruct (type_is t ["Comment"; "Single"]%string).
    { rewrite bind_ok. intros (k & Hk & [= <-]). rewrite spell_one. exact (words_lowered v k Hg Hk). }
    destruct (type_in t ["Comment"]%string).
    { rewrite bind_ok. intros (k & Hk & [= <-]). rewrite spell_one. exact (words_lowered v k Hg Hk). }
    apply (words_lowered v l Hg).
  Qed.

  Lemma text_lowered lexed l : Forall (fun tv => Forall G (snd tv)) lexed -> convert_text E K lexed = Ok l ->
    lowered lo (visible K (List.concat (map snd lexed))) (visible K (spell E l)).
  Proof.
    intros Hf. revert l. induction Hf as [|[t v] lexed Hg Hf IH]; intros l H; cbn [convert_text] in H; [injection H as <-; constructor|].
    apply bind_ok in H. destruct H as (a & Ha & H). apply bind_ok in H. destruct H as (r & Hr & [= <-]).
    cbn [map List.concat snd]. rewrite spell_app, !visible_app. apply lowered_app; [exact (convert_lowered t v a Hg Ha)|exact (IH r Hr)].
  Qed.

  (** *** No token is taken for the mark *)
  Lemma word_any w t : Forall G w -> forallb (is_w K) w = true -> word_token E K w t -> good E t.
  Proof.
    intros Hg Hw Ht.
    assert (Hs : single t = true) by (destruct Ht as [|? ? ? ? ? ? ?]; [reflexivity|destruct (is_ascii w); reflexivity]).
    split; [exact Hs|]. pose proof (word_lowered w t Hg Ht) as Hx.
    assert (Hy : tok_str E t = spelling E t).
    { destruct Ht as [|? ? ? ? ? ? ?]; [reflexivity|]. destruct (is_ascii w); reflexivity. }
    rewrite Hy. intros He. rewrite He in Hx. rewrite (lowered_eol w Hg Hx) in Hw. cbn in Hw. rewrite (w_ascii K HK) in Hw by reflexivity. discriminate.
  Qed.

  Lemma pieces_any sp (s : str) ps tss :
    (forall n, Forall (good E) (sp n)) -> Forall G s -> pieces K s ps -> Forall2 (piece_tokens E K sp) ps tss -> Forall (good E) (List.concat tss).
  Proof.
    intros Hsp Hg (-> & Hok & _) HF. revert Hg Hok. induction HF as [|p ts ps tss Hp HF IH]; intros Hg Hok; [constructor|].
    inversion Hok as [|? ? Hq Hqs]; subst. cbn [map List.concat] in Hg |- *. apply Forall_app in Hg. destruct Hg as [Hg1 Hg2].
    apply Forall_app. split; [|exact (IH Hg2 Hqs)].
    destruct p as [w|c|n]; cbn [piece_tokens piece_ok piece_text] in *.
    - destruct Hp as (t & -> & Hw). constructor; [|constructor]. apply (word_any w t Hg1 (proj2 Hq) Hw).
    - subst ts. constructor; [|constructor]. unfold char_token. destruct (N.eqb c 10); [split; [reflexivity|discriminate]|].
      destruct (N.eqb c 9); (split; [reflexivity|discriminate]).
    - subst ts. apply Hsp.
  Qed.
  Lemma words_any (v : str) l : Forall G v -> split_into_words E K v = Ok l -> Forall (good E) l.
  Proof.
    intros Hg H. destruct (C13_words E K v l HK H) as (ps & tss & Hps & Hf & ->).
    eapply pieces_any; [|exact Hg|exact Hps|exact Hf]. intros n. apply tabs_good.
  Qed.
  Lemma string_any (v : str) l : Forall G v -> split_string E K v = Ok l -> Forall (good E) l.
  Proof.
    intros Hg H. destruct (C13_string E K v l HK H) as (ps & tss & Hps & Hf & ->).
    eapply pieces_any; [|exact Hg|exact Hps|exact Hf]. intros n. constructor; [|constructor]. split; [reflexivity|]. destruct n; discriminate.
  Qed.

  Lemma convert_any t (v : str) l : Forall G v -> visible K v <> lit "<EOL>" -> convert E K t v = Ok l -> Forall (good_deep E) l.
  Proof.
    intros Hg Hv Hc. pose proof (convert_lowered t v l Hg Hc) as Hsp. revert Hc.
    assert (He : v <> lit "<EOL>"). { intros ->. apply Hv. apply HB. }
    assert (Hw : forall l, split_into_words E K v = Ok l -> Forall (good_deep E) l).
    { intros k Hk. eapply Forall_impl; [exact (good_is_deep E)|]. exact (words_any v k Hg Hk). }
    assert (Hone : forall x, tok_str E x <> lit "<EOL>" -> single x = true -> Forall (good_deep E) [x]).
    { intros x H1 H2. constructor; [|constructor]. apply good_is_deep. split; assumption. }
    unfold convert.
    destruct (eqb v s_nl); [intros [= <-]; apply Hone; [discriminate|reflexivity]|].
    destruct (eqb v s_tab); [intros [= <-]; apply Hone; [discriminate|reflexivity]|].
    destruct (blank K v).
    { intros [= <-]. eapply Forall_impl; [exact (good_is_deep E)|]. apply tabs_good. }
    destruct (type_is t ["Operator"]%string || type_in t ["Punctuation"]%string).
    { intros [= <-]. unfold operator_token. repeat destruct (eqb v _); (apply Hone; [exact He|reflexivity]). }
    destruct (type_in t ["Literal"; "Number"]%string) eqn:Hnum.
    { intros [= <-]. unfold number_token. destruct (eqb v (lit "0")); [apply Hone; [discriminate|reflexivity]|].
      destruct (eqb v (lit "1")); [apply Hone; [discriminate|reflexivity]|]. apply Hone; [|reflexivity].
      change (lower E v <> lit "<EOL>"). intros Hx. apply He. apply (lowered_eol v Hg). rewrite <- Hx, (sc_lower _ _ _ _ _ HS v Hg). apply lowered_map. }
    destruct (type_in t ["Name"]%string); [apply Hw|].
    destruct (type_is t ["Literal"]%string || type_is t ["Literal"; "Date"]%string); [apply Hw|].
    destruct (type_in t ["Keyword"]%string); [intros [= <-]; apply Hone; [exact He|reflexivity]|].
    destruct (type_in t ["Literal"; "String"]%string).
    { rewrite bind_ok. intros (k & Hk & [= <-]). constructor; [|constructor].
      pose proof (string_any v k Hg Hk) as Hk'. split; [exact Hk'|]. intros Ht.
      apply Hv, (visible_eol v Hg). rewrite spell_one in Hsp. rewrite <- (string_visible E K HB k _ Hk'), Ht in Hsp.
      destruct HB as (_ & _ & HE). rewrite HE in Hsp. exact Hsp. }
    destruct (type_is t ["Comment"; "Single"]%string).
    { rewrite bind_ok. intros (k & Hk & [= <-]). constructor; [|constructor]. exact (words_any v k Hg Hk). }
    destruct (type_in t ["Comment"]%string); [|apply Hw].
    rewrite bind_ok. intros (k & Hk & [= <-]). constructor; [|constructor]. exact (words_any v k Hg Hk).
  Qed.

  Lemma text_any lexed l : source_any K G lexed -> convert_text E K lexed = Ok l -> Forall (good_deep E) l.
  Proof.
    intros Hs. revert l. induction Hs as [|[t v] lexed (H1 & H3) Hs IH]; intros l H; cbn [convert_text] in H; [injection H as <-; constructor|].
    apply bind_ok in H. destruct H as (a & Ha & H). apply bind_ok in H. destruct H as (r & Hr & [= <-]).
    apply Forall_app. split; [exact (convert_any t v a H1 H3 Ha)|exact (IH r Hr)].
  Qed.

  Lemma text_written_lowered (f : token -> list str) lexed l :
    (forall t, good_deep E t -> visible K (written (f t)) = visible K (spelling E t)) ->
    source_any K G lexed -> convert_text E K lexed = Ok l ->
    lowered lo (visible K (List.concat (map snd lexed))) (visible K (written (List.concat (map f l)))).
  Proof.
    intros Hf Hs Hl. pose proof (text_any lexed l Hs Hl) as Hg.
    replace (visible K (written (List.concat (map f l)))) with (visible K (spell E l)).
    - apply text_lowered; [|exact Hl]. eapply Forall_impl; [|exact Hs]. intros tv (H1 & _). exact H1.
    - symmetry. unfold spell. clear -Hf Hg. induction Hg as [|t l Ht _ IH]; [reflexivity|]. cbn [map List.concat].
      rewrite written_app, !visible_app, IH, (Hf t Ht). reflexivity.
  Qed.

  Lemma lo_lo c : G c -> lo (lo c) = lo c.
  Proof.
    intros Hg. destruct (is_up K c) eqn:Hu.
    - destruct (sc_up _ _ _ _ _ HS c Hg Hu) as [H1 _]. apply (sc_low _ _ _ _ _ HS (lo c)); [apply (sc_closed _ _ _ _ _ HS c Hg)|exact H1].
    - rewrite (proj1 (HP c Hg) Hu). apply HP; assumption.
  Qed.
  Lemma lowered_same s s' : Forall G s -> lowered lo s s' -> map lo s' = map lo s.
  Proof.
    intros Hg H. induction H as [|c x s s' Hx H IH]; [reflexivity|]. inversion Hg as [|? ? G1 G2]; subst. cbn [map]. rewrite (IH G2).
    f_equal. destruct Hx as [-> | ->]; [reflexivity|apply lo_lo, G1].
  Qed.
End KeepCase.

(** ** C71 *)
Theorem C71_case : forall E K G lo up lexed l,
  ascii_classes K -> simple_case E K G lo up -> blanks_ok K -> plain_case K G lo ->
  Forall (fun tv => Forall G (snd tv)) lexed -> convert_text E K lexed = Ok l ->
  lowered lo (visible K (List.concat (map snd lexed))) (visible K (spell E l)).
Proof. intros E K G lo up lexed l HK HS HB HP. exact (text_lowered E K G lo up HK HS HB HP lexed l). Qed.
Print Assumptions C71_case.

(** ** C86 *)
Theorem C86_nosplit_case : forall E K G lo up o d b lexed l out m,
  ascii_classes K -> simple_case E K G lo up -> blanks_ok K -> plain_case K G lo -> source_any K G lexed ->
  param d SPLIT = lit "F" -> keeps_all d l ->
  convert_text E K lexed = Ok l -> to_repr E o d b l = Ok (out, m) ->
  lowered lo (visible K (List.concat (map snd lexed))) (visible K (written out)).
Proof.
  intros E K G lo up o d b lexed l out m HK HS HB HP Hs HF Hk Hl H.
  rewrite (whole_tokens E o d b l out m HF Hk H).
  apply (text_written_lowered E K G lo up HK HS HB HP (whole_texts E) lexed l); try assumption. apply (whole_written E K HB).
Qed.
Print Assumptions C86_nosplit_case.

Theorem C86_bpe_case : forall E K G lo up o d b merges lexed l out m,
  ascii_classes K -> simple_case E K G lo up -> blanks_ok K -> plain_case K G lo -> source_any K G lexed -> py_text E -> lexer_ok lexed ->
  usable b merges -> is_bpe d = true -> keeps_all d l ->
  convert_text E K lexed = Ok l -> to_repr E o d (Some b) l = Ok (out, m) ->
  exists texts, map (@List.concat N) (slices (wb m) out) = map (fun t => t ++ lit "</t>") texts /\
    List.concat (slices (wb m) out) = out /\
    lowered lo (visible K (List.concat (map snd lexed))) (visible K (written texts)).
Proof.
  intros E K G lo up o d b merges lexed l out m HK HS HB HP Hs HT HL Hu Hd Hk Hl H.
  destruct (C03_text_lossless E K o d b merges lexed l out m HT HK HL Hu Hd) as (texts & mF & H1 & _ & H2 & H3); try assumption.
  { destruct Hk as (_ & _ & -> & _). discriminate. }
  exists texts. split; [exact H2|]. split; [exact H3|].
  apply (C86_nosplit_case E K G lo up o (whole d) None lexed l texts mF); try assumption; [apply whole_split|].
  destruct Hk as (K1 & K2 & K3 & mx & K4 & K5 & K6). unfold keeps_all. rewrite !whole_param by discriminate.
  repeat (split; [assumption|]). exists mx. auto.
Qed.
Print Assumptions C86_bpe_case.

Theorem C86_basic_case : forall E K G lo up o d b lexed l out m,
  ascii_classes K -> simple_case E K G lo up -> blanks_ok K -> plain_case K G lo -> source_any K G lexed ->
  py_text E -> case_no_lt E -> lexer_no_marks lexed ->
  mk_prep_config d = Ok d -> keeps_text o d -> keeps_all d l ->
  convert_text E K lexed = Ok l -> to_repr E o d b l = Ok (out, m) ->
  lowered lo (visible K (List.concat (map snd lexed))) (visible K (written (map (put_together E) (slices (wb m) out)))).
Proof.
  intros E K G lo up o d b lexed l out m HK HS HB HP Hs HT HC HL Hd Ht Hk Hl H.
  rewrite (C70_tokens E o d b l out m Hd Ht Hk (text_plain E K HK HT HC lexed l HL Hl) H).
  apply (text_written_lowered E K G lo up HK HS HB HP (leaf_texts E) lexed l); try assumption. apply (leaf_written E K HB).
Qed.
Print Assumptions C86_basic_case.

(** Two texts with the same tokens and word boundaries have the same visible characters up to case, whatever numbers they have. *)
Theorem C86_differ_case : forall E K G lo up o d b merges lexed1 lexed2 l1 l2 out m,
  ascii_classes K -> simple_case E K G lo up -> blanks_ok K -> plain_case K G lo -> py_text E -> case_no_lt E ->
  source_any K G lexed1 -> source_any K G lexed2 -> lexer_no_marks lexed1 -> lexer_no_marks lexed2 -> lexer_ok lexed1 -> lexer_ok lexed2 ->
  param d SPLIT = lit "F" \/ (is_bpe d = true /\ usable b merges) \/ (mk_prep_config d = Ok d /\ keeps_text o d) ->
  keeps_all d l1 -> keeps_all d l2 ->
  convert_text E K lexed1 = Ok l1 -> convert_text E K lexed2 = Ok l2 ->
  to_repr E o d (Some b) l1 = Ok (out, m) -> to_repr E o d (Some b) l2 = Ok (out, m) ->
  map lo (visible K (List.concat (map snd lexed1))) = map lo (visible K (List.concat (map snd lexed2))).
Proof.
  intros E K G lo up o d b merges lexed1 lexed2 l1 l2 out m HK HS HB HP HT HC S1 S2 L1 L2 O1 O2 Hmode K1 K2 T1 T2 R1 R2.
  assert (V : forall lexed, source_any K G lexed -> Forall G (visible K (List.concat (map snd lexed)))).
  { intros lexed Hs. apply Forall_forall. intros c Hc. unfold visible in Hc. apply filter_In in Hc. destruct Hc as [Hc _].
    apply in_concat in Hc. destruct Hc as (s & Hi & Hc). apply in_map_iff in Hi. destruct Hi as (tv & <- & Hi).
    unfold source_any in Hs. rewrite Forall_forall in Hs. destruct (Hs tv Hi) as [Hg _]. rewrite Forall_forall in Hg. exact (Hg c Hc). }
  assert (A : forall x, lowered lo (visible K (List.concat (map snd lexed1))) x -> lowered lo (visible K (List.concat (map snd lexed2))) x ->
    map lo (visible K (List.concat (map snd lexed1))) = map lo (visible K (List.concat (map snd lexed2)))).
  { intros x H1 H2. rewrite <- (lowered_same E K G lo up HS HP _ x (V lexed1 S1) H1). apply (lowered_same E K G lo up HS HP _ x (V lexed2 S2) H2). }
  destruct Hmode as [HF|[[Hb Hu]|[Hd Ht]]].
  - apply (A (visible K (written out))); [apply (C86_nosplit_case E K G lo up o d (Some b) lexed1 l1 out m)|apply (C86_nosplit_case E K G lo up o d (Some b) lexed2 l2 out m)]; assumption.
  - destruct (C86_bpe_case E K G lo up o d b merges lexed1 l1 out m) as (x1 & A1 & _ & B1); auto.
    destruct (C86_bpe_case E K G lo up o d b merges lexed2 l2 out m) as (x2 & A2 & _ & B2); auto.
    rewrite A1 in A2. assert (X : x1 = x2).
    { clear -A2. revert x2 A2. induction x1 as [|x x1 IH]; intros [|y x2]; try discriminate; [reflexivity|]. cbn [map]. intros [= H1 H2].
      apply app_inv_tail in H1. rewrite H1, (IH x2 H2). reflexivity. }
    subst x2. exact (A _ B1 B2).
  - eapply A; [apply (C86_basic_case E K G lo up o d (Some b) lexed1 l1 out m)|apply (C86_basic_case E K G lo up o d (Some b) lexed2 l2 out m)]; assumption.
Qed.
Print Assumptions C86_differ_case.

(** A number in the code and one in a comment, both with letters in upper case *)
Definition upper_ex : list (token_type * str) :=
  [(["Name"]%string, lit "getX"); (["Operator"]%string, lit "="); (["Literal"; "Number"; "Hex"]%string, lit "0x1FL"); (["Comment"; "Single"]%string, lit "// A 0xFF")].
Definition upper_l : list token := match convert_text ascii_case wide_K upper_ex with Ok l => l | Err _ => [] end.
Example C86_case_example : exists out m,
  plain_case wide_K (fun c => (c < 128)%N) ascii_to_lower /\ source_any wide_K (fun c => (c < 128)%N) upper_ex /\
  to_repr ascii_case no_splitters (combine prep_params (chars_of "uc1Fsu")) None upper_l = Ok (out, m) /\
  visible wide_K (written out) = lit "getX=0x1fl//A0xff" /\
  visible wide_K (List.concat (map snd upper_ex)) = lit "getX=0x1FL//A0xFF" /\
  lowered ascii_to_lower (lit "getX=0x1FL//A0xFF") (lit "getX=0x1fl//A0xff").
Proof.
  destruct keep_ex_ok as (HK & HB & HS & _).
  assert (H : exists r, to_repr ascii_case no_splitters (combine prep_params (chars_of "uc1Fsu")) None upper_l = Ok r) by (eexists; vm_compute; reflexivity).
  destruct H as ([out m] & H). exists out, m.
  assert (HP : plain_case wide_K (fun c => (c < 128)%N) ascii_to_lower).
  { intros c Hc. split.
    - cbn. unfold ascii_to_lower. intros ->. reflexivity.
    - assert (Ha : forallb (fun n => Bool.eqb (is_blank wide_K (ascii_to_lower (N.of_nat n))) (is_blank wide_K (N.of_nat n))) (seq 0 128) = true) by reflexivity.
      rewrite forallb_forall in Ha. specialize (Ha (N.to_nat c)). rewrite N2Nat.id in Ha. apply Bool.eqb_prop, Ha, in_seq. lia. }
  assert (Hs : source_any wide_K (fun c => (c < 128)%N) upper_ex).
  { repeat (constructor; [split; [repeat constructor|vm_compute; discriminate]|]). constructor. }
  split; [exact HP|]. split; [exact Hs|]. split; [exact H|].
  assert (Ho : visible wide_K (written out) = lit "getX=0x1fl//A0xff") by (vm_compute in H; injection H as <- _; reflexivity).
  split; [exact Ho|]. split; [reflexivity|].
  pose proof (C86_nosplit_case ascii_case wide_K _ _ _ no_splitters (combine prep_params (chars_of "uc1Fsu")) None upper_ex upper_l out m HK HS HB HP Hs) as T.
  rewrite Ho in T. apply T; try exact H; try reflexivity.
  repeat (split; [reflexivity|]). exists maxsize. split; [right; reflexivity|]. split; [reflexivity|].
  intros k n Hx. vm_compute in Hx. repeat (destruct Hx as [Hx|Hx]; [discriminate Hx|]). destruct Hx.
Qed.
