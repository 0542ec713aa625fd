(** * C86: what is visible in the source is visible in the output *)
From Verif Require Import M_Base L_Base M_Tokens M_Regex M_Parse L_Regex M_Repr M_PrepConfig L_Repr P_Repr L_Word
     M_Merge M_BpeEncode L_BpeEncode P_PrepConfig P_ReprOptions P_ReprStrings P_Parse P_ParseRepr P_Source P_Split.
From Coq Require Import Arith.

(** ** Specification *)

(** the text of the tokens, without the marks at the end of one-line comments *)
Definition written (texts : list str) : str := List.concat (filter (fun t => negb (eqb t (lit "<EOL>"))) texts).

(** white space is stripped by Python, the letters of the mark are not *)
Definition blanks_ok (K : charclass) : Prop :=
  spaces_blank K /\ is_blank K 160 = true /\ visible K (lit "<EOL>") = lit "<EOL>".

(** the source: characters with simple case, numbers in lower case, and nothing that looks like the mark *)
Definition source_ok (E : pycase) (K : charclass) (G : N -> Prop) (lexed : list (token_type * str)) : Prop :=
  Forall (fun tv => Forall G (snd tv) /\ numbers_lower E K tv /\ visible K (snd tv) <> lit "<EOL>") lexed.

(** what the tokens of a text say if they are not split *)
Fixpoint whole_texts (E : pycase) (t : token) : list str :=
  match t with
  | OneLineComment l => List.concat (map (whole_texts E) l) ++ [lit "<EOL>"]
  | MultilineComment l => List.concat (map (whole_texts E) l)
  | _ => [tok_str E t]
  end.

Lemma written_app a b : written (a ++ b) = written a ++ written b.
Proof. unfold written. rewrite filter_app, concat_app. reflexivity. Qed.
Lemma written_one x : x <> lit "<EOL>" -> written [x] = x.
Proof. intros H. unfold written. cbn [filter]. destruct (eqb_spec x (lit "<EOL>")) as [->|_]; [contradiction|]. cbn. apply app_nil_r. Qed.
Lemma written_eol : written [lit "<EOL>"] = [].
Proof. reflexivity. Qed.

Section Written.
  Variables (E : pycase) (K : charclass) (G : N -> Prop) (lo up : N -> N).
  Hypothesis HK : ascii_classes K.
  Hypothesis HS : simple_case E K G lo up.
  Hypothesis HB : blanks_ok K.

  Definition single (t : token) : bool :=
    match t with OneLineComment _ | MultilineComment _ | StringLiteral _ _ => false | _ => true end.
  Definition good (t : token) : Prop := single t = true /\ tok_str E t <> lit "<EOL>".
  Definition good_deep (t : token) : Prop :=
    match t with
    | OneLineComment l | MultilineComment l => Forall good l
    | StringLiteral l _ => Forall good l /\ tok_str E t <> lit "<EOL>"
    | _ => good t
    end.

  Lemma single_visible t : single t = true -> visible K (tok_str E t) = visible K (spelling E t).
  Proof.
    destruct HB as ((H32 & H9 & H10) & H160 & _).
    destruct t as [| |k|x| | |c s|ss|ss|l|l|l n]; intros H; try discriminate H; try reflexivity.
    - cbn. rewrite H10. reflexivity.
    - cbn. rewrite H9. reflexivity.
    - unfold tok_str. cbn [spelling nonprep_none join]. induction k as [|k IH]; [reflexivity|]. cbn. rewrite H160. exact (IH eq_refl).
  Qed.

  Lemma string_visible k n : Forall good k -> visible K (tok_str E (StringLiteral k n)) = visible K (spelling E (StringLiteral k n)).
  Proof.
    intros H. unfold tok_str. cbn [nonprep_none join spelling]. induction H as [|t k [Ht _] _ IH]; [reflexivity|].
    cbn [map List.concat]. rewrite !visible_app, IH. f_equal. exact (single_visible t Ht).
  Qed.

  Lemma leaf_one t : good t -> leaf_texts E t = [tok_str E t] /\ whole_texts E t = [tok_str E t].
  Proof. intros [H _]. destruct t; try discriminate H; split; reflexivity. Qed.

  Lemma good_written (f : token -> list str) l :
    (forall t, good t -> visible K (written (f t)) = visible K (spelling E t)) -> Forall good l ->
    visible K (written (List.concat (map f l))) = visible K (List.concat (map (spelling E) l)).
  Proof.
    intros Hf H. induction H as [|t l Ht _ IH]; [reflexivity|]. cbn [map List.concat]. rewrite written_app, !visible_app, IH, (Hf t Ht). reflexivity.
  Qed.

  Lemma leaf_written t : good_deep t -> visible K (written (leaf_texts E t)) = visible K (spelling E t).
  Proof.
    assert (H1 : forall t, good t -> visible K (written (leaf_texts E t)) = visible K (spelling E t)).
    { intros u Hu. destruct (leaf_one u Hu) as [-> _]. rewrite written_one by apply Hu. apply single_visible, Hu. }
    intros H. destruct t; try exact (H1 _ H); cbn [good_deep leaf_texts spelling] in *.
    - rewrite written_app, written_eol, app_nil_r. exact (good_written _ _ H1 H).
    - exact (good_written _ _ H1 H).
    - destruct H as [H _]. apply (good_written (fun u => if is_space_in_string u then [] else leaf_texts E u)); [|exact H].
      intros u Hu. destruct u; try exact (H1 _ Hu). reflexivity.
  Qed.

  Lemma whole_written t : good_deep t -> visible K (written (whole_texts E t)) = visible K (spelling E t).
  Proof.
    assert (H1 : forall t, good t -> visible K (written (whole_texts E t)) = visible K (spelling E t)).
    { intros u Hu. destruct (leaf_one u Hu) as [_ ->]. rewrite written_one by apply Hu. apply single_visible, Hu. }
    intros H. destruct t; try exact (H1 _ H); cbn [good_deep whole_texts] in *.
    - cbn [spelling]. rewrite written_app, written_eol, app_nil_r. exact (good_written _ _ H1 H).
    - cbn [spelling]. exact (good_written _ _ H1 H).
    - rewrite written_one by apply H. apply string_visible, H.
  Qed.

  (** *** Tokens of the parser *)
  Lemma word_no_eol w t : Forall G w -> forallb (is_w K) w = true -> (number_literal w -> lower E w = w) -> word_token E K w t -> good t.
  Proof.
    intros Hg Hw Hl Ht.
    assert (Hs : single t = true) by (destruct Ht as [|? ? ? ? ? ? ?]; [reflexivity|destruct (is_ascii w); reflexivity]).
    split; [exact Hs|]. pose proof (word_spelled E K G lo up HK HS w t Hg Ht Hl) as Hx.
    assert (Hy : tok_str E t = w).
    { destruct Ht as [|? ? ? ? ? ? ?]; [exact Hx|]. destruct (is_ascii w); exact Hx. }
    rewrite Hy. intros ->. cbn in Hw. rewrite (w_ascii K HK) in Hw by reflexivity. discriminate.
  Qed.

  Lemma pieces_good sp (s : str) ps tss :
    (forall n, Forall good (sp n)) -> Forall G s -> (forall w, In (PWord w) ps -> number_literal w -> lower E w = w) ->
    pieces K s ps -> Forall2 (piece_tokens E K sp) ps tss -> Forall good (List.concat tss).
  Proof.
    intros Hsp Hg Hn (-> & Hok & _) HF. revert Hg Hn Hok. induction HF as [|p ts ps tss Hp HF IH]; intros Hg Hn Hok; [constructor|].
    inversion Hok as [|? ? Hq Hqs]; subst. cbn [map List.concat] in Hg |- *. apply Forall_app in Hg. destruct Hg as [Hg1 Hg2].
    apply Forall_app. split; [|apply IH; [exact Hg2|intros w Hw; apply Hn; right; exact Hw|exact Hqs]].
    destruct p as [w|c|n]; cbn [piece_tokens piece_ok piece_text] in *.
    - destruct Hp as (t & -> & Hw). constructor; [|constructor].
      apply (word_no_eol w t Hg1 (proj2 Hq)); [|exact Hw]. apply Hn. left. reflexivity.
    - subst ts. constructor; [|constructor]. unfold char_token. destruct (N.eqb c 10); [split; [reflexivity|discriminate]|].
      destruct (N.eqb c 9); (split; [reflexivity|discriminate]).
    - subst ts. apply Hsp.
  Qed.

  Lemma tabs_good n : Forall good (repeat Tab n).
  Proof. apply Forall_forall. intros t Ht. apply repeat_spec in Ht. subst t. split; [reflexivity|discriminate]. Qed.

  Lemma words_good t v l : Forall G v -> numbers_lower E K (t, v) -> split_into_words E K v = Ok l -> Forall good l.
  Proof.
    intros Hg [_ Hn] H. destruct (C13_words E K v l HK H) as (ps & tss & Hps & Hf & ->).
    eapply pieces_good; [|exact Hg| |exact Hps|exact Hf]; [intros n; apply tabs_good|]. intros w. exact (Hn ps w Hps).
  Qed.
  Lemma string_good t v l : Forall G v -> numbers_lower E K (t, v) -> split_string E K v = Ok l -> Forall good l.
  Proof.
    intros Hg [_ Hn] H. destruct (C13_string E K v l HK H) as (ps & tss & Hps & Hf & ->).
    eapply pieces_good; [|exact Hg| |exact Hps|exact Hf]; [|intros w; exact (Hn ps w Hps)].
    intros n. constructor; [|constructor]. split; [reflexivity|]. destruct n; discriminate.
  Qed.

  Lemma good_is_deep t : good t -> good_deep t.
  Proof. intros H. destruct t; try exact H; destruct H as [H _]; discriminate H. Qed.

  Lemma convert_good t (v : str) l : Forall G v -> numbers_lower E K (t, v) -> visible K v <> lit "<EOL>" ->
    convert E K t v = Ok l -> Forall good_deep l.
  Proof.
    intros Hg Hn Hv Hc. pose proof (convert_spelled E K G lo up HK HS (proj1 HB) t v l Hg Hn Hc) as Hsp. revert Hc.
    assert (He : v <> lit "<EOL>"). { intros ->. apply Hv. apply HB. }
    assert (Hw : forall l, split_into_words E K v = Ok l -> Forall good_deep l).
    { intros k Hk. eapply Forall_impl; [exact good_is_deep|]. exact (words_good t v k Hg Hn Hk). }
    assert (Hone : forall x, tok_str E x <> lit "<EOL>" -> single x = true -> Forall good_deep [x]).
    { intros x H1 H2. constructor; [|constructor]. apply good_is_deep. split; assumption. }
    unfold convert.
    destruct (eqb v s_nl); [intros [= <-]; apply Hone; [discriminate|reflexivity]|].
    destruct (eqb v s_tab); [intros [= <-]; apply Hone; [discriminate|reflexivity]|].
    destruct (blank K v).
    { intros [= <-]. eapply Forall_impl; [exact good_is_deep|]. apply tabs_good. }
    destruct (type_is t ["Operator"]%string || type_in t ["Punctuation"]%string).
    { intros [= <-]. unfold operator_token. repeat destruct (eqb v _); (apply Hone; [exact He|reflexivity]). }
    destruct (type_in t ["Literal"; "Number"]%string) eqn:Hnum.
    { intros [= <-]. unfold number_token. destruct (eqb v (lit "0")); [apply Hone; [discriminate|reflexivity]|].
      destruct (eqb v (lit "1")); [apply Hone; [discriminate|reflexivity]|]. apply Hone; [|reflexivity].
      pose proof (proj1 Hn Hnum) as Hy. cbn [snd] in Hy. unfold mk_number, tok_str. cbn [nonprep_none join]. rewrite Hy. exact He. }
    destruct (type_in t ["Name"]%string); [apply Hw|].
    destruct (type_is t ["Literal"]%string || type_is t ["Literal"; "Date"]%string); [apply Hw|].
    destruct (type_in t ["Keyword"]%string); [intros [= <-]; apply Hone; [exact He|reflexivity]|].
    destruct (type_in t ["Literal"; "String"]%string).
    { rewrite bind_ok. intros (k & Hk & [= <-]). constructor; [|constructor].
      pose proof (string_good t v k Hg Hn Hk) as Hk'. split; [exact Hk'|]. intros Ht.
      apply Hv. rewrite <- Hsp. unfold spell. cbn [map List.concat]. rewrite app_nil_r.
      rewrite <- (string_visible k _ Hk'), Ht. apply HB. }
    destruct (type_is t ["Comment"; "Single"]%string).
    { rewrite bind_ok. intros (k & Hk & [= <-]). constructor; [|constructor]. exact (words_good t v k Hg Hn Hk). }
    destruct (type_in t ["Comment"]%string); [|apply Hw].
    rewrite bind_ok. intros (k & Hk & [= <-]). constructor; [|constructor]. exact (words_good t v k Hg Hn Hk).
  Qed.

  Lemma text_good lexed l : source_ok E K G lexed -> convert_text E K lexed = Ok l -> Forall good_deep l.
  Proof.
    intros Hs. revert l. induction Hs as [|[t v] lexed (H1 & H2 & H3) Hs IH]; intros l H; cbn [convert_text] in H; [injection H as <-; constructor|].
    apply bind_ok in H. destruct H as (a & Ha & H). apply bind_ok in H. destruct H as (r & Hr & [= <-]).
    apply Forall_app. split; [exact (convert_good t v a H1 H2 H3 Ha)|exact (IH r Hr)].
  Qed.

  Lemma text_written (f : token -> list str) lexed l :
    (forall t, good_deep t -> visible K (written (f t)) = visible K (spelling E t)) ->
    source_ok E K G lexed -> convert_text E K lexed = Ok l ->
    visible K (written (List.concat (map f l))) = visible K (List.concat (map snd lexed)).
  Proof.
    intros Hf Hs Hl. pose proof (text_good lexed l Hs Hl) as Hg.
    transitivity (visible K (spell E l)).
    - unfold spell. clear -Hf Hg. induction Hg as [|t l Ht _ IH]; [reflexivity|]. cbn [map List.concat].
      rewrite written_app, !visible_app, IH, (Hf t Ht). reflexivity.
    - apply (C71_spelling E K G lo up lexed l HK (proj1 HB) HS); [|exact Hl].
      eapply Forall_impl; [|exact Hs]. intros tv (H1 & H2 & _). auto.
  Qed.
End Written.

(** ** Without splitting *)
Lemma whole_segs E rc mx t r :
  full_strings rc = true -> bpe rc = false -> max_str_length rc = Some mx ->
  (forall c, In c [CSplitContainer; CWord; CNumber; CNewLine; CTab; CNonEng; COneLineComment; CMultilineComment; CStringLiteral] -> in_types rc c = false) ->
  (forall k n, In (StringLiteral k n) (subterms t) -> (n <= mx)%Z) ->
  segs E rc t = Ok r -> map s_toks r = map (fun x => [x]) (whole_texts E t).
Proof.
  intros Hf Hb Hm Ht.
  assert (Hi : forall c, In c [CSplitContainer; CWord; CNumber; CNewLine; CTab; CNonEng; COneLineComment; CMultilineComment; CStringLiteral] -> in_types rc c = false) by exact Ht.
  assert (Hsplit : forall k r, segs_split E rc k = Ok r -> map s_toks r = [[split_str E k]]).
  { intros k r'. unfold segs_split. rewrite (Hi CSplitContainer) by (cbn; auto). rewrite bind_ok. intros (hs & Hh & [= <-]).
    cbn [map one_seg s_toks]. do 2 f_equal. unfold split_str. f_equal. revert hs Hh. induction k as [|s k IH]; intros hs; cbn [mapM].
    - intros [= <-]. reflexivity.
    - rewrite bind_ok. intros (x & Hx & H). apply bind_ok in H. destruct H as (xs & Hxs & [= <-]). cbn [map]. rewrite (IH xs Hxs).
      f_equal. destruct s as [|w c]; cbn [torepr_sub bind] in Hx; [injection Hx as <-; reflexivity|].
      rewrite (Hi CWord) in Hx by (cbn; auto). cbn [bind] in Hx. injection Hx as <-. reflexivity. }
  assert (Hretype : forall c r, map s_toks (map (retype c) r) = map s_toks r) by (intros; rewrite map_map; reflexivity).
  assert (Hlist : forall l r,
    Forall (fun t => forall r, (forall k n, In (StringLiteral k n) (subterms t) -> (n <= mx)%Z) -> segs E rc t = Ok r -> map s_toks r = map (fun x => [x]) (whole_texts E t)) l ->
    (forall k n, In (StringLiteral k n) (List.concat (map subterms l)) -> (n <= mx)%Z) ->
    segs_list_with (fun _ => true) (segs E rc) l = Ok r -> map s_toks r = map (fun x => [x]) (List.concat (map (whole_texts E) l))).
  { intros l r' H. revert r'. induction H as [|u l Hu Hl IH]; intros r' Hx; cbn [segs_list_with map List.concat]; [intros [= <-]; reflexivity|].
    rewrite bind_ok. intros (a & Ha & H'). apply bind_ok in H'. destruct H' as (rs & Hrs & [= <-]).
    rewrite !map_app, (Hu a), (IH rs); [reflexivity| | | |]; try assumption;
      intros k n Hin; eapply Hx; cbn [map List.concat]; apply in_or_app; eauto. }
  revert r. induction t using token_nested_ind; intros r Hlen; cbn [segs whole_texts]; cbn [subterms] in Hlen.
  - rewrite (Hi CNewLine) by (cbn; auto 12). intros [= <-]. reflexivity.
  - rewrite (Hi CTab) by (cbn; auto 12). intros [= <-]. reflexivity.
  - intros [= <-]. reflexivity.
  - rewrite (Hi CNumber) by (cbn; auto 12). intros [= <-]. reflexivity.
  - intros [= <-]. reflexivity.
  - intros [= <-]. reflexivity.
  - intros [= <-]. reflexivity.
  - apply Hsplit.
  - rewrite (Hi CNonEng) by (cbn; auto 12). apply Hsplit.
  - rewrite (Hi COneLineComment) by (cbn; auto 12). rewrite bind_ok. intros (rs & Hrs & [= <-]).
    rewrite !map_app, Hretype, (Hlist l rs H); [reflexivity| |exact Hrs]. intros k n Hin. apply (Hlen k n). right. exact Hin.
  - rewrite (Hi CMultilineComment) by (cbn; auto 12). rewrite bind_ok. intros (rs & Hrs & [= <-]).
    rewrite Hretype, (Hlist l rs H); [reflexivity| |exact Hrs]. intros k n Hin. apply (Hlen k n). right. exact Hin.
  - rewrite (Hi CStringLiteral) by (cbn; auto 12). rewrite Hm.
    destruct (Z.ltb_spec mx n) as [Hx|_]; [pose proof (Hlen l n (or_introl eq_refl)); lia|]. rewrite Hb, Hf.
    unfold string_text. rewrite (Hi CNonEng) by (cbn; auto 12). cbn [bind]. intros [= <-]. reflexivity.
Qed.

Lemma whole_tokens E o d b l out m :
  param d SPLIT = lit "F" -> keeps_all d l -> to_repr E o d b l = Ok (out, m) ->
  out = List.concat (map (whole_texts E) l).
Proof.
  intros HF (Hcom & Htab & Hen & mx & Hmx & Hstr & Hlen) H.
  assert (Hb : is_bpe d = false) by (unfold is_bpe, param_in; rewrite HF; reflexivity).
  destruct (to_repr_segs _ _ _ _ _ _ _ H) as (rc & ss & Hrc & Hss & _ & Hout & _ & _). rewrite (Hout Hb).
  destruct (repr_config_fields _ _ _ _ Hrc) as [Hfull Hm]. rewrite Hstr, (C40_limit_kept mx Hmx) in Hm. injection Hm as Hm.
  assert (Hf : full_strings rc = true) by (rewrite Hfull; unfold param_in; rewrite HF; reflexivity).
  assert (Hone : forall t r, In t l -> segs E rc t = Ok r -> map s_toks r = map (fun x => [x]) (whole_texts E t)).
  { intros t r Ht Hr. refine (whole_segs E rc mx t r Hf _ _ _ _ Hr).
    - apply (repr_config_not_bpe _ _ _ _ Hrc Hb).
    - symmetry. exact Hm.
    - intros c Hc. unfold in_types. rewrite (repr_config_types _ _ _ _ Hrc), types_in.
      unfold param_in. cbn [In] in Hc. repeat (destruct Hc as [<-|Hc]; [rewrite ?HF, ?Hcom, ?Htab, ?Hen, ?Hstr, ?(str_value_shown mx Hmx); reflexivity|]). destruct Hc.
    - intros k n Hin. apply (Hlen k n). eapply all_tokens_in; eassumption. }
  assert (Hc : forall xs : list str, List.concat (map (fun x => [x]) xs) = xs) by (induction xs as [|x xs IH]; [reflexivity|cbn; rewrite IH; reflexivity]).
  clear -Hss Hone Hc. revert ss Hss. unfold segs_list. induction l as [|t l IH]; intros ss; cbn [segs_list_with].
  - intros [= <-]. reflexivity.
  - rewrite bind_ok. intros (r & Hr & Hx). apply bind_ok in Hx. destruct Hx as (rs & Hrs & [= <-]).
    rewrite map_app, concat_app. cbn [map List.concat]. rewrite (Hone t r (or_introl eq_refl) Hr), Hc.
    rewrite (IH (fun t r Ht => Hone t r (or_intror Ht)) rs Hrs). reflexivity.
Qed.

(** ** C86 *)

(** nosplit: the tokens, one after the other, have the visible characters of the source *)
Theorem C86_nosplit : forall E K G lo up o d b lexed l out m,
  ascii_classes K -> simple_case E K G lo up -> blanks_ok K -> source_ok E K G lexed ->
  param d SPLIT = lit "F" -> keeps_all d l ->
  convert_text E K lexed = Ok l -> to_repr E o d b l = Ok (out, m) ->
  visible K (written out) = visible K (List.concat (map snd lexed)).
Proof.
  intros E K G lo up o d b lexed l out m HK HS HB Hs HF Hk Hl H.
  rewrite (whole_tokens E o d b l out m HF Hk H).
  apply (text_written E K G lo up HK HS HB (whole_texts E) lexed l); try assumption. apply (whole_written E K HB).
Qed.
Print Assumptions C86_nosplit.

(** bpe and chars: after joining the parts of each token and removing its end mark *)
Theorem C86_bpe : forall E K G lo up o d b merges lexed l out m,
  ascii_classes K -> simple_case E K G lo up -> blanks_ok K -> source_ok E K G lexed -> py_text E -> lexer_ok lexed ->
  usable b merges -> is_bpe d = true -> keeps_all d l ->
  convert_text E K lexed = Ok l -> to_repr E o d (Some b) l = Ok (out, m) ->
  exists texts, map (@List.concat N) (slices (wb m) out) = map (fun t => t ++ lit "</t>") texts /\
    List.concat (slices (wb m) out) = out /\
    visible K (written texts) = visible K (List.concat (map snd lexed)).
Proof.
  intros E K G lo up o d b merges lexed l out m HK HS HB Hs HT HL Hu Hd Hk Hl H.
  destruct (C03_text_lossless E K o d b merges lexed l out m HT HK HL Hu Hd) as (texts & mF & H1 & _ & H2 & H3); try assumption.
  { destruct Hk as (_ & _ & -> & _). discriminate. }
  exists texts. split; [exact H2|]. split; [exact H3|].
  apply (C86_nosplit E K G lo up o (whole d) None lexed l texts mF); try assumption; [apply whole_split|].
  destruct Hk as (K1 & K2 & K3 & mx & K4 & K5 & K6). unfold keeps_all. rewrite !whole_param by discriminate.
  repeat (split; [assumption|]). exists mx. auto.
Qed.
Print Assumptions C86_bpe.

(** splitting of words: after reading the marks *)
Theorem C86_basic : forall E K G lo up o d b lexed l out m,
  ascii_classes K -> simple_case E K G lo up -> blanks_ok K -> source_ok E K G lexed -> py_text E -> case_no_lt E -> lexer_no_marks lexed ->
  mk_prep_config d = Ok d -> keeps_text o d -> keeps_all d l ->
  convert_text E K lexed = Ok l -> to_repr E o d b l = Ok (out, m) ->
  visible K (written (map (put_together E) (slices (wb m) out))) = visible K (List.concat (map snd lexed)).
Proof.
  intros E K G lo up o d b lexed l out m HK HS HB Hs HT HC HL Hd Ht Hk Hl H.
  rewrite (C70_tokens E o d b l out m Hd Ht Hk (text_plain E K HK HT HC lexed l HL Hl) H).
  apply (text_written E K G lo up HK HS HB (leaf_texts E) lexed l); try assumption. apply (leaf_written E K HB).
Qed.
Print Assumptions C86_basic.

(** Consequence: two texts with different visible characters never give the same tokens and word boundaries. *)
Theorem C86_differ : forall E K G lo up o d b merges lexed1 lexed2 l1 l2 out m,
  ascii_classes K -> simple_case E K G lo up -> blanks_ok K -> py_text E -> case_no_lt E ->
  source_ok E K G lexed1 -> source_ok E K G lexed2 -> lexer_no_marks lexed1 -> lexer_no_marks lexed2 -> lexer_ok lexed1 -> lexer_ok lexed2 ->
  param d SPLIT = lit "F" \/ (is_bpe d = true /\ usable b merges) \/ (mk_prep_config d = Ok d /\ keeps_text o d) ->
  keeps_all d l1 -> keeps_all d l2 ->
  convert_text E K lexed1 = Ok l1 -> convert_text E K lexed2 = Ok l2 ->
  to_repr E o d (Some b) l1 = Ok (out, m) -> to_repr E o d (Some b) l2 = Ok (out, m) ->
  visible K (List.concat (map snd lexed1)) = visible K (List.concat (map snd lexed2)).
Proof.
  intros E K G lo up o d b merges lexed1 lexed2 l1 l2 out m HK HS HB HT HC S1 S2 L1 L2 O1 O2 Hmode K1 K2 T1 T2 R1 R2.
  destruct Hmode as [HF|[[Hb Hu]|[Hd Ht]]].
  - rewrite <- (C86_nosplit E K G lo up o d (Some b) lexed1 l1 out m) by assumption.
    rewrite <- (C86_nosplit E K G lo up o d (Some b) lexed2 l2 out m) by assumption. reflexivity.
  - destruct (C86_bpe E K G lo up o d b merges lexed1 l1 out m) as (x1 & A1 & _ & B1); auto.
    destruct (C86_bpe E K G lo up o d b merges lexed2 l2 out m) as (x2 & A2 & _ & B2); auto.
    rewrite A1 in A2. rewrite <- B1, <- B2. do 2 f_equal. clear -A2. revert x2 A2.
    induction x1 as [|x x1 IH]; intros [|y x2]; try discriminate; [reflexivity|]. cbn [map]. intros [= H1 H2].
    apply app_inv_tail in H1. rewrite H1, (IH x2 H2). reflexivity.
  - rewrite <- (C86_basic E K G lo up o d (Some b) lexed1 l1 out m) by assumption.
    rewrite <- (C86_basic E K G lo up o d (Some b) lexed2 l2 out m) by assumption. reflexivity.
Qed.
Print Assumptions C86_differ.

(** Upper case in numbers is lost: two different texts give the same tokens. *)
Theorem C86_number_case_refuted : forall E K o d b, lower E (lit "0xFFL") = lit "0xffl" -> lower E (lit "0xffl") = lit "0xffl" ->
  is_blank K 48 = false ->
  exists lexed1 lexed2 l1 l2, map fst lexed1 = map fst lexed2 /\ List.concat (map snd lexed1) <> List.concat (map snd lexed2) /\
  convert_text E K lexed1 = Ok l1 /\ convert_text E K lexed2 = Ok l2 /\ to_repr E o d b l1 = to_repr E o d b l2.
Proof.
  intros E K o d b H1 H2 H3.
  exists [(["Literal"; "Number"; "Hex"]%string, lit "0xFFL")], [(["Literal"; "Number"; "Hex"]%string, lit "0xffl")],
         [Number (lit "0xffl")], [Number (lit "0xffl")].
  split; [reflexivity|]. split; [discriminate|].
  assert (Hc : forall v, lower E (lit v) = lit "0xffl" -> hd 0%N (lit v) = 48%N -> eqb (lit v) (lit "0") = false -> eqb (lit v) (lit "1") = false ->
            convert_text E K [(["Literal"; "Number"; "Hex"]%string, lit v)] = Ok [Number (lit "0xffl")]).
  { intros v Hv Hh E0 E1. cbn [convert_text]. unfold convert.
    destruct (eqb_spec (lit v) s_nl) as [Hx|_]; [rewrite Hx in Hh; discriminate|].
    destruct (eqb_spec (lit v) s_tab) as [Hx|_]; [rewrite Hx in Hh; discriminate|].
    replace (blank K (lit v)) with false.
    2: { destruct (lit v) as [|c s]; [discriminate|]. cbn in Hh. subst c. cbn. rewrite H3. reflexivity. }
    cbn [type_is type_in]. vm_compute (type_is _ _ || type_in _ _). vm_compute (type_in _ _). unfold number_token. rewrite E0, E1. unfold mk_number. rewrite Hv. reflexivity. }
  split; [apply Hc; try assumption; reflexivity|]. split; [apply Hc; try assumption; reflexivity|]. reflexivity.
Qed.
Print Assumptions C86_number_case_refuted.

(** A text with words in camel case, a number, a comment and a string *)
Definition wide_K : charclass :=
  {| is_w := ascii_word_ch; is_up := ascii_upper_ch; is_low := ascii_lower_ch; is_blank := fun c => is_blank ascii_K c || N.eqb c 13 || N.eqb c 160 |}.
Definition keep_ex : list (token_type * str) :=
  [(["Keyword"]%string, lit "int"); (["Text"]%string, lit " "); (["Name"]%string, lit "getX_1"); (["Operator"]%string, lit "=");
   (["Literal"; "Number"; "Hex"]%string, lit "0x1f"); (["Comment"; "Single"]%string, lit "// A"); (["Text"]%string, [10%N]);
   (["Literal"; "String"]%string, lit "'a  B'")].
Example keep_ex_ok : ascii_classes wide_K /\ blanks_ok wide_K /\
  simple_case ascii_case wide_K (fun c => (c < 128)%N) ascii_to_lower ascii_to_upper /\
  source_ok ascii_case wide_K (fun c => (c < 128)%N) keep_ex /\ lexer_no_marks keep_ex /\ lexer_ok keep_ex.
Proof.
  assert (HK : ascii_classes wide_K) by (intros c _; repeat split).
  split; [exact HK|]. split; [repeat split|]. split; [apply ascii_simple_case; [exact ascii_case_py_ascii|exact HK]|].
  assert (Hm : lexer_no_marks keep_ex).
  { repeat (constructor; [split; [discriminate|split; cbn; intros H; try discriminate H; unfold no_lt; cbn; intuition discriminate]|]). constructor. }
  assert (Ho : lexer_ok keep_ex).
  { repeat (constructor; [split; [discriminate|cbn; intros H; try discriminate H; intuition discriminate]|]). constructor. }
  split; [|split; [exact Hm|exact Ho]].
  apply Forall_forall. intros [t v] Hin. split.
  { apply Forall_forall. intros c Hc. apply N.ltb_lt.
    assert (Ha : forallb (fun tv => forallb (fun c => N.ltb c 128) (snd tv)) keep_ex = true) by reflexivity.
    rewrite forallb_forall in Ha. specialize (Ha _ Hin). rewrite forallb_forall in Ha. apply Ha, Hc. }
  split; [|repeat (destruct Hin as [[= <- <-]|Hin]; [vm_compute; discriminate|]); destruct Hin].
  split; [intros Ht; repeat (destruct Hin as [[= <- <-]|Hin]; [first [discriminate Ht|reflexivity]|]); destruct Hin|].
  assert (Hq : exists qs, pieces wide_K v qs /\ Forall (fun p => match p with PWord w => is_number w = true -> lower ascii_case w = w | _ => True end) qs).
  { repeat (destruct Hin as [[= <- <-]|Hin]; [|]); [eexists [PWord (lit "int")]|eexists [PSpaces 1]|eexists [PWord (lit "getX_1")]|eexists [PChar 61%N]|
      eexists [PWord (lit "0x1f")]|eexists [PChar 47%N; PChar 47%N; PSpaces 1; PWord (lit "A")]|eexists [PChar 10%N]|
      eexists [PChar 39%N; PWord (lit "a"); PSpaces 2; PWord (lit "B"); PChar 39%N]|destruct Hin].
    all: split; [split; [reflexivity|split; [repeat constructor; try discriminate; try reflexivity|cbn; auto]]|
                 repeat constructor; vm_compute; intros Hx; first [discriminate Hx|reflexivity]]. }
  destruct Hq as (qs & Hq & Hf). intros ps w Hps Hw Hnum. rewrite (C13_unique wide_K v ps qs HK Hps Hq) in Hw.
  rewrite Forall_forall in Hf. apply (Hf _ Hw), C14_number_grammar, Hnum.
Qed.

Definition keep_l : list token := match convert_text ascii_case wide_K keep_ex with Ok l => l | Err _ => [] end.
Example keep_ex_all d : param d COM = lit "c" -> param d TABS_NEWLINES = lit "s" -> param d EN_ONLY = lit "u" -> param d STR = lit "1" -> keeps_all d keep_l.
Proof.
  intros H1 H2 H3 H4. repeat (split; [assumption|]). exists maxsize. split; [right; reflexivity|]. split; [exact H4|].
  intros k n H. vm_compute in H. repeat (destruct H as [H|H]; [try discriminate H; injection H as <- <-; vm_compute; discriminate|]). destruct H.
Qed.

Example C86_nosplit_example : exists out m,
  to_repr ascii_case no_splitters (combine prep_params (chars_of "uc1Fsu")) None keep_l = Ok (out, m) /\
  out = map lit ["int"; "getX_1"; "="; "0x1f"; "/"; "/"; "A"; "<EOL>"]%string ++ [[10%N]; lit "'a" ++ [160%N; 160%N] ++ lit "B'"] /\
  visible wide_K (written out) = lit "intgetX_1=0x1f//A'aB'".
Proof.
  destruct keep_ex_ok as (HK & HB & HS & Hs & Hm & HL).
  assert (H : exists r, to_repr ascii_case no_splitters (combine prep_params (chars_of "uc1Fsu")) None keep_l = Ok r) by (eexists; vm_compute; reflexivity).
  destruct H as ([out m] & H). exists out, m. split; [exact H|].
  split; [vm_compute in H; injection H as <- _; reflexivity|].
  rewrite (C86_nosplit ascii_case wide_K _ _ _ no_splitters (combine prep_params (chars_of "uc1Fsu")) None keep_ex keep_l out m HK HS HB Hs); try exact H; try reflexivity.
  apply keep_ex_all; reflexivity.
Qed.

Example C86_bpe_example : exists out m texts,
  to_repr ascii_case no_splitters (combine prep_params (chars_of "uc14su")) (Some ex_bpe) keep_l = Ok (out, m) /\
  map (@List.concat N) (slices (wb m) out) = map (fun t => t ++ lit "</t>") texts /\
  visible wide_K (written texts) = lit "intgetX_1=0x1f//A'aB'".
Proof.
  destruct keep_ex_ok as (HK & HB & HS & Hs & Hm & HL).
  assert (H : exists r, to_repr ascii_case no_splitters (combine prep_params (chars_of "uc14su")) (Some ex_bpe) keep_l = Ok r) by (eexists; vm_compute; reflexivity).
  destruct H as ([out m] & H). exists out, m.
  destruct (C86_bpe ascii_case wide_K _ _ _ no_splitters (combine prep_params (chars_of "uc14su")) ex_bpe ex_merges keep_ex keep_l out m HK HS HB Hs ascii_case_py_text HL ex_usable) as (texts & A & _ & B);
    try exact H; try reflexivity; [apply keep_ex_all; reflexivity|]. exists texts. split; [exact H|]. split; [exact A|]. rewrite B. reflexivity.
Qed.

Example C86_basic_example : exists out m,
  to_repr ascii_case no_splitters (combine prep_params (chars_of "uc12sl")) None keep_l = Ok (out, m) /\
  firstn 9 out = map lit ["int"; "<w>"; "get"; "<CAPS>"; "x"; "_"; "1"; "</w>"; "="]%string /\
  visible wide_K (written (map (put_together ascii_case) (slices (wb m) out))) = lit "intgetX_1=0x1f//A'aB'".
Proof.
  destruct keep_ex_ok as (HK & HB & HS & Hs & Hm & HL). destruct C70_example as (_ & _ & HC & _).
  assert (H : exists r, to_repr ascii_case no_splitters (combine prep_params (chars_of "uc12sl")) None keep_l = Ok r) by (eexists; vm_compute; reflexivity).
  destruct H as ([out m] & H). exists out, m. split; [exact H|].
  split; [vm_compute in H; injection H as <- _; reflexivity|].
  rewrite (C86_basic ascii_case wide_K _ _ _ no_splitters (combine prep_params (chars_of "uc12sl")) None keep_ex keep_l out m HK HS HB Hs ascii_case_py_text HC Hm); try exact H; try reflexivity.
  - right. right. left. reflexivity.
  - apply keep_ex_all; reflexivity.
Qed.
