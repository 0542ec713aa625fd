(** * C71, C72: the parsed tokens spell the text and keep its lines *)
From Verif Require Import M_Base L_Base M_Tokens M_Regex M_Parse L_Regex M_Repr M_PrepConfig L_Repr P_Repr L_Word
     P_ReprOptions P_ReprStrings P_Parse P_ParseRepr.
From Coq Require Import Arith.

(** what a token says: nothing for white space *)
Fixpoint spelling (E : pycase) (t : token) : str :=
  match t with
  | NewLine | Tab | SpaceInString _ => []
  | OneLineComment l | MultilineComment l | StringLiteral l _ => List.concat (map (spelling E) l)
  | _ => tok_str E t
  end.
Definition spell (E : pycase) (l : list token) : str := List.concat (map (spelling E) l).

Definition visible (K : charclass) (s : str) : str := filter (fun c => negb (is_blank K c)) s.

(** numbers of the text are in lower case *)
Definition numbers_lower (E : pycase) (K : charclass) (tv : token_type * str) : Prop :=
  (type_in (fst tv) ["Literal"; "Number"]%string = true -> lower E (snd tv) = snd tv) /\
  forall ps w, pieces K (snd tv) ps -> In (PWord w) ps -> number_literal w -> lower E w = w.

Section Spelling.
  Variables (E : pycase) (K : charclass) (G : N -> Prop) (lo up : N -> N).
  Hypothesis HK : ascii_classes K.
  Hypothesis HS : simple_case E K G lo up.
  Hypothesis Hblank : is_blank K 32 = true /\ is_blank K 9 = true /\ is_blank K 10 = true.

  Lemma visible_app a b : visible K (a ++ b) = visible K a ++ visible K b.
  Proof. apply filter_app. Qed.

  Lemma spell_app a b : spell E (a ++ b) = spell E a ++ spell E b.
  Proof. unfold spell. rewrite map_app, concat_app. reflexivity. Qed.

  Lemma digits_uncased c : G c -> is_digit c = true -> is_low K c = false /\ is_up K c = false.
  Proof.
    intros _ Hc. unfold is_digit in Hc. apply andb_true_iff in Hc. destruct Hc as [H1 H2]. apply N.leb_le in H1, H2.
    destruct (HK c) as (_ & -> & ->); [lia|]. unfold ascii_lower_ch, ascii_upper_ch.
    split; apply andb_false_iff; left; apply N.leb_gt; lia.
  Qed.

  Lemma parts_spelled parts subs :
    Forall (Forall G) parts -> parts_ok K parts ->
    Forall2 (fun p s => (p = lit "_" /\ s = Underscore) \/ (p <> lit "_" /\ word_from E p = Ok s)) parts subs ->
    split_str E subs = List.concat parts.
  Proof.
    intros Hg Hp H. revert Hg Hp. induction H as [|p s ps ss Hs H IH]; intros Hg Hp; [reflexivity|].
    inversion Hg as [|? ? Hg1 Hg2]; subst. destruct Hp as [Hp1 Hp2]. unfold split_str in *. cbn [map List.concat].
    rewrite (IH Hg2 Hp2). f_equal. destruct Hs as [[-> ->]|[Hne Hs]]; [reflexivity|].
    destruct (part_stable E K G lo up HS digits_uncased p _ Hg1 Hp1 Hne) as (wd & Hwd & Hst). congruence.
  Qed.

  Lemma Forall_parts parts (w : str) : List.concat parts = w -> Forall G w -> Forall (Forall G) parts.
  Proof.
    intros <-. induction parts as [|p ps IH]; [constructor|]. cbn [List.concat]. intros H. apply Forall_app in H.
    constructor; [apply H|apply IH, H].
  Qed.

  Lemma word_spelled w t : Forall G w -> word_token E K w t -> (number_literal w -> lower E w = w) -> spelling E t = w.
  Proof.
    intros Hg Ht Hl. destruct Ht as [Hn|parts subs Hn Hc _ Hp Hf]; [exact (Hl Hn)|].
    assert (Hs : split_str E subs = w).
    { rewrite <- Hc. apply parts_spelled; [eapply Forall_parts; eassumption|exact Hp|exact Hf]. }
    destruct (is_ascii w); exact Hs.
  Qed.

  Lemma spaces_invisible n : visible K (repeat 32%N n) = [].
  Proof. induction n as [|n IH]; [reflexivity|]. cbn. destruct Hblank as [-> _]. exact IH. Qed.

  Lemma char_spelled c : visible K (spelling E (char_token c)) = visible K [c].
  Proof.
    unfold char_token. destruct Hblank as (_ & H9 & H10).
    destruct (N.eqb_spec c 10) as [->|_]; [cbn; rewrite H10; reflexivity|].
    destruct (N.eqb_spec c 9) as [->|_]; [cbn; rewrite H9; reflexivity|reflexivity].
  Qed.

  Lemma pieces_spelled sp (s : str) ps tss :
    (forall n, spell E (sp n) = []) -> Forall G s ->
    (forall w, In (PWord w) ps -> number_literal w -> lower E w = w) ->
    s = List.concat (map piece_text ps) ->
    Forall2 (piece_tokens E K sp) ps tss ->
    visible K (spell E (List.concat tss)) = visible K s.
  Proof.
    intros Hsp Hg Hn -> Hf. revert Hg Hn. induction Hf as [|p ts ps tss Hp Hf IH]; intros Hg Hn; [reflexivity|].
    cbn [map List.concat] in Hg |- *. apply Forall_app in Hg. destruct Hg as [Hg1 Hg2].
    rewrite spell_app, !visible_app, (IH Hg2) by (intros w Hw; apply Hn; right; exact Hw). f_equal.
    destruct p as [w|c|n]; cbn [piece_tokens piece_text] in *.
    - destruct Hp as (t & -> & Ht). unfold spell. cbn [map List.concat]. rewrite app_nil_r.
      rewrite (word_spelled w t Hg1 Ht); [reflexivity|]. apply Hn. left. reflexivity.
    - subst ts. unfold spell. cbn [map List.concat]. rewrite app_nil_r. apply char_spelled.
    - subst ts. rewrite Hsp, spaces_invisible. reflexivity.
  Qed.

  Lemma spell_tabs n : spell E (repeat Tab n) = [].
  Proof. induction n as [|n IH]; [reflexivity|exact IH]. Qed.

  Lemma words_spelled t v l : Forall G v -> numbers_lower E K (t, v) -> split_into_words E K v = Ok l ->
    visible K (spell E l) = visible K v.
  Proof.
    intros Hg [_ Hn] H. destruct (C13_words E K v l HK H) as (ps & tss & Hps & Hf & ->).
    eapply pieces_spelled; [|exact Hg| |apply Hps|exact Hf].
    - intros n. apply spell_tabs.
    - intros w. exact (Hn ps w Hps).
  Qed.
  Lemma string_spelled t v l : Forall G v -> numbers_lower E K (t, v) -> split_string E K v = Ok l ->
    visible K (spell E l) = visible K v.
  Proof.
    intros Hg [_ Hn] H. destruct (C13_string E K v l HK H) as (ps & tss & Hps & Hf & ->).
    eapply pieces_spelled; [|exact Hg| |apply Hps|exact Hf].
    - intros n. reflexivity.
    - intros w. exact (Hn ps w Hps).
  Qed.

  Lemma spell_one t : spell E [t] = spelling E t.
  Proof. unfold spell. cbn [map List.concat]. apply app_nil_r. Qed.

  Lemma blank_invisible v : blank K v = true -> visible K v = [].
  Proof.
    unfold blank. induction v as [|c v IH]; [reflexivity|]. cbn. intros H. apply andb_true_iff in H. destruct H as [-> H].
    exact (IH H).
  Qed.

  Lemma convert_spelled t (v : str) l : Forall G v -> numbers_lower E K (t, v) -> convert E K t v = Ok l ->
    visible K (spell E l) = visible K v.
  Proof.
    intros Hg Hn. unfold convert. destruct Hblank as (_ & H9 & H10).
    destruct (eqb_spec v s_nl) as [->|_]; [intros [= <-]; cbn; rewrite H10; reflexivity|].
    destruct (eqb_spec v s_tab) as [->|_]; [intros [= <-]; cbn; rewrite H9; reflexivity|].
    destruct (blank K v) eqn:Hb; [intros Hx; inversion Hx; subst l; rewrite spell_tabs, (blank_invisible v Hb); reflexivity|].
    destruct (type_is t ["Operator"]%string || type_in t ["Punctuation"]%string).
    { intros [= <-]. rewrite spell_one. unfold operator_token. repeat destruct (eqb v _); reflexivity. }
    destruct (type_in t ["Literal"; "Number"]%string) eqn:Hnum.
    { intros [= <-]. rewrite spell_one. unfold number_token. destruct (eqb_spec v (lit "0")) as [->|_]; [reflexivity|].
      destruct (eqb_spec v (lit "1")) as [->|_]; [reflexivity|]. unfold mk_number. cbn [spelling tok_str].
      pose proof (proj1 Hn Hnum) as Hy. cbn [snd] in Hy. rewrite Hy. reflexivity. }
    destruct (type_in t ["Name"]%string); [apply (words_spelled t v l Hg Hn)|].
    destruct (type_is t ["Literal"]%string || type_is t ["Literal"; "Date"]%string); [apply (words_spelled t v l Hg Hn)|].
    destruct (type_in t ["Keyword"]%string); [intros [= <-]; rewrite spell_one; reflexivity|].
    destruct (type_in t ["Literal"; "String"]%string).
    { rewrite bind_ok. intros (k & Hk & [= <-]). rewrite spell_one. exact (string_spelled t v k Hg Hn Hk). }
    destruct (type_is t ["Comment"; "Single"]%string).
    { rewrite bind_ok. intros (k & Hk & [= <-]). rewrite spell_one. exact (words_spelled t v k Hg Hn Hk). }
    destruct (type_in t ["Comment"]%string).
    { rewrite bind_ok. intros (k & Hk & [= <-]). rewrite spell_one. exact (words_spelled t v k Hg Hn Hk). }
    apply (words_spelled t v l Hg Hn).
  Qed.
End Spelling.

(** white space that the parser treats specially is stripped by Python *)
Definition spaces_blank (K : charclass) : Prop := is_blank K 32 = true /\ is_blank K 9 = true /\ is_blank K 10 = true.

Theorem C71_spelling : forall E K G lo up lexed l,
  ascii_classes K -> spaces_blank K -> simple_case E K G lo up ->
  Forall (fun tv => Forall G (snd tv) /\ numbers_lower E K tv) lexed ->
  convert_text E K lexed = Ok l ->
  visible K (spell E l) = visible K (List.concat (map snd lexed)).
Proof.
  intros E K G lo up lexed l HK HB HS Hf. revert l.
  induction Hf as [|[t v] lexed [Hg Hn] Hf IH]; intros l H; cbn [convert_text] in H; [injection H as <-; reflexivity|].
  apply bind_ok in H. destruct H as (a & Ha & H). apply bind_ok in H. destruct H as (r & Hr & [= <-]).
  cbn [map List.concat snd]. rewrite spell_app, !visible_app, (IH r Hr). f_equal.
  exact (convert_spelled E K G lo up HK HS HB t v a Hg Hn Ha).
Qed.
Print Assumptions C71_spelling.

(** Numbers lose their case. *)
Theorem C71_number_case_refuted : exists lexed l,
  convert_text ascii_case ascii_K lexed = Ok l /\
  visible ascii_K (spell ascii_case l) <> visible ascii_K (List.concat (map snd lexed)).
Proof.
  exists [(["Literal"; "Number"; "Hex"]%string, lit "0xFFL")], [Number (lit "0xffl")].
  split; vm_compute; [reflexivity|discriminate].
Qed.
Print Assumptions C71_number_case_refuted.

(** ** C72 *)
Definition is_newline (t : token) : bool := match t with NewLine => true | _ => false end.
(** the number of newline tokens, those inside comments and strings included *)
Definition newlines (l : list token) : nat := length (filter is_newline (all_tokens l)).
Definition line_ends (s : str) : nat := count_occ N.eq_dec s 10%N.

(** a lexer token that is kept whole or dropped has no newline *)
Definition lines_apart (K : charclass) (tv : token_type * str) : Prop :=
  let (t, v) := tv in
  v = s_nl \/ ~ In 10%N v \/
  (blank K v = false /\ type_is t ["Operator"]%string = false /\ type_in t ["Punctuation"]%string = false /\
   type_in t ["Literal"; "Number"]%string = false /\
   (type_in t ["Keyword"]%string = false)).

Section Lines.
  Variables (E : pycase) (K : charclass).
  Hypothesis HK : ascii_classes K.

  Lemma newlines_app a b : newlines (a ++ b) = newlines a + newlines b.
  Proof. unfold newlines, all_tokens. rewrite map_app, concat_app, filter_app, app_length. reflexivity. Qed.
  Lemma line_ends_app a b : line_ends (a ++ b) = line_ends a + line_ends b.
  Proof. apply count_occ_app. Qed.
  Lemma line_ends_none v : ~ In 10%N v -> line_ends v = 0.
  Proof. apply count_occ_not_In. Qed.

  Lemma word_newlines w t : word_token E K w t -> newlines [t] = 0.
  Proof. destruct 1; [reflexivity|]. destruct (is_ascii w); reflexivity. Qed.

  Lemma pieces_newlines sp (s : str) ps tss :
    (forall n, newlines (sp n) = 0) -> Forall (piece_ok K) ps -> s = List.concat (map piece_text ps) ->
    Forall2 (piece_tokens E K sp) ps tss -> newlines (List.concat tss) = line_ends s.
  Proof.
    intros Hsp Hok -> Hf. revert Hok. induction Hf as [|p ts ps tss Hp Hf IH]; intros Hok; [reflexivity|].
    inversion Hok as [|? ? Hok1 Hok2]; subst. cbn [map List.concat]. rewrite newlines_app, line_ends_app, (IH Hok2). f_equal.
    destruct p as [w|c|n]; cbn [piece_tokens piece_text piece_ok] in *.
    - destruct Hp as (t & -> & Ht). rewrite (word_newlines w t Ht). symmetry. apply line_ends_none. intros Hin.
      destruct Hok1 as [_ Hw]. rewrite forallb_forall in Hw. specialize (Hw _ Hin). rewrite (w_ascii K HK) in Hw by reflexivity. discriminate.
    - subst ts. unfold char_token. destruct (N.eqb_spec c 10) as [->|Hc]; [reflexivity|].
      rewrite line_ends_none by (intros [Hx|[]]; congruence). destruct (N.eqb c 9); reflexivity.
    - subst ts. rewrite Hsp. symmetry. apply line_ends_none. intros Hin. apply repeat_spec in Hin. discriminate.
  Qed.

  Lemma tabs_newlines n : newlines (repeat Tab n) = 0.
  Proof. induction n as [|n IH]; [reflexivity|exact IH]. Qed.

  Lemma words_newlines v l : split_into_words E K v = Ok l -> newlines l = line_ends v.
  Proof.
    intros H. destruct (C13_words E K v l HK H) as (ps & tss & Hps & Hf & ->).
    eapply pieces_newlines; [|apply Hps|apply Hps|exact Hf]. intros n. apply tabs_newlines.
  Qed.
  Lemma string_newlines v l : split_string E K v = Ok l -> newlines l = line_ends v.
  Proof.
    intros H. destruct (C13_string E K v l HK H) as (ps & tss & Hps & Hf & ->).
    eapply pieces_newlines; [|apply Hps|apply Hps|exact Hf]. reflexivity.
  Qed.

  Lemma convert_newlines t (v : str) l : lines_apart K (t, v) -> convert E K t v = Ok l -> newlines l = line_ends v.
  Proof.
    intros Hl. unfold convert.
    destruct (eqb_spec v s_nl) as [->|Hnl]; [intros [= <-]; reflexivity|].
    destruct (eqb_spec v s_tab) as [->|_]; [intros [= <-]; reflexivity|].
    assert (Hc : ~ In 10%N v \/ (blank K v = false /\ type_is t ["Operator"]%string = false /\ type_in t ["Punctuation"]%string = false /\
                   type_in t ["Literal"; "Number"]%string = false /\ type_in t ["Keyword"]%string = false)).
    { destruct Hl as [Hl|Hl]; [contradiction|exact Hl]. }
    clear Hl Hnl.
    destruct (blank K v) eqn:Hb.
    { destruct Hc as [Hc|[Hc _]]; [|discriminate]. intros Hx; inversion Hx; subst l. rewrite tabs_newlines, line_ends_none by exact Hc. reflexivity. }
    destruct (type_is t ["Operator"]%string || type_in t ["Punctuation"]%string) eqn:Ho.
    { destruct Hc as [Hc|(_ & H1 & H2 & _)]; [|rewrite H1, H2 in Ho; discriminate].
      intros [= <-]. rewrite line_ends_none by exact Hc. unfold operator_token. repeat destruct (eqb v _); reflexivity. }
    destruct (type_in t ["Literal"; "Number"]%string) eqn:Hnum.
    { destruct Hc as [Hc|(_ & _ & _ & H1 & _)]; [|discriminate].
      intros [= <-]. rewrite line_ends_none by exact Hc. unfold number_token. repeat destruct (eqb v _); reflexivity. }
    destruct (type_in t ["Name"]%string); [apply words_newlines|].
    destruct (type_is t ["Literal"]%string || type_is t ["Literal"; "Date"]%string); [apply words_newlines|].
    destruct (type_in t ["Keyword"]%string) eqn:Hk.
    { destruct Hc as [Hc|(_ & _ & _ & _ & H1)]; [|discriminate]. intros [= <-]. rewrite line_ends_none by exact Hc. reflexivity. }
    assert (Hone : forall k u, subterms u = u :: all_tokens k -> is_newline u = false -> newlines [u] = newlines k).
    { intros k u Hu Hi. unfold newlines. cbn [all_tokens map List.concat]. unfold all_tokens at 1. cbn [map List.concat].
      rewrite app_nil_r, Hu. cbn [filter]. rewrite Hi. reflexivity. }
    destruct (type_in t ["Literal"; "String"]%string).
    { rewrite bind_ok. intros (k & Hk' & [= <-]). rewrite (Hone k) by reflexivity. apply string_newlines, Hk'. }
    destruct (type_is t ["Comment"; "Single"]%string).
    { rewrite bind_ok. intros (k & Hk' & [= <-]). rewrite (Hone k) by reflexivity. apply words_newlines, Hk'. }
    destruct (type_in t ["Comment"]%string).
    { rewrite bind_ok. intros (k & Hk' & [= <-]). rewrite (Hone k) by reflexivity. apply words_newlines, Hk'. }
    apply words_newlines.
  Qed.
End Lines.

Theorem C72_lines : forall E K lexed l,
  ascii_classes K -> Forall (lines_apart K) lexed -> convert_text E K lexed = Ok l ->
  newlines l = line_ends (List.concat (map snd lexed)).
Proof.
  intros E K lexed l HK Hf. revert l. induction Hf as [|[t v] lexed Hl Hf IH]; intros l H; cbn [convert_text] in H; [injection H as <-; reflexivity|].
  apply bind_ok in H. destruct H as (a & Ha & H). apply bind_ok in H. destruct H as (r & Hr & [= <-]).
  cbn [map List.concat snd]. rewrite newlines_app, line_ends_app, (IH r Hr). f_equal.
  exact (convert_newlines E K HK t v a Hl Ha).
Qed.
Print Assumptions C72_lines.

(** White space with line ends that the lexer delivers as one token loses them all. *)
Theorem C72_blank_lines_refuted : forall E K t n, ascii_classes K -> spaces_blank K ->
  exists l, convert_text E K [(t, repeat 10%N (S (S n)))] = Ok l /\ newlines l = 0.
Proof.
  intros E K t n _ (_ & _ & H10). cbn [convert_text]. unfold convert.
  destruct (eqb_spec (repeat 10%N (S (S n)) : str) s_nl) as [Hx|_]; [discriminate Hx|].
  destruct (eqb_spec (repeat 10%N (S (S n)) : str) s_tab) as [Hx|_]; [discriminate Hx|].
  replace (blank K (repeat 10%N (S (S n)))) with true.
  - eexists. split; [reflexivity|]. rewrite app_nil_r. apply tabs_newlines.
  - symmetry. apply forallb_forall. intros c Hc. apply repeat_spec in Hc. subst c. exact H10.
Qed.
Print Assumptions C72_blank_lines_refuted.

(** An indentation of 4k, 4k+1, 4k+2 or 4k+3 blanks, wherever it is in the text, becomes k tab tokens, the rest of the
    text is parsed as if it was not there. *)
Lemma convert_text_app E K a b : convert_text E K (a ++ b) =
  bind (convert_text E K a) (fun la => bind (convert_text E K b) (fun lb => Ok (la ++ lb))).
Proof.
  induction a as [|[t v] a IH]; cbn [app convert_text bind]; [destruct (convert_text E K b); reflexivity|].
  rewrite IH. destruct (convert E K t v) as [x|e]; [|reflexivity]. cbn [bind].
  destruct (convert_text E K a) as [la|e]; [|reflexivity]. cbn [bind].
  destruct (convert_text E K b) as [lb|e]; [|reflexivity]. cbn [bind]. rewrite app_assoc. reflexivity.
Qed.

Lemma convert_spaces E K t k r : spaces_blank K -> r < 4 -> convert E K t (repeat 32%N (4 * k + r)) = Ok (repeat Tab k).
Proof.
  intros (H32 & _) Hr. unfold convert.
  destruct (eqb_spec (repeat 32%N (4 * k + r) : str) s_nl) as [Hx|_].
  { exfalso. destruct (4 * k + r) as [|[|n]]; discriminate Hx. }
  destruct (eqb_spec (repeat 32%N (4 * k + r) : str) s_tab) as [Hx|_].
  { exfalso. destruct (4 * k + r) as [|[|n]]; discriminate Hx. }
  replace (blank K (repeat 32%N (4 * k + r))) with true.
  - rewrite repeat_length. f_equal. f_equal. symmetry. apply (Nat.div_unique _ 4 k r); lia.
  - symmetry. apply forallb_forall. intros c Hc. apply repeat_spec in Hc. subst c. exact H32.
Qed.

Theorem C72_indentation : forall E K before t k r after la lb,
  spaces_blank K -> r < 4 -> convert_text E K before = Ok la -> convert_text E K after = Ok lb ->
  convert_text E K (before ++ (t, repeat 32%N (4 * k + r)) :: after) = Ok (la ++ repeat Tab k ++ lb).
Proof.
  intros E K before t k r after la lb Hs Hr Ha Hb. rewrite convert_text_app, Ha. cbn [bind convert_text].
  rewrite (convert_spaces E K t k r Hs Hr). cbn [bind]. rewrite Hb. reflexivity.
Qed.
Print Assumptions C72_indentation.

(** An indentation by tabs is kept if the lexer delivers the tabs one by one, otherwise there are only a quarter of them. *)
Theorem C72_tabs : forall E K before n t after la lb,
  convert_text E K before = Ok la -> convert_text E K after = Ok lb ->
  convert_text E K (before ++ repeat (t, [9%N]) n ++ after) = Ok (la ++ repeat Tab n ++ lb).
Proof.
  intros E K before n t after la lb Ha Hb. rewrite convert_text_app, Ha. cbn [bind].
  assert (H : convert_text E K (repeat (t, [9%N]) n ++ after) = Ok (repeat Tab n ++ lb)).
  { induction n as [|n IH]; [exact Hb|]. cbn [repeat app convert_text].
    change (convert E K t [9%N]) with (Ok [Tab]). cbn [bind]. rewrite IH. reflexivity. }
  rewrite H. reflexivity.
Qed.
Print Assumptions C72_tabs.

Theorem C72_tabs_refuted : forall E K t n, spaces_blank K -> 2 <= n ->
  exists l, convert_text E K [(t, repeat 9%N n)] = Ok l /\ length l < n.
Proof.
  intros E K t n (_ & H9 & _) Hn. cbn [convert_text]. unfold convert.
  destruct (eqb_spec (repeat 9%N n : str) s_nl) as [Hx|_]; [exfalso; destruct n as [|[|n]]; discriminate Hx|].
  destruct (eqb_spec (repeat 9%N n : str) s_tab) as [Hx|_]; [exfalso; destruct n as [|[|n]]; (discriminate Hx || lia)|].
  replace (blank K (repeat 9%N n)) with true.
  - eexists. split; [reflexivity|]. rewrite app_nil_r, !repeat_length. apply Nat.div_lt; lia.
  - symmetry. apply forallb_forall. intros c Hc. apply repeat_spec in Hc. subst c. exact H9.
Qed.
Print Assumptions C72_tabs_refuted.

Example C72_indentation_example :
  convert_text ascii_case ascii_K ([(["Keyword"]%string, lit "do"); (["Text"]%string, [10%N])] ++
    (["Text"]%string, repeat 32%N (4 * 2 + 1)) :: [(["Keyword"]%string, lit "if")])
  = Ok [NonProc NpKeyWord (lit "do"); NewLine; Tab; Tab; NonProc NpKeyWord (lit "if")].
Proof. reflexivity. Qed.

Lemma app_same_length {A} (a b c d : list A) : length a = length b -> a ++ c = b ++ d -> a = b /\ c = d.
Proof.
  revert b. induction a as [|x a IH]; intros [|y b]; try discriminate; [split; [reflexivity|assumption]|].
  cbn. intros [= Hl] [= -> H]. destruct (IH b Hl H) as [-> ->]. auto.
Qed.

Definition source_ex : list (token_type * str) :=
  [(["Keyword"]%string, lit "int"); (["Text"]%string, lit " "); (["Name"]%string, lit "get_x1"); (["Operator"]%string, lit "=");
   (["Literal"; "Number"; "Hex"]%string, lit "0x1f"); (["Punctuation"]%string, lit ";");
   (["Comment"; "Multiline"]%string, lit "/* a" ++ [10%N] ++ lit "  1f */"); (["Text"]%string, [10%N])].
Example C71_example : exists l,
  convert_text ascii_case ascii_K source_ex = Ok l /\ spell ascii_case l = lit "intget_x1=0x1f;/*a1f*/" /\ newlines l = 2 /\
  Forall (lines_apart ascii_K) source_ex /\
  Forall (fun tv => Forall (fun c => (c < 128)%N) (snd tv) /\ numbers_lower ascii_case ascii_K tv) source_ex.
Proof.
  eexists. split; [vm_compute; reflexivity|]. split; [reflexivity|]. split; [reflexivity|]. split.
  - repeat apply Forall_cons; [..|apply Forall_nil].
    all: first [left; reflexivity|right; left; cbn; intros Hx; repeat (destruct Hx as [Hx|Hx]; [discriminate Hx|]); exact Hx|right; right; repeat split].
  - apply Forall_forall. intros [t v] Hin. split.
    + apply Forall_forall. intros c Hc. apply N.ltb_lt.
      assert (Ha : forallb (fun tv => forallb (fun c => N.ltb c 128) (snd tv)) source_ex = true) by reflexivity.
      rewrite forallb_forall in Ha. specialize (Ha _ Hin). rewrite forallb_forall in Ha. apply Ha, Hc.
    + assert (Hlow : lower ascii_case v = v) by (repeat (destruct Hin as [[= <- <-]|Hin]; [reflexivity|]); destruct Hin).
      split; [intros _; exact Hlow|]. intros ps w (Hv & _) Hw _. cbn [snd] in Hv. subst v. clear Hin. cbn [lower ascii_case] in *.
      induction ps as [|p ps IH]; [destruct Hw|]. cbn [map List.concat] in Hlow. rewrite map_app in Hlow. apply app_same_length in Hlow; [|apply map_length].
      destruct Hlow as [H1 H2]. destruct Hw as [->|Hw]; [exact H1|exact (IH H2 Hw)].
Qed.
