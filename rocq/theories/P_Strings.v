(** * C76: string literals and comments of the source text *)
From Verif Require Import M_Base L_Base M_Tokens M_Regex M_Parse M_Merge M_BpeEncode M_Repr M_PrepConfig L_Repr P_Repr P_ReprOptions P_ReprStrings P_PrepConfig
  P_Parse P_ParseRepr P_Source.
From Coq Require Import Lia.

(** lexer tokens for strings and comments that are more than white space *)
Definition string_part (K : charclass) (tv : token_type * str) : Prop :=
  type_in (fst tv) ["Literal"; "String"]%string = true /\ exists c, In c (snd tv) /\ is_blank K c = false.
Definition comment_part (K : charclass) (tv : token_type * str) : Prop :=
  type_in (fst tv) ["Comment"]%string = true /\ exists c, In c (snd tv) /\ is_blank K c = false.

(** the lexer token [tv] somewhere in a text appears as [x] in the output, whatever is before and after it *)
Definition appears (E : pycase) (K : charclass) (o : splitters) (d : params) (b : option bpe_data) (tv : token_type * str) (x : list str) : Prop :=
  forall pre post la lb oa ma ob mb,
  convert_text E K pre = Ok la -> convert_text E K post = Ok lb ->
  to_repr E o d b la = Ok (oa, ma) -> to_repr E o d b lb = Ok (ob, mb) ->
  exists l m, convert_text E K (pre ++ tv :: post) = Ok l /\ to_repr E o d b l = Ok (oa ++ x ++ ob, m).

Lemma appears_one E K o d b t v tok x m : convert E K t v = Ok [tok] -> to_repr E o d b [tok] = Ok (x, m) -> appears E K o d b (t, v) x.
Proof.
  intros Hc Hx pre post la lb oa ma ob mb H1 H2 H3 H4. rewrite convert_text_app, H1. cbn [bind convert_text]. rewrite Hc. cbn [bind].
  rewrite H2. cbn [bind]. pose proof (C04_compositional _ _ _ _ _ _ _ _ _ _ Hx H4) as H5.
  pose proof (C04_compositional _ _ _ _ _ _ _ _ _ _ H3 H5) as H6. eexists. eexists. split; [reflexivity|exact H6].
Qed.

Lemma not_white K (v : str) c : spaces_blank K -> In c v -> is_blank K c = false -> eqb v s_nl = false /\ eqb v s_tab = false /\ blank K v = false.
Proof.
  intros (_ & H9 & H10) Hin Hb.
  destruct (eqb_spec (v : str) s_nl) as [->|_]; [destruct Hin as [<-|[]]; congruence|].
  destruct (eqb_spec (v : str) s_tab) as [->|_]; [destruct Hin as [<-|[]]; congruence|].
  split; [reflexivity|]. split; [reflexivity|]. unfold blank. destruct (forallb (is_blank K) v) eqn:F; [|reflexivity].
  rewrite forallb_forall in F. rewrite (F _ Hin) in Hb. discriminate.
Qed.

Lemma type_in_head t a rest : type_in t (a :: rest) = true -> exists t', t = a :: t' /\ type_in t' rest = true.
Proof. destruct t as [|x t]; cbn; [discriminate|]. destruct (String.eqb_spec a x) as [->|]; [eauto|discriminate]. Qed.

Lemma type_is_false t u : t <> u -> type_is t u = false.
Proof. intros H. unfold type_is. destruct (list_eq_dec string_dec t u); [contradiction|reflexivity]. Qed.

Lemma convert_string E K t (v : str) : ascii_classes K -> py_text E -> spaces_blank K -> string_part K (t, v) ->
  exists l, convert E K t v = Ok [StringLiteral l (Z.of_nat (length v))].
Proof.
  intros HA HT HK [Ht (c & Hin & Hb)]. cbn [fst snd] in *. destruct (not_white K v c HK Hin Hb) as (N1 & N2 & N3).
  unfold convert. rewrite N1, N2, N3. apply type_in_head in Ht as (t1 & -> & Ht). apply type_in_head in Ht as (t2 & -> & _).
  rewrite !type_is_false by discriminate. cbn [type_in String.eqb Ascii.eqb Bool.eqb orb].
  destruct (string_total E K HA HT v) as (l & ->). cbn [bind]. exists l. destruct t2; reflexivity.
Qed.

Lemma convert_comment E K t (v : str) : ascii_classes K -> py_text E -> spaces_blank K -> comment_part K (t, v) ->
  exists l, convert E K t v = Ok [OneLineComment l] \/ convert E K t v = Ok [MultilineComment l].
Proof.
  intros HA HT HK [Ht (c & Hin & Hb)]. cbn [fst snd] in *. destruct (not_white K v c HK Hin Hb) as (N1 & N2 & N3).
  unfold convert. rewrite N1, N2, N3. apply type_in_head in Ht as (t1 & -> & _).
  rewrite (type_is_false _ ["Operator"]%string), (type_is_false _ ["Literal"]%string), (type_is_false _ ["Literal"; "Date"]%string) by discriminate.
  cbn [type_in String.eqb Ascii.eqb Bool.eqb orb].
  destruct (words_total E K HA HT v) as (l & ->). cbn [bind]. exists l. destruct (type_is _ _); [auto|]. destruct t1; auto.
Qed.

(** With no_str every lexer token that belongs to a string is replaced by one placeholder. *)
Theorem C76_no_str : forall E K o d b tv,
  ascii_classes K -> py_text E -> spaces_blank K -> string_part K tv -> mk_prep_config d = Ok d -> param d STR = create_str_value true 0 ->
  appears E K o d b tv [end_mark d (lit "<str-literal>")].
Proof.
  intros E K o d b [t v] HA HT HK Hs Hd Hp. destruct (convert_string E K t v HA HT HK Hs) as (l & Hl).
  exact (appears_one _ _ _ _ _ _ _ _ _ _ Hl (C08_no_str E o d b l _ Hd Hp)).
Qed.
Print Assumptions C76_no_str.

(** With no_com every comment is replaced by one placeholder. *)
Theorem C76_no_com : forall E K o d b tv,
  ascii_classes K -> py_text E -> spaces_blank K -> comment_part K tv -> mk_prep_config d = Ok d -> param d COM = lit "0" ->
  appears E K o d b tv [end_mark d (lit "<comment>")].
Proof.
  intros E K o d b [t v] HA HT HK Hs Hd Hp. destruct (convert_comment E K t v HA HT HK Hs) as (l & Hl).
  assert (Hm : [end_mark d (lit "<comment>")] = [if is_bpe d then lit "<comment></t>" else lit "<comment>"]).
  { unfold end_mark. destruct (is_bpe d); reflexivity. }
  rewrite Hm. destruct Hl as [Hl|Hl].
  - exact (appears_one _ _ _ _ _ _ _ _ _ _ Hl (C07_placeholder E o d b (OneLineComment l) Hd Hp eq_refl)).
  - exact (appears_one _ _ _ _ _ _ _ _ _ _ Hl (C07_placeholder E o d b (MultilineComment l) Hd Hp eq_refl)).
Qed.
Print Assumptions C76_no_com.

(** A string longer than max_str_length, counted in characters of the source with the quotes, is replaced by an empty one. *)
Theorem C76_too_long : forall E K o d b tv mx,
  ascii_classes K -> py_text E -> spaces_blank K -> string_part K tv -> mk_prep_config d = Ok d -> param d STR = create_str_value false mx ->
  (2 <= mx < 62)%Z \/ mx = maxsize -> (mx < Z.of_nat (length (snd tv)))%Z ->
  appears E K o d b tv (if param_in d SPLIT "F" then [lit """"""] else [lit """"; end_mark d (lit """")]).
Proof.
  intros E K o d b [t v] mx HA HT HK Hs Hd Hp Hmx Hlen. destruct (convert_string E K t v HA HT HK Hs) as (l & Hl).
  pose proof (C08_too_long E o d b l _ mx Hd Hp Hmx Hlen) as H. destruct (param_in d SPLIT "F");
    exact (appears_one _ _ _ _ _ _ _ _ _ _ Hl H).
Qed.
Print Assumptions C76_too_long.


(** If no string is longer, the limit changes nothing. *)
Lemma convert_strings E K t (v : str) l : ascii_classes K -> py_text E -> convert E K t v = Ok l ->
  forall k n, In (StringLiteral k n) (all_tokens l) -> n = Z.of_nat (length v) /\ type_in t ["Literal"; "String"]%string = true.
Proof.
  intros HA HT H k n Hin.
  assert (Hsimple : forall toks, Forall (simple_token E) toks -> In (StringLiteral k n) (all_tokens toks) -> False).
  { intros toks Hs Hi. apply in_concat in Hi. destruct Hi as (x & Hx & Hi). apply in_map_iff in Hx. destruct Hx as (u & <- & Hu).
    rewrite Forall_forall in Hs. specialize (Hs _ Hu). rewrite (simple_subterms E u Hs) in Hi. destruct Hi as [->|[]]. exact Hs. }
  assert (Hwords : forall toks, split_into_words E K v = Ok toks -> In (StringLiteral k n) (all_tokens toks) -> False).
  { intros toks Ht. apply Hsimple. eapply words_simple; eassumption. }
  revert H. unfold convert.
  destruct (eqb v s_nl); [intros [= <-]; cbn in Hin; intuition discriminate|].
  destruct (eqb v s_tab); [intros [= <-]; cbn in Hin; intuition discriminate|].
  destruct (blank K v).
  { intros [= <-]. exfalso. eapply Hsimple; [|exact Hin]. apply Forall_forall. intros x Hx. apply repeat_spec in Hx. subst x. exact I. }
  destruct (type_is t _ || type_in t _).
  { intros [= <-]. exfalso. revert Hin. unfold operator_token.
    repeat (destruct (eqb v _); [cbn; intuition discriminate|]). cbn. intuition discriminate. }
  destruct (type_in t ["Literal"; "Number"]%string).
  { intros [= <-]. exfalso. revert Hin. unfold number_token, mk_number.
    repeat (destruct (eqb v _); [cbn; intuition discriminate|]). cbn. intuition discriminate. }
  destruct (type_in t ["Name"%string]); [intros H; destruct (Hwords _ H Hin)|].
  destruct (type_is t _ || type_is t _); [intros H; destruct (Hwords _ H Hin)|].
  destruct (type_in t ["Keyword"%string]); [intros [= <-]; cbn in Hin; intuition discriminate|].
  destruct (type_in t ["Literal"; "String"]%string).
  { rewrite bind_ok. intros (s & Hs & [= <-]). unfold all_tokens in Hin. cbn [map List.concat subterms] in Hin. rewrite app_nil_r in Hin.
    destruct Hin as [[= _ <-]|Hin]; [auto|]. exfalso. eapply Hsimple; [|exact Hin]. eapply string_simple; eassumption. }
  assert (Hcom : forall c s, (c = OneLineComment \/ c = MultilineComment) -> split_into_words E K v = Ok s ->
    In (StringLiteral k n) (all_tokens [c s]) -> False).
  { intros c s [-> | ->] Hs Hi; unfold all_tokens in Hi; cbn [map List.concat subterms] in Hi; rewrite app_nil_r in Hi;
      (destruct Hi as [Hi|Hi]; [discriminate|eapply Hwords; eassumption]). }
  destruct (type_is t ["Comment"; "Single"]%string).
  { rewrite bind_ok. intros (s & Hs & [= <-]). destruct (Hcom OneLineComment s (or_introl eq_refl) Hs Hin). }
  destruct (type_in t ["Comment"%string]); [|intros H; destruct (Hwords _ H Hin)].
  rewrite bind_ok. intros (s & Hs & [= <-]). destruct (Hcom MultilineComment s (or_intror eq_refl) Hs Hin).
Qed.

Lemma all_tokens_app a b : all_tokens (a ++ b) = all_tokens a ++ all_tokens b.
Proof. unfold all_tokens. rewrite map_app, concat_app. reflexivity. Qed.

Theorem C76_within : forall E K o d b lexed l mx,
  ascii_classes K -> py_text E -> mk_prep_config d = Ok d -> (2 <= mx < 62)%Z \/ mx = maxsize ->
  (forall t v, In (t, v) lexed -> type_in t ["Literal"; "String"]%string = true -> (Z.of_nat (length v) <= mx)%Z) ->
  convert_text E K lexed = Ok l ->
  to_repr E o (dset d STR (create_str_value false mx)) b l = to_repr E o (dset d STR (create_str_value false maxsize)) b l.
Proof.
  intros E K o d b lexed l mx HA HT Hd Hmx Hlex Hl. apply C08_within_limit; [exact Hd|exact Hmx|].
  revert l Hl. induction lexed as [|[t v] rest IH]; intros l Hl k n Hin.
  - cbn in Hl. injection Hl as <-. destruct Hin.
  - cbn [convert_text] in Hl. apply bind_ok in Hl. destruct Hl as (x & Hx & Hl). apply bind_ok in Hl. destruct Hl as (y & Hy & [= <-]).
    rewrite all_tokens_app in Hin. apply in_app_or in Hin. destruct Hin as [Hin|Hin].
    + destruct (convert_strings _ _ _ _ _ HA HT Hx _ _ Hin) as [-> Ht]. apply (Hlex t v (or_introl eq_refl) Ht).
    + eapply IH; [|exact Hy|exact Hin]. intros t' v' H. apply Hlex. right. exact H.
Qed.
Print Assumptions C76_within.

(** Some lexers (python's, see tests/parse/test_core.py 394-416) deliver a string in parts. Then each part is a string of its own: *)
Definition python_string (body : str) : list (token_type * str) :=
  let t := ["Literal"; "String"; "Single"]%string in [(t, lit "'"); (t, body); (t, lit "'")].

Definition show_source (spec : string) (lexed : list (token_type * str)) : list str :=
  match convert_text ascii_case ascii_K lexed with
  | Ok l => match to_repr ascii_case no_splitters (combine prep_params (chars_of spec)) None l with Ok r => fst r | Err _ => [] end
  | Err _ => []
  end.

(** one string is shown as three placeholders ... *)
Theorem C76_parts_refuted : exists body,
  Forall (string_part ascii_K) (python_string body) /\
  show_source "Uc00su" (python_string body) = map lit ["<str-literal>"; "<str-literal>"; "<str-literal>"]%string.
Proof.
  exists (lit "abc"). split; [|vm_compute; reflexivity].
  repeat constructor; try (exists 39%N; split; [left; reflexivity|reflexivity]). exists 97%N. split; [left; reflexivity|reflexivity].
Qed.
Print Assumptions C76_parts_refuted.

(** ... a string that is longer than the limit is shown in full, as no part of it is ... *)
Theorem C76_parts_long_refuted : exists body,
  (5 < Z.of_nat (length (List.concat (map snd (python_string body)))))%Z /\
  show_source "Uc50su" (python_string body) = map lit ["'"; "abcd"; "'"]%string.
Proof. exists (lit "abcd"). split; [reflexivity|vm_compute; reflexivity]. Qed.
Print Assumptions C76_parts_long_refuted.

(** ... and white space inside a string is not hidden by no_str. *)
Theorem C76_parts_blank_refuted : exists body,
  show_source "Uc00su" (python_string body) = [lit "<str-literal>"; s_tab; lit "<str-literal>"].
Proof. exists (lit "    "). vm_compute. reflexivity. Qed.
Print Assumptions C76_parts_blank_refuted.

(** a declaration with a string and a comment, as a lexer of one token per string delivers it *)
Definition greeting : list (token_type * str) :=
  [(["Name"]%string, lit "s"); (["Text"]%string, lit " "); (["Operator"]%string, lit "="); (["Text"]%string, lit " ");
   (["Literal"; "String"]%string, lit """hi you"""); (["Punctuation"]%string, lit ";");
   (["Comment"; "Single"]%string, lit "// hi")].

Example C76_example :
  Forall (fun tv => fst tv <> ["Literal"; "String"]%string \/ string_part ascii_K tv) greeting /\
  map (fun spec => show_source spec greeting) ["Uc00su"; "U000su"; "U070su"; "U080su"; "Uc80su"]%string =
  map (map lit)
    [["s"; "="; "<str-literal>"; ";"; "/"; "/"; "hi"; "<EOL>"];
     ["s"; "="; "<str-literal>"; ";"; "<comment>"];
     ["s"; "="; """"; """"; ";"; "<comment>"];
     ["s"; "="; """"; "hi"; "you"; """"; ";"; "<comment>"];
     ["s"; "="; """"; "hi"; "you"; """"; ";"; "/"; "/"; "hi"; "<EOL>"]]%string.
Proof.
  split; [|vm_compute; reflexivity].
  repeat apply Forall_cons; try apply Forall_nil; try (left; discriminate). right. split; [reflexivity|]. exists 34%N. split; [left; reflexivity|reflexivity].
Qed.
