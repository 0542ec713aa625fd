# The theorems, property by property

Generated by `tools/theorems.py` from the sources. Variables of the enclosing section are universally quantified;
the definitions used are in the same file or in the `M_*.v` files.

## C01: Metadata boundaries describe the output

Whatever text is preprocessed with whatever valid configuration, the returned metadata satisfies: word_boundaries starts with 0, is strictly increasing, ends with the number of output tokens, and there is exactly one token type per full token (len(token_types) = len(word_boundaries) - 1).

*For*: every list of parsed tokens of every kind and nesting, every preprocessing configuration, every word splitter, every merge list. *Status*: proved.

`rocq/theories/P_ParseRepr.v:679`
```coq
Theorem C01_text_boundaries :
  forall E K o d b lexed l out m,
  py_text E -> ascii_classes K -> lexer_ok lexed ->
  convert_text E K lexed = Ok l -> to_repr E o d b l = Ok (out, m) ->
  hd 1 (wb m) = 0 /\ increasing (wb m) /\ last (wb m) 0 = length out /\ length (types m) = length (wb m) - 1.
```

`rocq/theories/P_Repr.v:109`
```coq
Theorem C01_metadata_boundaries :
  forall E o d b l out m,
  to_repr E o d b l = Ok (out, m) -> ~ In (Number []) (all_tokens l) ->
  hd 1 (wb m) = 0 /\ increasing (wb m) /\ last (wb m) 0 = length out /\ length (types m) = length (wb m) - 1.
```

## C02: End-of-token marks agree with metadata

In bpe and chars output a subtoken carries the </t> mark exactly when the metadata says that a full token ends there, so check_metadata_validity accepts every preprocessed text and the subtokens can be regrouped into tokens from the text alone.

*For*: every parsed token list, every merge list, every bpe or chars configuration. *Status*: partial.

Not true of the code without restriction: proved for merge lists in which no merge result ends with the mark itself (C02_marks_agree), for all merge lists if the mark is not in a token (C02_any_merges), and without condition for chars mode; C02_refuted gives a merge list for which marks and boundaries disagree.

`rocq/theories/P_Repr.v:554`
```coq
Theorem C02_marks_agree :
  forall E o d b merges l out m,
  py_ascii E -> usable b merges ->
  (forall p, In p (map fst merges) -> ends_with (lit "</t>") (fst p ++ snd p) = false) ->
  is_bpe d = true -> spaceless E l ->
  to_repr E o d (Some b) l = Ok (out, m) ->
  check_metadata_validity out m true = Ok tt /\
  (forall i, i < length out -> (ends_with (lit "</t>") (nth i out []) = true <-> In (S i) (wb m))).
```

`rocq/theories/P_Repr.v:593`
```coq
Theorem C02_chars_marks_agree :
  forall E o d b l out m,
  py_ascii E -> bd_merges b = ml_empty -> bd_cache b = [] -> is_bpe d = true -> spaceless E l ->
  to_repr E o d (Some b) l = Ok (out, m) ->
  check_metadata_validity out m true = Ok tt /\
  (forall i, i < length out -> (ends_with (lit "</t>") (nth i out []) = true <-> In (S i) (wb m))).
```

`rocq/theories/P_Repr.v:615`
```coq
Theorem C02_refuted :
  exists d merges l out m,
    mk_prep_config d = Ok d /\ is_bpe d = true /\ NoDup (map fst merges) /\ spaceless ascii_case l /\
    to_repr ascii_case no_splitters d (Some {| bd_merges := ml_from 0 merges; bd_cache := [] |}) l = Ok (out, m) /\
    check_metadata_validity out m true = Err AssertionError.
```

`rocq/theories/P_Repr.v:846`
```coq
Theorem C02_any_merges :
  forall E o d b merges l out m tokens mF,
  usable b merges -> is_bpe d = true -> spaceless E l ->
  (param d EN_ONLY = lit "U" -> forall k, ~ In (NonEng k) (all_tokens l)) ->
  to_repr E o d (Some b) l = Ok (out, m) ->
  to_repr E o (whole d) None l = Ok (tokens, mF) -> (forall t, In t tokens -> ~ within (lit "</t>") t) ->
  check_metadata_validity out m true = Ok tt /\
  (forall i, i < length out -> (ends_with (lit "</t>") (nth i out []) = true <-> In (S i) (wb m))).
```

## C03: BPE and chars output is lossless per token

In bpe and chars modes, joining the subtokens of one full token of the output gives exactly the text of that token followed by </t>: splitting into subwords never drops, duplicates or reorders characters.

*For*: every parsed token list whose words contain no space, every merge list, every bpe or chars configuration. *Status*: partial.

Not true of the code without restriction: lossless for every token that has no non-ascii characters to be replaced; with no_unicode the replaced words are treated by C03_no_unicode_words, and C03_no_unicode_refuted shows a word whose case information is lost.

`rocq/theories/P_ParseRepr.v:691`
```coq
Theorem C03_text_lossless :
  forall E K o d b merges lexed l out m,
  py_text E -> ascii_classes K -> lexer_ok lexed -> usable b merges -> is_bpe d = true -> param d EN_ONLY <> lit "U" ->
  convert_text E K lexed = Ok l -> to_repr E o d (Some b) l = Ok (out, m) ->
  exists tokens mF, to_repr E o (whole d) None l = Ok (tokens, mF) /\ types mF = types m /\
    map (@List.concat N) (slices (wb m) out) = map (fun t => t ++ lit "</t>") tokens /\
    List.concat (slices (wb m) out) = out.
```

`rocq/theories/P_Repr.v:795`
```coq
Theorem C03_lossless :
  forall E o d b merges l out m,
  usable b merges -> is_bpe d = true -> spaceless E l ->
  (param d EN_ONLY = lit "U" -> forall k, ~ In (NonEng k) (all_tokens l)) ->
  to_repr E o d (Some b) l = Ok (out, m) ->
  exists tokens mF, to_repr E o (whole d) None l = Ok (tokens, mF) /\
    types mF = types m /\
    map (@List.concat N) (slices (wb m) out) = map (fun t => t ++ lit "</t>") tokens /\
    List.concat (slices (wb m) out) = out.
```

`rocq/theories/P_ReprOptions.v:304`
```coq
Theorem C03_no_unicode_words :
  forall E o d b merges k s out m,
  mk_prep_config d = Ok d -> py_ascii E -> usable b merges -> is_bpe d = true -> param d EN_ONLY = lit "U" ->
  split_str E k <> [] -> ~ In 32%N (split_str E k) ->
  replace_non_ascii_seqs (split_str E k) ph_non_ascii_seq = Ok s ->
  to_repr E o d (Some b) [NonEng k] = Ok (out, m) ->
  wb m = [0; length out] /\ (List.concat out = s ++ lit "</t>" <-> ~ loses_case s).
```

`rocq/theories/P_ReprOptions.v:364`
```coq
Theorem C03_no_unicode_refuted :
  exists d k out m,
  mk_prep_config d = Ok d /\ param d EN_ONLY = lit "U" /\
  split_str ascii_case k = lit "MyClass" ++ [233%N] /\
  to_repr ascii_case no_splitters d (Some {| bd_merges := ml_empty; bd_cache := [] |}) [NonEng k] = Ok (out, m) /\
  List.concat out = lit "Myclass" ++ [247%N] ++ lit "</t>".
```

## C04: Preprocessing is compositional over the token stream

Preprocessing the concatenation of two parsed token lists gives the concatenation of the two outputs, with the boundaries of the second shifted by the length of the first, the types concatenated and the non-processable tokens united: no token's representation depends on its neighbours.

*For*: every pair of parsed token lists, every configuration. *Status*: proved.

`rocq/theories/P_Repr.v:153`
```coq
Theorem C04_compositional :
  forall E o d b la lb oa ma ob mb,
  to_repr E o d b la = Ok (oa, ma) -> to_repr E o d b lb = Ok (ob, mb) ->
  to_repr E o d b (la ++ lb) =
  Ok (oa ++ ob, {| nonproc := nonproc ma ++ nonproc mb;
                   wb := removelast (wb ma) ++ map (fun x => length oa + x) (wb mb);
                   types := types ma ++ types mb |}).
```

`rocq/theories/P_Repr.v:186`
```coq
Theorem C04_splits :
  forall E o d b la lb r, to_repr E o d b (la ++ lb) = Ok r ->
  exists ra rb, to_repr E o d b la = Ok ra /\ to_repr E o d b lb = Ok rb.
```

## C05: Non-processable tokens really occur in the output

Every token reported in metadata.nonprocessable_tokens occurs verbatim among the output tokens (before end-of-token marks are added), so excluding the reported set from BPE learning never excludes a token that the corpus does not contain.

*For*: every parsed token list, every configuration. *Status*: proved.

`rocq/theories/P_Repr.v:245`
```coq
Theorem C05_nonprocessable_occur :
  forall E o d b l out m x,
  to_repr E o d b l = Ok (out, m) -> In x (nonproc m) ->
  In (if is_bpe d then x ++ lit "</t>" else x) out.
```

## C06: no_spaces removes exactly the newlines and tabs

With no_spaces=True newline and tab tokens contribute nothing to the output, at top level and inside comments and split strings, and the rest of the output is what it would be if those tokens had not been there; without the option each of them contributes exactly one token.

*For*: every parsed token list, every configuration with and without no_spaces. *Status*: proved.

`rocq/theories/P_ReprOptions.v:617`
```coq
Theorem C06_no_spaces :
  forall E o d b l,
  (is_bpe d = true -> b <> None) ->
  to_repr E o (dset d TABS_NEWLINES (lit "0")) b l =
  to_repr E o (dset d TABS_NEWLINES (lit "s")) b (drop_spaces (splits_strings d) l).
```

`rocq/theories/P_ReprOptions.v:641`
```coq
Theorem C06_spaces_kept :
  forall E o d b, mk_prep_config d = Ok d -> param d TABS_NEWLINES = lit "s" ->
  to_repr E o d b [NewLine] =
    Ok ([if is_bpe d then [10%N] ++ lit "</t>" else [10%N]], {| nonproc := [[10%N]]; wb := [0; 1]; types := [CNewLine] |}) /\
  to_repr E o d b [Tab] =
    Ok ([if is_bpe d then [9%N] ++ lit "</t>" else [9%N]], {| nonproc := [[9%N]]; wb := [0; 1]; types := [CTab] |}).
```

## C07: no_com replaces each comment by one placeholder

With no_com=True each comment contributes exactly the single token <comment> whatever it contains, so the output is independent of comment contents; with comments kept each one-line comment ends with <EOL>.

*For*: every comment contents, every surrounding token list, every configuration. *Status*: proved.

`rocq/theories/P_ReprOptions.v:670`
```coq
Theorem C07_placeholder :
  forall E o d b t, mk_prep_config d = Ok d -> param d COM = lit "0" -> is_comment t = true ->
  to_repr E o d b [t] =
    Ok ([if is_bpe d then lit "<comment></t>" else lit "<comment>"], {| nonproc := []; wb := [0; 1]; types := [class_of t] |}).
```

`rocq/theories/P_ReprOptions.v:683`
```coq
Theorem C07_contents_irrelevant :
  forall E o d b l l', param d COM = lit "0" -> Forall2 same_but_comments l l' ->
  to_repr E o d b l = to_repr E o d b l'.
```

`rocq/theories/P_ReprOptions.v:698`
```coq
Theorem C07_others_unchanged :
  forall E o d b l v v', (forall t, In t (all_tokens l) -> is_comment t = false) ->
  to_repr E o (dset d COM v) b l = to_repr E o (dset d COM v') b l.
```

`rocq/theories/P_ReprOptions.v:716`
```coq
Theorem C07_comments_kept :
  forall E o d b l out m, param d COM = lit "c" ->
  to_repr E o d b l = Ok (out, m) ->
  to_repr E o d b [OneLineComment l] =
    Ok (out ++ [if is_bpe d then lit "<EOL></t>" else lit "<EOL>"],
        {| nonproc := nonproc m; wb := wb m ++ [S (length out)];
           types := repeat COneLineComment (S (length (types m))) |}) /\
  to_repr E o d b [MultilineComment l] =
    Ok (out, {| nonproc := nonproc m; wb := wb m; types := repeat CMultilineComment (length (types m)) |}).
```

## C08: no_str and max_str_length hide string contents

With no_str=True a string literal contributes exactly <str-literal>; with max_str_length a literal longer than the limit (quotes included) is replaced by an empty string literal that does not depend on its contents, and a literal within the limit is kept.

*For*: every string literal, every length, every limit, every configuration. *Status*: proved.

For the limits that can be encoded in a configuration (2..61 and the default, see C40).

`rocq/theories/P_ReprStrings.v:11`
```coq
Theorem C08_no_str :
  forall E o d b l n, mk_prep_config d = Ok d -> param d STR = create_str_value true 0 ->
  to_repr E o d b [StringLiteral l n] =
    Ok ([end_mark d (lit "<str-literal>")], {| nonproc := []; wb := [0; 1]; types := [CStringLiteral] |}).
```

`rocq/theories/P_ReprStrings.v:42`
```coq
Theorem C08_too_long :
  forall E o d b l n mx, mk_prep_config d = Ok d -> param d STR = create_str_value false mx ->
  (2 <= mx < 62)%Z \/ mx = maxsize -> (mx < n)%Z ->
  to_repr E o d b [StringLiteral l n] =
    if param_in d SPLIT "F"
    then Ok ([[34%N; 34%N]], {| nonproc := []; wb := [0; 1]; types := [CStringLiteral] |})
    else Ok ([[34%N]; end_mark d [34%N]], {| nonproc := [[34%N]]; wb := [0; 2]; types := [CStringLiteral] |}).
```

`rocq/theories/P_ReprStrings.v:119`
```coq
Theorem C08_within_limit :
  forall E o d b l mx, mk_prep_config d = Ok d -> (2 <= mx < 62)%Z \/ mx = maxsize ->
  (forall k n, In (StringLiteral k n) (all_tokens l) -> (n <= mx)%Z) ->
  to_repr E o (dset d STR (create_str_value false mx)) b l = to_repr E o (dset d STR (create_str_value false maxsize)) b l.
```

`rocq/theories/P_ReprStrings.v:154`
```coq
Theorem C08_others_unchanged :
  forall E o d b l ns ns' mx mx', mk_prep_config d = Ok d ->
  (forall t, In t (all_tokens l) -> is_string t = false) ->
  to_repr E o (dset d STR (create_str_value ns mx)) b l = to_repr E o (dset d STR (create_str_value ns' mx')) b l.
```

## C09: no_unicode leaves no non-ascii text

With no_unicode=True the output contains no non-ascii character except the documented placeholders (<non-en>, the sequence placeholder, and the non-breaking space inside full strings).

*For*: every parsed token list, every configuration with no_unicode. *Status*: partial.

Not true of the code without restriction: proved for texts whose non-ascii characters are in words; C09_text_refuted and C09_refuted show single non-ascii characters outside words that stay in the output; C09_every_sign_refuted: every such character in a name or a comment stays, with every configuration.

`rocq/theories/P_ParseRepr.v:900`
```coq
Theorem C09_text_no_unicode :
  forall E K o d b lexed l out m,
  mk_prep_config d = Ok d -> py_ascii E -> py_text E -> ascii_classes K -> splitters_ascii o ->
  (is_bpe d = true -> exists bd merges, b = Some bd /\ usable bd merges) ->
  param d EN_ONLY = lit "U" -> lexer_ok lexed -> lexer_ascii K lexed ->
  convert_text E K lexed = Ok l -> to_repr E o d b l = Ok (out, m) ->
  Forall (Forall shown) out.
```

`rocq/theories/P_ParseRepr.v:916`
```coq
Theorem C09_text_refuted :
  exists lexed l out m, lexer_ok lexed /\
  convert_text ascii_case ascii_K lexed = Ok l /\
  to_repr ascii_case no_splitters (combine prep_params (chars_of "Uc11su")) None l = Ok (out, m) /\ In [8220%N] out.
```

`rocq/theories/P_ReprStrings.v:396`
```coq
Theorem C09_no_unicode :
  forall E o d b l out m,
  mk_prep_config d = Ok d -> py_ascii E -> splitters_ascii o ->
  (is_bpe d = true -> exists bd merges, b = Some bd /\ usable bd merges) ->
  param d EN_ONLY = lit "U" -> spaceless E l -> marked E l ->
  to_repr E o d b l = Ok (out, m) ->
  Forall (Forall shown) out.
```

`rocq/theories/P_ReprStrings.v:472`
```coq
Theorem C09_refuted :
  exists d l out m, mk_prep_config d = Ok d /\ param d EN_ONLY = lit "U" /\
  to_repr ascii_case no_splitters d None l = Ok (out, m) /\ ~ Forall (Forall shown) out.
```

`rocq/theories/P_Signs.v:40`
```coq
Theorem C09_every_sign_refuted E K o d b lexed l out m t v c :
  ascii_classes K -> (128 <= c)%N -> is_w K c = false -> convert_text E K lexed = Ok l -> to_repr E o d b l = Ok (out, m) ->
  In (t, v) lexed -> In c v -> Exists (fun x => is_blank K x = false) v ->
  (exists r, t = "Name"%string :: r) \/ (exists r, t = "Comment"%string :: r) /\ param_in d COM "0" = false ->
  In (if is_bpe d then c :: lit "</t>" else [c]) out.
```

## C10: nosplit keeps words verbatim

nosplit outputs each identifier exactly as written in the source text.

*For*: every identifier. *Status*: partial.

Not true of the code without restriction: proved for identifiers of ascii characters and of characters with a one-to-one lower case; C10_refuted: U+1E9E is not reproduced. C10_recased: what every identifier is shown as, whatever its letters; C10_upper_refuted: every identifier of upper case letters is changed exactly if it is not the upper case of its lower case.

`rocq/theories/P_IdentifierCase.v:32`
```coq
Theorem C10_recased : forall E K o d b t (w : str) l,
  ascii_classes K -> words_not_blank K -> mk_prep_config d = Ok d -> nosplit d ->
  type_in t ["Name"%string] = true -> w <> [] -> forallb (is_w K) w = true -> ~ number_literal w ->
  (is_ascii w = true \/ param d EN_ONLY <> lit "U") -> convert_text E K [(t, w)] = Ok l ->
  exists parts m, List.concat parts = w /\ Forall (fun p => p <> []) parts /\ parts_ok K parts /\
  to_repr E o d b l = Ok ([List.concat (map (recased E) parts)], m).
```

`rocq/theories/P_IdentifierCase.v:81`
```coq
Theorem C10_upper_refuted : forall E K o d b t (w : str) l out m,
  ascii_classes K -> words_not_blank K -> mk_prep_config d = Ok d -> nosplit d ->
  type_in t ["Name"%string] = true -> w <> [] -> forallb (is_w K) w = true -> all_upper K w -> ~ number_literal w ->
  param d EN_ONLY <> lit "U" -> islower E w = false -> isupper E w = true ->
  convert_text E K [(t, w)] = Ok l -> to_repr E o d b l = Ok (out, m) ->
  out = [upper E (lower E w)] /\ (out <> [w] <-> upper E (lower E w) <> w).
```

`rocq/theories/P_ParseRepr.v:221`
```coq
Theorem C10_verbatim :
  forall E K G lo up o d b t (w : str),
  ascii_classes K -> words_not_blank K -> simple_case E K G lo up ->
  mk_prep_config d = Ok d -> nosplit d ->
  type_in t ["Name"%string] = true -> w <> [] -> forallb (is_w K) w = true -> ~ number_literal w ->
  Forall G w -> (is_ascii w = true \/ param d EN_ONLY <> lit "U") ->
  exists l m, convert_text E K [(t, w)] = Ok l /\ to_repr E o d b l = Ok ([w], m).
```

`rocq/theories/P_ParseRepr.v:276`
```coq
Theorem C10_ascii :
  forall E K o d b t (w : str),
  py_ascii E -> ascii_classes K -> words_not_blank K -> mk_prep_config d = Ok d -> nosplit d ->
  type_in t ["Name"%string] = true -> w <> [] -> forallb (is_w K) w = true -> ~ number_literal w -> is_ascii w = true ->
  exists l m, convert_text E K [(t, w)] = Ok l /\ to_repr E o d b l = Ok ([w], m).
```

`rocq/theories/P_ParseRepr.v:296`
```coq
Theorem C10_refuted :
  forall E K o d b t,
  ascii_classes K -> words_not_blank K -> capital_sharp_s E K -> mk_prep_config d = Ok d -> nosplit d ->
  param d EN_ONLY <> lit "U" -> type_in t ["Name"%string] = true ->
  exists l m, convert_text E K [(t, [7838%N])] = Ok l /\ to_repr E o d b l = Ok ([lit "SS"], m).
```

## C11: Identifier splitting is a partition

Splitting an identifier into subwords yields non-empty parts whose concatenation is the identifier.

*For*: every identifier, every assignment of unicode character classes. *Status*: proved.

`rocq/theories/P_Parse.v:371`
```coq
Theorem C11_partition :
  forall K w, ~ In 32%N w ->
  List.concat (finditer (identifier_re K) w) = w /\ Forall (fun p => p <> []) (finditer (identifier_re K) w).
```

`rocq/theories/P_Parse.v:382`
```coq
Theorem C11_subtokens :
  forall E K w t, ~ In 32%N w -> split_identifier E K w = Ok t ->
  exists parts subs, List.concat parts = w /\ Forall (fun p => p <> []) parts /\
    t = (if is_ascii w then SplitContainer subs else NonEng subs) /\
    Forall2 (fun p s => (p = lit "_" /\ s = Underscore) \/ (p <> lit "_" /\ word_from E p = Ok s)) parts subs.
```

## C12: Identifier subwords are homogeneous

Every part of a split identifier is an underscore, a run of ascii digits, a run of lowercase letters optionally preceded by one uppercase letter, a run of uppercase letters not followed by a lowercase letter, or a single other character.

*For*: every identifier. *Status*: proved.

`rocq/theories/P_Parse.v:377`
```coq
Theorem C12_homogeneous : forall K w, ~ In 32%N w -> parts_ok K (finditer (identifier_re K) w).
```

## C13: Text segmentation accounts for every character

Splitting the text of a lexer token into words keeps every non-space character exactly once and in order; a run of n spaces contributes floor(n/4) tabs in words and one space token of length n inside string literals.

*For*: every text, every assignment of unicode character classes. *Status*: proved.

`rocq/theories/P_Parse.v:693`
```coq
Theorem C13_words :
  forall E K s toks, ascii_classes K -> split_into_words E K s = Ok toks ->
  exists ps tss, pieces K s ps /\
    Forall2 (piece_tokens E K (fun n => repeat Tab (n / 4))) ps tss /\ toks = List.concat tss.
```

`rocq/theories/P_Parse.v:717`
```coq
Theorem C13_string :
  forall E K s toks, ascii_classes K -> split_string E K s = Ok toks ->
  exists ps tss, pieces K s ps /\
    Forall2 (piece_tokens E K (fun n => [SpaceInString n])) ps tss /\ toks = List.concat tss.
```

`rocq/theories/P_Parse.v:747`
```coq
Theorem C13_nothing_lost :
  forall K s ps, ascii_classes K -> pieces K s ps ->
  filter not_space s = List.concat (map (fun p => match p with PSpaces _ => [] | _ => piece_text p end) ps).
```

`rocq/theories/P_Parse.v:787`
```coq
Theorem C13_unique : forall K s ps qs, ascii_classes K -> pieces K s ps -> pieces K s qs -> ps = qs.
```

## C14: Number recognition matches the number grammar

A word is classified as a number exactly when it is a hexadecimal, binary, integer or decimal floating literal of the documented grammar.

*For*: every word. *Status*: proved.

`rocq/theories/P_Parse.v:107`
```coq
Theorem C14_number_grammar : forall w, is_number w = true <-> number_literal w.
```

`rocq/theories/P_Parse.v:168`
```coq
Theorem C14_digits : forall c,
  (is_digit c = true <-> In c (lit "0123456789")) /\ (is_bin c = true <-> In c (lit "01")) /\
  (is_hex c = true <-> In c (lit "0123456789abcdefABCDEF")).
```

## C15: Non-ascii runs collapse to one placeholder

Replacing non-ascii sequences keeps all ascii characters in order and turns each maximal run of non-ascii characters into exactly one placeholder; applying it again changes nothing.

*For*: every word, every single-character placeholder. *Status*: proved.

`rocq/theories/P_Parse.v:200`
```coq
Theorem C15_runs_collapse :
  forall ph w out, length ph = 1 -> (replace_non_ascii_seqs w ph = Ok out <-> collapsed ph w out).
```

`rocq/theories/P_Parse.v:230`
```coq
Theorem C15_idempotent :
  forall ph w out, replace_non_ascii_seqs w ph = Ok out -> replace_non_ascii_seqs out ph = Ok out.
```

## C16: BPE subwords of a word concatenate to the word

get_bpe_subwords(word) returns a non-empty list of subwords whose concatenation is the word, including words that contain the escape character @, and never raises.

*For*: every word without spaces, every merge list, no cached entry. *Status*: proved.

For words without spaces (the tokeniser produces no others), any merge list without repeated pairs, and caches that hold real encodings.

`rocq/theories/P_Bpe.v:56`
```coq
Theorem C16_subwords_concatenate :
  forall d l w, built l (bd_merges d) -> NoDup (map fst l) -> faithful d l -> ~ In 32%N w ->
  exists ws, get_bpe_subwords d w = Ok ws /\ List.concat ws = w /\ ws <> [] /\
             (* only the last subword can be empty *)
             Forall (fun p => p <> []) (removelast ws).
```

## C17: Encoding follows merge priority and stops only when nothing applies

encode_word terminates and its result is the one of the textbook procedure: repeatedly take the best-priority pair that occurs, merge all its occurrences from left to right, until no adjacent pair is in the merge list.

*For*: every word, every merge list built by appending merges. *Status*: proved.

`rocq/theories/P_Bpe.v:24`
```coq
Theorem C17_encode_is_textbook_bpe :
  forall l ml w, built l ml -> NoDup (map fst l) -> ~ In 32%N w ->
  exists r, encode_word ml (escape w true) = Ok r /\
            bpe_result (map fst l) (letters w) r /\
            (forall r', bpe_result (map fst l) (letters w) r' -> r' = r).
```

## C18: Encoding a word is repeatable

Encoding the same word again with the same bpe data gives the same subwords, whatever was encoded in between and whether or not the word is in the merges cache.

*For*: every history of encoded words, every cache, every merge list. *Status*: partial.

Not true of the code without restriction: proved for words outside the cache and for cached words not yet looked up; C18_cached_word_refuted: a cached word looked up twice loses its end mark inside the cache.

`rocq/theories/P_Bpe.v:148`
```coq
Theorem C18_uncached_repeatable :
  forall d history w, dget (bd_cache d) (escape w true) = None ->
  fst (get_bpe_subwords_st (run d history) w) = fst (get_bpe_subwords_st d w).
```

`rocq/theories/P_Bpe.v:161`
```coq
Theorem C18_cached_undisturbed :
  forall d history w, ~ In w history ->
  fst (get_bpe_subwords_st (run d history) w) = fst (get_bpe_subwords_st d w).
```

`rocq/theories/P_Bpe.v:183`
```coq
Theorem C18_cached_word_refuted :
  forall d l w parts, faithful d l -> dget (bd_cache d) (escape w true) = Some parts -> last w 0%N <> 64%N ->
  (exists ws, fst (get_bpe_subwords_st d w) = Ok ws /\ List.concat ws = w) /\
  (exists e, fst (get_bpe_subwords_st (run d [w]) w) = Err e).
```

## C19: chars mode splits into single characters

With an empty merge list every word is split into exactly its characters, in order, followed by one empty subword to which the mark of the end of a word is attached.

*For*: every non-empty word without spaces. *Status*: proved.

`rocq/theories/P_Bpe.v:102`
```coq
Theorem C19_chars_mode :
  forall d w, bd_merges d = ml_empty -> bd_cache d = [] -> ~ In 32%N w ->
  get_bpe_subwords d w = Ok (map (fun c => [c]) w ++ [[]]).
```

## C20: Escaping is injective

Two different words never have the same escaped form, and the character splitter accepts every escaped word.

*For*: every pair of words. *Status*: proved.

`rocq/theories/P_Bpe.v:9`
```coq
Theorem C20_escape_injective : forall a b merged, escape a merged = escape b merged -> a = b.
```

`rocq/theories/P_Bpe.v:13`
```coq
Theorem C20_char_splitter_accepts :
  forall w, to_char_list (escape w true) = Ok (letters w) /\ List.concat (letters w) = escape w true.
```

## C21: Merge lists are ordered by priority

However a merge list was built by successful appends and additions, iterating it yields merges with priorities 0..n-1 in order, and get_priority agrees with the position.

*For*: every sequence of append and + operations. *Status*: partial.

Not true of the code without restriction: needs pairs to be appended at most once; C21_duplicate_pair_refuted otherwise; C21_exact: whatever the history of the list, this condition is also necessary. C21_items: length, items from both ends, errors beyond them, slices within the list. C21_slices: slices with any bounds, without a step. C21_equal: equality of lists. C21_repeated_refuted: every pair that is there is accepted again, and then has the same priority as the next new pair.

`rocq/theories/P_Merge.v:65`
```coq
Theorem C21_merge_list_ordered :
  forall l ml, built l ml -> NoDup (map fst l) ->
  map (fun m => (m_pair m, m_freq m)) (ml_iter ml) = l /\
  map m_priority (ml_iter ml) = seq 0 (length l) /\
  (forall p k, ml_priority ml p = Some k <-> nth_error (map fst l) k = Some p) /\
  (forall p, ml_contains ml p = true <-> In p (map fst l)).
```

`rocq/theories/P_Merge.v:92`
```coq
Theorem C21_merge_list_add_total :
  forall l1 a l2 b, built l1 a -> built l2 b -> NoDup (map fst (l1 ++ l2)) ->
  exists c, ml_add a b = Ok c /\ built (l1 ++ l2) c.
```

`rocq/theories/P_Merge.v:105`
```coq
Theorem C21_duplicate_pair_refuted :
  exists l ml, built l ml /\ map m_priority (ml_iter ml) <> seq 0 (length (ml_iter ml)).
```

`rocq/theories/P_MergeExact.v:272`
```coq
Theorem C21_exact :
  forall l ml, built l ml ->
  (map m_priority (ml_iter ml) = seq 0 (length (ml_iter ml)) <-> NoDup (map fst l)) /\
  (map (fun m => (m_pair m, m_freq m)) (ml_iter ml) = l <-> NoDup (map fst l)).
```

`rocq/theories/P_MergeItem.v:46`
```coq
Theorem C21_items l ml : built l ml -> NoDup (map fst l) ->
  ml_len ml = length l /\
  (forall k p f, nth_error l k = Some (p, f) -> ml_item ml (Z.of_nat k) = Ok {| m_pair := p; m_freq := f; m_priority := k |}
     /\ ml_item ml (Z.of_nat k - Z.of_nat (length l)) = Ok {| m_pair := p; m_freq := f; m_priority := k |}) /\
  (forall i, (i < - Z.of_nat (length l) \/ Z.of_nat (length l) <= i)%Z -> ml_item ml i = Err IndexError) /\
  (forall a b, a <= b <= length l -> exists ms, ml_slice ml (Some (Z.of_nat a)) (Some (Z.of_nat b)) = ms /\
     map (fun m => (m_pair m, m_freq m)) ms = firstn (b - a) (skipn a l) /\ map m_priority ms = seq a (b - a)) /\
  (forall b, 0 < b <= length l -> ml_slice ml None (Some (- Z.of_nat b)%Z) = ml_slice ml (Some 0%Z) (Some (Z.of_nat (length l - b)))).
```

`rocq/theories/P_MergeItem.v:83`
```coq
Theorem C21_equal l a l' b : built l a -> NoDup (map fst l) -> built l' b -> NoDup (map fst l') -> ml_eq a b = true <-> l = l'.
```

`rocq/theories/P_MergeItem.v:93`
```coq
Theorem C21_repeated_refuted l ml p f q g : built l ml -> NoDup (map fst l) -> In p (map fst l) -> ~ In q (map fst l) ->
  exists ml1 ml2, ml_append ml p f None = Ok ml1 /\ ml_append ml1 q g None = Ok ml2 /\
    ml_len ml1 = length l /\ ml_priority ml2 p = Some (length l) /\ ml_priority ml2 q = Some (length l) /\ p <> q.
```

`rocq/theories/P_MergeSlice.v:46`
```coq
Theorem C21_slices l ml : built l ml -> NoDup (map fst l) -> forall a b,
  exists whole, map (fun m => (m_pair m, m_freq m)) whole = l /\ map m_priority whole = seq 0 (length l) /\
  ml_slice ml None None = whole /\
  ml_slice ml a b = filter (fun m => in_slice (length l) a b (m_priority m)) whole.
```

## C22: Merges files round-trip

Reading a dumped merge list gives back an equal merge list, for arbitrary symbols including control and non-ascii characters.

*For*: every merge list with recorded frequencies and space-free symbols. *Status*: partial.

Not true of the code without restriction: for symbols without spaces and merges with a frequency; C22_exactly: these two conditions are also necessary; C22_one_without_frequency_refuted: one merge without a frequency makes the whole file unreadable; C22_format: the exact text of the file.

`rocq/theories/P_Merge.v:137`
```coq
Theorem C22_merges_file_round_trip :
  forall l ml, built l ml -> NoDup (map fst l) ->
  Forall (fun e => symbol (fst (fst e)) /\ symbol (snd (fst e)) /\ snd e <> None) l ->
  read_merges (dump_merges ml) None = Ok ml.
```

`rocq/theories/P_Merge.v:148`
```coq
Theorem C22_no_frequency_refuted :
  exists ml, built [((lit "a", lit "b"), None)] ml /\ read_merges (dump_merges ml) None = Err ValueError.
```

`rocq/theories/P_Merge.v:157`
```coq
Theorem C22_space_in_symbol_refuted :
  exists ml, built [((lit "a b", lit "c"), Some 1%Z)] ml /\ read_merges (dump_merges ml) None <> Ok ml.
```

`rocq/theories/P_MergesFile.v:66`
```coq
Theorem C22_format : forall l ml, built l ml -> NoDup (map fst l) ->
  dump_merges ml
  = List.concat (map (fun e => to_literal_str (fst (fst e)) ++ [32%N] ++ to_literal_str (snd (fst e)) ++ [32%N]
                        ++ match snd e with Some z => decZ z | None => lit "None" end ++ [10%N]) l).
```

`rocq/theories/P_MergesFile.v:78`
```coq
Theorem C22_exactly : forall l ml, built l ml -> NoDup (map fst l) ->
  Forall (fun e => Forall (fun c => (c <= 1114111)%N) (fst (fst e)) /\ Forall (fun c => (c <= 1114111)%N) (snd (fst e))) l ->
  (read_merges (dump_merges ml) None = Ok ml
   <-> Forall (fun e => ~ In 32%N (fst (fst e)) /\ ~ In 32%N (snd (fst e)) /\ snd e <> None) l).
```

`rocq/theories/P_MergesFile.v:101`
```coq
Theorem C22_one_without_frequency_refuted : forall l ml, built l ml -> NoDup (map fst l) ->
  Forall (fun e => symbol (fst (fst e)) /\ symbol (snd (fst e))) l -> Exists (fun e => snd e = None) l ->
  read_merges (dump_merges ml) None = Err ValueError.
```

## C23: The first n merges are read as a prefix

read_merges(file, n) is the first n merges of read_merges(file).

*For*: every file, every n. *Status*: partial.

Not true of the code without restriction: for n > 0 and files without repeated pairs (every dumped file); C23_zero_refuted and C23_duplicate_line_refuted otherwise; C23_accepts: exactly which files can be read (a repeated pair is refused except in the last line); C23_prefix_exact: exactly when the first n merges are a prefix of all.

`rocq/theories/P_Merge.v:227`
```coq
Theorem C23_prefix :
  forall content ml n,
  read_merges content None = Ok ml -> length ml = length (file_lines content) -> 0 < n ->
  read_merges content (Some n) = Ok (firstn n ml).
```

`rocq/theories/P_Merge.v:251`
```coq
Theorem C23_prefix_of_dumped :
  forall l ml n, built l ml -> NoDup (map fst l) ->
  Forall (fun e => symbol (fst (fst e)) /\ symbol (snd (fst e)) /\ snd e <> None) l -> 0 < n ->
  read_merges (dump_merges ml) (Some n) = Ok (firstn n ml).
```

`rocq/theories/P_Merge.v:263`
```coq
Theorem C23_zero_refuted :
  (forall content, read_merges content (Some 0) = read_merges content None) /\
  exists content ml, read_merges content (Some 0) = Ok ml /\ ml <> [] /\ firstn 0 ml <> ml.
```

`rocq/theories/P_Merge.v:280`
```coq
Theorem C23_duplicate_line_refuted :
  exists content ml m, read_merges content None = Ok ml /\ read_merges content (Some 2) = Ok m /\
                       length ml = 2 /\ m <> firstn 2 ml.
```

`rocq/theories/P_MergeExact.v:70`
```coq
Theorem C23_accepts :
  forall content,
  (exists ml, read_merges content None = Ok ml) <->
  exists es, mapM parse_file_entry (file_lines content) = Ok es /\ NoDup (map fst (removelast es)).
```

`rocq/theories/P_MergeExact.v:110`
```coq
Theorem C23_prefix_exact :
  forall content ml es n,
  read_merges content None = Ok ml -> mapM parse_file_entry (file_lines content) = Ok es -> 0 < n ->
  read_merges content (Some n) = Ok (firstn n ml) <->
  (length es <= n \/ forall p, option_map fst (nth_error es (length es - 1)) = Some p ->
                               ~ In p (map fst (firstn n es))).
```

## C24: BPE cache files round-trip

Reading a dumped bpe cache gives back the same cache.

*For*: every cache with space-free non-empty subword lists. *Status*: proved.

`rocq/theories/P_Merge.v:301`
```coq
Theorem C24_cache_round_trip :
  forall c : bpe_cache, NoDup (map fst c) -> Forall cacheable c -> read_bpe_cache (dump_bpe_cache c) = Ok c.
```

## C25: Literal strings round-trip and are line-safe

to_non_literal_str(to_literal_str(s)) = s for every string; the literal form is printable ascii without tab, newline or other control characters, keeps spaces, and literalising a space-joined list equals space-joining the literals.

*For*: every unicode string. *Status*: proved.

C25_escapes: also what texts with escapes written by others are read as, except octal escapes with fewer than three digits and the named escape, which is an error in the model.

`rocq/theories/P_Escape.v:84`
```coq
Theorem C25_unescaped : forall s : str, Forall (fun c => c < 128)%N s ->
  (to_non_literal_str s = Ok s <-> plain_text s).
```

`rocq/theories/P_EscapeRead.v:104`
```coq
Theorem C25_escapes : forall pieces meanings,
  Forall2 piece pieces meanings -> to_non_literal_str (List.concat pieces) = Ok (List.concat meanings).
```

`rocq/theories/P_Merge.v:11`
```coq
Theorem C25_literal_round_trip :
  forall s : str, Forall (fun c => (c <= 1114111)%N) s -> to_non_literal_str (to_literal_str s) = Ok s.
```

`rocq/theories/P_Merge.v:17`
```coq
Theorem C25_literal_line_safe : forall s : str, Forall printable_ascii (to_literal_str s).
```

`rocq/theories/P_Merge.v:22`
```coq
Theorem C25_literal_join :
  forall l : list str, to_literal_str (join (lit " ") l) = join (lit " ") (map to_literal_str l).
```

`rocq/theories/P_Merge.v:28`
```coq
Theorem C25_literal_injective :
  forall a b : str, Forall (fun c => (c <= 1114111)%N) a -> Forall (fun c => (c <= 1114111)%N) b ->
  to_literal_str a = to_literal_str b -> a = b.
```

## C26: Vocabulary files round-trip

Loading a dumped vocabulary gives back the same words with the same counts.

*For*: every vocabulary. *Status*: partial.

Not true of the code without restriction: holds for words that were escaped before dumping (all vocabularies the program dumps); C26_raw: raw ASCII words without tabs and line ends are read back exactly if no backslash begins an escape sequence; C26_unescaped_refuted: otherwise they change.

`rocq/theories/P_Exact.v:212`
```coq
Theorem C26_raw (l : list (str * Z)) : NoDup (map fst l) ->
  (forall w, In w (map fst l) -> Forall (fun c => c < 128)%N w /\ no_char tab w /\ no_char 10%N w /\ no_char 13%N w) ->
  (load_vocab_dict (dump_vocab_dict false l) = Ok l <-> Forall plain_text (map fst l)).
```

`rocq/theories/P_Vocab.v:58`
```coq
Theorem C26_round_trip (l : list (str * Z)) : NoDup (map fst l) -> Forall valid_str (map fst l) ->
  load_vocab_dict (dump_vocab_dict true l) = Ok l.
```

`rocq/theories/P_Vocab.v:67`
```coq
Theorem C26_vocab_file (l : list (str * Z)) : NoDup (map fst l) -> Forall valid_str (map fst l) ->
  load_vocab_dict (write_vocab (map (fun wf => (to_literal_str (fst wf), snd wf)) l)) = Ok (sort_desc l).
```

`rocq/theories/P_Vocab.v:101`
```coq
Theorem C26_unescaped_refuted : load_vocab_dict (write_vocab [(lit "\n", 2%Z)]) = Ok [([10%N], 2%Z)].
```

## C27: Learning preserves the corpus

Learning merges never changes what the vocabulary spells: after any number of merges the words (segments joined) and their frequencies are those of the input vocabulary.

*For*: every vocabulary, every number of merges. *Status*: partial.

Not true of the code without restriction: holds if no two entries of the vocabulary have the same spelling but different splits; C27_same_spelling_refuted otherwise.

`rocq/theories/P_Learn.v:385`
```coq
Theorem C27_corpus base l0 v n v' ml :
  corpus_state base l0 v -> do_merges v n = Ok (v', ml) ->
  map (fun wf => (List.concat (fst wf), snd wf)) v' = map (fun kv => (escape (fst kv) true, snd kv)) base.
```

`rocq/theories/P_Learn.v:446`
```coq
Theorem C27_same_spelling_refuted :
  exists ml, do_merges [([lit "a"; lit "b"], 3%Z); ([lit "ab"], 2%Z)] 1 = Ok ([([lit "ab"], 2%Z)], ml).
```

## C28: Learning is greedy with exact counts

Each learned merge is a most frequent adjacent pair of the current segmentation, the recorded frequency is its exact number of adjacent occurrences, and all its non-overlapping occurrences are merged from left to right.

*For*: every vocabulary with positive frequencies, every number of merges. *Status*: proved.

`rocq/theories/P_Learn.v:371`
```coq
Theorem C28_greedy base l0 v n :
  corpus_state base l0 v ->
  exists v' ml l, do_merges v n = Ok (v', ml)
    /\ recorded ml = map (fun pn => (fst pn, Some (snd pn))) l
    /\ greedy v l v' /\ corpus_state base (l0 ++ l) v'.
```

## C29: Learning never selects a pair twice

do_merges returns at most the requested number of merges, all pairs distinct, with priorities 0..k-1, and never fails; it returns fewer merges only if no adjacent pair is left.

*For*: every vocabulary, every number of merges. *Status*: partial.

Not true of the code without restriction: holds when learning starts from words split into characters (C29_from_scratch) or any splits produced by learning; C29_mixed_splits_refuted shows mixed initial splits for which learning fails.

`rocq/theories/P_Learn.v:399`
```coq
Theorem C29_distinct base l0 v n v' ml :
  corpus_state base l0 v -> do_merges v n = Ok (v', ml) ->
  NoDup (map fst l0 ++ map m_pair (ml_iter ml))
  /\ map m_priority (ml_iter ml) = seq 0 (length (ml_iter ml))
  /\ length (ml_iter ml) <= n
  /\ (length (ml_iter ml) < n -> Forall (fun wf => length (fst wf) = 1) v').
```

`rocq/theories/P_Learn.v:428`
```coq
Theorem C29_from_scratch base n : base_ok base ->
  corpus_state base [] (scratch_vocab base)
  /\ exists v' ml, do_merges (scratch_vocab base) n = Ok (v', ml).
```

`rocq/theories/P_Learn.v:439`
```coq
Theorem C29_mixed_splits_refuted :
  do_merges [([lit "ab"; lit "c"; lit "x"], 5%Z); ([lit "a"; lit "b"; lit "c"], 3%Z); ([lit "d"; lit "e"], 1%Z)] 5
  = Err ValueError.
```

## C30: Learned segmentation equals encoding with the learned merges

For every training word, encoding it with the learned merges gives exactly the segmentation reached during learning (so the merges cache and the merges file agree).

*For*: every vocabulary, every number of merges, every word of the vocabulary. *Status*: proved.

`rocq/theories/P_Learn.v:454`
```coq
Theorem C30_encode base n v' ml :
  base_ok base -> do_merges (scratch_vocab base) n = Ok (v', ml) ->
  forall i k f, nth_error base i = Some (k, f) ->
  exists s ws, nth_error v' i = Some (s, f)
    /\ encode_word ml (escape k true) = Ok s
    /\ unescape s = Ok ws
    /\ get_bpe_subwords {| bd_merges := ml; bd_cache := [] |} k = Ok ws.
```

## C31: Fewer merges are a prefix of more merges

Learning n merges gives a prefix of what learning m >= n merges on the same vocabulary gives; resuming from saved results for n merges up to m gives the same merges as learning m merges at once.

*For*: every vocabulary, every n <= m. *Status*: partial.

Not true of the code without restriction: prefix property proved without condition; resuming gives the same merges if no two pairs have the same frequency when resumed; C31_resume_refuted shows a tie where the result differs.

`rocq/theories/P_Learn.v:492`
```coq
Theorem C31_prefix base l0 v n m v1 ml1 v2 ml2 :
  corpus_state base l0 v ->
  do_merges v n = Ok (v1, ml1) -> do_merges v (n + m) = Ok (v2, ml2) ->
  exists rest, ml_iter ml2 = ml_iter ml1 ++ rest.
```

`rocq/theories/P_Learn.v:558`
```coq
Theorem C31_resume base l0 v n m v1 ml1 v2 ml2 v3 ml3 :
  corpus_state base l0 v ->
  do_merges v n = Ok (v1, ml1) ->
  do_merges v1 (n + m - length ml1) = Ok (v2, ml2) ->
  do_merges v (n + m) = Ok (v3, ml3) ->
  no_ties v (recorded ml3) ->
  v2 = v3 /\ ml_add ml1 ml2 = Ok ml3.
```

`rocq/theories/P_Learn.v:606`
```coq
Theorem C31_resume_refuted :
  base_ok tie_base /\
  exists v1 ml1 v2 ml2 v3 ml3,
    do_merges (scratch_vocab tie_base) 3 = Ok (v1, ml1)
    /\ do_merges v1 1 = Ok (v2, ml2)
    /\ do_merges (scratch_vocab tie_base) 4 = Ok (v3, ml3)
    /\ map m_pair (ml_iter ml2) = [(lit "ab", lit "c@")]
    /\ map m_pair (skipn 3 (ml_iter ml3)) = [(lit "d", lit "e")]
    /\ v2 <> v3.
```

## C32: Resulting subword vocabulary counts subword occurrences

The resulting vocabulary maps each subword to the sum over words of frequency times number of its occurrences in the segmentation, and contains nothing else.

*For*: every segmented vocabulary. *Status*: proved.

The cache of C32_cache is the one computed from the result of do_merges.

`rocq/theories/P_Learn.v:725`
```coq
Theorem C32_resulting_vocab v x :
  dget (create_resulting_vocab v) x =
  if existsb (fun wf => mem x (fst wf)) v
  then Some (fold_right (fun wf n => (snd wf * occurrences x (fst wf) + n)%Z) 0%Z v)
  else None.
```

`rocq/theories/P_Learn.v:766`
```coq
Theorem C32_cache base n v' ml :
  base_ok base -> do_merges (scratch_vocab base) n = Ok (v', ml) ->
  (forall i k f, nth_error base i = Some (k, f) ->
     exists s, nth_error v' i = Some (s, f) /\ dget (create_bpe_cache v') (escape k true) = Some s)
  /\ dkeys (create_bpe_cache v') = map (fun kv => escape (fst kv) true) base.
```

## C33: The priority counter behaves like a counter map

After any sequence of add and pop operations, pop returns a pair with the maximal current count (the net sum of its additions since it was last popped), the earliest updated one on ties, never a pair whose count is zero or that was removed, and raises KeyError exactly when no pair with non-zero count is left.

*For*: every initial dictionary, every sequence of operations. *Status*: partial.

Not true of the code without restriction: for queues whose initial counts are not zero; C33_initial_zero_refuted: an initial count of zero is popped. C33_first_pop: for all initial counts, what the first pop gives; C33_zeros_refuted: whenever no initial count is positive and one is zero, it is a zero.

`rocq/theories/P_Queue.v:333`
```coq
Theorem C33_pop st h : reach st h ->
  match pc_pop st with
  | Ok (k, n, _) =>
      n = net h k /\ n <> 0%Z
      /\ forall k', k' <> k -> net h k' <> 0%Z ->
           (net h k' < n)%Z \/ (net h k' = n /\ updated h k < updated h k')
  | Err e => e = KeyError /\ forall k, net h k = 0%Z
  end.
```

`rocq/theories/P_Queue.v:364`
```coq
Theorem C33_initial_zero_refuted :
  exists st' : pc nat, pc_pop (pc_init [(7, 0%Z)]) = Ok (7, 0%Z, st').
```

`rocq/theories/P_QueueInit.v:36`
```coq
Theorem C33_first_pop : forall d : dict K Z,
  match pc_pop (pc_init d) with
  | Ok (k, n, _) => exists i, nth_error d i = Some (k, n) /\
      forall j k' n', nth_error d j = Some (k', n') -> (n' < n)%Z \/ (n' = n /\ i <= j)
  | Err e => e = KeyError /\ d = []
  end.
```

`rocq/theories/P_QueueInit.v:56`
```coq
Theorem C33_zeros_refuted : forall d : dict K Z,
  Forall (fun kv => (snd kv <= 0)%Z) d -> In 0%Z (map snd d) -> exists k st, pc_pop (pc_init d) = Ok (k, 0%Z, st).
```

## C34: Merge list ids parse back

An id written as name-n parses back to exactly (name, n), whatever dashes or digits the name contains; strings without a positive number after the last dash are rejected.

*For*: every name without newline, every n >= 1. *Status*: proved.

`rocq/theories/P_Registry.v:109`
```coq
Theorem C34_roundtrip name n nl : no_char newline name -> (1 <= n)%N -> nl = [] \/ nl = [newline] ->
  parse_merge_list_id (name ++ dash :: dec n ++ nl) = Ok (name, n).
```

`rocq/theories/P_Registry.v:131`
```coq
Theorem C34_exact s name n : parse_merge_list_id s = Ok (name, n) ->
  (1 <= n)%N /\ no_char newline name
  /\ (s = name ++ dash :: dec n \/ s = name ++ dash :: dec n ++ [newline]).
```

## C35: The learned merges directory is chosen correctly

get_max_merges returns the largest learned number of merges not above the limit and get_min_merges the smallest not below it, or None if there is none, ignoring directories whose names are not numbers.

*For*: every set of directory names in every listing order, every limit. *Status*: proved.

`rocq/theories/P_Registry.v:166`
```coq
Theorem C35_max subdirs limit :
  match get_max_merges py_int subdirs limit with
  | Some m => learned subdirs m /\ (0 < m <= limit)%Z /\ (forall n, learned subdirs n -> (n <= limit)%Z -> (n <= m)%Z)
  | None => forall n, learned subdirs n -> (0 < n)%Z -> (limit < n)%Z
  end.
```

`rocq/theories/P_Registry.v:205`
```coq
Theorem C35_min subdirs limit :
  match get_min_merges py_int maxsize subdirs limit with
  | Some m => learned subdirs m /\ (limit <= m < maxsize)%Z /\ (forall n, learned subdirs n -> (limit <= n)%Z -> (m <= n)%Z)
  | None => forall n, learned subdirs n -> (n < maxsize)%Z -> (n < limit)%Z
  end.
```

`rocq/theories/P_Registry.v:245`
```coq
Theorem C35_config subdirs n : (1 <= n)%Z ->
  match config_dir py_int maxsize subdirs n with
  | Ok m => learned subdirs m /\ (n <= m)%Z /\ (forall k, learned subdirs k -> (n <= k)%Z -> (m <= k)%Z)
  | Err e => e = ValueError /\ (forall k, learned subdirs k -> (k < maxsize)%Z -> (k < n)%Z)
  end.
```

## C36: Newly created bpe ids are unique

An automatically created id is different from every id already in use.

*For*: every dataset name, every set of existing ids. *Status*: partial.

Not true of the code without restriction: unique if the name matches itself as a regular expression, no directory without merges uses it and it has no surrounding white space; the three refutations show each condition is needed. For all states: C36_unfinished_ids_refuted: directories without merges do not count, whatever their ids; C36_unmatched_refuted: if the name as a pattern matches no id that is there, the new id ends with 1 whether it is taken or not.

`rocq/theories/P_Everywhere.v:65`
```coq
Theorem C36_unfinished_ids_refuted : forall basename suffix dirs others, Forall no_codes dirs ->
  create_new_id py_int maxsize strip number_of basename suffix (dirs ++ others) = create_new_id py_int maxsize strip number_of basename suffix others /\
  create_new_id py_int maxsize strip number_of basename suffix dirs = Ok (id_base basename suffix).
```

`rocq/theories/P_Everywhere.v:76`
```coq
Theorem C36_unmatched_refuted : forall basename suffix dirs, let base := id_base basename suffix in
  (forall i, In i (existing_ids py_int maxsize strip dirs) -> number_of base i = None) -> In base (existing_ids py_int maxsize strip dirs) ->
  create_new_id py_int maxsize strip number_of basename suffix dirs = Ok (base ++ lit "_1").
```

`rocq/theories/P_Registry.v:281`
```coq
Theorem C36_new_id basename suffix dirs i :
  self_matching (id_base basename suffix) ->
  create_new_id py_int maxsize strip number_of basename suffix dirs = Ok i ->
  ~ In i (existing_ids py_int maxsize strip dirs).
```

`rocq/theories/P_Registry.v:311`
```coq
Theorem C36_unique basename suffix dirs i subdirs :
  self_matching (id_base basename suffix) -> strip i = i ->
  create_new_id py_int maxsize strip number_of basename suffix dirs = Ok i ->
  NoDup (existing_ids py_int maxsize strip dirs) ->
  NoDup (existing_ids py_int maxsize strip ((Some i, subdirs) :: dirs)).
```

`rocq/theories/P_Registry.v:351`
```coq
Theorem C36_special_refuted (number_of : str -> str -> option str) :
  number_of (lit "a+b") (lit "a+b") = None -> number_of (lit "a+b") (lit "a+b_1") = None ->
  let dirs := [dir_of "a+b"; dir_of "a+b_1"] in
  create_new_id ascii_int 5000 (fun s => s) number_of (lit "a+b") [] dirs = Ok (lit "a+b_1")
  /\ In (lit "a+b_1") (existing_ids ascii_int 5000 (fun s => s) dirs).
```

`rocq/theories/P_Registry.v:364`
```coq
Theorem C36_unfinished_refuted :
  let dirs := [(Some (lit "proj"), []) : bpe_dir] in
  create_new_id ascii_int 5000 (fun s => s) literal_number (lit "proj") [] dirs = Ok (lit "proj")
  /\ In (Some (lit "proj")) (map (codes_id (fun s => s)) dirs).
```

`rocq/theories/P_Registry.v:371`
```coq
Theorem C36_strip_refuted (strip : str -> str) : strip (lit "proj") = lit "proj" -> strip (lit "proj ") = lit "proj" ->
  let dirs := [dir_of "proj"] in
  create_new_id ascii_int 5000 strip literal_number (lit "proj ") [] dirs = Ok (lit "proj ")
  /\ existing_ids ascii_int 5000 strip (dir_of "proj " :: dirs) = [lit "proj"; lit "proj"].
```

## C37: BPE config suffix round-trips

A supported bpe configuration is recovered from its directory suffix (case, word end and unicode parameters).

*For*: every valid bpe configuration. *Status*: partial.

Not true of the code without restriction: case, word end and unicode parameters are recovered; the base parameter is lost (C37_base_refuted) and dataset names containing the separator are cut (C37_separator_refuted). C37_exact: exactly the configurations with the base code are recovered. C37_separator_exact: exactly which names of datasets are recovered, and that a proper beginning is taken for the name otherwise. C37_refused: for all strings, exactly those with nocase or prefix anywhere in them are refused, and which configuration the others are read as.

`rocq/theories/P_Everywhere.v:11`
```coq
Theorem C37_exact : forall c, bc_valid c = true -> (from_suffix (to_suffix c) = Ok c <-> bc_base c = lit "code").
```

`rocq/theories/P_Registry.v:394`
```coq
Theorem C37_suffix c : bc_valid c = true ->
  from_suffix (to_suffix c)
  = Ok {| bc_case := bc_case c; bc_word_end := bc_word_end c; bc_base := lit "code"; bc_unicode := bc_unicode c |}.
```

`rocq/theories/P_Registry.v:422`
```coq
Theorem C37_directory d c : bc_valid c = true -> contains (lit "_-_") (d ++ lit "_") = false ->
  fst (bpe_dir_parts (bpe_dir_name d c)) = d
  /\ from_suffix (snd (bpe_dir_parts (bpe_dir_name d c)))
     = Ok {| bc_case := bc_case c; bc_word_end := bc_word_end c; bc_base := lit "code"; bc_unicode := bc_unicode c |}.
```

`rocq/theories/P_Registry.v:445`
```coq
Theorem C37_base_refuted :
  let c := {| bc_case := lit "yes"; bc_word_end := false; bc_base := lit "java"; bc_unicode := lit "yes" |} in
  bc_valid c = true /\ from_suffix (to_suffix c) <> Ok c.
```

`rocq/theories/P_Registry.v:451`
```coq
Theorem C37_separator_refuted :
  let c := {| bc_case := lit "yes"; bc_word_end := false; bc_base := lit "code"; bc_unicode := lit "yes" |} in
  let d := lit "my_-_bytes_20-01-31T10-00-00" in
  let parts := bpe_dir_parts (bpe_dir_name d c) in
  fst parts = lit "my" /\ from_suffix (snd parts) <> Ok c.
```

`rocq/theories/P_Separator.v:37`
```coq
Theorem C37_separator_exact d c :
  let found := fst (bpe_dir_parts (bpe_dir_name d c)) in
  let clear := contains (lit "_-_") (if eqb (to_suffix c) [] then d else d ++ lit "_") = false in
  (found = d <-> clear) /\ (~ clear -> exists rest, rest <> [] /\ d = found ++ rest).
```

`rocq/theories/P_SuffixRefused.v:12`
```coq
Theorem C37_refused : forall s,
  (from_suffix s = Err ValueError <-> inside (lit "nocase") s \/ inside (lit "prefix") s) /\
  (forall c, from_suffix s = Ok c <->
     ~ inside (lit "nocase") s /\ ~ inside (lit "prefix") s /\
     bc_case c = lit "yes" /\ bc_base c = lit "code" /\ (bc_word_end c = true <-> inside (lit "we") s) /\
     (inside (lit "nounicode") s /\ bc_unicode c = lit "no" \/
      ~ inside (lit "nounicode") s /\ inside (lit "bytes") s /\ bc_unicode c = lit "bytes" \/
      ~ inside (lit "nounicode") s /\ ~ inside (lit "bytes") s /\ bc_unicode c = lit "yes")).
```

## C38: Preprocessing configurations encode uniquely

A configuration's string form decodes to the same configuration, two different configurations have different string forms, and strings that are not valid configurations are rejected.

*For*: every configuration and every string. *Status*: proved.

`rocq/theories/P_PrepConfig.v:108`
```coq
Theorem C38_decode_accepts_exactly_valid :
  forall s, (exists d, from_encoded_string s = Ok d) <-> valid_encoding s.
```

`rocq/theories/P_PrepConfig.v:123`
```coq
Theorem C38_decode_encode :
  forall s d, from_encoded_string s = Ok d -> config_str d = s.
```

`rocq/theories/P_PrepConfig.v:135`
```coq
Theorem C38_encode_decode :
  forall d d', mk_prep_config d = Ok d' ->
  exists d'', from_encoded_string (config_str d') = Ok d'' /\ forall p, dget d'' p = dget d' p.
```

`rocq/theories/P_PrepConfig.v:149`
```coq
Theorem C38_encode_injective :
  forall d1 d2 c1 c2, mk_prep_config d1 = Ok c1 -> mk_prep_config d2 = Ok c2 ->
  config_str c1 = config_str c2 -> forall p, dget c1 p = dget c2 p.
```

## C39: Every documented option combination gives a valid configuration

Each api function builds a valid configuration for every combination of its options, the command line builds the same configuration for the corresponding flags, and for every accepted bpe codes id the preprocessing finds merges to use.

*For*: every combination of options, every max_str_length, every bpe codes id. *Status*: partial.

Not true of the code without restriction: merge-list ids other than 0 and split values other than 7; both exceptions refuted. C39_source_used: the merges that are used are those found for the configuration and the id.

`rocq/theories/P_Api.v:128`
```coq
Theorem C39_source_used parse repr dk g c l : c_force c = true -> parse (c_text c) (c_ext c) = Ok l ->
  let tokens := remove_trailing_newline l ++ (if c_eof c then [NonProc NpSpecialToken (lit "<EOF>")] else []) in
  match bpe_source_for (c_config c) (c_id c) with
  | Err e => fst (preprocess parse repr dk g c) = Err e
  | Ok None => preprocess parse repr dk g c = repr (c_config c) tokens g
  | Ok (Some (SrcPackaged case_dir dir)) =>
      ((case_dir = lit "case") <-> (param (c_config c) CASE = lit "u")) /\
      forall f ml words, dk_merges dk case_dir dir = Some f -> read_merges f None = Ok ml ->
      (dk_cache dk case_dir dir = None /\ words = [] \/ exists f', dk_cache dk case_dir dir = Some f' /\ read_bpe_cache f' = Ok words) ->
      preprocess parse repr dk g c = repr (c_config c) tokens (Some {| ob_cache := Some words; ob_merges := Some ml |})
  | Ok (Some (SrcCustom id)) => forall name n f ml file nb,
      parse_merge_list_id id = Ok (name, n) -> dk_find dk name n = Ok tt ->
      dk_codes dk name n = Some f -> read_merges f (Some (N.to_nat n)) = Ok ml -> dk_nonbpe dk name = Ok file -> load_vocab_set file = Ok nb ->
      preprocess parse repr dk g c
      = repr (c_config c) tokens (Some {| ob_cache := Some (fold_left (fun c s => dset c s [s]) nb []); ob_merges := Some ml |})
  end.
```

`rocq/theories/P_PrepConfig.v:234`
```coq
Theorem C39_nosplit_valid :
  forall sp un com ns fs mx,
  exists d, nosplit_config sp un com ns fs mx = Ok d /\
            config_reflects d sp un false com ns (if fs then "F" else "0").
```

`rocq/theories/P_PrepConfig.v:245`
```coq
Theorem C39_chars_valid :
  forall sp un com ns mx,
  exists d, chars_config sp un com ns mx = Ok d /\ config_reflects d sp un false com ns "8" /\
            bpe_source_for d (Some (lit "0")) = Ok (Some (SrcPackaged (lit "case") (lit "0"))) /\
            In (lit "case", lit "0") packaged.
```

`rocq/theories/P_PrepConfig.v:257`
```coq
Theorem C39_basic_valid :
  forall n r s sp un ca com ns mx,
  exists d, basic_config n r s sp un ca com ns mx = Ok d /\
            config_reflects d sp un ca com ns (if s then "s" else if r then "3" else if n then "2" else "1").
```

`rocq/theories/P_PrepConfig.v:269`
```coq
Theorem C39_bpe_valid :
  forall id sp un com ns mx,
  exists d split, bpe_api_config id sp un com ns mx = Ok d /\ config_reflects d sp un false com ns split /\
    (In id (map lit ["1k"; "5k"; "10k"]%string) ->
       bpe_source_for d (Some id) = Ok (Some (SrcPackaged (lit "case") id)) /\ In (lit "case", id) packaged) /\
    (~ In id (map lit [""; "0"; "1k"; "5k"; "10k"]%string) -> bpe_source_for d (Some id) = Ok (Some (SrcCustom id))).
```

`rocq/theories/P_PrepConfig.v:298`
```coq
Theorem C39_bpe_id_0_refuted :
  is_predefined_id (lit "0") = true /\
  forall sp un com ns mx, exists d, bpe_api_config (lit "0") sp un com ns mx = Ok d /\
                                    bpe_source_for d (Some (lit "0")) = Err KeyError.
```

`rocq/theories/P_PrepConfig.v:311`
```coq
Theorem C39_split_7_refuted :
  exists d, from_encoded_string (lit "uc17su") = Ok d /\
  bpe_source_for d (Some (lit "10k")) = Ok (Some (SrcPackaged (lit "case") (lit "20k"))) /\
  ~ In (lit "case", lit "20k") packaged.
```

`rocq/theories/P_PrepConfig.v:326`
```coq
Theorem C39_cli_nosplit :
  forall a mx, cli_max a mx -> is_option_true a "nosplit" = true -> is_option_true a "--no-case" = false ->
  create_prep_config_from_args a =
  nosplit_config (is_option_true a "--no-spaces") (is_option_true a "--no-unicode") (is_option_true a "--no-com")
    (is_option_true a "--no-str") (is_option_true a "--full-strings") mx.
```

`rocq/theories/P_PrepConfig.v:337`
```coq
Theorem C39_cli_chars :
  forall a mx, cli_max a mx -> is_option_true a "nosplit" = false -> is_option_true a "chars" = true ->
  is_option_true a "--no-case" = false ->
  create_prep_config_from_args a =
  chars_config (is_option_true a "--no-spaces") (is_option_true a "--no-unicode") (is_option_true a "--no-com")
    (is_option_true a "--no-str") mx.
```

`rocq/theories/P_PrepConfig.v:349`
```coq
Theorem C39_cli_basic :
  forall a mx, cli_max a mx -> is_option_true a "nosplit" = false -> is_option_true a "chars" = false ->
  is_option_true a "basic" = true ->
  create_prep_config_from_args a =
  basic_config (is_option_true a "--split-numbers") (is_option_true a "--ronin") (is_option_true a "--stem")
    (is_option_true a "--no-spaces") (is_option_true a "--no-unicode") (is_option_true a "--no-case")
    (is_option_true a "--no-com") (is_option_true a "--no-str") mx.
```

`rocq/theories/P_PrepConfig.v:363`
```coq
Theorem C39_cli_bpe :
  forall a mx id, cli_max a mx -> is_option_true a "nosplit" = false -> is_option_true a "chars" = false ->
  is_option_true a "basic" = false -> is_option_true a "bpe" = true -> is_option_true a "--no-case" = false ->
  ((exists c t, get_option a "<bpe-codes-id>" = AStr (c :: t) /\ id = c :: t /\
                ~ In id (map lit ["1k"; "5k"; "10k"]%string) /\
                is_option_true a "1k" = false /\ is_option_true a "5k" = false /\ is_option_true a "10k" = false)
   \/ (truthy (get_option a "<bpe-codes-id>") = false /\ exists o, In o ["1k"; "5k"; "10k"]%string /\ id = lit o /\
         forall o', In o' ["1k"; "5k"; "10k"]%string -> is_option_true a o' = true <-> o' = o)) ->
  create_prep_config_from_args a =
  bpe_api_config id (is_option_true a "--no-spaces") (is_option_true a "--no-unicode")
    (is_option_true a "--no-com") (is_option_true a "--no-str") mx
  /\ cli_bpe_codes_id a = Some id.
```

## C40: max_str_length is honoured

The limit in force after encoding max_str_length into a configuration is max_str_length itself.

*For*: every max_str_length. *Status*: partial.

Not true of the code without restriction: for the lengths that are encodable (2..61 and the default); others refuted.

`rocq/theories/P_PrepConfig.v:433`
```coq
Theorem C40_limit_kept :
  forall n, (2 <= n < 62)%Z \/ n = maxsize -> get_max_str_length (create_str_value false n) = Ok (Some n).
```

`rocq/theories/P_PrepConfig.v:450`
```coq
Theorem C40_no_str : forall n, get_max_str_length (create_str_value true n) = Ok None.
```

`rocq/theories/P_PrepConfig.v:456`
```coq
Theorem C40_other_limits_refuted :
  forall n, ~ ((2 <= n < 62)%Z \/ n = maxsize) ->
  exists m, get_max_str_length (create_str_value false n) = Ok (Some m) /\ m <> n /\
            m = (if (0 <=? n)%Z && (n <? 2)%Z then 2%Z else maxsize).
```

## C41: Different runs use different output directories

Two corpus preprocessing runs share an output or cache directory only if they have the same dataset, the same configuration and the same bpe codes.

*For*: every pair of runs. *Status*: partial.

Not true of the code without restriction: proved for plain runs (extensions without underscore and dash, ids without the separator) of datasets at one location; refuted for the same name and time stamp at another location (all datasets have the same name if the path ends with a slash, C41_slash_refuted), extensions with underscore and ids with the separator. C41_same_name_refuted: all datasets whose paths end with the same name share all their directories if they were changed last in the same second. C41_shared_refuted: for all runs that agree in the last name, the time stamp and the extensions put together with underscores.

`rocq/theories/P_Collide.v:9`
```coq
Theorem C41_shared_refuted : forall r r',
  basename (r_path r) = basename (r_path r') -> r_stamp r = r_stamp r' -> (listed (r_exts r) = [] <-> listed (r_exts r') = []) ->
  join (lit "_") (listed (r_exts r)) = join (lit "_") (listed (r_exts r')) ->
  r_config r = r_config r' -> r_custom r = r_custom r' -> r_output r = r_output r' ->
  forall dir sizes, parsed_path dir r = parsed_path dir r' /\ prep_path dir r = prep_path dir r' /\ vocab_path dir r = vocab_path dir r' /\
    corpus_size_path sizes dir r = corpus_size_path sizes dir r'.
```

`rocq/theories/P_Dataset.v:1001`
```coq
Theorem C41_parsed r r' : plain_run r -> plain_run r' ->
  dataset_dir_name r = dataset_dir_name r' ->
  basename (r_path r) = basename (r_path r') /\ r_stamp r = r_stamp r' /\ listed (r_exts r) = listed (r_exts r').
```

`rocq/theories/P_Dataset.v:1111`
```coq
Theorem C41_prep r r' : plain_run r -> plain_run r' -> prep_basename r = prep_basename r' ->
  basename (r_path r) = basename (r_path r') /\ r_stamp r = r_stamp r' /\ listed (r_exts r) = listed (r_exts r') /\
  (forall p, param (r_config r) p = param (r_config r') p) /\ r_custom r = r_custom r'.
```

`rocq/theories/P_Dataset.v:1148`
```coq
Theorem C41_prep_path dir r r' : plain_run r -> plain_run r' -> r_output r = r_output r' ->
  prep_path dir r = prep_path dir r' ->
  basename (r_path r) = basename (r_path r') /\ r_stamp r = r_stamp r' /\ listed (r_exts r) = listed (r_exts r') /\
  (forall p, param (r_config r) p = param (r_config r') p) /\ r_custom r = r_custom r'.
```

`rocq/theories/P_Dataset.v:1180`
```coq
Theorem C41_parsed_path dir r r' : plain_run r -> plain_run r' ->
  (parsed_path dir r = parsed_path dir r' \/ path_join dir (dataset_dir_name r) = path_join dir (dataset_dir_name r')) ->
  basename (r_path r) = basename (r_path r') /\ r_stamp r = r_stamp r' /\ listed (r_exts r) = listed (r_exts r').
```

`rocq/theories/P_Dataset.v:1210`
```coq
Theorem C41_location_refuted : exists r r', plain_run r /\ plain_run r' /\ r_path r <> r_path r' /\
  forall dir, parsed_path dir r = parsed_path dir r' /\ prep_path dir r = prep_path dir r' /\ vocab_path dir r = vocab_path dir r'.
```

`rocq/theories/P_Dataset.v:1221`
```coq
Theorem C41_extension_refuted : exists r r' s s',
  r_exts r = normalize_extension_string s /\ r_exts r' = normalize_extension_string s' /\
  listed (r_exts r) <> listed (r_exts r') /\ forall dir, parsed_path dir r = parsed_path dir r' /\ prep_path dir r = prep_path dir r'.
```

`rocq/theories/P_Dataset.v:1232`
```coq
Theorem C41_id_refuted : exists r r', r_path r <> r_path r' /\ basename (r_path r) <> basename (r_path r') /\ r_custom r <> r_custom r' /\
  forall dir, prep_path dir r = prep_path dir r'.
```

`rocq/theories/P_Dataset.v:1242`
```coq
Theorem C41_vocab_path dir r r' : plain_run r -> plain_run r' -> vocab_path dir r = vocab_path dir r' ->
  basename (r_path r) = basename (r_path r') /\ r_stamp r = r_stamp r' /\ listed (r_exts r) = listed (r_exts r') /\
  (forall p, param (r_config r) p = param (r_config r') p) /\ r_custom r = r_custom r'.
```

`rocq/theories/P_Everywhere.v:25`
```coq
Theorem C41_same_name_refuted : forall p p' s e c i o dir, basename p = basename p' ->
  let at_path p := {| r_path := p; r_stamp := s; r_exts := e; r_config := c; r_custom := i; r_output := o |} in
  dataset_dir_name (at_path p) = dataset_dir_name (at_path p') /\ parsed_path dir (at_path p) = parsed_path dir (at_path p') /\
  prep_path dir (at_path p) = prep_path dir (at_path p') /\ vocab_path dir (at_path p) = vocab_path dir (at_path p').
```

`rocq/theories/P_Place.v:459`
```coq
Theorem C41_slash_refuted : forall a b s e c i o dir,
  let at_path p := {| r_path := p; r_stamp := s; r_exts := e; r_config := c; r_custom := i; r_output := o |} in
  parsed_path dir (at_path (a ++ [slash])) = parsed_path dir (at_path (b ++ [slash])) /\
  prep_path dir (at_path (a ++ [slash])) = prep_path dir (at_path (b ++ [slash])) /\
  vocab_path dir (at_path (a ++ [slash])) = vocab_path dir (at_path (b ++ [slash])).
```

## C42: Parallel vocabulary merging is schedule-independent

However the merger processes are scheduled, the vocabulary written at the end counts each word exactly as often as it occurs in all files together, and exactly one process writes it.

*For*: every number of processes, every set of partial vocabularies and chunks, every interleaving. *Status*: partial.

Not true of the code without restriction: proved for runs in which no queue operation times out; C42_timeout_refuted shows a schedule with time-outs in which all processes end and no vocabulary is written. That a vocabulary written in spite of time-outs is right, and that a restart finishes, is C79.

`rocq/theories/P_Merger.v:84`
```coq
Theorem C42_result max_groups n_chunks files r : max_groups <> 0 -> n_chunks <> 0 ->
  reachable max_groups n_chunks files (Up r) -> (forall p, In p (r_procs r) -> exists b, p = PDone b) ->
  length (filter (fun p => match p with PDone true => true | _ => false end) (r_procs r)) = 1
  /\ sh_size (r_shared r) = Full (Z.of_nat (length (nodup str_dec (corpus_tokens files))))
  /\ exists d, sh_vocab (r_shared r) = Full (write_vocab d) /\ counts_exactly d (corpus_tokens files).
```

`rocq/theories/P_Merger.v:105`
```coq
Theorem C42_written max_groups n_chunks files d ready size text : max_groups <> 0 -> n_chunks <> 0 ->
  reachable max_groups n_chunks files (Down d ready size (Full text)) ->
  exists c, text = write_vocab c /\ counts_exactly c (corpus_tokens files)
    /\ size = Full (Z.of_nat (length (nodup str_dec (corpus_tokens files)))).
```

`rocq/theories/P_Merger.v:259`
```coq
Theorem C42_timeout_refuted : exists r,
  runs_to (start_run 2 [tv 0; tv 1; tv 2] 3 (map Plain [tv 0; tv 1; tv 2]) Absent Absent) r
  /\ (forall p, In p (r_procs r) -> p = PDone false) /\ sh_vocab (r_shared r) = Absent.
```

## C43: Vocabulary merging never deadlocks

In every reachable state of the merging processes in which the work is not finished, some process can make a step, and every run is finite.

*For*: every number of processes, every set of partial vocabularies, every interleaving. *Status*: proved.

`rocq/theories/P_Merger.v:115`
```coq
Theorem C43_no_deadlock max_groups n_chunks files r : max_groups <> 0 -> n_chunks <> 0 ->
  reachable max_groups n_chunks files (Up r) -> (forall p, In p (r_procs r) -> exists b, p = PDone b) \/ exists r', step r r'.
```

`rocq/theories/P_Merger.v:124`
```coq
Theorem C43_finite max_groups n_chunks files r : max_groups <> 0 -> n_chunks <> 0 ->
  reachable max_groups n_chunks files (Up r) -> exists bound, forall n r', steps n r r' -> n <= bound.
```

`rocq/theories/P_Merger.v:133`
```coq
Theorem C43_ends max_groups n_chunks files r : max_groups <> 0 -> n_chunks <> 0 ->
  reachable max_groups n_chunks files (Up r) ->
  exists n r' d, steps n r r' /\ sh_vocab (r_shared r') = Full (write_vocab d) /\ counts_exactly d (corpus_tokens files).
```

## C44: Interrupted vocabulary merging loses nothing

If merging of partial vocabularies is interrupted at any point and restarted (possibly interrupted again), the partial vocabularies loaded at restart together count each word exactly as often as it occurs in all files.

*For*: every state of the partial vocabulary directory, every crash point, any number of crashes. *Status*: partial.

Not true of the code without restriction: requires that reading a truncated pickle raises EOFError; C44_truncated_refuted: any other exception stops the restart.

`rocq/theories/P_Merger.v:164`
```coq
Theorem C44_restart max_groups n_chunks files d size vocab ts : max_groups <> 0 -> n_chunks <> 0 ->
  reachable max_groups n_chunks files (Down d true size vocab) -> must_run size vocab = true ->
  Permutation ts (triples_of d) ->
  exists d', snd (finish_all true ts d) = Ok d'
    /\ forall ls, Permutation ls d' -> exists l, load_files ls = Ok l /\ forall w, total_count w l = zcount w (corpus_tokens files).
```

`rocq/theories/P_Merger.v:177`
```coq
Theorem C44_truncated_refuted ts : forall d a b n, In (a, b, n, None) ts -> exists e, snd (finish_all false ts d) = Err e.
```

## C45: A vocabulary file that exists is complete

If the vocabulary computation is interrupted at any point, a later run either finds a complete vocabulary file or computes it again.

*For*: every crash point. *Status*: partial.

Not true of the code without restriction: C45_refuted: a crash while the vocabulary file is being written leaves an incomplete file that is taken as final; for every other crash point the property is proved (C45_otherwise).

`rocq/theories/P_Merger.v:190`
```coq
Theorem C45_otherwise max_groups n_chunks files d ready size vocab : max_groups <> 0 -> n_chunks <> 0 ->
  reachable max_groups n_chunks files (Down d ready size vocab) -> vocab <> Part ->
  (vocab = Absent /\ must_run size vocab = true)
  \/ (exists c, vocab = Full (write_vocab c) /\ counts_exactly c (corpus_tokens files)).
```

`rocq/theories/P_Merger.v:222`
```coq
Theorem C45_refuted max_groups n_chunks files : max_groups <> 0 -> n_chunks <> 0 -> files <> [] ->
  exists d ready size, reachable max_groups n_chunks files (Down d ready size Part)
    /\ forall b, ~ sys max_groups n_chunks files (Down d ready size Part) b.
```

## C46: Work is divided without loss and evenly

groupify distributes every element to exactly one group, keeps relative order inside groups, leaves no group empty, and group sizes differ by at most one.

*For*: every list, every number of chunks. *Status*: proved.

`rocq/theories/P_Vocab.v:159`
```coq
Theorem C46_groups {A} (all : list A) n : n <> 0 ->
  exists groups, groupify all n = Ok groups /\ length groups = Nat.min n (length all)
    /\ forall j, j < length groups -> nth j groups [] = at_residue n j all.
```

`rocq/theories/P_Vocab.v:220`
```coq
Theorem C46_partition {A} (all : list A) n groups : n <> 0 -> groupify all n = Ok groups ->
  Permutation (List.concat groups) all
  /\ (forall g, In g groups -> g <> [])
  /\ (forall g h, In g groups -> In h groups -> length g <= S (length h)).
```

## C47: Vocabulary counts equal corpus token counts

The vocabulary of a preprocessed corpus maps each token to its number of occurrences in the preprocessed files, and the counts add up to the reported corpus size.

*For*: every corpus of preprocessed token lists. *Status*: proved.

`rocq/theories/P_Vocab.v:332`
```coq
Theorem C47_partial_vocab files : counts_exactly (get_vocab files) (corpus_tokens files).
```

`rocq/theories/P_Vocab.v:391`
```coq
Theorem C47_corpus_size files d : counts_exactly d (corpus_tokens files) ->
  fold_right Z.add 0%Z (map snd d) = Z.of_nat (calc_corpus_size files).
```

`rocq/theories/P_Vocab.v:439`
```coq
Theorem C47_tokens (corpus : list (list str)) d : Forall writable corpus ->
  counts_exactly d (corpus_tokens (map preprocessed_file corpus)) ->
  exists d', load_vocab_dict (write_vocab d) = Ok d' /\ counts_exactly d' (List.concat corpus).
```

## C48: Vocabulary limit keeps the most frequent words

Limiting a vocabulary to a threshold keeps at most that many words, every kept word is strictly more frequent than every dropped one, and counts are unchanged.

*For*: every vocabulary, every threshold. *Status*: partial.

Not true of the code without restriction: for thresholds other than exactly the number of words; C48_equal_refuted: IndexError there.

`rocq/theories/P_Vocab.v:535`
```coq
Theorem C48_limit threshold (d d' : counts) : NoDup (dkeys d) -> limit_max_vocab threshold d = Ok d' ->
  length d' <= threshold /\ NoDup (dkeys d') /\ incl d' d
  /\ (forall x y, In x d' -> In y d -> ~ In y d' -> (snd y < snd x)%Z)
  /\ (forall y, In y d -> ~ In y d' -> threshold < length (filter (fun x => (snd y <=? snd x)%Z) d)).
```

`rocq/theories/P_Vocab.v:596`
```coq
Theorem C48_equal_refuted (d : counts) : limit_max_vocab (length d) d = Err IndexError.
```

`rocq/theories/P_Vocab.v:604`
```coq
Theorem C48_total threshold (d : counts) : threshold <> length d -> exists d', limit_max_vocab threshold d = Ok d'.
```

## C49: The vocabulary size file reports the true size

The first line of the vocabulary size file is the number of distinct tokens of the whole corpus, whatever the order in which partial vocabularies were merged. Then there is one line for each number of partial vocabularies that were merged into one on the way, in increasing order, with the share of the corpus and the mean size and mean number of non-English words of the vocabularies merged of so many; the last one has the share 1.0000 and the numbers of the whole corpus.

*For*: every merge tree of partial vocabularies. *Status*: proved.

The first line: C49_size, C49_lines; the whole file: C49_stats; the shares are right to four places: C49_share. A line is the mean over the vocabularies that happened to be merged, so the sizes need not grow from line to line (C49_stats_ex). Quotients of floats are taken as exact before they are cut or rounded.

`rocq/theories/P_Stats.v:103`
```coq
Theorem C49_stats up p ws h : history p ws h ->
  exists ks,
    StronglySorted lt (ks ++ [pv_files p])
    /\ (forall k, In k (ks ++ [pv_files p]) <-> In k (map fst h))
    /\ write_stats up p = Ok (write_lines (decZ (distinct ws)
         :: map (fun k => percent_text up k (pv_files p) ++ lit " " ++ decZ (mean distinct (of_number k h))
                           ++ lit " " ++ decZ (mean (zcount ph_non_eng) (of_number k h))) ks
         ++ [lit "1.0000 " ++ decZ (distinct ws) ++ lit " " ++ decZ (zcount ph_non_eng ws)])).
```

`rocq/theories/P_Stats.v:168`
```coq
Theorem C49_share up k n : 1 <= n ->
  exists m d, percent_text up k n = dec (m / 10000) ++ lit "." ++ d
    /\ length d = 4 /\ parse_digits 0 d = Some (m mod 10000)%N
    /\ (2 * Z.abs (Z.of_N m * Z.of_nat n - 10000 * Z.of_nat k) <= Z.of_nat n)%Z.
```

`rocq/theories/P_Vocab.v:650`
```coq
Theorem C49_size p ws : built p ws -> vocab_size_line p = Ok (Z.of_nat (length (nodup str_dec ws))).
```

`rocq/theories/P_Vocab.v:665`
```coq
Theorem C49_lines p ws : built p ws -> Forall (fun w => no_char 10%N w /\ no_char 13%N w) ws ->
  vocab_size_line p = Ok (Z.of_nat (length (file_lines (write_vocab (pv_counts p))))).
```

## C50: Output files appear atomically

If parsing or preprocessing of a corpus is interrupted at any point, every output file that exists is complete; running again completes the missing ones and gives the same result as an uninterrupted run. Half-written files are gone when a run has ended regularly.

*For*: every set of files, every crash point, any number of interrupted runs. *Status*: partial.

Not true of the code without restriction: atomicity and equality of results proved for all histories; every run ends (C50_terminates), and regularly if all sources are there and no process was killed while writing a part of the non-bpe vocabulary (C50_finish); otherwise C50_missing_refuted and C50_truncated_refuted. C50_no_temporary: no temporary files are left after a regular end.

`rocq/theories/P_Pipeline.v:536`
```coq
Theorem C50_atomic s i : reach s -> i < n ->
  (dest (parsed s) i = Missing \/ exists x, src i = Some x /\ dest (parsed s) i = Full (parse x)) /\
  (dest (prep s) i = Missing \/ exists x, src i = Some x /\ dest (prep s) i = Full (repr (parse x))).
```

`rocq/theories/P_Pipeline.v:547`
```coq
Theorem C50_result s i : reach_mod s -> ph s = Done -> i < n ->
  exists x, src i = Some x /\ dest (parsed s) i = Full (parse x) /\ dest (prep s) i = Full (repr (parse x)).
```

`rocq/theories/P_Pipeline.v:613`
```coq
Theorem C50_no_temporary s i : reach s -> ph s = Done -> i < n ->
  temp (parsed s) i = Missing /\ temp (prep s) i = Missing.
```

`rocq/theories/P_Pipeline.v:623`
```coq
Theorem C50_missing_refuted s i : reach_mod s -> i < n -> src i = None -> ph s <> Done.
```

`rocq/theories/P_Pipeline.v:682`
```coq
Theorem C50_terminates s : Acc (fun a b => step b a) s.
```

`rocq/theories/P_Pipeline.v:768`
```coq
Theorem C50_finish s : reach_clean s -> (forall i, i < n -> src i <> None) -> (forall s', ~ step s s') -> ph s = Done.
```

`rocq/theories/P_Pipeline.v:1294`
```coq
Theorem C50_truncated_refuted : exists s, reach s /\ (forall i, i < 2 -> two_src i <> None) /\
  forall s', later s s' -> ph str s' <> Done.
```

## C51: Distinct source files have distinct output files

Two different files of a dataset are never written to the same output path, and the temporary file of one is never the output file of another.

*For*: every pair of relative paths. *Status*: partial.

Not true of the code without restriction: no two files collide (C51_targets); a directory named like an output file makes the run fail (C51_directory_refuted).

`rocq/theories/P_Dataset.v:864`
```coq
Theorem C51_targets cwd path parsed_path prep_path t exts :
  wf t -> (is_dir t = false -> valid_name (basename path)) ->
  let T1 := parse_targets cwd path parsed_path t exts in
  let T2 := prep_targets cwd path parsed_path prep_path t exts in
  length T1 = length (scan_files path t exts) /\ length T2 = length (scan_files path t exts) /\
  NoDup (map (abs_parts cwd) T1) /\ NoDup (map (abs_parts cwd) T2) /\
  (forall o o', In o T1 -> In o' T1 -> abs_parts cwd (temp_name o) <> abs_parts cwd o') /\
  (forall o o', In o T2 -> In o' T2 -> abs_parts cwd (temp_name o) <> abs_parts cwd o') /\
  map (abs_parts cwd) (prep_sources path parsed_path t exts) = map (abs_parts cwd) T1.
```

`rocq/theories/P_Dataset.v:897`
```coq
Theorem C51_directory_refuted cwd path parsed_path :
  exists t o o' x, wf t /\ In o (parse_targets cwd path parsed_path t None) /\
    In o' (parse_targets cwd path parsed_path t None) /\
    abs_parts cwd o' = abs_parts cwd o ++ [x].
```

## C52: Stages run when needed and only then

A preprocessing stage is executed when its result is missing or outdated and skipped when it is up to date; running the pipeline twice without changes does the work once.

*For*: every state of markers and directories, every history of runs and modifications. *Status*: partial.

Not true of the code without restriction: proved for the parsing and preprocessing stages, with C52_second_run for caching that is not suppressed (otherwise C81), except for a kill between opening and writing a marker (C52_marker_refuted: everything is done again); the two vocabulary stages calculate the vocabulary once (C52_vocab_once), and never again when it is outdated (C52_base_vocab_refuted, C52_vocab_refuted).

`rocq/theories/P_Pipeline.v:779`
```coq
Theorem C52_second_run s s1 s2 : reach_mod s -> ph s = Done -> mark (parsed s) <> None -> restart s s1 -> run s1 s2 ->
  parsed s2 = parsed s /\ prep s2 = prep s /\ nonbpe s2 = nonbpe s /\ forall i, parts s2 i = parts s i.
```

`rocq/theories/P_Pipeline.v:893`
```coq
Theorem C52_once s i : reach_mod s ->
  (ph s = Parsing -> dest (parsed s) i <> Missing -> wk s i = Idle \/ wk s i = Finished) /\
  (ph s = Prepping -> dest (prep s) i <> Missing -> wk s i = Idle \/ wk s i = Finished).
```

`rocq/theories/P_Pipeline.v:941`
```coq
Theorem C52_kept s s' i c : calm s -> calm s' -> step s s' \/ restart s s' -> i < n ->
  (dest (parsed s) i = Full c -> dest (parsed s') i = Full c) /\ (dest (prep s) i = Full c -> dest (prep s') i = Full c).
```

`rocq/theories/P_Pipeline.v:962`
```coq
Theorem C52_outdated s s1 s2 i : reach_mod s -> modified s s1 -> run s1 s2 -> ph s2 = Done -> i < n ->
  exists x, src i = Some x /\ dest (parsed s2) i = Full (parse x) /\ dest (prep s2) i = Full (repr (parse x)).
```

`rocq/theories/P_Pipeline.v:1259`
```coq
Theorem C52_marker_refuted : exists s s1 s2, reach s /\ dest str (parsed str s) 0 = Full (lit "a!") /\
  restart s s1 /\ run str 2 two_src two_parse two_repr two_special two_holders true s1 s2 /\ dest str (parsed str s2) 0 = Missing.
```

`rocq/theories/P_Pipeline.v:1337`
```coq
Theorem C52_vocab_once h history : (forall h', In h' history -> snd h' = snd h) ->
  (vfile V (fst (base_runs (h :: history))) = Some (snd (last history h)) /\
   snd (base_runs (h :: history)) = true :: repeat false (length history)) /\
  exists v, vocab_runs (h :: history) = Ok (v, true :: repeat false (length history)) /\
            vfile V v = Some (snd (last history h)).
```

`rocq/theories/P_Pipeline.v:1352`
```coq
Theorem C52_base_vocab_refuted h history :
  vfile V (fst (base_runs (h :: history))) = Some (snd h) /\
  snd (base_runs (h :: history)) = true :: repeat false (length history).
```

`rocq/theories/P_Pipeline.v:1356`
```coq
Theorem C52_vocab_refuted h history : exists v,
  vocab_runs (h :: history) = Ok (v, true :: repeat false (length history)) /\ vfile V v = Some (snd h).
```

## C53: Changes of the dataset are noticed

If the contents of a dataset changed since it was preprocessed, preprocessing it again uses the new contents. The name of the output shows the date and time of the last modification.

*For*: every modification of a dataset. *Status*: partial.

Not true of the code without restriction: proved for datasets of at most limit (1000) entries and changes below the root, not behind a link to a directory, in a later second (C53_noticed, C53_directory, C53_clock); the stamp is the date, in the Gregorian calendar, of the latest entry (C53_latest, C53_calendar, C53_stamped); refuted beyond the limit (C53_limit_refuted), within a second or a repeated hour (C53_second_refuted), for files removed from the root directory (C53_root_refuted), behind links (C53_link_refuted); a directory of links to files only cannot be processed (C53_links_only_refuted). C53_removed_refuted: any file in the root directory that is not newer than all others can be removed or added without a change of the stamp. C53_operations: for all trees of files and all operations, writing a file or making a directory anywhere in the dataset, and removing or moving anything below its top, gives another stamp.

`rocq/theories/P_Everywhere.v:134`
```coq
Theorem C53_removed_refuted : forall clock limit l mt mt' es1 n m es2 p u m',
  let t := Dir l mt (es1 ++ (n, File m) :: es2) in let t' := Dir l mt' (es1 ++ es2) in
  at_real t' p u -> In m' (node_mtime u) -> (m <= m')%N -> (entries t <= limit)%nat ->
  get_timestamp clock limit t = get_timestamp clock limit t'.
```

`rocq/theories/P_Timestamp.v:114`
```coq
Theorem C53_clock s s' : in_range s -> in_range s' -> stamp_str (civil s) = stamp_str (civil s') -> s = s'.
```

`rocq/theories/P_Timestamp.v:216`
```coq
Theorem C53_calendar s : exists y x,
  let a := civil s in
  1970 <= y /\ st_y a = y mod 100 /\ 1 <= st_mo a <= 12 /\ days_before_month y (st_mo a) x /\
  1 <= st_d a /\ (forall x', days_before_month y (st_mo a + 1) x' -> x + st_d a <= x') /\
  st_h a < 24 /\ st_mi a < 60 /\ st_s a < 60 /\
  s + 719162 * 86400 = 86400 * (days_before_year y + x + (st_d a - 1)) + 3600 * st_h a + 60 * st_mi a + st_s a.
```

`rocq/theories/P_Timestamp.v:356`
```coq
Theorem C53_noticed clock limit t t' p u m e a :
  last_modification limit t = Ok m ->
  at_real t' p u -> In e (node_mtime u) -> (entries t' <= limit)%nat ->
  in_range (clock m) -> (forall x, e <= x -> clock m < clock x /\ in_range (clock x)) ->
  get_timestamp clock limit t = Ok a ->
  exists a', get_timestamp clock limit t' = Ok a' /\ stamp_str a' <> stamp_str a.
```

`rocq/theories/P_Timestamp.v:393`
```coq
Theorem C53_latest clock limit t a : (entries t <= limit)%nat -> get_timestamp clock limit t = Ok a ->
  exists m, a = civil (clock m) /\
    ((exists p u, at_real t p u /\ In m (node_mtime u)) \/ (t = File m \/ exists l, t = Dir l m [])) /\
    forall p u m', at_real t p u -> In m' (node_mtime u) -> m' <= m.
```

`rocq/theories/P_Timestamp.v:411`
```coq
Theorem C53_stamped clock limit t : limit <> O ->
  ((exists m, t = File m) \/ (exists l m, t = Dir l m []) \/ exists p u, at_real t p u /\ node_mtime u <> []) ->
  exists a, get_timestamp clock limit t = Ok a.
```

`rocq/theories/P_Timestamp.v:428`
```coq
Theorem C53_directory (dir : str) (r r' : run) : plain_run r -> plain_run r' ->
  stamp_str (r_stamp r) <> stamp_str (r_stamp r') ->
  dataset_dir_name r <> dataset_dir_name r' /\ parsed_path dir r <> parsed_path dir r' /\
  (r_output r = r_output r' -> prep_path dir r <> prep_path dir r') /\ vocab_path dir r <> vocab_path dir r'.
```

`rocq/theories/P_Timestamp.v:466`
```coq
Theorem C53_limit_refuted limit : limit <> O ->
  (forall m, wf (many limit m) /\ at_real (many limit m) [lit "b"] (File m)) /\
  forall clock m m', get_timestamp clock limit (many limit m) = get_timestamp clock limit (many limit m')
                     /\ get_timestamp clock limit (many limit m) <> Err ValueError.
```

`rocq/theories/P_Timestamp.v:507`
```coq
Theorem C53_second_refuted clock limit m m' : limit <> O -> m < m' -> clock m = clock m' ->
  exists t t' n, at_real t [n] (File m) /\ at_real t' [n] (File m') /\ wf t /\ wf t' /\ get_timestamp clock limit t = get_timestamp clock limit t' /\ get_timestamp clock limit t = Ok (civil (clock m)).
```

`rocq/theories/P_Timestamp.v:522`
```coq
Theorem C53_root_refuted : exists t t', wf t /\ wf t' /\ forall clock limit path,
  (limit > 1)%nat -> get_timestamp clock limit t = get_timestamp clock limit t' /\
  scan_files path t None = [lit "./a"; lit "./b"] /\ scan_files path t' None = [lit "./a"] /\
  node_mtime t = [200] /\ node_mtime t' = [300].
```

`rocq/theories/P_Timestamp.v:540`
```coq
Theorem C53_link_refuted : exists t : N -> node, (forall m, wf (t m)) /\ forall m m' clock limit path,
  (limit > 1)%nat -> get_timestamp clock limit (t m) = get_timestamp clock limit (t m') /\
  get_timestamp clock limit (t m) = Ok (civil (clock 100)) /\
  In (lit "src/b") (scan_files path (t m) None) /\ at_path (t m) [lit "src"; lit "b"] (File m).
```

`rocq/theories/P_Timestamp.v:561`
```coq
Theorem C53_links_only_refuted : exists t, wf t /\ forall clock limit path,
  get_timestamp clock limit t = Err ValueError /\ scan_files path t None = [].
```

`rocq/theories/P_Touch.v:104`
```coq
Theorem C53_operations : forall clock limit t fs o d r x x' m a,
  look d fs = Some x -> look d (perform t o fs) = Some x' ->
  comes fs (d ++ r) o \/ goes fs (d ++ r) o /\ r <> [] ->
  last_modification limit (shape x) = Ok m -> get_timestamp clock limit (shape x) = Ok a -> (entries (shape x') <= limit)%nat ->
  in_range (clock m) -> (forall y, (t <= y)%N -> (clock m < clock y)%N /\ in_range (clock y)) ->
  exists a', get_timestamp clock limit (shape x') = Ok a' /\ stamp_str a' <> stamp_str a.
```

## C54: Interrupted BPE learning can be repeated

If saving learned merges is interrupted at any point, running learn-bpe again succeeds and produces complete results.

*For*: every crash point. *Status*: partial.

Not true of the code without restriction: C54_refuted: whenever the process is killed between creating the directory and writing its last byte, running the command again fails or reports the merges as learned, and no later run repairs the directory; proved: without interruption every sequence of runs succeeds and leaves complete results (C54_runs), repeating a run changes nothing (C54_again), and fewer merges can still be learned after a kill (C54_smaller).

`rocq/theories/P_BpeRun.v:599`
```coq
Theorem C54_runs c ns n : corpus_ok c ->
  (exists r, learn py_int c (runs c ns) n = Ok r)
  /\ (forall k d, dget (runs c ns) k = Some d -> dget (runs c (ns ++ [n])) k = Some d)
  /\ (exists l v d, greedy (characters c) l v /\ length l <= n
        /\ (length l < n -> Forall (fun wf => length (fst wf) = 1) v)
        /\ dget (runs c (ns ++ [n])) (length l) = Some d /\ has_results c l v d)
  /\ (forall k d, dget (runs c (ns ++ [n])) k = Some d ->
        exists l v, greedy (characters c) l v /\ length l = k /\ has_results c l v d).
```

`rocq/theories/P_BpeRun.v:656`
```coq
Theorem C54_again c ns n : corpus_ok c ->
  learn py_int c (runs c (ns ++ [n])) n = Ok None /\ runs c (ns ++ [n; n]) = runs c (ns ++ [n]).
```

`rocq/theories/P_BpeRun.v:708`
```coq
Theorem C54_refuted c ns n k files d : corpus_ok c ->
  learn py_int c (runs c ns) n = Ok (Some (k, files)) -> stopped files d ->
  let st := dset (runs c ns) k d in
  d <> complete files
  /\ (forall r, learn py_int c st n = Ok r -> r = None)
  /\ (0 < k -> f_reass d = None -> exists e, learn py_int c st n = Err e)
  /\ (forall ns', dget (fold_left (run py_int c) ns' st) k = Some d).
```

`rocq/theories/P_BpeRun.v:777`
```coq
Theorem C54_smaller c ns n k files d m : corpus_ok c ->
  learn py_int c (runs c ns) n = Ok (Some (k, files)) -> m < k ->
  learn py_int c (dset (runs c ns) k d) m = learn py_int c (runs c ns) m
  /\ exists r, learn py_int c (runs c ns) m = Ok r.
```

## C55: Extension filters are canonical

The set of selected files and the cache directory name depend only on the set of requested extensions, not on their order or repetition; a file is selected exactly when its name ends with a dot and one of them.

*For*: every extension string, every file name. *Status*: partial.

Not true of the code without restriction: proved for lists other than the single empty extension; C55_empty_refuted: the empty extension alone means no filter, written twice it is one. C55_exact: two lists of extensions mean the same exactly if they have the same extensions and both or none of them are the empty extension alone.

`rocq/theories/P_Dataset.v:91`
```coq
Theorem C55_canonical es es' :
  Forall (no_char bar) es -> Forall (no_char bar) es' -> requested es <> [] -> requested es' <> [] ->
  (forall e, In e es <-> In e es') ->
  normalize_extension_string (requested es) = normalize_extension_string (requested es').
```

`rocq/theories/P_Dataset.v:110`
```coq
Theorem C55_selected es name :
  Forall (no_char bar) es -> requested es <> [] ->
  exists l, normalize_extension_string (requested es) = Some l /\
    (has_one_of_extensions name l = true <-> exists e stem, In e es /\ name = stem ++ lit "." ++ e).
```

`rocq/theories/P_Dataset.v:124`
```coq
Theorem C55_empty_refuted :
  exists es es', (forall e, In e es <-> In e es') /\ Forall (no_char bar) es /\ Forall (no_char bar) es' /\
    normalize_extension_string (requested es) <> normalize_extension_string (requested es').
```

`rocq/theories/P_Dataset.v:262`
```coq
Theorem C55_scan path l m es exts name : wf (Dir l m es) ->
  In name (scan_files path (Dir l m es) exts) <->
  exists p n mt, at_path (Dir l m es) (p ++ [n]) (File mt) /\ name = rel_name p n /\
    match exts with
    | Some (x :: xs) => exists e stem, In e (x :: xs) /\ name = stem ++ lit "." ++ e
    | _ => True
    end.
```

`rocq/theories/P_Dataset.v:330`
```coq
Theorem C55_directories l m es name : wf (Dir l m es) ->
  In name (scan_dirs (Dir l m es)) <->
  exists p n l' m' es', at_path (Dir l m es) (p ++ [n]) (Dir l' m' es') /\ name = rel_name p n.
```

`rocq/theories/P_Everywhere.v:105`
```coq
Theorem C55_exact : forall es es', es <> [] -> es' <> [] -> Forall (no_char bar) es -> Forall (no_char bar) es' ->
  (normalize_extension_string (requested es) = normalize_extension_string (requested es') <->
   (forall e, In e es <-> In e es') /\ (es = [[]] <-> es' = [[]])).
```

## C56: Saved file lists reload unchanged

Reading a saved file list yields exactly the file names that were found when scanning, as bytes, for arbitrary byte names.

*For*: every list of byte strings. *Status*: proved.

`rocq/theories/P_Dataset.v:456`
```coq
Theorem C56_round_trip names : Forall is_bytes names -> read_list (save_list names) = Ok names.
```

## C57: Full-token iteration partitions the subtokens

Iterating full tokens over valid boundaries yields one value per full token, in order, whose subtokens concatenate to the whole subtoken list; invalid boundaries are rejected before iteration.

*For*: every subtoken list and boundary list, every format function. *Status*: partial.

Not true of the code without restriction: for nondecreasing boundaries; C57_unordered_refuted: validation accepts unordered boundaries, for which subtokens are repeated. C57_exactly: for boundaries that are accepted, the full tokens are a partition exactly if the boundaries, cut off at the number of subtokens, do not decrease.

`rocq/theories/P_Exact.v:35`
```coq
Theorem C57_exactly :
  forall A (subs : list A) bounds l,
  boundaries (length subs) bounds -> full_tokens (fun t => t) subs bounds = Ok l ->
  (List.concat (map snd l) = subs <-> nondecreasing (map (Nat.min (length subs)) bounds)).
```

`rocq/theories/P_Iter.v:26`
```coq
Theorem C57_invalid_rejected :
  forall A B (fmt : list A -> B) subs bounds, ~ boundaries (length subs) bounds ->
  full_tokens fmt subs bounds = Err ValueError /\ subtokens fmt subs bounds = Err ValueError.
```

`rocq/theories/P_Iter.v:79`
```coq
Theorem C57_full_tokens :
  forall A B (fmt : list A -> B) subs bounds,
  boundaries (length subs) bounds -> nondecreasing bounds ->
  exists tokens : list (list A),
    full_tokens fmt subs bounds = Ok (combine (seq 0 (length tokens)) (map fmt tokens)) /\
    List.concat tokens = subs /\ length tokens = length bounds - 1 /\
    (forall i t, nth_error tokens i = Some t ->
       exists a b, nth_error bounds i = Some a /\ nth_error bounds (S i) = Some b /\ t = firstn (b - a) (skipn a subs)).
```

`rocq/theories/P_Iter.v:102`
```coq
Theorem C57_unordered_refuted :
  exists (subs : list nat) bounds l,
    boundaries (length subs) bounds /\ full_tokens (fun t => t) subs bounds = Ok l /\ List.concat (map snd l) <> subs.
```

`rocq/theories/P_Iter.v:219`
```coq
Theorem C57_preprocessed :
  forall E o d b l out m,
  to_repr E o d b l = Ok (out, m) -> ~ In (Number []) (all_tokens l) ->
  exists tokens : list (list str),
    full_tokens (@List.concat N) out (wb m) = Ok (combine (seq 0 (length tokens)) (map (@List.concat N) tokens)) /\
    List.concat tokens = out /\ length tokens = length (types m) /\
    exists l', subtokens (hd []) out (wb m) = Ok l' /\ map snd l' = out /\
      forall j p, nth_error l' j = Some p ->
      exists x y, nth_error (wb m) (fst p) = Some x /\ nth_error (wb m) (fst p + 1) = Some y /\ x <= j < y.
```

## C58: Subtoken iteration reports the right full token

Iterating subtokens yields every subtoken once, in order, with the index of the full token whose boundaries contain it, and never fails on boundaries that passed validation.

*For*: every subtoken list and boundary list. *Status*: partial.

Not true of the code without restriction: for strictly increasing boundaries; C58_repeated_refuted: repeated boundaries pass validation and give the wrong index. C58_exactly: the index is always right exactly if boundaries are repeated at the end only.

`rocq/theories/P_Exact.v:130`
```coq
Theorem C58_exactly :
  forall A B (fmt : list A -> B) subs bounds l,
  boundaries (length subs) bounds -> nondecreasing bounds -> subtokens fmt subs bounds = Ok l ->
  ((forall j p, nth_error l j = Some p ->
      exists x y, nth_error bounds (fst p) = Some x /\ nth_error bounds (fst p + 1) = Some y /\ x <= j < y)
   <-> repeated_only_at_end (length subs) bounds).
```

`rocq/theories/P_Iter.v:149`
```coq
Theorem C58_all_subtokens :
  forall A B (fmt : list A -> B) subs bounds, boundaries (length subs) bounds ->
  exists l, subtokens fmt subs bounds = Ok l /\ map snd l = map (fun x => fmt [x]) subs.
```

`rocq/theories/P_Iter.v:191`
```coq
Theorem C58_right_full_token :
  forall A B (fmt : list A -> B) subs bounds l,
  boundaries (length subs) bounds -> increasing bounds -> subtokens fmt subs bounds = Ok l ->
  forall j p, nth_error l j = Some p ->
  exists x y, nth_error bounds (fst p) = Some x /\ nth_error bounds (fst p + 1) = Some y /\ x <= j < y.
```

`rocq/theories/P_Iter.v:205`
```coq
Theorem C58_repeated_refuted :
  exists (subs : list nat) bounds l j p,
    boundaries (length subs) bounds /\ nondecreasing bounds /\ subtokens (fun t => t) subs bounds = Ok l /\
    nth_error l j = Some p /\ ~ (nth (fst p) bounds 0 <= j < nth (fst p + 1) bounds 0).
```

## C59: Preprocessing a text does not depend on earlier calls

With default options the result of preprocessing a text depends only on the text and the options, not on texts or bpe codes used before in the same process.

*For*: every history of api calls. *Status*: partial.

Not true of the code without restriction: proved for the default option (fresh bpe data in every call) for every sequence of earlier calls, and for every call without bpe; with force_reinit_bpe_data=False other codes are ignored once some are loaded (C59_other_codes_refuted) and after a call that failed every later one fails (C59_failed_call_refuted). C59_ignored_refuted: once codes are loaded, a call without reinitialization gives the same for every id of codes that exist.

`rocq/theories/P_Api.v:26`
```coq
Theorem C59_history parse repr dk c g h h' : no_bpe_no_data repr -> c_force c = true ->
  fst (preprocess parse repr dk (after parse repr dk g h) c) = fst (preprocess parse repr dk (after parse repr dk g h') c).
```

`rocq/theories/P_Api.v:40`
```coq
Theorem C59_no_bpe parse repr dk c g h h' : no_bpe_no_data repr -> is_bpe (c_config c) = false ->
  fst (preprocess parse repr dk (after parse repr dk g h) c) = fst (preprocess parse repr dk (after parse repr dk g h') c).
```

`rocq/theories/P_Api.v:50`
```coq
Theorem C59_loop parse repr dk c0 g cs c :
  (forall d l g1, snd (repr d l g1) = g1) ->
  c_force c0 = true -> (exists r, fst (preprocess parse repr dk g c0) = Ok r) ->
  Forall (fun c => is_bpe (c_config c) = false \/ c_id c = c_id c0 /\ c_config c = c_config c0) (c :: cs) ->
  is_bpe (c_config c0) = true ->
  no_bpe_no_data repr ->
  Forall (fun c => c_force c = false) (c :: cs) ->
  fst (preprocess parse repr dk (after parse repr dk g (c0 :: cs)) c)
  = fst (preprocess parse repr dk None
           {| c_text := c_text c; c_ext := c_ext c; c_config := c_config c; c_id := c_id c; c_force := true; c_eof := c_eof c |}).
```

`rocq/theories/P_Api.v:177`
```coq
Theorem C59_other_codes_refuted : exists parse repr dk h c,
  no_bpe_no_data repr /\ (forall d l g, snd (repr d l g) = g) /\
  fst (preprocess parse repr dk (after parse repr dk None h) c) <> fst (preprocess parse repr dk None c).
```

`rocq/theories/P_Api.v:187`
```coq
Theorem C59_failed_call_refuted : exists parse repr dk h c r,
  no_bpe_no_data repr /\ (forall d l g, snd (repr d l g) = g) /\
  fst (preprocess parse repr dk None c) = Ok r /\
  fst (preprocess parse repr dk (after parse repr dk None h) c) = Err TypeError.
```

`rocq/theories/P_Everywhere.v:183`
```coq
Theorem C59_ignored_refuted : forall o c id id', c_force c = false ->
  (id <> [] /\ (is_predefined_id id = true \/ exists i, from_id dk id = Ok i)) ->
  (id' <> [] /\ (is_predefined_id id' = true \/ exists i, from_id dk id' = Ok i)) ->
  preprocess parse repr dk (Some o) (with_id id c) = preprocess parse repr dk (Some o) (with_id id' c).
```

## C60: Position lists are merged exactly

When a pair is merged in the location index, the positions of the new neighbouring pair are exactly the positions where the two old pairs were adjacent, and these are exactly the positions removed from the neighbour's list.

*For*: every pair of strictly increasing position lists and every shift. *Status*: proved.

For strictly increasing lists; where two occurrences of the merged pair meet, the occurrences must not overlap (choose_positions_to_merge sees to that): C60_both_overlap_refuted shows the function misses a pair otherwise. C60_both_exact says for all increasing lists what it finds: what lies between an occurrence and the very next one; C60_every_overlap_refuted: everything between two occurrences with a third in between is missed.

`rocq/theories/P_Wild.v:24`
```coq
Theorem C60_merge main l2 s : increasing main -> increasing l2 ->
  merge_lists main s l2
  = (filter (fun x => negb (zmem (x - s) main)) l2,
     map (fun x => Z.min (x - s) x) (filter (fun x => zmem (x - s) main) l2)).
```

`rocq/theories/P_Wild.v:159`
```coq
Theorem C60_both main l2 s0 s1 : 0 < s0 -> s1 < 0 -> spaced (s0 - s1) main -> increasing l2 -> main <> l2 ->
  merge_lists_both main l2 (s0, s1)
  = Ok (filter (fun x => negb (zmem (x - s0) main && zmem (x - s1) main)) l2,
        filter (fun m => zmem (m + s0) l2 && zmem (m + s0 - s1) main) main).
```

`rocq/theories/P_Wild.v:175`
```coq
Theorem C60_both_overlap_refuted : exists main l2 s0 s1, 0 < s0 /\ s1 < 0 /\ increasing main /\ increasing l2 /\ main <> l2 /\
  merge_lists_both main l2 (s0, s1)
  <> Ok (filter (fun x => negb (zmem (x - s0) main && zmem (x - s1) main)) l2,
         filter (fun m => zmem (m + s0) l2 && zmem (m + s0 - s1) main) main).
```

`rocq/theories/P_Wild.v:187`
```coq
Theorem C60_choose main s : 0 < s -> spaced s main ->
  let (a, d) := choose_positions_to_merge main s in
  a = filter (fun x => negb (zmem (x - s) a)) main /\ d = filter (fun x => zmem (x - s) a) main /\
  (forall a', a' = filter (fun x => negb (zmem (x - s) a')) main -> a' = a).
```

`rocq/theories/P_Wild.v:251`
```coq
Theorem C60_self main s : self_merge main s = ([], map (fun x => x - s) (snd (choose_positions_to_merge main s))).
```

`rocq/theories/P_WildBoth.v:89`
```coq
Theorem C60_both_exact : forall main l2 s0 s1, 0 < s0 -> s1 < 0 -> increasing main -> increasing l2 -> main <> l2 ->
  merge_lists_both main l2 (s0, s1)
  = Ok (filter (fun x => negb (existsb (between s0 s1 x) (neighbours main))) l2,
        map fst (filter (fun p => zmem (fst p + s0) l2 && (snd p + s1 =? fst p + s0)) (neighbours main))).
```

`rocq/theories/P_WildBoth.v:102`
```coq
Theorem C60_every_overlap_refuted : forall main l2 s0 s1 m m'' x, 0 < s0 -> s1 < 0 -> increasing main -> increasing l2 -> main <> l2 ->
  In m main -> In m'' main -> In x l2 -> x = m + s0 -> x = m'' + s1 -> (exists m', In m' main /\ m < m' < m'') ->
  exists rest found, merge_lists_both main l2 (s0, s1) = Ok (rest, found) /\ In x rest /\ ~ In m found.
```

## C61: Preprocessing parsed tokens never raises

For every configuration that can be created, preprocessing any list of parsed tokens returns a result; no exception is raised, also in subword modes.

*For*: every valid configuration, token list and bpe data. *Status*: proved.

`rocq/theories/P_ParseRepr.v:657`
```coq
Theorem C61_parser_output :
  forall E K lexed l, ascii_classes K -> py_text E -> lexer_ok lexed -> convert_text E K lexed = Ok l ->
  spaceless E l /\ words_nonempty E l /\ ~ In (Number []) (all_tokens l).
```

`rocq/theories/P_ParseRepr.v:667`
```coq
Theorem C61_text_never_raises :
  forall E K o d b lexed,
  mk_prep_config d = Ok d -> py_ascii E -> py_text E -> ascii_classes K -> lexer_ok lexed ->
  (is_bpe d = true -> exists bd merges, b = Some bd /\ usable bd merges) ->
  exists l out m, convert_text E K lexed = Ok l /\ to_repr E o d b l = Ok (out, m).
```

`rocq/theories/P_ReprOptions.v:209`
```coq
Theorem C61_never_raises :
  forall E o d b l,
  mk_prep_config d = Ok d -> py_ascii E ->
  (is_bpe d = true -> exists bd merges, b = Some bd /\ usable bd merges) ->
  spaceless E l -> words_nonempty E l ->
  exists out m, to_repr E o d b l = Ok (out, m).
```

## C62: The special-token vocabulary is complete after interruptions

After preprocessing with the base bpe configuration ended, possibly after interrupted runs, the vocabulary of tokens that must not be split contains exactly the special tokens of all files.

*For*: every set of files, every crash point, any number of interrupted runs. *Status*: partial.

Not true of the code without restriction: complete in all histories when written (C62_complete), nothing superfluous if no process was killed while writing a part (C62_exact); a kill while the vocabulary is written leaves it incomplete for ever (C62_killed_refuted), a kill while a part is written adds truncated tokens (C62_truncated_refuted). C62_learning: learning uses exactly the configurations for which these words are collected. C62_complete keeps the parts of different files apart; their names have only the base name and the time: C62_parts for savings of files with the same base name at different instants, C62_same_instant_refuted: two files with the same base name (__init__.py) that two processes save at the same instant have the same part, and the tokens of one are lost. C62_kept: whatever was saved, exactly the tokens of the files after which none of the same base name was saved at the same instant are gathered; C62_every_same_instant_refuted: every token that only an earlier one of two such files has is lost.

`rocq/theories/P_LastPart.v:39`
```coq
Theorem C62_kept : forall placeholders savings names,
  Forall good_saving savings -> Permutation names (dkeys (saved savings)) ->
  exists tokens, gather placeholders names (saved savings) = Ok tokens /\
    forall t, In t tokens <-> In t placeholders \/ exists s, kept savings s /\ In t (sv_tokens s).
```

`rocq/theories/P_LastPart.v:64`
```coq
Theorem C62_every_same_instant_refuted : forall placeholders before s between s' after names t,
  let savings := before ++ s :: between ++ s' :: after in
  Forall good_saving savings -> Permutation names (dkeys (saved savings)) ->
  basename (sv_dest s) = basename (sv_dest s') -> sv_time s = sv_time s' ->
  In t (sv_tokens s) -> ~ In t placeholders -> (forall x, In x (before ++ between ++ s' :: after) -> ~ In t (sv_tokens x)) ->
  exists tokens, gather placeholders names (saved savings) = Ok tokens /\ ~ In t tokens.
```

`rocq/theories/P_LearnCli.v:300`
```coq
Theorem C62_learning :
  (forall c, exists d, from_encoded_string (base_config c) = Ok d /\ is_base_bpe_config d = true) /\
  (forall d d', mk_prep_config d = Ok d' -> is_base_bpe_config d' = true -> exists c, config_str d' = base_config c).
```

`rocq/theories/P_Parts.v:73`
```coq
Theorem C62_parts : forall placeholders savings names,
  Forall good_saving savings -> NoDup (map (fun s => (basename (sv_dest s), sv_time s)) savings) ->
  Permutation names (dkeys (saved savings)) ->
  exists tokens, gather placeholders names (saved savings) = Ok tokens /\
    (forall t, In t tokens <-> In t placeholders \/ exists s, In s savings /\ In t (sv_tokens s)) /\
    forall written, Forall valid_str placeholders -> (forall t, In t written <-> In t tokens) -> load_vocab_set (part_file written) = Ok written.
```

`rocq/theories/P_Parts.v:128`
```coq
Theorem C62_same_instant_refuted : exists placeholders s s' names,
  good_saving s /\ good_saving s' /\ sv_dest s <> sv_dest s' /\ Permutation names (dkeys (saved [s; s'])) /\
  exists tokens t, gather placeholders names (saved [s; s']) = Ok tokens /\ In t (sv_tokens s) /\ ~ In t tokens.
```

`rocq/theories/P_Pipeline.v:973`
```coq
Theorem C62_complete s v : reach_mod s -> nonbpe s = Full v ->
  incl placeholder_tokens v /\ forall i x, i < n -> src i = Some x -> incl (nonprocessable (parse x)) v.
```

`rocq/theories/P_Pipeline.v:978`
```coq
Theorem C62_exact s v t : reach_clean s -> nonbpe s = Full v -> In t v ->
  In t placeholder_tokens \/ exists i x, i < n /\ src i = Some x /\ In t (nonprocessable (parse x)).
```

`rocq/theories/P_Pipeline.v:999`
```coq
Theorem C62_there s : reach_mod s -> base_bpe = true -> ph s = Done -> nonbpe s <> Missing.
```

`rocq/theories/P_Pipeline.v:1268`
```coq
Theorem C62_killed_refuted : exists s, reach s /\ ph str s = Done /\ forall s', later s s' -> nonbpe str s' = Partial.
```

`rocq/theories/P_Pipeline.v:1285`
```coq
Theorem C62_truncated_refuted : exists s v, reach s /\ ph str s = Done /\ nonbpe str s = Full v /\
  In (lit "y") v /\ ~ In (lit "y") two_holders /\ forall i x, two_src i = Some x -> ~ In (lit "y") (two_special (two_parse x)).
```

## C63: A returned corpus has all its files

After preprocess_corpus returned, the directory of the returned corpus contains the preprocessed form of every file of the dataset, whatever was preprocessed before, with or without vocabulary and for every output path.

*For*: every sequence of calls of preprocess_corpus and get_corpus_size, all datasets, options and output paths. *Status*: partial.

Not true of the code without restriction: proved if all calls use one output path (C63_one_output), and for every output path for calls without vocabulary or whose vocabulary was not calculated before (C63_no_vocab_before); C63_second_output_refuted: preprocessing the same dataset with vocabulary for a second output path returns a corpus without files.

`rocq/theories/P_Corpus.v:223`
```coq
Theorem C63_one_output d l r calc : session allowed d l -> In (r, calc) l ->
  d_prep d (c_prep (corpus_of r calc)) = Some (map preprocessed_file (tokens r)).
```

`rocq/theories/P_Corpus.v:276`
```coq
Theorem C63_no_vocab_before d l r calc d' c : session allowed d l -> allowed r ->
  preprocess_corpus d r calc d' (Ok c) -> calc = false \/ d_vocab d (voc r) = None ->
  d_prep d' (c_prep c) = Some (map preprocessed_file (tokens r)).
```

`rocq/theories/P_Corpus.v:313`
```coq
Theorem C63_second_output_refuted r o1 o2 : tokens (to_output o1 r) <> [] -> pre (to_output o1 r) <> pre (to_output o2 r) ->
  exists d, session (fun _ => True) d [(to_output o2 r, true); (to_output o1 r, true)] /\
    d_prep d (c_prep (corpus_of (to_output o2 r) true)) = None.
```

## C64: Corpus size and vocabulary belong to the corpus

get_corpus_size of a returned corpus is the number of its tokens and load_vocab gives every token with its number of occurrences, or raises ValueError if no vocabulary was asked for, whatever other corpora were preprocessed or asked for their size before.

*For*: every sequence of calls, all datasets, options and output paths. *Status*: partial.

Not true of the code without restriction: proved if all calls use one output path (C64_one_output); C64_second_output_refuted: with two output paths the size 0 of the corpus without files is reported for the complete one.

`rocq/theories/P_Corpus.v:228`
```coq
Theorem C64_one_output d l r calc : session allowed d l -> In (r, calc) l -> Forall writable (tokens r) ->
  snd (get_corpus_size d (corpus_of r calc)) = length (List.concat (tokens r)) /\
  (calc = true -> exists v, load_vocab d (corpus_of r calc) = Ok v /\ counts_exactly v (List.concat (tokens r))) /\
  (calc = false -> load_vocab d (corpus_of r calc) = Err ValueError).
```

`rocq/theories/P_Corpus.v:319`
```coq
Theorem C64_second_output_refuted r o1 o2 : tokens (to_output o1 r) <> [] -> o1 <> [] -> o2 <> [] ->
  pre (to_output o1 r) <> pre (to_output o2 r) -> plain_run r -> slashless r ->
  exists d, session (fun _ => True) d [(to_output o2 r, true); (to_output o1 r, true)] /\
    d_prep d (c_prep (corpus_of (to_output o1 r) true)) = Some (map preprocessed_file (tokens (to_output o1 r))) /\
    snd (get_corpus_size d (corpus_of (to_output o1 r) true)) = 0.
```

## C65: Files are read as the text they hold

The text that is preprocessed for a file is the text the file holds, with all line ends changed to newlines and without a last newline; files that are not UTF-8 count as empty.

*For*: every byte sequence. *Status*: proved.

`rocq/theories/P_Files.v:219`
```coq
Theorem C65_text : forall bytes, exists chars text,
  holds bytes chars /\ newlines chars text /\
  (text = source_text bytes ++ [10%N] \/ (text = source_text bytes /\ last text 0%N <> 10%N)).
```

`rocq/theories/P_Files.v:233`
```coq
Theorem C65_unique : forall bytes chars chars' text text',
  holds bytes chars -> holds bytes chars' -> newlines chars text -> newlines chars' text' -> chars = chars' /\ text = text'.
```

`rocq/theories/P_Files.v:248`
```coq
Theorem C65_verbatim : forall bytes chars, holds bytes chars -> no_char 13%N chars ->
  chars = source_text bytes ++ [10%N] \/ chars = source_text bytes.
```

## C66: Corpus and text preprocessing agree

Preprocessing a file as part of a corpus gives the same tokens as preprocessing its text through the text api with the end-of-file token appended.

*For*: every file, every parser, every configuration and bpe codes, any earlier calls. *Status*: partial.

Not true of the code without restriction: proved for texts whose parse does not end with a newline (C66_agree) and for configurations without newlines (C66_no_spaces); otherwise the corpus has exactly one more token, the newline (C66_newline, C66_refuted).

`rocq/theories/P_Files.v:272`
```coq
Theorem C66_agree : forall parse repr dk g g' config id path bytes ext l,
  no_bpe_no_data repr -> extension_of path = Ok ext -> parse (source_text bytes) (Some ext) = Ok l ->
  (forall l', l <> l' ++ [NewLine]) ->
  preprocess_file parse repr dk g config id path bytes
  = fst (preprocess parse repr dk g' (text_call config id ext (source_text bytes))).
```

`rocq/theories/P_Files.v:347`
```coq
Theorem C66_no_spaces : forall E o parse dk g g' config id path bytes ext l,
  param config TABS_NEWLINES = lit "0" ->
  extension_of path = Ok ext -> parse (source_text bytes) (Some ext) = Ok l ->
  preprocess_file parse (plain_repr E o) dk g config id path bytes
  = fst (preprocess parse (plain_repr E o) dk g' (text_call config id ext (source_text bytes))).
```

`rocq/theories/P_Files.v:371`
```coq
Theorem C66_newline : forall E o parse dk g g' config id path bytes ext l out m,
  mk_prep_config config = Ok config -> param config TABS_NEWLINES = lit "s" ->
  extension_of path = Ok ext -> parse (source_text bytes) (Some ext) = Ok (l ++ [NewLine]) ->
  preprocess_file parse (plain_repr E o) dk g config id path bytes = Ok (out, m) ->
  exists body m', out = body ++ [[10%N] ++ token_end config; lit "<EOF>" ++ token_end config] /\
    fst (preprocess parse (plain_repr E o) dk g' (text_call config id ext (source_text bytes)))
    = Ok (body ++ [lit "<EOF>" ++ token_end config], m') /\
    exists ts, types m = ts ++ [CNewLine; CSpecialToken] /\ types m' = ts ++ [CSpecialToken].
```

`rocq/theories/P_Files.v:399`
```coq
Theorem C66_refuted : exists E o parse dk config id path bytes ext out out',
  mk_prep_config config = Ok config /\ extension_of path = Ok ext /\
  bind (preprocess_file parse (plain_repr E o) dk None config id path bytes) (fun x => Ok (fst x)) = Ok out /\
  tokens_of (preprocess parse (plain_repr E o) dk None (text_call config id ext (source_text bytes))) = Ok out' /\
  List.length out <> List.length out'.
```

## C67: No file makes preprocessing fail

Whatever bytes a file has, and whatever its name, preprocessing it as part of a corpus gives a result.

*For*: every file content, file name, configuration and usable bpe codes. *Status*: partial.

Not true of the code without restriction: proved for every content and every name whose extension is UTF-8 (C67_never_fails); C67_refuted: any other extension raises UnicodeDecodeError.

`rocq/theories/P_Files.v:432`
```coq
Theorem C67_never_fails : forall E K o lex dk g config id path bytes ext,
  mk_prep_config config = Ok config -> py_ascii E -> py_text E -> ascii_classes K ->
  (forall text name, lexer_ok (lex text name)) -> (is_bpe config = true -> codes_loaded dk config id) ->
  utf8 ext = Ok (splitext path) -> valid_str ext ->
  exists out m, preprocess_file (parse_text E K lex) (plain_repr E o) dk g config id path bytes = Ok (out, m).
```

`rocq/theories/P_Files.v:464`
```coq
Theorem C67_no_extension : forall E K lex path bytes, no_char 46%N (basename path) ->
  parse_file (parse_text E K lex) path bytes = parse_text E K lex (source_text bytes) (Some (lit "java")).
```

`rocq/theories/P_Files.v:484`
```coq
Theorem C67_extension : forall path stem dots e ext,
  basename path = repeat 46%N dots ++ stem ++ 46%N :: e -> stem <> [] -> hd 0%N stem <> 46%N -> no_char 46%N e ->
  valid_str ext -> utf8 ext = Ok e -> extension_of path = Ok ext.
```

`rocq/theories/P_Files.v:501`
```coq
Theorem C67_refuted : forall parse repr dk g config id bytes,
  preprocess_file parse repr dk g config id (lit "dir/a.c" ++ [233%N]) bytes = Err UnicodeError.
```

## C68: A preprocessed file gives back the tokens

A preprocessed file of a corpus is a single line; split at spaces and with the escapes undone it is exactly the list of tokens of the file.

*For*: every source file, configuration, and bpe codes. *Status*: partial.

Not true of the code without restriction: proved if the lexer gives no operator, punctuation, number or keyword with a space (C68_read_back); C68_import_static_refuted: the Java lexer has the keyword 'import static'.

`rocq/theories/P_Lines.v:455`
```coq
Theorem C68_read_back : forall E K o lex dk g config id path bytes out m,
  mk_prep_config config = Ok config -> py_ascii E -> py_text E -> ascii_classes K -> case_valid E -> splitters_solid o ->
  (forall text name, lexer_solid (lex text name)) -> (is_bpe config = true -> codes_loaded dk config id) ->
  preprocess_file (parse_text E K lex) (plain_repr E o) dk g config id path bytes = Ok (out, m) ->
  exists line, file_lines (preprocessed_content out) = [line] /\ mapM to_non_literal_str (split_on 32 line) = Ok out.
```

`rocq/theories/P_Lines.v:471`
```coq
Theorem C68_import_static_refuted : exists out m line back,
  preprocess_file (parse_text ascii_case ascii_K java_like) (plain_repr ascii_case no_splitters) disk_ex None
    (combine prep_params (chars_of "Uc11su")) None (lit "A.java") (lit "import static") = Ok (out, m) /\
  file_lines (preprocessed_content out) = [line] /\
  mapM to_non_literal_str (split_on 32 line) = Ok back /\
  out = [lit "import static"; lit "<EOF>"] /\ back = [lit "import"; lit "static"; lit "<EOF>"].
```

## C69: Split words are delimited

When words are split without bpe, the output text alone shows which subtokens belong together: a full token is a single subtoken, a capital mark with one subtoken, or a group between a word-start and a word-end mark; grouping the output this way gives exactly the full tokens reported in the metadata.

*For*: every source text, every configuration that splits without bpe, every splitter. *Status*: partial.

Not true of the code without restriction: proved for strings within the length limit, on parsed tokens without marks in their text (C69_groups) and for source texts (C69_text); C69_long_string_refuted: a string over the limit becomes two quotes without marks. C69_too_long_refuted: this is so for every string over the limit and every such configuration.

`rocq/theories/P_Collide.v:39`
```coq
Theorem C69_too_long_refuted : forall E o d b l n mx,
  mk_prep_config d = Ok d -> is_bpe d = false -> param d SPLIT <> lit "F" -> param d STR = create_str_value false mx ->
  (2 <= mx < 62)%Z \/ mx = maxsize -> (mx < n)%Z ->
  exists out m, to_repr E o d b [StringLiteral l n] = Ok (out, m) /\ length (slices (wb m) out) = 1%nat /\ length (regroup None out) = 2%nat.
```

`rocq/theories/P_Split.v:230`
```coq
Theorem C69_groups : forall E o d b l out m,
  mk_prep_config d = Ok d -> is_bpe d = false -> param d SPLIT <> lit "F" -> splitters_plain o ->
  Forall (plain_token E) (all_tokens l) -> strings_within d l ->
  to_repr E o d b l = Ok (out, m) ->
  Forall delimited (slices (wb m) out) /\ regroup None out = slices (wb m) out.
```

`rocq/theories/P_Split.v:407`
```coq
Theorem C69_text : forall E K o d b lexed l out m,
  ascii_classes K -> py_text E -> case_no_lt E -> lexer_no_marks lexed ->
  mk_prep_config d = Ok d -> is_bpe d = false -> param d SPLIT <> lit "F" -> splitters_plain o -> strings_within d l ->
  convert_text E K lexed = Ok l -> to_repr E o d b l = Ok (out, m) ->
  Forall delimited (slices (wb m) out) /\ regroup None out = slices (wb m) out.
```

`rocq/theories/P_Split.v:434`
```coq
Theorem C69_long_string_refuted : exists d l out m,
  mk_prep_config d = Ok d /\ is_bpe d = false /\ param d SPLIT <> lit "F" /\ Forall (plain_token ascii_case) (all_tokens l) /\
  to_repr ascii_case no_splitters d None l = Ok (out, m) /\ regroup None out <> slices (wb m) out.
```

## C70: Splitting with case marks is reversible

When words are split by identifier conventions (and marked for case), putting the subtokens of each full token together as the marks say gives the text of the token in the source.

*For*: every list of parsed tokens, every configuration that splits by conventions. *Status*: proved.

For splits 0, 1 and 2, and for 3 without lowercasing if the external splitter only cuts, when nothing is left out or replaced (keeps_all); C70_identifier states it from the source text of an identifier.

`rocq/theories/P_Split.v:611`
```coq
Theorem C70_tokens : forall E o d b l out m,
  mk_prep_config d = Ok d -> keeps_text o d -> keeps_all d l -> Forall (plain_token E) (all_tokens l) ->
  to_repr E o d b l = Ok (out, m) ->
  map (put_together E) (slices (wb m) out) = List.concat (map (leaf_texts E) l).
```

`rocq/theories/P_Split.v:675`
```coq
Theorem C70_identifier :
  forall E K G lo up o d b t (w : str),
  ascii_classes K -> words_not_blank K -> simple_case E K G lo up -> py_text E -> case_no_lt E ->
  mk_prep_config d = Ok d -> keeps_text o d -> keeps_all d [] ->
  type_in t ["Name"%string] = true -> w <> [] -> forallb (is_w K) w = true -> ~ number_literal w -> Forall G w ->
  forall l out m, convert_text E K [(t, w)] = Ok l -> to_repr E o d b l = Ok (out, m) -> put_together E out = w.
```

## C71: No visible character is lost in parsing

The parsed tokens of a text, written one after the other, are the text of the source with all white space left out.

*For*: every output of the lexer. *Status*: partial.

Not true of the code without restriction: proved for texts with a simple case whose numbers are in lower case (C71_spelling); C71_number_case_refuted: numbers are kept in lower case only. C71_case: for all numbers, character by character the same up to lower case.

`rocq/theories/P_KeepCase.v:230`
```coq
Theorem C71_case : forall E K G lo up lexed l,
  ascii_classes K -> simple_case E K G lo up -> blanks_ok K -> plain_case K G lo ->
  Forall (fun tv => Forall G (snd tv)) lexed -> convert_text E K lexed = Ok l ->
  lowered lo (visible K (List.concat (map snd lexed))) (visible K (spell E l)).
```

`rocq/theories/P_Source.v:151`
```coq
Theorem C71_spelling : forall E K G lo up lexed l,
  ascii_classes K -> spaces_blank K -> simple_case E K G lo up ->
  Forall (fun tv => Forall G (snd tv) /\ numbers_lower E K tv) lexed ->
  convert_text E K lexed = Ok l ->
  visible K (spell E l) = visible K (List.concat (map snd lexed)).
```

`rocq/theories/P_Source.v:166`
```coq
Theorem C71_number_case_refuted : exists lexed l,
  convert_text ascii_case ascii_K lexed = Ok l /\
  visible ascii_K (spell ascii_case l) <> visible ascii_K (List.concat (map snd lexed)).
```

## C72: Parsing keeps lines and indentation

There is exactly one newline token for every line end of the text, also in comments and strings; an indentation by blanks gives one tab token for each four of them, an indentation by tabs one for each tab, and neither touches the tokens around it.

*For*: every output of the lexer. *Status*: partial.

Not true of the code without restriction: proved if the lexer puts line ends into white-space tokens of their own and into no operator, punctuation, number or keyword (C72_lines), and tabs into tokens of their own (C72_tabs); indentation by blanks without such a condition (C72_indentation); C72_blank_lines_refuted: a white-space token of several line ends gives no newline at all; C72_tabs_refuted: several tabs in one token give fewer.

`rocq/theories/P_Source.v:265`
```coq
Theorem C72_lines : forall E K lexed l,
  ascii_classes K -> Forall (lines_apart K) lexed -> convert_text E K lexed = Ok l ->
  newlines l = line_ends (List.concat (map snd lexed)).
```

`rocq/theories/P_Source.v:277`
```coq
Theorem C72_blank_lines_refuted : forall E K t n, ascii_classes K -> spaces_blank K ->
  exists l, convert_text E K [(t, repeat 10%N (S (S n)))] = Ok l /\ newlines l = 0.
```

`rocq/theories/P_Source.v:312`
```coq
Theorem C72_indentation : forall E K before t k r after la lb,
  spaces_blank K -> r < 4 -> convert_text E K before = Ok la -> convert_text E K after = Ok lb ->
  convert_text E K (before ++ (t, repeat 32%N (4 * k + r)) :: after) = Ok (la ++ repeat Tab k ++ lb).
```

`rocq/theories/P_Source.v:322`
```coq
Theorem C72_tabs : forall E K before n t after la lb,
  convert_text E K before = Ok la -> convert_text E K after = Ok lb ->
  convert_text E K (before ++ repeat (t, [9%N]) n ++ after) = Ok (la ++ repeat Tab n ++ lb).
```

`rocq/theories/P_Source.v:334`
```coq
Theorem C72_tabs_refuted : forall E K t n, spaces_blank K -> 2 <= n ->
  exists l, convert_text E K [(t, repeat 9%N n)] = Ok l /\ length l < n.
```

## C73: Command line and API agree

A preprocessing command with any options does exactly what the API function of the same name does with these options, for a text and for a corpus: the same tokens are printed, the same call is made on the corpus, an invalid id of bpe codes is reported as an error message.

*For*: every command, every combination of options, every text and path, any state. *Status*: partial.

Not true of the code without restriction: proved for every command line fitting the usage texts with a non-empty text and a non-empty id (C73_text, C73_corpus); C73_empty_text_refuted: with an empty text the command preprocesses a corpus at path None instead. docopt is not modelled; preprocess and preprocess_corpus are arbitrary functions here.

`rocq/theories/P_Cli.v:109`
```coq
Theorem C73_text : forall W C prep prepc c o mx text (w : W),
  o_target o = OnText text -> text <> [] -> limit o mx -> usable c ->
  @handle_splitting W C prep prepc (parsed c o) w =
  let (r, w') := text_function prep c o mx text w in (seen_text r, w').
```

`rocq/theories/P_Cli.v:131`
```coq
Theorem C73_corpus : forall W C prep prepc c o mx path out (w : W),
  o_target o = OnPath path out -> limit o mx -> usable c ->
  @handle_splitting W C prep prepc (parsed c o) w =
  let (r, w') := corpus_function prepc c o mx path out w in (seen_corpus r, w').
```

`rocq/theories/P_Cli.v:153`
```coq
Theorem C73_empty_text_refuted : forall W C prep prepc c o mx d (w : W),
  o_target o = OnText [] -> limit o mx -> usable c -> config_for c o mx = Ok d ->
  @handle_splitting W C prep prepc (parsed c o) w =
  let (r, w') := prepc None d (codes_for c) (o_ext o) None (o_calc_vocab o) false w in (seen_corpus r, w').
```

`rocq/theories/P_Cli.v:167`
```coq
Theorem C73_limit : forall W C prep prepc c o s e (w : W),
  o_max o = Some s -> parse_int s = Err e ->
  @handle_splitting W C prep prepc (parsed c o) w = (Uncaught e, w).
```

## C74: append_eof only adds the end mark

Calling a text function with append_eof gives the same tokens and metadata followed by the end-of-file token, and fails exactly if it fails without.

*For*: every text, parser, configuration, bpe codes and earlier calls. *Status*: proved.

The end mark is one token of type SpecialToken; to_repr without changes of the bpe cache.

`rocq/theories/P_Eof.v:45`
```coq
Theorem C74_eof : forall E o parse dk g c out m,
  mk_prep_config (c_config c) = Ok (c_config c) ->
  fst (preprocess parse (plain_repr E o) dk g (set_eof c false)) = Ok (out, m) ->
  fst (preprocess parse (plain_repr E o) dk g (set_eof c true)) =
  Ok (out ++ [lit "<EOF>" ++ token_end (c_config c)],
      {| nonproc := nonproc m ++ [lit "<EOF>"]; wb := removelast (wb m) ++ [List.length out; S (List.length out)];
         types := types m ++ [CSpecialToken] |}).
```

`rocq/theories/P_Eof.v:65`
```coq
Theorem C74_fails : forall E o parse dk g c,
  mk_prep_config (c_config c) = Ok (c_config c) ->
  snd (preprocess parse (plain_repr E o) dk g (set_eof c true)) = snd (preprocess parse (plain_repr E o) dk g (set_eof c false)) /\
  ((exists r, fst (preprocess parse (plain_repr E o) dk g (set_eof c true)) = Ok r) <->
   (exists r, fst (preprocess parse (plain_repr E o) dk g (set_eof c false)) = Ok r)).
```

## C75: Learned bpe codes can be used

Every learn-bpe command succeeds, keeps everything learned before and the ids given before; afterwards its codes can be used with the id of its dataset and any number of merges up to the one asked for: exactly that many of the merges of this dataset are used, and the words of this dataset that are not to be split are kept whole.

*For*: every history of preprocessing and learning on any datasets and configurations, every order of listing the directories. *Status*: partial.

Not true of the code without restriction: proved for commands that run to their end, or are killed while learning for a dataset that has merges, with a supported configuration, a corpus with words to split, a name that is plain as a pattern and, if --id is given, an id no other dataset has (C75_learn, C75_usable); an id with more merges than the words allow is refused, which C75_usable says. C75_kept_refuted: the words that are not to be split are cached without the mark of the end of a word but looked up with it, so they are split like all others. C75_id_taken_refuted: --id is not checked against other datasets; C75_killed_refuted: the id of a dataset whose learning was interrupted is given away again; C75_id_refuted: after that --id is ignored. For all worlds and commands: C75_every_taken_id_refuted (an id that another dataset has leads to whichever is listed first), C75_every_id_ignored_refuted (--id has no effect on a dataset with an id).

`rocq/theories/P_IdTaken.v:62`
```coq
Theorem C75_every_taken_id_refuted : forall w k name' rd' (i : str),
  let name := bpe_dir_name (k_dir k) (k_conf k) in
  i <> [] -> strip i = i -> k_id k = Some i ->
  match dget (w_bpe w) name with Some r => r_id r | None => None end = None ->
  name' <> name -> dget (w_bpe w) name' = Some rd' -> codes_id strip (r_id rd', subdirs rd') = Some i ->
  let w' := snd (learn_bpe w k) in
  exists rd, dget (w_bpe w') name = Some rd /\
    forall rest, dataset_bpe_dir strip w' (name :: rest) i = Ok (name, rd) /\ dataset_bpe_dir strip w' (name' :: rest) i = Ok (name', rd').
```

`rocq/theories/P_IdTaken.v:86`
```coq
Theorem C75_every_id_ignored_refuted : forall w k r (i j : str),
  let name := bpe_dir_name (k_dir k) (k_conf k) in
  dget (w_bpe w) name = Some r -> i <> [] -> codes_id strip (r_id r, subdirs r) = Some i -> k_id k = Some j -> j <> i ->
  let w' := snd (learn_bpe w k) in
  (exists rd, dget (w_bpe w') name = Some rd /\ r_id rd = r_id r) /\ has_id strip w' i name = true /\ has_id strip w' j name = false.
```

`rocq/theories/P_Learned.v:541`
```coq
Theorem C75_learn w ks k r w' : history w ks -> good_cmd w k -> learn_bpe w k = (r, w') ->
  r = Ok tt /\ keeps w w' /\
  exists rd i, dget (w_bpe w') (bpe_dir_name (k_dir k) (k_conf k)) = Some rd /\ r_id rd = Some i /\ id_of_cmd w k i.
```

`rocq/theories/P_Learned.v:553`
```coq
Theorem C75_usable w ks k names packaged : history w ks -> In k ks -> Permutation names (dkeys (w_bpe w)) ->
  exists rd i nb,
    dget (w_bpe w) (bpe_dir_name (k_dir k) (k_conf k)) = Some rd /\ r_id rd = Some i /\
    load_vocab_set (snd (source (k_dir k) (base_config (k_conf k)))) = Ok nb /\
    forall m, 1 <= m <= k_n k ->
      (exists l v, greedy (characters (corpus_for (k_dir k) (k_conf k) nb)) l v /\ length l = m /\
                   uses (disk_of packaged w names) (i ++ dash :: dec (N.of_nat m)) (ml_of l) nb)
      \/ (exists l v, greedy (characters (corpus_for (k_dir k) (k_conf k) nb)) l v /\ length l < m /\
                      Forall (fun wf => length (fst wf) = 1) v /\
                      refused (disk_of packaged w names) (i ++ dash :: dec (N.of_nat m))).
```

`rocq/theories/P_Learned.v:730`
```coq
Theorem C75_id_taken_refuted :
  exists k1 k2 w names names' id,
    fst (ex_learn empty_world k1) = Ok tt /\ ex_learn (snd (ex_learn empty_world k1)) k2 = (Ok tt, w) /\
    k_dir k1 <> k_dir k2 /\ Permutation names (dkeys (w_bpe w)) /\ Permutation names' (dkeys (w_bpe w)) /\
    data_used w names id = Some ([(lit "a", lit "b")], []) /\ data_used w names' id = Some ([(lit "x", lit "y")], [lit "xyz"]).
```

`rocq/theories/P_Learned.v:746`
```coq
Theorem C75_killed_refuted :
  exists k1 k2 w names names' id,
    k_id k1 = None /\ k_id k2 = None /\ k_dir k1 <> k_dir k2 /\
    ex_learn (snd (ex_learn (ex_killed empty_world k1) k2)) k1 = (Ok tt, w) /\
    Permutation names (dkeys (w_bpe w)) /\ Permutation names' (dkeys (w_bpe w)) /\
    data_used w names id = Some ([(lit "a", lit "b")], []) /\ data_used w names' id = Some ([(lit "x", lit "y")], [lit "xyz"]).
```

`rocq/theories/P_Learned.v:763`
```coq
Theorem C75_id_refuted :
  exists k1 k2 w, k_id k2 = Some (lit "mine") /\ k_dir k1 = k_dir k2 /\
    ex_learn (ex_killed empty_world k1) k2 = (Ok tt, w) /\ data_used w (dkeys (w_bpe w)) "mine-1" = None /\
    data_used w (dkeys (w_bpe w)) "proj-1" <> None.
```

`rocq/theories/P_Loader.v:263`
```coq
Theorem C75_kept_refuted :
  (forall nb cache ml word, (forall u, dget cache u = if mem u nb then Some [u] else None) ->
     get_bpe_subwords {| bd_merges := ml; bd_cache := cache |} word =
     if mem (escape word true) nb then Ok [word] else get_bpe_subwords {| bd_merges := ml; bd_cache := [] |} word) /\
  exists cache ml,
    snd (preprocess (fun _ _ => Ok []) (fun _ _ g => (Ok ([], meta0), g))
           (disk_of ex_int ex_max ex_strip no_package ex_world (dkeys (w_bpe ex_world))) None (ex_call "proj_1-1"))
    = Some {| ob_cache := Some cache; ob_merges := Some ml |} /\
    vl_nonbpe ex_strip ex_world (dkeys (w_bpe ex_world)) (lit "proj_1") = Ok [lit "xyz"] /\
    get_bpe_subwords {| bd_merges := ml; bd_cache := cache |} (lit "xyz") = Ok [lit "xy"; lit "z"; []].
```

## C76: Strings and comments of the source are hidden as wholes

With no_str each string of the source text appears as exactly one placeholder, with no_com each comment does, with max_str_length each string with more characters than this (quotes included) appears as two quotes; what is before and after it is the same as if it were not there, and a limit that no string of the text exceeds changes nothing.

*For*: every output of the lexer, every configuration, every limit. *Status*: partial.

Not true of the code without restriction: proved for every lexer token of a string or comment that is not white space only, wherever it is (C76_no_str, C76_no_com, C76_too_long, C76_within). Where the lexer delivers a string as one token this is the property; C76_parts_refuted, C76_parts_long_refuted, C76_parts_blank_refuted: where it delivers the quotes and the content as tokens of their own, as Python's does, each part gets its placeholder and its own length, and white space between quotes is not hidden. C76_every_part_refuted: so for every string in any number of parts; C76_blank_part_refuted: so for every part that is white space.

`rocq/theories/P_StringParts.v:21`
```coq
Theorem C76_every_part_refuted : forall E K o d b parts,
  ascii_classes K -> py_text E -> spaces_blank K -> mk_prep_config d = Ok d -> param d STR = create_str_value true 0 ->
  Forall (string_part K) parts ->
  exists l m, convert_text E K parts = Ok l /\ to_repr E o d b l = Ok (repeat (end_mark d (lit "<str-literal>")) (List.length parts), m).
```

`rocq/theories/P_StringParts.v:38`
```coq
Theorem C76_blank_part_refuted : forall E K pre post t t' v,
  blank K v = true -> convert_text E K (pre ++ (t, v) :: post) = convert_text E K (pre ++ (t', v) :: post).
```

`rocq/theories/P_Strings.v:61`
```coq
Theorem C76_no_str : forall E K o d b tv,
  ascii_classes K -> py_text E -> spaces_blank K -> string_part K tv -> mk_prep_config d = Ok d -> param d STR = create_str_value true 0 ->
  appears E K o d b tv [end_mark d (lit "<str-literal>")].
```

`rocq/theories/P_Strings.v:71`
```coq
Theorem C76_no_com : forall E K o d b tv,
  ascii_classes K -> py_text E -> spaces_blank K -> comment_part K tv -> mk_prep_config d = Ok d -> param d COM = lit "0" ->
  appears E K o d b tv [end_mark d (lit "<comment>")].
```

`rocq/theories/P_Strings.v:85`
```coq
Theorem C76_too_long : forall E K o d b tv mx,
  ascii_classes K -> py_text E -> spaces_blank K -> string_part K tv -> mk_prep_config d = Ok d -> param d STR = create_str_value false mx ->
  (2 <= mx < 62)%Z \/ mx = maxsize -> (mx < Z.of_nat (length (snd tv)))%Z ->
  appears E K o d b tv (if param_in d SPLIT "F" then [lit """"""] else [lit """"; end_mark d (lit """")]).
```

`rocq/theories/P_Strings.v:137`
```coq
Theorem C76_within : forall E K o d b lexed l mx,
  ascii_classes K -> py_text E -> mk_prep_config d = Ok d -> (2 <= mx < 62)%Z \/ mx = maxsize ->
  (forall t v, In (t, v) lexed -> type_in t ["Literal"; "String"]%string = true -> (Z.of_nat (length v) <= mx)%Z) ->
  convert_text E K lexed = Ok l ->
  to_repr E o (dset d STR (create_str_value false mx)) b l = to_repr E o (dset d STR (create_str_value false maxsize)) b l.
```

`rocq/theories/P_Strings.v:164`
```coq
Theorem C76_parts_refuted : exists body,
  Forall (string_part ascii_K) (python_string body) /\
  show_source "Uc00su" (python_string body) = map lit ["<str-literal>"; "<str-literal>"; "<str-literal>"]%string.
```

`rocq/theories/P_Strings.v:174`
```coq
Theorem C76_parts_long_refuted : exists body,
  (5 < Z.of_nat (length (List.concat (map snd (python_string body)))))%Z /\
  show_source "Uc50su" (python_string body) = map lit ["'"; "abcd"; "'"]%string.
```

`rocq/theories/P_Strings.v:181`
```coq
Theorem C76_parts_blank_refuted : exists body,
  show_source "Uc00su" (python_string body) = [lit "<str-literal>"; s_tab; lit "<str-literal>"].
```

## C77: Vocabularies can be loaded by the id of the codes

With the id of learned codes one gets the vocabulary of the dataset they were learned from, its words that are not to be split, the vocabulary without these, and for any number of merges the codes can be used with the subwords the words are split into, each with its number of occurrences, the most frequent first; preprocessing with these codes splits the words into the same subwords. The merges themselves can be loaded too: the first n of those learned, for every n a list of at least n merges was learned for.

*For*: every history of preprocessing and learning, every id, every number of merges, every word. *Status*: partial.

Not true of the code without restriction: proved for histories as in C75 (C77_vocabularies, C77_bpe), with the parts of words as preprocessing makes them (C77_used); C77_merges: load_bpe_merges gives the first n merges; C77_number_refuted: the vocabulary of subwords is there only for the numbers of merges that were learned, not for the smaller ones that can be used; C77_no_vocabulary: for codes whose vocabulary was never made, because learning was killed or refused, every one of these is an error; words that are not to be split are counted as wholes although preprocessing splits them (C75_kept_refuted).

`rocq/theories/P_Loader.v:102`
```coq
Theorem C77_vocabularies w ks k names : history w ks -> In k ks -> Permutation names (dkeys (w_bpe w)) ->
  exists rd i nb base,
    dget (w_bpe w) (bpe_dir_name (k_dir k) (k_conf k)) = Some rd /\ r_id rd = Some i /\
    load_vocab_set (snd (source (k_dir k) (base_config (k_conf k)))) = Ok nb /\
    vl_all strip w names i = Ok (vocab_of k) /\ vl_nonbpe strip w names i = Ok nb /\ vl_base strip w names i = Ok base /\
    forall word, dget base word = if mem word nb then None else dget (vocab_of k) word.
```

`rocq/theories/P_Loader.v:129`
```coq
Theorem C77_bpe w ks k names : history w ks -> In k ks -> Permutation names (dkeys (w_bpe w)) ->
  exists rd i nb,
    dget (w_bpe w) (bpe_dir_name (k_dir k) (k_conf k)) = Some rd /\ r_id rd = Some i /\
    load_vocab_set (snd (source (k_dir k) (base_config (k_conf k)))) = Ok nb /\
    (forall m, In m (dkeys (r_lists rd)) ->
       exists l v r, greedy (characters (corpus_for source (k_dir k) (k_conf k) nb)) l v /\ length l = m /\
         vl_bpe strip w names i m = Ok r /\ descending r /\
         forall x,
           ((exists word n parts, In (word, n) (vocab_of k) /\ parts_of (ml_of l) nb word = Ok parts /\ In x parts) ->
            dget r x = Some (part_count (ml_of l) nb x (vocab_of k))) /\
           (~ (exists word n parts, In (word, n) (vocab_of k) /\ parts_of (ml_of l) nb word = Ok parts /\ In x parts) ->
            dget r x = None)) /\
    (exists l v, greedy (characters (corpus_for source (k_dir k) (k_conf k) nb)) l v /\ In (length l) (dkeys (r_lists rd)) /\
       (length l = k_n k \/ length l < k_n k /\ Forall (fun wf => length (fst wf) = 1) v)) /\
    (forall m, ~ In m (dkeys (r_lists rd)) -> vl_bpe strip w names i m = Err ValueError).
```

`rocq/theories/P_Loader.v:171`
```coq
Theorem C77_merges w ks k names : history w ks -> In k ks -> Permutation names (dkeys (w_bpe w)) ->
  exists rd i nb,
    dget (w_bpe w) (bpe_dir_name (k_dir k) (k_conf k)) = Some rd /\ r_id rd = Some i /\
    load_vocab_set (snd (source (k_dir k) (base_config (k_conf k)))) = Ok nb /\
    (forall m, 1 <= m -> (exists j, In j (dkeys (r_lists rd)) /\ m <= j) ->
       exists l v, greedy (characters (corpus_for source (k_dir k) (k_conf k) nb)) l v /\ length l = m /\
                   load_bpe_merges py_int maxsize strip w names i m = Ok (ml_of l)) /\
    (forall m, (forall j, In j (dkeys (r_lists rd)) -> j < m) -> load_bpe_merges py_int maxsize strip w names i m = Err ValueError) /\
    (~ In 0 (dkeys (r_lists rd)) ->
       exists l v, greedy (characters (corpus_for source (k_dir k) (k_conf k) nb)) l v /\ In (length l) (dkeys (r_lists rd)) /\
                   (forall j, In j (dkeys (r_lists rd)) -> length l <= j) /\
                   load_bpe_merges py_int maxsize strip w names i 0 = Ok (ml_of l)).
```

`rocq/theories/P_Loader.v:240`
```coq
Theorem C77_used nb cache c l v word n :
  corpus_ok c -> greedy (characters c) l v -> nonbpe c = nb ->
  (forall u, dget cache u = if mem u nb then Some [u] else None) ->
  In (word, n) (all_vocab c) -> mem word nb = false -> mem (escape word true) nb = false ->
  exists parts ws, parts_of (ml_of l) nb word = Ok parts /\ unescape parts = Ok ws /\ List.concat ws = word /\
    get_bpe_subwords {| bd_merges := ml_of l; bd_cache := cache |} word = Ok ws.
```

`rocq/theories/P_Loader.v:282`
```coq
Theorem C77_number_refuted :
  let names := dkeys (w_bpe ex_world) in
  data_used ex_world names "proj-1" <> None /\ vl_bpe ex_strip ex_world names (lit "proj") 1 = Err ValueError /\
  data_used ex_world names "proj-2" <> None /\ exists r, vl_bpe ex_strip ex_world names (lit "proj") 2 = Ok r.
```

`rocq/theories/P_NoVocab.v:9`
```coq
Theorem C77_no_vocabulary : forall py_int maxsize strip w names d c rd i,
  bc_valid c = true -> contains (lit "_-_") (d ++ lit "_") = false ->
  In (bpe_dir_name d c) names -> dget (w_bpe w) (bpe_dir_name d c) = Some rd ->
  i <> [] -> codes_id strip (r_id rd, subdirs rd) = Some i ->
  (forall name rd', In name names -> dget (w_bpe w) name = Some rd' -> codes_id strip (r_id rd', subdirs rd') = Some i -> name = bpe_dir_name d c) ->
  dget (w_vocab w) (vocab_dir_name d c) = None ->
  vl_all strip w names i = Err FileNotFoundError /\ vl_nonbpe strip w names i = Err FileNotFoundError /\
  vl_base strip w names i = Err FileNotFoundError /\
  dk_nonbpe (disk_of py_int maxsize strip no_package w names) i = Err FileNotFoundError /\
  (r_lists rd = [] -> forall n, vl_bpe strip w names i n = Err ValueError /\ exists e, load_bpe_merges py_int maxsize strip w names i n = Err e).
```

## C78: Learning works on words as strings

Although learning keeps every word as one string with spaces between its symbols and finds the pair to merge with a regular expression, it merges exactly the pairs of neighbouring whole symbols, from left to right, whatever characters the words have (also those with a meaning in regular expressions); the merges, the saved files and their order are those of textbook learning on lists of symbols.

*For*: every word and pair, every corpus, every number of merges and sequence of learn-bpe runs. *Status*: proved.

For words that do not end with a line feed, which is so for every word the program learns from as they end with '@' (C78_greedy and C78_runs have no such condition); C78_line_feed_refuted shows what the regular expression does otherwise.

`rocq/theories/P_LearnStr.v:115`
```coq
Theorem C78_word a b word f :
  a <> [] -> b <> [] -> no_char 32 a -> no_char 32 b ->
  Forall (fun x => x <> []) (split_on 32 word) -> last word 0%N <> 10%N ->
  exists ds, s_merge_word (S (length word)) (a, b) f word
             = Ok (join (lit " ") (merge_pair (a, b) (split_on 32 word)), ds).
```

`rocq/theories/P_LearnStr.v:135`
```coq
Theorem C78_greedy base l0 v n :
  corpus_state base l0 v ->
  exists l v' ml,
    s_do_merges (spaced v) n = Ok (spaced v', ml) /\ do_merges v n = Ok (v', ml)
    /\ greedy v l v' /\ recorded ml = map (fun pn => (fst pn, Some (snd pn))) l.
```

`rocq/theories/P_LearnStr.v:147`
```coq
Theorem C78_runs py_int c ns n :
  (forall k, py_int (dec k) = Some (Z.of_N k)) -> corpus_ok c ->
  fold_left (s_run py_int c) ns [] = runs py_int c ns
  /\ s_learn py_int c (runs py_int c ns) n = learn py_int c (runs py_int c ns) n
  /\ exists l v d, greedy (characters c) l v /\ length l <= n
       /\ (length l < n -> Forall (fun wf => length (fst wf) = 1) v)
       /\ dget (fold_left (s_run py_int c) (ns ++ [n]) []) (length l) = Some d /\ has_results c l v d.
```

`rocq/theories/P_LearnStr.v:166`
```coq
Theorem C78_line_feed_refuted :
  let word := lit "a b" ++ [10%N] in
  split_on 32 word = [lit "a"; lit "b" ++ [10%N]]
  /\ s_get_stats [(word, 1%Z)] = [((lit "a", lit "b" ++ [10%N]), 1%Z)]
  /\ exists ds, s_merge_vocab (lit "a", lit "b") [(word, 1%Z)] = Ok ([(lit "ab" ++ [10%N], 1%Z)], ds).
```

## C79: A merging process that ends too early makes no vocabulary wrong

Single processes of the vocabulary computation may end too early (a wait for a queue times out, an error, killed alone) while the others go on. A vocabulary file that is written to its end nevertheless has the exact counts, and the size file the exact size. If a process is lost while merges are going on, this run writes no vocabulary at all; running the command again, any number of times and with further losses, can always be finished from what is left, with the right vocabulary.

*For*: every corpus, number of processes and schedule, every sequence of losses, kills and restarts. *Status*: proved.

C79_restart requires that no vocabulary file was begun (C45_refuted otherwise), and that reading a truncated pickle raises EOFError (C44_truncated_refuted otherwise). A process that dies while it holds the lock of a queue is not modelled.

`rocq/theories/P_Losses.v:243`
```coq
Theorem C79_never_wrong max_groups n_chunks files d ready size text : max_groups <> 0 -> n_chunks <> 0 ->
  reachable_lossy max_groups n_chunks files (Down d ready size (Full text)) ->
  exists c, text = write_vocab c /\ counts_exactly c (corpus_tokens files)
    /\ size = Full (Z.of_nat (length (nodup str_dec (corpus_tokens files)))).
```

`rocq/theories/P_Losses.v:256`
```coq
Theorem C79_restart max_groups n_chunks files d ready size n : max_groups <> 0 -> n_chunks <> 0 -> files <> [] -> 1 <= n ->
  reachable_lossy max_groups n_chunks files (Down d ready size Absent) ->
  exists r k r' c, sys max_groups n_chunks files (Down d ready size Absent) (Up r) /\ length (r_procs r) = n /\ steps k r r'
    /\ sh_vocab (r_shared r') = Full (write_vocab c) /\ counts_exactly c (corpus_tokens files).
```

`rocq/theories/P_Losses.v:353`
```coq
Theorem C79_one_lost max_groups n_chunks files chunks sh l1 p l2 r' : max_groups <> 0 -> n_chunks <> 0 ->
  reachable max_groups n_chunks files (Up {| r_chunks := chunks; r_shared := sh; r_procs := l1 ++ p :: l2 |}) -> working p ->
  goes_on max_groups n_chunks files {| r_chunks := chunks; r_shared := sh; r_procs := l1 ++ PDone false :: l2 |} r' ->
  sh_vocab (r_shared r') = Absent.
```

## C80: The corpus size is right whoever computes it

get_corpus_size returns the number of tokens of the preprocessed corpus, also if it was called before, if an earlier call was killed, and if several programs call it for the same corpus at the same time.

*For*: every corpus, every number of callers, every interleaving, every sequence of kills. *Status*: partial.

Not true of the code without restriction: a number that is returned is right in all histories (C80_never_wrong), and calls one after the other that are not killed always return it (C80_one_by_one); C80_killed_refuted with C80_killed_reachable: after a kill between opening and writing the size file every later call raises ValueError; C80_at_the_same_time_refuted: so can a call at the same time as another one.

`rocq/theories/P_SizeFile.v:53`
```coq
Theorem C80_never_wrong s r : size_reach files s -> In (SDone r) (s_procs s) ->
  r = Ok (Z.of_nat (length (corpus_tokens files))) \/ r = Err ValueError.
```

`rocq/theories/P_SizeFile.v:87`
```coq
Theorem C80_one_by_one f l : one_by_one f l -> Forall (fun r => r = Ok (Z.of_nat (length (corpus_tokens files)))) l.
```

`rocq/theories/P_SizeFile.v:99`
```coq
Theorem C80_killed_refuted l s : (forall p, In p l -> p = SKilled) -> later {| s_file := Some []; s_procs := l |} s ->
  s_file s = Some [] /\ forall r, In (SDone r) (s_procs s) -> r = Err ValueError.
```

`rocq/theories/P_SizeFile.v:120`
```coq
Theorem C80_killed_reachable : size_reach files {| s_file := Some []; s_procs := [SKilled] |}.
```

`rocq/theories/P_SizeFile.v:131`
```coq
Theorem C80_at_the_same_time_refuted : exists s, size_reach files s /\
  s_procs s = [SDone (Err ValueError); SDone (Ok (Z.of_nat (length (corpus_tokens files))))].
```

## C81: Suppressed caching gives the same results and computes them anew

Calls with suppress_caching=True and without it on the same dataset, in any order and interrupted anywhere, end with all files preprocessed and right; a call with suppress_caching=True computes its files itself and leaves nothing that a later call takes for its result.

*For*: every dataset and configuration, every sequence of calls, every point of interruption. *Status*: partial.

Not true of the code without restriction: the results are right in all mixtures of runs (C81_result); C81_reused_refuted: after a run that ended regularly, no later run computes anything, whether caching was suppressed or not: the preprocessed dataset is marked as finished in any case, and parsed files that are there are skipped.

`rocq/theories/P_Pipeline.v:802`
```coq
Theorem C81_reused_refuted s s1 s2 : reach_mod s -> ph s = Done -> restart s s1 -> run s1 s2 ->
  (forall i, i < n -> dest (parsed s2) i = dest (parsed s) i /\ (wk s2 i = Idle \/ wk s2 i = Finished \/ ph s2 = Start \/ ph s2 = PrepCheck \/ ph s2 = Done))
  /\ prep s2 = prep s /\ nonbpe s2 = nonbpe s /\ ph s2 <> Prepping /\ ph s2 <> Gathering.
```

`rocq/theories/P_Pipeline.v:846`
```coq
Theorem C81_result s i : reach_mod s -> ph s = Done -> i < n ->
  (mark (parsed s) = None \/ mark (parsed s) = Some (Some (stamp (parsed s)))) /\ mark (prep s) = Some (Some (stamp (prep s))) /\
  exists x, src i = Some x /\ dest (parsed s) i = Full (parse x) /\ dest (prep s) i = Full (repr (parse x)).
```

## C82: Commands for the same dataset do not disturb each other

Commands that preprocess the same dataset with the same configuration may be started at any time, also while others are working on it, and any of them may be killed. No command fails because of the others; whenever an output file is there, it is complete and right; and when all commands have ended, it is there.

*For*: every content, every number of commands and start times, every interleaving of their file operations down to single bytes, every sequence of kills. *Status*: partial.

Not true of the code without restriction: if no command is killed, the file is there and right when all have ended (C82_finally); one command after the other, with kills, never leaves a wrong file and never fails (C82_one_by_one). As all commands use the same temporary file: C82_error_refuted: one of two commands ends with FileNotFoundError; C82_complete_refuted: when a command has ended regularly its output can be empty; C82_forever_refuted: if the other one is killed then, it stays empty, and later commands take it for finished.

`rocq/theories/P_Together.v:145`
```coq
Theorem C82_finally s : c_unkilled text s -> c_procs s <> [] -> (forall p, In p (c_procs s) -> c_over p) ->
  exists j, c_dest s = Some j /\ c_data s j = text.
```

`rocq/theories/P_Together.v:282`
```coq
Theorem C82_one_by_one s : c_one_by_one text s ->
  (forall j, c_dest s = Some j -> c_data s j = text) /\ ~ In (CEnded false) (c_procs s).
```

`rocq/theories/P_Together.v:321`
```coq
Theorem C82_error_refuted : exists s, c_unkilled text s /\ c_procs s = [CEnded true; CEnded false].
```

`rocq/theories/P_Together.v:335`
```coq
Theorem C82_complete_refuted : text <> [] ->
  exists s j, c_unkilled text s /\ In (CEnded true) (c_procs s) /\ c_dest s = Some j /\ c_data s j = [] /\ c_data s j <> text.
```

`rocq/theories/P_Together.v:343`
```coq
Theorem C82_forever_refuted : text <> [] ->
  exists s j, c_reach text s /\ (forall p, In p (c_procs s) -> c_over p) /\
    forall s', c_later text s s' -> c_dest s' = Some j /\ c_data s' j = [] /\ c_data s' j <> text.
```

## C83: All stages use the same complete list of files

Every stage of a command (parsing, preprocessing, vocabulary, iterating over the corpus) works on a complete list of the files of the dataset, and all stages, also of later commands for the same state of the dataset, work on the same list: also when files come or go while the command is running, when earlier scans were killed or broken off, when caching is suppressed, and when another command works on the same dataset.

*For*: every dataset and every sequence of its changes, every sequence of calls, kills and broken-off scans, every interleaving. *Status*: partial.

Not true of the code without restriction: for calls one after the other, with kills, broken-off scans and changes of the dataset at any time: a list that is used is complete (C83_complete, C83_exact), and once it is marked all later calls use it (C83_same). C83_suppressed_refuted: with suppress_caching every stage scans anew, and preprocessing can meet a file that was not parsed. C83_at_the_same_time_refuted: a second command can empty a list that has just been marked in the same second; the next stage of the first one then has no files at all.

`rocq/theories/P_FileList.v:154`
```coq
Theorem C83_complete : forall now ds s l,
  f_seq true (f_init now ds) s -> In (FDone (Some l)) (l_procs s) -> In l (l_walks s).
```

`rocq/theories/P_FileList.v:185`
```coq
Theorem C83_exact : forall now ds s l,
  f_seq false (f_init now ds) s -> In (FDone (Some l)) (l_procs s) -> l = ds.
```

`rocq/theories/P_FileList.v:193`
```coq
Theorem C83_same : forall now ds s m,
  f_seq true (f_init now ds) s -> l_mark s = Some (Some m) -> f_all_done s ->
  exists l, In l (l_walks s) /\
  forall s', f_seq true s s' -> forall k p, nth_error (l_procs s') k = Some p -> length (l_procs s) <= k ->
    p = FDone (Some l) \/ p = FDone None \/ exists c, p = FStart c.
```

`rocq/theories/P_FileList.v:247`
```coq
Theorem C83_suppressed_refuted : forall now (f : str),
  exists s, f_seq true (f_init now []) s /\ l_mark s = None /\ l_procs s = [FDone (Some []); FDone (Some [f])].
```

`rocq/theories/P_FileList.v:267`
```coq
Theorem C83_at_the_same_time_refuted : forall now (f : str),
  exists s, f_par (f_init now [f]) s /\ l_ds s = [f] /\ l_procs s = [FDone (Some [f]); FScanning true [] [f]; FDone (Some [])].
```

## C84: BPE over a whole text follows the textbook

run_from_text(text, n) yields, step after step, the pair of neighbouring symbols that occurs most often (the one that comes first in the text if several do) and the number of times it is merged when every occurrence is merged from left to right; it stops after n merges or when the text is a single symbol; the indices it keeps for speed and the order in which Python goes through its sets have no influence; asking for fewer merges gives the first ones.

*For*: every text, every number of merges, every order of the sets. *Status*: partial.

Not true of the code without restriction: proved for all non-empty texts without blanks (C84_greedy, C84_same, C84_whole, C84_prefix). C84_blank_refuted: with blanks it fails or merges wrong pairs, as a pair is a string with a blank in between and run_from_text does not replace blanks; C84_empty_refuted: an empty text is a RuntimeError. Most often means: counting overlapping occurrences; the pair chosen need not be merged most often (C84_most_refuted).

`rocq/theories/P_WildRun.v:37`
```coq
Theorem C84_greedy : forall ord text n, (forall l, Permutation (ord l) l) -> text <> [] -> no_char blank text ->
  exists out s', run_from_text ord text n = (out, None) /\ bpe_text (chars text) out s' /\ List.concat s' = text /\
    (length out <= n)%nat /\ (length out = n \/ s' = [text]).
```

`rocq/theories/P_WildRun.v:53`
```coq
Theorem C84_same : forall ord ord' text n, (forall l, Permutation (ord l) l) -> (forall l, Permutation (ord' l) l) -> no_char blank text ->
  run_from_text ord text n = run_from_text ord' text n.
```

`rocq/theories/P_WildRun.v:66`
```coq
Theorem C84_whole : forall ord text n, (forall l, Permutation (ord l) l) -> text <> [] -> no_char blank text -> (length text <= n)%nat ->
  exists out, run_from_text ord text n = (out, None) /\ bpe_text (chars text) out [text] /\ (length out < length text)%nat.
```

`rocq/theories/P_WildRun.v:86`
```coq
Theorem C84_prefix : forall ord text n m, (forall l, Permutation (ord l) l) -> no_char blank text -> text <> [] -> (n <= m)%nat ->
  fst (run_from_text ord text n) = firstn n (fst (run_from_text ord text m)).
```

`rocq/theories/P_WildRun.v:111`
```coq
Theorem C84_blank_refuted : exists ord text text', (forall l, Permutation (ord l) l) /\
  snd (run_from_text ord text 10) = Some AssertionError /\
  (exists out, run_from_text ord text' 10 = (out, None) /\ forall s', ~ bpe_text (chars text') out s').
```

`rocq/theories/P_WildRun.v:127`
```coq
Theorem C84_empty_refuted : forall ord n, run_from_text ord [] n = ([], Some RuntimeError).
```

`rocq/theories/P_WildRun.v:131`
```coq
Theorem C84_most_refuted : exists ord text p n q m, (forall l, Permutation (ord l) l) /\ no_char blank text /\
  run_from_text ord text 2 = ([(p, n); (q, m)], None) /\ (n < m)%Z.
```

## C85: Files are read once for BPE over whole texts

run_from_file and run_from_dir work on the characters of the files as they are, each once, in UTF-8 if the file is UTF-8 and one character per byte otherwise, with blanks replaced so that pairs can be told apart; on every file and directory they yield the merges of the textbook algorithm for this text.

*For*: every content of files, every division of it into chunks read, every number of merges, every order of the sets. *Status*: partial.

Not true of the code without restriction: the merges are those of the textbook for the characters read (C85_file, C85_dir); a UTF-8 file, or one whose first chunk shows that it is not, is read as it is (C85_text). C85_twice, C85_refuted: if the error shows later, what was read before is there twice, and a short ISO-8859-1 file with an accented letter at its end suffices for that; C85_empty_refuted: an empty file or a directory without Python files is a RuntimeError.

`rocq/theories/P_WildRun.v:253`
```coq
Theorem C85_text : forall chunks chars text, holds (List.concat chunks) chars -> newlines chars text ->
  (exists t, valid_str t /\ utf8 t = Ok (List.concat chunks)) \/
  (exists c0 rest, chunks = c0 :: rest /\ forall more t, valid_str t -> utf8 t <> Ok (c0 ++ more)) ->
  chars_of_file chunks = no_blanks text.
```

`rocq/theories/P_WildRun.v:279`
```coq
Theorem C85_twice : forall c0 rest t text, valid_str t -> utf8 t = Ok c0 -> no_char 13%N t ->
  (forall u, valid_str u -> utf8 u <> Ok (c0 ++ List.concat rest)) -> newlines (c0 ++ List.concat rest) text ->
  exists more, chars_of_file (c0 :: rest) = no_blanks (t ++ more) ++ no_blanks text.
```

`rocq/theories/P_WildRun.v:317`
```coq
Theorem C85_refuted : exists chunks chars text, holds (List.concat chunks) chars /\ newlines chars text /\
  length chunks = 1%nat /\ chars_of_file chunks = lit "caf" ++ no_blanks text /\ chars_of_file chunks <> no_blanks text.
```

`rocq/theories/P_WildRun.v:344`
```coq
Theorem C85_file : forall ord chunks n, (forall l, Permutation (ord l) l) -> List.concat chunks <> [] ->
  exists out s', run_from_file ord chunks n = (out, None) /\ bpe_text (chars (chars_of_file chunks)) out s' /\
    (length out <= n)%nat /\ (length out = n \/ s' = [chars_of_file chunks]).
```

`rocq/theories/P_WildRun.v:353`
```coq
Theorem C85_dir : forall ord files n, (forall l, Permutation (ord l) l) -> (exists stem chunks, In (stem ++ lit ".py", chunks) files) ->
  exists out s', run_from_dir ord files n = (out, None) /\ bpe_text (chars (chars_of_dir files)) out s' /\
    (length out <= n)%nat /\ (length out = n \/ s' = [chars_of_dir files]).
```

`rocq/theories/P_WildRun.v:369`
```coq
Theorem C85_empty_refuted : forall ord n, run_from_file ord [] n = ([], Some RuntimeError) /\
  (forall files, (forall name c, In (name, c) files -> ends_with (lit ".py") name = false) -> run_from_dir ord files n = ([], Some RuntimeError)).
```

## C86: Every visible character of the source is in the output

If comments, strings and non-English words are not replaced, the visible characters of the source, in their order, are those of the output: of the tokens as they are with nosplit; of the tokens after joining their parts and removing the end mark with bpe and chars; of the tokens after reading the word and case marks with basic and ronin (the mark <EOL> after one-line comments left out). So two texts that differ in a visible character never give the same tokens and word boundaries.

*For*: every source text, every lexer, every splitting, every list of merges and content of the BPE cache. *Status*: partial.

Not true of the code without restriction: proved from the tokens of the lexer to the output, for words whose characters have simple case, numbers in lower case, no token of the lexer that looks like a mark, and ronin only if its splitter keeps the text (C86_nosplit, C86_bpe, C86_basic, C86_differ). C86_number_case_refuted: numbers are put into lower case, so 0xFFL and 0xffl become the same. Words without simple case: C10. C86_nosplit_case, C86_bpe_case, C86_basic_case: without any condition on numbers every visible character of the source is there, in order, as it is or in lower case; C86_differ_case: texts with the same tokens and word boundaries differ in nothing visible but case.

`rocq/theories/P_Keep.v:266`
```coq
Theorem C86_nosplit : forall E K G lo up o d b lexed l out m,
  ascii_classes K -> simple_case E K G lo up -> blanks_ok K -> source_ok E K G lexed ->
  param d SPLIT = lit "F" -> keeps_all d l ->
  convert_text E K lexed = Ok l -> to_repr E o d b l = Ok (out, m) ->
  visible K (written out) = visible K (List.concat (map snd lexed)).
```

`rocq/theories/P_Keep.v:279`
```coq
Theorem C86_bpe : forall E K G lo up o d b merges lexed l out m,
  ascii_classes K -> simple_case E K G lo up -> blanks_ok K -> source_ok E K G lexed -> py_text E -> lexer_ok lexed ->
  usable b merges -> is_bpe d = true -> keeps_all d l ->
  convert_text E K lexed = Ok l -> to_repr E o d (Some b) l = Ok (out, m) ->
  exists texts, map (@List.concat N) (slices (wb m) out) = map (fun t => t ++ lit "</t>") texts /\
    List.concat (slices (wb m) out) = out /\
    visible K (written texts) = visible K (List.concat (map snd lexed)).
```

`rocq/theories/P_Keep.v:298`
```coq
Theorem C86_basic : forall E K G lo up o d b lexed l out m,
  ascii_classes K -> simple_case E K G lo up -> blanks_ok K -> source_ok E K G lexed -> py_text E -> case_no_lt E -> lexer_no_marks lexed ->
  mk_prep_config d = Ok d -> keeps_text o d -> keeps_all d l ->
  convert_text E K lexed = Ok l -> to_repr E o d b l = Ok (out, m) ->
  visible K (written (map (put_together E) (slices (wb m) out))) = visible K (List.concat (map snd lexed)).
```

`rocq/theories/P_Keep.v:311`
```coq
Theorem C86_differ : forall E K G lo up o d b merges lexed1 lexed2 l1 l2 out m,
  ascii_classes K -> simple_case E K G lo up -> blanks_ok K -> py_text E -> case_no_lt E ->
  source_ok E K G lexed1 -> source_ok E K G lexed2 -> lexer_no_marks lexed1 -> lexer_no_marks lexed2 -> lexer_ok lexed1 -> lexer_ok lexed2 ->
  param d SPLIT = lit "F" \/ (is_bpe d = true /\ usable b merges) \/ (mk_prep_config d = Ok d /\ keeps_text o d) ->
  keeps_all d l1 -> keeps_all d l2 ->
  convert_text E K lexed1 = Ok l1 -> convert_text E K lexed2 = Ok l2 ->
  to_repr E o d (Some b) l1 = Ok (out, m) -> to_repr E o d (Some b) l2 = Ok (out, m) ->
  visible K (List.concat (map snd lexed1)) = visible K (List.concat (map snd lexed2)).
```

`rocq/theories/P_Keep.v:335`
```coq
Theorem C86_number_case_refuted : forall E K o d b, lower E (lit "0xFFL") = lit "0xffl" -> lower E (lit "0xffl") = lit "0xffl" ->
  is_blank K 48 = false ->
  exists lexed1 lexed2 l1 l2, map fst lexed1 = map fst lexed2 /\ List.concat (map snd lexed1) <> List.concat (map snd lexed2) /\
  convert_text E K lexed1 = Ok l1 /\ convert_text E K lexed2 = Ok l2 /\ to_repr E o d b l1 = to_repr E o d b l2.
```

`rocq/theories/P_KeepCase.v:238`
```coq
Theorem C86_nosplit_case : forall E K G lo up o d b lexed l out m,
  ascii_classes K -> simple_case E K G lo up -> blanks_ok K -> plain_case K G lo -> source_any K G lexed ->
  param d SPLIT = lit "F" -> keeps_all d l ->
  convert_text E K lexed = Ok l -> to_repr E o d b l = Ok (out, m) ->
  lowered lo (visible K (List.concat (map snd lexed))) (visible K (written out)).
```

`rocq/theories/P_KeepCase.v:250`
```coq
Theorem C86_bpe_case : forall E K G lo up o d b merges lexed l out m,
  ascii_classes K -> simple_case E K G lo up -> blanks_ok K -> plain_case K G lo -> source_any K G lexed -> py_text E -> lexer_ok lexed ->
  usable b merges -> is_bpe d = true -> keeps_all d l ->
  convert_text E K lexed = Ok l -> to_repr E o d (Some b) l = Ok (out, m) ->
  exists texts, map (@List.concat N) (slices (wb m) out) = map (fun t => t ++ lit "</t>") texts /\
    List.concat (slices (wb m) out) = out /\
    lowered lo (visible K (List.concat (map snd lexed))) (visible K (written texts)).
```

`rocq/theories/P_KeepCase.v:268`
```coq
Theorem C86_basic_case : forall E K G lo up o d b lexed l out m,
  ascii_classes K -> simple_case E K G lo up -> blanks_ok K -> plain_case K G lo -> source_any K G lexed ->
  py_text E -> case_no_lt E -> lexer_no_marks lexed ->
  mk_prep_config d = Ok d -> keeps_text o d -> keeps_all d l ->
  convert_text E K lexed = Ok l -> to_repr E o d b l = Ok (out, m) ->
  lowered lo (visible K (List.concat (map snd lexed))) (visible K (written (map (put_together E) (slices (wb m) out)))).
```

`rocq/theories/P_KeepCase.v:282`
```coq
Theorem C86_differ_case : forall E K G lo up o d b merges lexed1 lexed2 l1 l2 out m,
  ascii_classes K -> simple_case E K G lo up -> blanks_ok K -> plain_case K G lo -> py_text E -> case_no_lt E ->
  source_any K G lexed1 -> source_any K G lexed2 -> lexer_no_marks lexed1 -> lexer_no_marks lexed2 -> lexer_ok lexed1 -> lexer_ok lexed2 ->
  param d SPLIT = lit "F" \/ (is_bpe d = true /\ usable b merges) \/ (mk_prep_config d = Ok d /\ keeps_text o d) ->
  keeps_all d l1 -> keeps_all d l2 ->
  convert_text E K lexed1 = Ok l1 -> convert_text E K lexed2 = Ok l2 ->
  to_repr E o d (Some b) l1 = Ok (out, m) -> to_repr E o d (Some b) l2 = Ok (out, m) ->
  map lo (visible K (List.concat (map snd lexed1))) = map lo (visible K (List.concat (map snd lexed2))).
```

## C87: A corpus that has been preprocessed gives back the tokens of its texts, and its vocabulary counts them

When preprocessing a corpus has ended regularly, however often it was killed and started again before, the output file of every source file, read line by line and word by word, gives the tokens that the functions for texts return for the text of the file (with a newline before the end mark if the text ends with one and newlines are kept). The corpus size is the number of all these tokens, and a vocabulary that has been written, whatever the counting processes did and however often they were killed, has exactly these tokens, each with the number of its occurrences, and the vocabulary size is the number of different ones.

*For*: every set of source files with names with UTF-8 extensions and any bytes, every configuration, every lexer and splitter, every history of kills and restarts, every order of the files, every schedule of the counting processes. *Status*: partial.

Not true of the code without restriction: proved (C87_files, C87_vocabulary) for extensions that are UTF-8, codes that load, tokens of the lexer without the characters at which files are split into lines other than newline (C68), and without modifications of files by others during the runs. The restrictions are necessary: C67, C68. Changes of a stage that has ended are covered as in C50.

`rocq/theories/P_Whole.v:139`
```coq
Theorem C87_files s i file : corpus_reached s -> ph file_content s = Done -> nth_error files i = Some file ->
  exists text line out,
    dest file_content (prep file_content s) i = Full (CPrep text) /\ file_lines text = [line] /\
    mapM to_non_literal_str (split_on 32 line) = Ok out /\ like_text file out.
```

`rocq/theories/P_Whole.v:173`
```coq
Theorem C87_vocabulary s stored : corpus_reached s -> ph file_content s = Done ->
  Permutation stored (prep_files (length files) (dest file_content (prep file_content s))) ->
  exists outs, Forall2 like_text files outs /\
    calc_corpus_size stored = length (List.concat outs) /\
    forall max_groups n_chunks d ready size text, max_groups <> 0 -> n_chunks <> 0 ->
      M_Merger.reachable max_groups n_chunks stored (M_Merger.Down d ready size (M_Merger.Full text)) ->
      size = M_Merger.Full (Z.of_nat (length (nodup str_dec (List.concat outs)))) /\
      exists vocab, load_vocab_dict text = Ok vocab /\ counts_exactly vocab (List.concat outs).
```

## C88: Stemming changes the parts of words only and keeps their case

With stem=True the tokens are those of ronin=True, at the same places and with the same word boundaries and types; only the parts of words are replaced by their stems, whatever the other options and split_numbers. The stem of a word of letters has the case of the word (all in upper case, first letter in upper case, lower case), and words that differ only in case have stems that differ only in case.

*For*: every token sequence, every word of ASCII letters, every ronin splitter whose parts have no <, every stemmer that puts words into lower case. *Status*: proved.

The splitter of spiral and the stemmer of nltk are parameters: parts of words without < are assumed to stay without it (C88_places), and the stemmer to put words into lower case first (C88_case). C88_ronin needs no assumption.

`rocq/theories/P_Stem.v:33`
```coq
Theorem C88_ronin : forall E o d3 ds b l, ronin_and_stem d3 ds -> to_repr E o ds b l = to_repr E (stemming o) d3 b l.
```

`rocq/theories/P_Stem.v:189`
```coq
Theorem C88_places : forall E o d3 ds b l out m, ronin_and_stem d3 ds -> splitters_plain o ->
  Forall (plain_token E) (all_tokens l) -> to_repr E o d3 b l = Ok (out, m) ->
  exists out', to_repr E o ds b l = Ok (out', m) /\ Forall2 (fun x y => y = x \/ y = stem o x) out out'.
```

`rocq/theories/P_Stem.v:280`
```coq
Theorem C88_case : forall E porter c t, py_ascii E -> porter_lower porter -> letters (c :: t) ->
  let w := c :: t in let s := stem_word E porter w in
  map ascii_to_lower s = stem_word E porter (map ascii_to_lower w) /\ s <> [] /\
  (big w -> big s) /\
  (ascii_upper_ch c = true -> ~ big w -> exists x r, s = x :: r /\ ascii_upper_ch x = true /\ small r) /\
  (ascii_lower_ch c = true -> small s).
```

`rocq/theories/P_Stem.v:330`
```coq
Theorem C88_options : forall sn sn' ro no_spaces no_unicode no_case no_com no_str mx,
  exists d3 ds,
    basic_config sn' true false no_spaces no_unicode no_case no_com no_str mx = Ok d3 /\
    basic_config sn ro true no_spaces no_unicode no_case no_com no_str mx = Ok ds /\ ronin_and_stem d3 ds.
```

## C89: The options of learn-bpe do what they say, or the command changes nothing

codeprep learn-bpe --legacy learns from Java files only, exactly as --ext java, and does nothing at all if other extensions are asked for. A command with an option that is not supported (--word-end, --bytes) ends with an error and learns nothing: lists of merges, vocabularies and ids that are there stay as they are, and later commands are not influenced. Any other command learns from the files with the given extensions, with characters outside ASCII replaced just if --no-unicode is given, and its codes can be used by the id and every number up to <n-merges> that the words allow.

*For*: every combination of options, every path and extension string, every state of the directories of merges. *Status*: partial.

Not true of the code without restriction: --legacy (C89_legacy) and that nothing is learned (C89_unsupported) for all options and states; C89_learns for all states that commands leave (those of C75). C89_refused_id_refuted: a refused command writes its id first; if the user then leaves out the option and asks for the same id, it depends on the order of the directories whether the merges that are learned are found.

`rocq/theories/P_LearnCli.v:60`
```coq
Theorem C89_legacy : forall t w a, l_legacy a = true ->
  (java_only (l_ext a) -> handle t w a = handle t w (with_java a)) /\
  (~ java_only (l_ext a) -> handle t w a = (Ok tt, w)).
```

`rocq/theories/P_LearnCli.v:84`
```coq
Theorem C89_unsupported : forall t w a, l_word_end a = true \/ (l_bytes a = true /\ l_no_unicode a = false) -> legacy_refused a = false ->
  exists e w', handle t w a = (Err e, w') /\ nothing_learned w w'.
```

`rocq/theories/P_LearnCli.v:179`
```coq
Theorem C89_learns : forall t w ks a r w' names packaged,
  history py_int maxsize strip is_blank number_of source w ks ->
  l_word_end a = false -> l_no_unicode a = true \/ l_bytes a = false -> (l_legacy a = true -> java_only (l_ext a)) ->
  good_cmd maxsize strip is_blank number_of source w (the_command t a) ->
  handle_learnbpe py_int maxsize strip number_of source t w a = (r, w') -> Permutation names (dkeys (w_bpe w')) ->
  let dir := dataset_name t a ++ (if l_no_unicode a then lit "_-_nounicode" else []) in
  let conf := (if l_no_unicode a then lit "U" else lit "u") ++ lit "0EFsu" in
  r = Ok tt /\
  exists rd i nb,
    dget (w_bpe w') dir = Some rd /\ r_id rd = Some i /\
    (forall c j, l_id a = Some (c :: j) -> dget (w_bpe w) dir = None -> i = c :: j) /\
    load_vocab_set (snd (source (dataset_name t a) conf)) = Ok nb /\
    forall m, 1 <= m <= l_n a ->
      (exists l v, greedy (characters {| all_vocab := fst (source (dataset_name t a) conf); nonbpe := nb |}) l v /\ length l = m /\
                   uses (disk_of py_int maxsize strip packaged w' names) (i ++ dash :: dec (N.of_nat m)) (ml_of l) nb)
      \/ (exists l v, greedy (characters {| all_vocab := fst (source (dataset_name t a) conf); nonbpe := nb |}) l v /\ length l < m /\
                      Forall (fun wf => length (fst wf) = 1) v /\
                      refused (disk_of py_int maxsize strip packaged w' names) (i ++ dash :: dec (N.of_nat m))).
```

`rocq/theories/P_LearnCli.v:282`
```coq
Theorem C89_refused_id_refuted :
  exists a1 a2 w names names',
    l_id a1 = l_id a2 /\ fst (ex_handle empty_world a1) = Err ValueError /\
    ex_handle (snd (ex_handle empty_world a1)) a2 = (Ok tt, w) /\
    Permutation names (dkeys (w_bpe w)) /\ Permutation names' (dkeys (w_bpe w)) /\
    data_used w names "x-1" = Some ([(lit "a", lit "b")], []) /\ data_used w names' "x-1" = None.
```

## C90: The ids listed for an unknown id are those that can be used

When codes are asked for by an id that does not exist, the message lists lines id-[1..v]; id-n can be used exactly if there is a line for id with v at least n.

*For*: every history of commands, every id and number, every order of the directories. *Status*: partial.

Not true of the code without restriction: proved for every state in which no two directories have the same id (C90_available), which is so in all histories of C75 (C90_history); C90_twice_refuted: if --id was given twice, the message lists numbers of merges that cannot be used.

`rocq/theories/P_Available.v:125`
```coq
Theorem C90_available : forall w names packaged id n,
  apart w -> Permutation names (dkeys (w_bpe w)) -> no_char newline id -> (1 <= n)%N ->
  ((exists i, from_id (disk_of py_int maxsize strip packaged w names) (id ++ dash :: dec n) = Ok i) <->
   (exists v, (n <= v)%N /\ In (id_line id v) (split_on newline (format_available_merge_list_ids py_int maxsize strip w names)))).
```

`rocq/theories/P_Available.v:193`
```coq
Theorem C90_history : forall w ks, history py_int maxsize strip is_blank number_of source w ks -> apart w.
```

`rocq/theories/P_Available.v:230`
```coq
Theorem C90_twice_refuted :
  exists k1 k2 w names n,
    ex_learn (snd (ex_learn empty_world k1)) k2 = (Ok tt, w) /\ Permutation names (dkeys (w_bpe w)) /\
    In (id_line (lit "x") n) (split_on newline (format_available_merge_list_ids ex_int ex_max ex_strip w names)) /\
    from_id (disk_of ex_int ex_max ex_strip no_package w names) (lit "x-" ++ dec n) = Err ValueError.
```

## C91: The vocabulary script counts the words of the files with an extension

python -m codeprep.cli.vocab PATH OUT EXT reads exactly the files below PATH whose names end with EXT, each once, and a vocabulary file that it leaves, also after interruptions, has one line for each word of these files with the number of its occurrences, more frequent words first; if there are no such files no vocabulary is written.

*For*: every directory tree, every extension, every content of the files, every schedule of the merging processes and every interruption. *Status*: partial.

Not true of the code without restriction: proved for every tree with valid names (C91_files, C91_once; C91_single for a path that is a file), every content, schedule and interruption (C91_vocab, C91_nothing; with the processes of C42, which do not time out). C91_suffix_refuted: EXT is only the end of the name, a file happy is read for py although preprocessing leaves it out (C91_dot_refuted: so for every file whose name ends with EXT without a dot before it). C91_links_refuted: links to files are read (the file is counted twice) and linked directories are not, the other way round than in preprocessing (C91_file_links_refuted, C91_directory_links_refuted: every such link). C91_agree: all other files are treated alike by both. C91_tab_refuted: the words of raw files are written without escaping; if one has a tab the vocabulary cannot be loaded.

`rocq/theories/P_Suffix.v:44`
```coq
Theorem C91_dot_refuted p n mt stem : below t (p ++ [n]) (File mt) -> n = stem ++ ext -> ~ dotted ext n -> read_by_script p n /\ ~ preprocessed p n.
```

`rocq/theories/P_Suffix.v:53`
```coq
Theorem C91_file_links_refuted p n stem : below t (p ++ [n]) Link -> n = stem ++ ext -> read_by_script p n /\ ~ preprocessed p n.
```

`rocq/theories/P_Suffix.v:64`
```coq
Theorem C91_directory_links_refuted p n mt : at_path t (p ++ [n]) (File mt) -> ~ below t (p ++ [n]) (File mt) -> dotted ext n ->
  preprocessed p n /\ ~ read_by_script p n.
```

`rocq/theories/P_Suffix.v:81`
```coq
Theorem C91_agree p n mt : no_char slash ext -> below t (p ++ [n]) (File mt) -> (dotted ext n -> read_by_script p n /\ preprocessed p n)
  /\ ((forall stem, n <> stem ++ ext) -> ~ read_by_script p n /\ ~ preprocessed p n).
```

`rocq/theories/P_VocabScript.v:138`
```coq
Theorem C91_files path l m es ext x : wf (Dir l m es) -> path <> [] -> ends_with [slash] path = false ->
  (In x (walk_files path (Dir l m es) ext) <->
   exists p n u stem, below (Dir l m es) (p ++ [n]) u /\ leaf u /\ n = stem ++ ext
     /\ x = path ++ slash :: join [slash] (p ++ [n])).
```

`rocq/theories/P_VocabScript.v:160`
```coq
Theorem C91_once path l m es ext : wf (Dir l m es) -> path <> [] -> ends_with [slash] path = false ->
  NoDup (walk_files path (Dir l m es) ext).
```

`rocq/theories/P_VocabScript.v:192`
```coq
Theorem C91_single path u ext : leaf u ->
  (forall stem, path = stem ++ ext -> walk_files path u ext = [path])
  /\ ((forall stem, path <> stem ++ ext) -> walk_files path u ext = []).
```

`rocq/theories/P_VocabScript.v:209`
```coq
Theorem C91_vocab content path t ext max_groups n_chunks d ready size text : max_groups <> 0 -> n_chunks <> 0 ->
  reachable max_groups n_chunks (script_corpus content path t ext) (Down d ready size (Full text)) ->
  let ws := flat_map (fun f => file_tokens (content f)) (walk_files path t ext) in
  exists entries, text = write_lines (map (fun e => fst e ++ tab :: decZ (snd e)) entries)
    /\ NoDup (map fst entries)
    /\ (forall w, In w (map fst entries) <-> In w ws)
    /\ (forall w k, In (w, k) entries -> k = Z.of_nat (count_occ str_dec ws w))
    /\ descending entries.
```

`rocq/theories/P_VocabScript.v:240`
```coq
Theorem C91_nothing content path l m es ext max_groups n_chunks d ready size vocab : wf (Dir l m es) ->
  path <> [] -> ends_with [slash] path = false ->
  (forall p n u stem, below (Dir l m es) (p ++ [n]) u -> leaf u -> n <> stem ++ ext) ->
  reachable max_groups n_chunks (script_corpus content path (Dir l m es) ext) (Down d ready size vocab) ->
  size = Absent /\ vocab = Absent.
```

`rocq/theories/P_VocabScript.v:256`
```coq
Theorem C91_suffix_refuted : let t := Dir false 0 [(lit "happy", File 0)] in
  wf t /\ walk_files (lit "d") t (lit "py") = [lit "d/happy"] /\ scan_files (lit "d") t (Some [lit "py"]) = [].
```

`rocq/theories/P_VocabScript.v:266`
```coq
Theorem C91_links_refuted : let t := Dir false 0 [(lit "a.py", File 0); (lit "b.py", Link); (lit "l", Dir true 0 [(lit "c.py", File 0)])] in
  walk_files (lit "d") t (lit ".py") = [lit "d/a.py"; lit "d/b.py"]
  /\ scan_files (lit "d") t (Some [lit "py"]) = [lit "./a.py"; lit "l/c.py"].
```

`rocq/theories/P_VocabScript.v:272`
```coq
Theorem C91_tab_refuted : let t := Dir false 0 [(lit "a.py", File 0)] in let content := fun _ => lit "if" ++ tab :: lit "x" in
  (exists r, reachable 3 2 (script_corpus content (lit "d") t (lit ".py")) (Up r) /\
     exists n r' text, steps n r r' /\ sh_vocab (r_shared r') = Full text)
  /\ forall d ready size text, reachable 3 2 (script_corpus content (lit "d") t (lit ".py")) (Down d ready size (Full text)) ->
       load_vocab_dict text = Err ValueError.
```

## C92: The token types in the metadata tell what the tokens are

For every text and configuration the list of token types has one entry for each full token of the output, and the entries tell what the lexer found there: the full tokens with their types are, in order, those that the tokens of the lexer give. A bracket, brace or semicolon of the code has its own type and is there as it is, other operators and keywords likewise; a number is one full token (0 and 1 have their own types); all full tokens that a string or a comment gives have the type of strings or comments; newlines and indentation have theirs.

*For*: every output of the lexer, all configurations and merge lists, all Unicode tables. *Status*: partial.

Not true of the code without restriction: proved for every lexer output and configuration (C92_types). C92_non_english_refuted: whether a word has the type of non-English words depends on the options; C92_non_english says how, for every word and all options. C92_preprocessor_refuted: whatever the lexer puts below Comment, for example the directives of the C preprocessor, is a multi-line comment for codeprep; no_com hides these directives.

`rocq/theories/P_Suffix.v:112`
```coq
Theorem C92_non_english E o d b ws out m : to_repr E o d b [NonEng ws] = Ok (out, m) ->
  types m = [if param_in d EN_ONLY "U" && negb (is_bpe d && match b with Some _ => true | None => false end) then CNonEng else CSplitContainer].
```

`rocq/theories/P_Types.v:224`
```coq
Theorem C92_types : forall E K o d b lexed l out m,
  convert_text E K lexed = Ok l -> to_repr E o d b l = Ok (out, m) ->
  length (types m) = length (slices (wb m) out) /\
  exists blocks, Forall2 (fun tv blk => typed K (is_bpe d) (fst tv) (snd tv) blk) lexed blocks /\
    combine (slices (wb m) out) (types m) = List.concat blocks.
```

`rocq/theories/P_Types.v:245`
```coq
Theorem C92_non_english_refuted : exists l,
  convert_text ascii_case accent_K [(["Name"]%string, [233; 233]%N)] = Ok l /\
  (exists out m, to_repr ascii_case no_splitters (combine prep_params (chars_of "Uc10su")) None l = Ok (out, m) /\ types m = [CNonEng]) /\
  (exists out m, to_repr ascii_case no_splitters (combine prep_params (chars_of "uc10su")) None l = Ok (out, m) /\ types m = [CSplitContainer]).
```

`rocq/theories/P_Types.v:255`
```coq
Theorem C92_preprocessor_refuted : exists l,
  convert_text ascii_case ascii_K [(["Comment"; "Preproc"]%string, lit "#define"); (["Text"]%string, lit " ");
     (["Comment"; "Preproc"]%string, lit "MAX")] = Ok l /\
  (exists out m, to_repr ascii_case no_splitters (combine prep_params (chars_of "u010su")) None l = Ok (out, m)
     /\ out = [lit "<comment>"; lit "<comment>"] /\ types m = [CMultilineComment; CMultilineComment]).
```

## C93: The counter of the merging processes is exact under every schedule

Whatever calls (inc, dec, compare_and_dec, get_and_dec, value) any number of processes make on an AtomicInteger and however they are scheduled, the results are those of the calls made one after the other on an integer, in the order in which the calls end. So when n merging processes ask compare_and_dec(1) of a counter that starts at n, exactly one is told that it is the last, and only after all others have their answer; every execution ends and nobody waits for ever. On one process NonAtomicCounter gives the same results.

*For*: any number of processes, any programs, all interleavings of the single operations on the lock and the queue. *Status*: partial.

Not true of the code without restriction: C93_one_after_the_other, C93_last, C93_exactly_one, C93_ends, C93_progress for all schedules, the entries of the queue being delivered at any time; C93_merger: the step of the merging processes in C42 is such a call. C93_zero_refuted: a decrement at zero waits with the lock held, so that the increment it waits for cannot happen (the merging processes never do this). C93_killed_refuted: if the system kills a process in a call, the others wait for ever. C93_every_killed_refuted: so it is for all programs and schedules, and whichever call the process was in. The setter of value is not modelled.

`rocq/theories/P_Counter.v:131`
```coq
Theorem C93_one_after_the_other v prog s : creach v prog s ->
  exists k, seq_run v (map snd (hist s)) k
    /\ (forall i, results (procs s i) = of_proc i (hist s))
    /\ (forall i, exists rest, prog i = map fst (results (procs s i)) ++ rest)
    /\ ((forall i, at_pc (procs s i) = Outside) -> size s = k).
```

`rocq/theories/P_Counter.v:149`
```coq
Theorem C93_progress v prog s i : creach v prog s -> ~ finished (procs s i) -> (exists s', cstep s s') \/ exists j, stuck s j.
```

`rocq/theories/P_Counter.v:178`
```coq
Theorem C93_zero_refuted : exists prog s,
  prog 0 = [ODec] /\ prog 1 = [OInc] /\ creach 0 prog s
  /\ forall s', csteps s s' -> stuck s' 0 /\ todo (procs s' 1) = [OInc].
```

`rocq/theories/P_Counter.v:219`
```coq
Theorem C93_ends v prog n s s' : (forall i, n <= i -> prog i = []) -> creach v prog s -> cstep s s' -> remaining n s' < remaining n s.
```

`rocq/theories/P_Counter.v:297`
```coq
Theorem C93_last n s i : creach n (merging n) s -> In (OCmp 1, RBool true) (results (procs s i)) ->
  i < n /\ forall j, j < n -> j <> i -> results (procs s j) = [(OCmp 1, RBool false)].
```

`rocq/theories/P_Counter.v:333`
```coq
Theorem C93_exactly_one n s : creach n (merging n) s -> n <> 0 ->
  (exists s', cstep s s')
  \/ exists i, i < n /\ results (procs s i) = [(OCmp 1, RBool true)]
       /\ forall j, j < n -> j <> i -> results (procs s j) = [(OCmp 1, RBool false)].
```

`rocq/theories/P_Counter.v:375`
```coq
Theorem C93_non_atomic o n m r : seq_op o n = Some (m, r) <-> non_atomic o (Z.of_nat n) = (Z.of_nat m, r) /\ (0 <= fst (non_atomic o (Z.of_nat n)))%Z.
```

`rocq/theories/P_Counter.v:409`
```coq
Theorem C93_merger chunks sh sh' p : pstep chunks sh PStop sh' p <->
  exists m b, seq_op (OCmp 1) (sh_counter sh) = Some (m, RBool b) /\ sh' = with_counter sh m
              /\ p = (if b then PCollect chunks [] else PDone false).
```

`rocq/theories/P_Counter.v:425`
```coq
Theorem C93_killed_refuted : exists s, creach 2 (merging 2) s /\
  forall s', csteps (kill s 0) s' -> at_pc (procs s' 1) = Outside /\ todo (procs s' 1) = [OCmp 1].
```

`rocq/theories/P_LockHeld.v:8`
```coq
Theorem C93_every_killed_refuted : forall v prog s i, creach v prog s -> at_pc (procs s i) <> Outside ->
  forall s', csteps (kill s i) s' ->
  hist s' = hist s /\ (forall j, results (procs s' j) = results (procs s j)) /\
  (forall j, at_pc (procs s' j) = Outside) /\ (forall j, j <> i -> todo (procs s' j) = todo (procs s j)).
```

## C94: The extension decides the language, and everything visible in the source reaches the output

The extension of a file (or the argument) decides by which lexer the text is read, java if there is none, whatever is in the text. The characters of the source other than blanks are the characters of the output in their order when nothing is left out by the configuration: without splitting as they are, with bpe or basic splitting after the subtokens are put together. Line ends are kept, except empty lines at the beginning and the end, however they are written (LF, CR LF, CR), and a byte order mark makes no difference.

*For*: every text and file content, every extension, every lexer that returns its text in pieces, all configurations that leave nothing out. *Status*: partial.

Not true of the code without restriction: C94_language and C94_file_name for all texts and paths; C94_lexer_input, C94_spelling, C94_nosplit, C94_bpe, C94_basic, C94_file, C94_lines, C94_line_ends for every lexer that returns its text in pieces, with the conditions on letters and tokens of C71 and C86; C94_nosplit_case, C94_bpe_case, C94_basic_case, C94_file_case without the condition on numbers: each visible character is there as it is or in lower case. The lexers of Pygments are any functions; what they are given (Lexer.get_tokens) is modelled after its source. C94_not_guessed_refuted: the documentation of the API says that without an extension Pygments guesses the language; it is always java. C94_unknown_refuted: for an extension Pygments does not know it guesses, and there is a ValueError if it cannot. C94_edges_refuted: empty lines at the beginning and at the end are lost.

`rocq/theories/P_Lexer.v:83`
```coq
Theorem C94_lexer_input : forall text,
  exists rest unix a body b, marked text rest /\ P_Files.newlines rest unix /\ unix = repeat 10%N a ++ body ++ repeat 10%N b
    /\ hd 0%N body <> 10%N /\ last body 0%N <> 10%N /\ lexer_input text = body ++ [10%N].
```

`rocq/theories/P_Lexer.v:103`
```coq
Theorem C94_language : forall P P' E K text ext,
  let name := match ext with Some e => if eqb e [] then lit "java" else e | None => lit "java" end in
  by_name P name <> None -> by_name P' name = by_name P name ->
  parse_source P E K text ext = parse_source P' E K text ext
  /\ exists l, by_name P name = Some l /\ parse_source P E K text ext = convert_text E K (l (lexer_input text)).
```

`rocq/theories/P_Lexer.v:118`
```coq
Theorem C94_not_guessed_refuted :
  (forall names g g' E K text, names (lit "java") <> None ->
     parse_source {| by_name := names; guess := g |} E K text None = parse_source {| by_name := names; guess := g' |} E K text None)
  /\ exists P E K text l lt, guess P text = Some l /\ convert_text E K (l (lexer_input text)) = Ok lt /\ parse_source P E K text None <> Ok lt.
```

`rocq/theories/P_Lexer.v:133`
```coq
Theorem C94_unknown_refuted : forall P E K text ext, ext <> [] -> by_name P ext = None ->
  (forall l, guess P text = Some l -> parse_source P E K text (Some ext) = convert_text E K (l (lexer_input text)))
  /\ (guess P text = None -> parse_source P E K text (Some ext) = Err ValueError).
```

`rocq/theories/P_Lexer.v:143`
```coq
Theorem C94_file_name : forall P E K path path' stem stem' dots dots' e ext bytes,
  basename path = repeat 46%N dots ++ stem ++ 46%N :: e -> stem <> [] -> hd 0%N stem <> 46%N ->
  basename path' = repeat 46%N dots' ++ stem' ++ 46%N :: e -> stem' <> [] -> hd 0%N stem' <> 46%N ->
  no_char 46%N e -> valid_str ext -> utf8 ext = Ok e ->
  parse_file (parse_source P E K) path bytes = parse_file (parse_source P E K) path' bytes
  /\ parse_file (parse_source P E K) path bytes = parse_source P E K (source_text bytes) (Some ext).
```

`rocq/theories/P_Lexer.v:157`
```coq
Theorem C94_edges_refuted : forall P E K text ext a b, by_name P (match ext with Some (c :: e) => c :: e | _ => lit "java" end) <> None ->
  hd 0%N text <> bom -> no_char 13%N text ->
  parse_source P E K (repeat 10%N a ++ text ++ repeat 10%N b) ext = parse_source P E K text ext.
```

`rocq/theories/P_Lexer.v:183`
```coq
Theorem C94_line_ends : forall P E K text text' rest rest' unix ext, by_name P (match ext with Some (c :: e) => c :: e | _ => lit "java" end) <> None ->
  marked text rest -> marked text' rest' -> P_Files.newlines rest unix -> P_Files.newlines rest' unix ->
  parse_source P E K text ext = parse_source P E K text' ext.
```

`rocq/theories/P_Lexer.v:217`
```coq
Theorem C94_spelling : forall P E K G lo up text rest ext lx l,
  ascii_classes K -> spaces_blank K -> white K -> simple_case E K G lo up -> marked text rest ->
  choose_lexer P text ext = Ok lx -> reads_all lx ->
  Forall (fun tv => Forall G (snd tv) /\ numbers_lower E K tv) (lx (lexer_input text)) ->
  parse_source P E K text ext = Ok l -> visible K (spell E l) = visible K rest.
```

`rocq/theories/P_Lexer.v:229`
```coq
Theorem C94_lines : forall P E K text rest unix a body b ext lx l,
  ascii_classes K -> marked text rest -> P_Files.newlines rest unix -> unix = repeat 10%N a ++ body ++ repeat 10%N b ->
  hd 0%N body <> 10%N -> last body 0%N <> 10%N ->
  choose_lexer P text ext = Ok lx -> reads_all lx -> Forall (lines_apart K) (lx (lexer_input text)) ->
  parse_source P E K text ext = Ok l -> P_Source.newlines l = S (line_ends body).
```

`rocq/theories/P_Lexer.v:242`
```coq
Theorem C94_nosplit : forall P E K G lo up o d b text rest ext lx l out m,
  ascii_classes K -> simple_case E K G lo up -> blanks_ok K -> white K -> marked text rest ->
  choose_lexer P text ext = Ok lx -> reads_all lx -> source_ok E K G (lx (lexer_input text)) ->
  param d SPLIT = lit "F" -> keeps_all d l ->
  parse_source P E K text ext = Ok l -> to_repr E o d b l = Ok (out, m) ->
  visible K (written out) = visible K rest.
```

`rocq/theories/P_Lexer.v:255`
```coq
Theorem C94_bpe : forall P E K G lo up o d b merges text rest ext lx l out m,
  ascii_classes K -> simple_case E K G lo up -> blanks_ok K -> white K -> marked text rest ->
  choose_lexer P text ext = Ok lx -> reads_all lx -> source_ok E K G (lx (lexer_input text)) -> py_text E -> lexer_ok (lx (lexer_input text)) ->
  usable b merges -> is_bpe d = true -> keeps_all d l ->
  parse_source P E K text ext = Ok l -> to_repr E o d (Some b) l = Ok (out, m) ->
  exists texts, map (@List.concat N) (slices (wb m) out) = map (fun t => t ++ lit "</t>") texts /\
    List.concat (slices (wb m) out) = out /\ visible K (written texts) = visible K rest.
```

`rocq/theories/P_Lexer.v:270`
```coq
Theorem C94_basic : forall P E K G lo up o d b text rest ext lx l out m,
  ascii_classes K -> simple_case E K G lo up -> blanks_ok K -> white K -> marked text rest ->
  choose_lexer P text ext = Ok lx -> reads_all lx -> source_ok E K G (lx (lexer_input text)) -> py_text E -> case_no_lt E ->
  lexer_no_marks (lx (lexer_input text)) -> mk_prep_config d = Ok d -> keeps_text o d -> keeps_all d l ->
  parse_source P E K text ext = Ok l -> to_repr E o d b l = Ok (out, m) ->
  visible K (written (map (put_together E) (slices (wb m) out))) = visible K rest.
```

`rocq/theories/P_Lexer.v:312`
```coq
Theorem C94_file : forall P E K G lo up o dk g config id path ext bytes chars rest lx out m,
  ascii_classes K -> simple_case E K G lo up -> blanks_ok K -> white K -> holds bytes chars -> marked chars rest ->
  extension_of path = Ok ext -> choose_lexer P (source_text bytes) (Some ext) = Ok lx -> reads_all lx ->
  source_ok E K G (lx (lexer_input (source_text bytes))) -> mk_prep_config config = Ok config ->
  param config SPLIT = lit "F" -> (forall l, parse_source P E K (source_text bytes) (Some ext) = Ok l -> keeps_all config l) ->
  preprocess_file (parse_source P E K) (plain_repr E o) dk g config id path bytes = Ok (out, m) ->
  exists body, out = body ++ [lit "<EOF>"] /\ visible K (written body) = visible K rest.
```

`rocq/theories/P_LexerCase.v:11`
```coq
Theorem C94_nosplit_case : forall P E K G lo up o d b text rest ext lx l out m,
  ascii_classes K -> simple_case E K G lo up -> blanks_ok K -> plain_case K G lo -> white K -> marked text rest ->
  choose_lexer P text ext = Ok lx -> reads_all lx -> source_any K G (lx (lexer_input text)) ->
  param d SPLIT = lit "F" -> keeps_all d l ->
  parse_source P E K text ext = Ok l -> to_repr E o d b l = Ok (out, m) ->
  lowered lo (visible K rest) (visible K (written out)).
```

`rocq/theories/P_LexerCase.v:24`
```coq
Theorem C94_bpe_case : forall P E K G lo up o d b merges text rest ext lx l out m,
  ascii_classes K -> simple_case E K G lo up -> blanks_ok K -> plain_case K G lo -> white K -> marked text rest ->
  choose_lexer P text ext = Ok lx -> reads_all lx -> source_any K G (lx (lexer_input text)) -> py_text E -> lexer_ok (lx (lexer_input text)) ->
  usable b merges -> is_bpe d = true -> keeps_all d l ->
  parse_source P E K text ext = Ok l -> to_repr E o d (Some b) l = Ok (out, m) ->
  exists texts, map (@List.concat N) (slices (wb m) out) = map (fun t => t ++ lit "</t>") texts /\
    List.concat (slices (wb m) out) = out /\ lowered lo (visible K rest) (visible K (written texts)).
```

`rocq/theories/P_LexerCase.v:38`
```coq
Theorem C94_basic_case : forall P E K G lo up o d b text rest ext lx l out m,
  ascii_classes K -> simple_case E K G lo up -> blanks_ok K -> plain_case K G lo -> white K -> marked text rest ->
  choose_lexer P text ext = Ok lx -> reads_all lx -> source_any K G (lx (lexer_input text)) -> py_text E -> case_no_lt E ->
  lexer_no_marks (lx (lexer_input text)) -> mk_prep_config d = Ok d -> keeps_text o d -> keeps_all d l ->
  parse_source P E K text ext = Ok l -> to_repr E o d b l = Ok (out, m) ->
  lowered lo (visible K rest) (visible K (written (map (put_together E) (slices (wb m) out)))).
```

`rocq/theories/P_LexerCase.v:51`
```coq
Theorem C94_file_case : forall P E K G lo up o dk g config id path ext bytes chars rest lx out m,
  ascii_classes K -> simple_case E K G lo up -> blanks_ok K -> plain_case K G lo -> white K -> holds bytes chars -> marked chars rest ->
  extension_of path = Ok ext -> choose_lexer P (source_text bytes) (Some ext) = Ok lx -> reads_all lx ->
  source_any K G (lx (lexer_input (source_text bytes))) -> mk_prep_config config = Ok config ->
  param config SPLIT = lit "F" -> (forall l, parse_source P E K (source_text bytes) (Some ext) = Ok l -> keeps_all config l) ->
  preprocess_file (parse_source P E K) (plain_repr E o) dk g config id path bytes = Ok (out, m) ->
  exists body, out = body ++ [lit "<EOF>"] /\ lowered lo (visible K rest) (visible K (written body)).
```

## C95: Preprocessing leaves the dataset as it is

Preprocessing a corpus changes nothing but the caches and vocabularies of codeprep, the directory with the results and the file beside it that says when it was finished. If the output path is not in the dataset, the files of the dataset and their times of modification are the same afterwards, also after interruptions, so that a later call with the same arguments finds the results.

*For*: every dataset, every path and output path however written (relative, with dots), every working directory, every sequence of the operations of a run. *Status*: partial.

Not true of the code without restriction: C95_where and C95_leaves for every run whose extensions and id have no slash, on a file system without links. C95_inside_refuted: by default the results go to the working directory; if this is the dataset, its time stamp is another one after each run, so that nothing is found again, and without an extension the results are read as sources the next time.

`rocq/theories/P_Place.v:326`
```coq
Theorem C95_where : forall cwd cache config r t o p,
  plain_names r -> wf t -> (is_dir t = false -> valid_name (basename (r_path r))) ->
  run_op cwd cache config r t o -> In p (changed o) ->
  below (abs_parts cwd cache) p \/ below (abs_parts cwd config) p
  \/ below (abs_parts cwd (output_of cache r) ++ [prep_basename r]) p
  \/ p = abs_parts cwd (output_of cache r) ++ [lit "." ++ prep_basename r ++ lit ".lastmodif"].
```

`rocq/theories/P_Place.v:341`
```coq
Theorem C95_leaves : forall cwd cache config r t os fs d,
  plain_names r -> wf t -> (is_dir t = false -> valid_name (basename (r_path r))) ->
  let ds := abs_parts cwd (r_path r) in let out := abs_parts cwd (output_of cache r) in
  apart ds (abs_parts cwd cache) -> apart ds (abs_parts cwd config) ->
  ~ below ds out -> ~ below (out ++ [prep_basename r]) ds -> ~ below (out ++ [lit "." ++ prep_basename r ++ lit ".lastmodif"]) ds ->
  Forall (fun to => run_op cwd cache config r t (snd to)) os ->
  look ds fs = Some d -> look ds (perform_all os fs) = Some d.
```

`rocq/theories/P_Place.v:433`
```coq
Theorem C95_inside_refuted : exists cwd cache config r t os fs d,
  plain_names r /\ wf t /\
  apart (abs_parts cwd (r_path r)) (abs_parts cwd cache) /\ apart (abs_parts cwd (r_path r)) (abs_parts cwd config) /\
  abs_parts cwd (output_of cache r) = cwd /\ r_path r = lit "." /\
  Forall (fun to => run_op cwd cache config r t (snd to)) os /\
  shape_at cwd fs = Some t /\ shape_at cwd (perform_all os fs) = Some d /\
  scan_files (r_path r) t None = [lit "./a.py"] /\
  scan_files (r_path r) d None = [lit "./a.py"; lit "./." ++ prep_basename r ++ lit ".lastmodif"; prep_basename r ++ lit "/a.py.prep"] /\
  scan_files (r_path r) d (Some [lit "py"]) = [lit "./a.py"] /\
  (forall clock, get_timestamp clock 1000 t = Ok (civil (clock 7%N)) /\ get_timestamp clock 1000 d = Ok (civil (clock 9%N))).
```

## C96: More merges only join subtokens

Preprocessing with more merges of the same list (more merges read from the same file, more merges learned for the same corpus, or some merges instead of chars) gives the same full tokens of the same types; each is the same or has neighbouring subtokens joined, so no boundary appears that was not there, and the output is never longer.

*For*: every list of merges and every longer one, every text, every configuration with bpe, every number of merges read or learned. *Status*: partial.

Not true of the code without restriction: proved for whole outputs (C96_output), words (C96_word), files read up to two numbers of merges (C96_file) and learning (C96_learned), for lists without repeated pairs and texts to split without spaces, as the parser delivers them. C96_repeated_line_refuted: a file whose last line repeats a pair is accepted, and then words can be cut at other places. C96_text is C96_output for the tokens of a text; C96_characters: every splitting by bpe codes joins subtokens of the splitting into characters.

`rocq/theories/P_Coarse.v:111`
```coq
Theorem C96_word : forall b b' l l' more w,
  usable b l -> usable b' l' -> map fst l' = map fst l ++ more -> ~ In 32%N w ->
  exists ws ws', get_bpe_subwords b w = Ok ws /\ get_bpe_subwords b' w = Ok ws' /\ joined ws ws'.
```

`rocq/theories/P_Coarse.v:256`
```coq
Theorem C96_output : forall E o d d' b b' l l' more tokens out m,
  py_ascii E -> usable b l -> usable b' l' -> map fst l' = map fst l ++ more ->
  is_bpe d = true -> is_bpe d' = true -> (forall q, q <> SPLIT -> param d' q = param d q) ->
  spaceless E tokens -> to_repr E o d (Some b) tokens = Ok (out, m) ->
  exists out' m', to_repr E o d' (Some b') tokens = Ok (out', m')
    /\ Forall2 joined (slices (wb m) out) (slices (wb m') out')
    /\ List.concat (slices (wb m) out) = out /\ List.concat (slices (wb m') out') = out'
    /\ types m' = types m /\ nonproc m' = nonproc m
    /\ length out' <= length out.
```

`rocq/theories/P_Coarse.v:325`
```coq
Theorem C96_file : forall content ml n k mn mk w,
  read_merges content None = Ok ml -> length ml = length (file_lines content) -> 0 < n <= k ->
  read_merges content (Some n) = Ok mn -> read_merges content (Some k) = Ok mk -> ~ In 32%N w ->
  exists ws ws', get_bpe_subwords {| bd_merges := mn; bd_cache := [] |} w = Ok ws
    /\ get_bpe_subwords {| bd_merges := mk; bd_cache := [] |} w = Ok ws'
    /\ joined ws ws' /\ length ws' <= length ws.
```

`rocq/theories/P_Coarse.v:356`
```coq
Theorem C96_learned : forall base n k v1 ml1 v2 ml2 w,
  base_ok base -> do_merges (scratch_vocab base) n = Ok (v1, ml1) -> do_merges (scratch_vocab base) (n + k) = Ok (v2, ml2) ->
  ~ In 32%N w ->
  exists ws ws', get_bpe_subwords {| bd_merges := ml1; bd_cache := [] |} w = Ok ws
    /\ get_bpe_subwords {| bd_merges := ml2; bd_cache := [] |} w = Ok ws'
    /\ joined ws ws' /\ length ws' <= length ws.
```

`rocq/theories/P_Coarse.v:383`
```coq
Theorem C96_repeated_line_refuted :
  exists content ml m2 ws ws', read_merges content None = Ok ml /\ read_merges content (Some 2) = Ok m2
    /\ get_bpe_subwords {| bd_merges := m2; bd_cache := [] |} (lit "abc") = Ok ws
    /\ get_bpe_subwords {| bd_merges := ml; bd_cache := [] |} (lit "abc") = Ok ws'
    /\ ~ joined ws ws'.
```

`rocq/theories/P_Coarse.v:401`
```coq
Theorem C96_text : forall E K o d d' b b' l l' more lexed tokens out m,
  py_ascii E -> py_text E -> ascii_classes K -> lexer_ok lexed ->
  usable b l -> usable b' l' -> map fst l' = map fst l ++ more ->
  is_bpe d = true -> is_bpe d' = true -> (forall q, q <> SPLIT -> param d' q = param d q) ->
  convert_text E K lexed = Ok tokens -> to_repr E o d (Some b) tokens = Ok (out, m) ->
  exists out' m', to_repr E o d' (Some b') tokens = Ok (out', m')
    /\ Forall2 joined (slices (wb m) out) (slices (wb m') out')
    /\ List.concat (slices (wb m) out) = out /\ List.concat (slices (wb m') out') = out'
    /\ types m' = types m /\ nonproc m' = nonproc m /\ length out' <= length out.
```

`rocq/theories/P_Coarse.v:415`
```coq
Theorem C96_characters : forall E K o d d' b l lexed tokens out m,
  py_ascii E -> py_text E -> ascii_classes K -> lexer_ok lexed -> usable b l ->
  is_bpe d = true -> is_bpe d' = true -> (forall q, q <> SPLIT -> param d' q = param d q) ->
  convert_text E K lexed = Ok tokens ->
  to_repr E o d (Some {| bd_merges := ml_empty; bd_cache := [] |}) tokens = Ok (out, m) ->
  exists out' m', to_repr E o d' (Some b) tokens = Ok (out', m')
    /\ Forall2 joined (slices (wb m) out) (slices (wb m') out') /\ List.concat (slices (wb m) out) = out
    /\ List.concat (slices (wb m') out') = out' /\ length out' <= length out.
```

## C97: Doing the same again gives the same, apart from ties

Two computations of the vocabulary of the same files, whatever the number of processes and their schedules and interruptions, give files with the same lines and line for line the same counts; only words that are equally frequent can have changed places. Limiting them gives the same words. Codes learned from them, in one or several steps, are the same and split every word in the same way.

*For*: all collections of files in any order, all numbers of groups, chunks and processes, all schedules, interruptions and restarts; all thresholds; all corpora, numbers of merges and sequences of earlier learnings. *Status*: partial.

Not true of the code without restriction: if several pairs are most frequent, the one whose count was last changed first is merged, which depends on the order of the words in the vocabulary file, which depends on the order in which the parts of the vocabulary were made (C97_ties_refuted: two computations of the same files by one process, with different merges learned). Proved for all runs: the files differ only in the order of equally frequent words (C97_vocabulary); limiting gives the same words (C97_limit); without ties the codes are the same, whatever was learned before (C97_codes).

`rocq/theories/P_Repeat.v:60`
```coq
Theorem C97_vocabulary g1 c1 g2 c2 files1 files2 d1 r1 s1 text1 d2 r2 s2 text2 :
  g1 <> 0 -> c1 <> 0 -> g2 <> 0 -> c2 <> 0 -> Permutation files1 files2 ->
  reachable g1 c1 files1 (Down d1 r1 s1 (Full text1)) -> reachable g2 c2 files2 (Down d2 r2 s2 (Full text2)) ->
  s1 = s2 /\ length text1 = length text2 /\
  exists l1 l2, text1 = vocabulary_text l1 /\ text2 = vocabulary_text l2
    /\ Permutation l1 l2 /\ map snd l1 = map snd l2.
```

`rocq/theories/P_Repeat.v:82`
```coq
Theorem C97_limit t (d1 d2 d1' : counts) : NoDup (dkeys d1) -> Permutation d1 d2 ->
  limit_max_vocab t d1 = Ok d1' -> exists d2', limit_max_vocab t d2 = Ok d2' /\ Permutation d1' d2'.
```

`rocq/theories/P_Repeat.v:199`
```coq
Theorem C97_codes c1 c2 ns1 ns2 n : corpus_ok c1 -> same_corpus c1 c2 -> tie_free c1 n ->
  exists k merges ml cache1 cache2 d1 d2 t1 t2, k <= n
    /\ dget (runs py_int c1 (ns1 ++ [n])) k = Some d1 /\ dget (runs py_int c2 (ns2 ++ [n])) k = Some d2
    /\ f_merges d1 = Some merges /\ f_merges d2 = Some merges /\ read_merges merges None = Ok ml
    /\ length (ml_iter ml) = k
    /\ f_cache d1 = Some t1 /\ read_bpe_cache t1 = Ok cache1 /\ f_cache d2 = Some t2 /\ read_bpe_cache t2 = Ok cache2
    /\ forall w, get_bpe_subwords {| bd_merges := ml; bd_cache := cache1 |} w
               = get_bpe_subwords {| bd_merges := ml; bd_cache := cache2 |} w.
```

`rocq/theories/P_Repeat.v:285`
```coq
Theorem C97_ties_refuted : exists d1 r1 s1 text1 v1 ml1 d2 r2 s2 text2 v2 ml2 b1 b2,
  reachable 2 1 word_files (Down d1 r1 s1 (Full text1)) /\ reachable 2 1 word_files (Down d2 r2 s2 (Full text2))
  /\ text1 <> text2
  /\ load_vocab_dict text1 = Ok b1 /\ do_merges (scratch_vocab b1) 1 = Ok (v1, ml1)
  /\ load_vocab_dict text2 = Ok b2 /\ do_merges (scratch_vocab b2) 1 = Ok (v2, ml2)
  /\ map m_pair (ml_iter ml1) = [(lit "a", lit "b")] /\ map m_pair (ml_iter ml2) = [(lit "c", lit "d")].
```

## C98: Placeholders stand for what was hidden, never for text of the source

In the output <comment> occurs exactly once for each comment of the text if comments are hidden and never otherwise; <str-literal> exactly once for each string if strings are hidden and never otherwise; <EOL> once for each one-line comment that is shown; <EOF> never, and <non-en> never unless non-English words are replaced. Text that reads like a placeholder, in a comment, a string or the code, is not taken for one.

*For*: every output of the lexer whose keywords and operators are no placeholders, all configurations that hide strings or write them in pieces, all merge lists, all Unicode tables. *Status*: partial.

Not true of the code without restriction: proved for configurations that hide strings or write them in pieces (C98_placeholders; basic splitting, and bpe with hidden strings). C98_string_refuted: where strings are kept whole, a part of a string, as Pygments returns them for f-strings, that reads <comment> cannot be told from a hidden comment in the output (the types in the metadata tell them apart, C92).

`rocq/theories/P_Forge.v:505`
```coq
Theorem C98_placeholders : forall E K o d b lexed l out m p,
  ascii_classes K -> is_blank K 10%N = true /\ is_blank K 9%N = true -> py_text E -> case_no_lt E ->
  lexer_no_holders lexed -> splitters_plain o -> strings_in_pieces d ->
  (is_bpe d = true -> exists bd merges, b = Some bd /\ usable bd merges) ->
  convert_text E K lexed = Ok l -> to_repr E o d b l = Ok (out, m) ->
  In p holders -> (p = lit "<non-en>" -> param d EN_ONLY <> lit "U" \/ is_bpe d = true) ->
  times (p ++ if is_bpe d then lit "</t>" else []) out = expected K d p lexed.
```

`rocq/theories/P_Forge.v:591`
```coq
Theorem C98_string_refuted : exists E K o d lexed l out m,
  ascii_classes K /\ (is_blank K 10%N = true /\ is_blank K 9%N = true) /\ py_text E /\ case_no_lt E /\
  lexer_no_holders lexed /\ splitters_plain o /\ mk_prep_config d = Ok d /\ is_bpe d = false /\
  convert_text E K lexed = Ok l /\ to_repr E o d None l = Ok (out, m) /\
  how_many (kind K ["Comment"%string]) lexed = 0 /\ In (lit "<comment>") out.
```

## C99: A dataset is the same however its path is written

Relative, absolute or with . and .. in it, and from whatever working directory: a path to the same dataset makes learn-bpe do the same, and makes preprocessing read the same files and write the same results to the same places, so that what was done before is found.

*For*: all working directories, all ways to write a path that lead to the same directory, all configurations and trees. *Status*: partial.

Not true of the code without restriction: C99_learn for all paths; C99_preprocessing for all paths that end with a name, on a file system without links. C99_slash_refuted: for preprocessing a slash at the end of the path makes it another dataset. C99_dot_refuted: a dataset given as a dot has no name, so that two datasets that were modified last in the same second share their results.

`rocq/theories/P_Path.v:89`
```coq
Theorem C99_learn : forall py_int maxsize strip number_of source cwd cwd' p p' q t w a,
  Forall valid_name cwd -> Forall valid_name cwd' -> means cwd p q -> means cwd' p' q ->
  let at_path x := {| l_n := l_n a; l_path := x; l_ext := l_ext a; l_id := l_id a; l_no_unicode := l_no_unicode a;
                      l_bytes := l_bytes a; l_word_end := l_word_end a; l_legacy := l_legacy a |} in
  handle_learnbpe_at py_int maxsize strip number_of source cwd t w (at_path p) =
  handle_learnbpe_at py_int maxsize strip number_of source cwd' t w (at_path p') /\
  handle_learnbpe_at py_int maxsize strip number_of source cwd t w (at_path p) =
  handle_learnbpe py_int maxsize strip number_of source t w (at_path (slash :: join [slash] q)) /\
  basename (l_path (absolute cwd (at_path p))) = last q [].
```

`rocq/theories/P_Path.v:127`
```coq
Theorem C99_preprocessing : forall cwd cwd' cache r p p' q t,
  means cwd p q -> means cwd' p' q -> ends_in_name p -> ends_in_name p' -> wf t ->
  let a := with_path p r in let b := with_path p' r in
  dataset_dir_name a = dataset_dir_name b /\ list_folder cache a = list_folder cache b /\
  parsed_at cache a = parsed_at cache b /\ prep_at cache a = prep_at cache b /\
  (forall dir, vocab_path dir a = vocab_path dir b) /\
  map (abs_parts cwd) (parse_sources p t (r_exts r)) = map (abs_parts cwd') (parse_sources p' t (r_exts r)) /\
  parse_outputs cwd cache a t = parse_outputs cwd' cache b t /\ prep_outputs cwd cache a t = prep_outputs cwd' cache b t.
```

`rocq/theories/P_Path.v:217`
```coq
Theorem C99_slash_refuted : forall cwd cache r q,
  let a := with_path (lit "/home/u/proj") r in let b := with_path (lit "/home/u/proj/") r in
  (means cwd (r_path a) q <-> means cwd (r_path b) q) /\ dataset_dir_name a <> dataset_dir_name b /\
  parsed_at cache a <> parsed_at cache b /\ list_folder cache a <> list_folder cache b.
```

`rocq/theories/P_Path.v:239`
```coq
Theorem C99_dot_refuted : forall cache r x y, valid_name x -> valid_name y -> x <> y ->
  let d := with_path (lit ".") r in
  means [lit "home"; x] (r_path d) [lit "home"; x] /\ means [lit "home"; y] (r_path d) [lit "home"; y] /\
  dataset_dir_name d = dataset_dir_name (with_path (lit "anything/.") r) /\
  (forall t, wf t -> is_dir t = true ->
     parse_outputs [lit "home"; x] cache d t = parse_outputs [lit "home"; y] cache d t /\
     prep_outputs [lit "home"; x] cache d t = prep_outputs [lit "home"; y] cache d t).
```

## C100: The way of splitting does not change the tokens that are split

Two configurations that differ in how words are split (nosplit, basic, numbers, ronin, stemming, chars, bpe; with or without marks for the case) but treat comments, whitespace and strings alike give the same number of full tokens, and the full tokens at the same place have the same type, except that a word with non-English letters may be typed as any other word; where nothing is hidden and no stemming is done, the parts of each token put together are the same words.

*For*: every list of parsed tokens, every pair of configurations, every word splitter, all bpe data. *Status*: proved.

C100_types for all pairs of configurations and all tokens; C100_words for those that keep the text (the conditions of C70; for bpe and chars the words are those of nosplit by C03). The restriction to strings that are treated alike is needed: C100_strings_differ, bpe writes a string as one token, the splitting of words writes its words.

`rocq/theories/P_Ways.v:172`
```coq
Theorem C100_types : forall E o o' d d' b b' l out m out' m',
  param d COM = param d' COM -> param d TABS_NEWLINES = param d' TABS_NEWLINES -> strings_alike d d' ->
  data_given d b -> data_given d' b' ->
  to_repr E o d b l = Ok (out, m) -> to_repr E o' d' b' l = Ok (out', m') ->
  length (wb m) = length (wb m') /\ map any_word (types m) = map any_word (types m') /\
  (letters_alike d d' -> types m = types m').
```

`rocq/theories/P_Ways.v:193`
```coq
Theorem C100_words : forall E o o' d d' b b' l out m out' m',
  mk_prep_config d = Ok d -> mk_prep_config d' = Ok d' -> keeps_text o d -> keeps_text o' d' -> keeps_all d l -> keeps_all d' l ->
  Forall (plain_token E) (all_tokens l) ->
  to_repr E o d b l = Ok (out, m) -> to_repr E o' d' b' l = Ok (out', m') ->
  map (put_together E) (slices (wb m) out) = map (put_together E) (slices (wb m') out').
```

`rocq/theories/P_Ways.v:234`
```coq
Theorem C100_strings_differ : exists l out m out' m',
  convert_text ascii_case ascii_K [(["Literal"; "String"]%string, lit """a b""")] = Ok l /\
  to_repr ascii_case no_splitters (conf_of "uc11su") None l = Ok (out, m) /\
  to_repr ascii_case no_splitters (conf_of "uc18su") (Some {| bd_merges := []; bd_cache := [] |}) l = Ok (out', m') /\
  length (types m) = 4 /\ length (types m') = 1.
```

## C101: no_case changes how the words are written and nothing else

With no_case there are the same full tokens of the same types as without it. In the words each part in upper case is replaced by <CAPS> and the part in lower case, each part that begins with a capital letter by <Cap> and the part with a small first letter; the other parts and the marks of words stay. Afterwards no part of a word has a letter in upper case. Keywords, operators and other tokens that are not words stay as they are.

*For*: every output of the lexer of characters with simple case, all options of basic splitting other than ronin and stem. *Status*: proved.

For characters with simple case (as in C86; ASCII is such a set, C101_ascii) that are lowered only if they are in upper case; the splitters of ronin and stemming see the words in lower case with no_case and may split them in another way, so they are left out. C101_options: the options of the API.

`rocq/theories/P_Case.v:359`
```coq
Theorem C101_no_case : forall E K G lo up o d d' b lexed l out m,
  ascii_classes K -> simple_case E K G lo up -> py_text E -> is_up K 160 = false ->
  (forall c, G c -> is_up K c = false -> lo c = c) ->
  case_and_no_case d d' -> Forall (fun tv => Forall G (snd tv)) lexed ->
  convert_text E K lexed = Ok l -> to_repr E o d b l = Ok (out, m) ->
  exists out' m', to_repr E o d' b l = Ok (out', m') /\
    types m' = types m /\ nonproc m' = nonproc m /\
    List.concat (slices (wb m) out) = out /\ List.concat (slices (wb m') out') = out' /\
    Forall2 (fun g g' =>
      (g' = flat_map (recase K lo) g /\
       Forall (fun x => x = lit "<CAPS>" \/ x = lit "<Cap>" \/ no_upper K x) g') \/
      (g' = g /\ exists x, g = [x] /\ case_kept m x)) (slices (wb m) out) (slices (wb m') out').
```

`rocq/theories/P_Case.v:417`
```coq
Theorem C101_options : forall sn no_spaces no_unicode no_com no_str mx,
  exists d d',
    basic_config sn false false no_spaces no_unicode false no_com no_str mx = Ok d /\
    basic_config sn false false no_spaces no_unicode true no_com no_str mx = Ok d' /\ case_and_no_case d d'.
```

## C102: no_unicode replaces the words with non-ascii characters and nothing else

With no_unicode there are the same full tokens as without it, in the same order. A full token of ascii characters only is the same and has the same type. Each word with a non-ascii character is replaced by <non-en>, as a whole, and typed as a non-English word unless it belongs to a comment or to a string. Single non-ascii characters that are not words stay. In strings that are written as one token each run of non-ascii characters between two spaces becomes one character.

*For*: every output of the lexer of characters with simple case, all options of nosplit and of basic splitting. *Status*: proved.

For characters with simple case (as in C86) whose lower case is ascii if and only if they are, numeric literals of ascii characters, and splitters (ronin, stemming) that neither drop nor add the last non-ascii character; the bpe ways of splitting are the subject of C03_no_unicode_words and C15_runs_collapse, where words may also lose their case (C03_no_unicode_refuted). C102_options: the options of the API.

`rocq/theories/P_Unicode.v:310`
```coq
Theorem C102_no_unicode : forall E K G lo up o d d' b lexed l out m,
  ascii_classes K -> simple_case E K G lo up -> py_text E -> (forall c, G c -> is_ascii_char (lo c) = is_ascii_char c) ->
  splitters_same_ascii o -> unicode_and_not d d' ->
  Forall (fun tv => Forall G (snd tv) /\ (type_in (fst tv) ["Literal"; "Number"]%string = true -> is_ascii (snd tv) = true)) lexed ->
  convert_text E K lexed = Ok l -> to_repr E o d b l = Ok (out, m) ->
  exists out' m', to_repr E o d' b l = Ok (out', m') /\ nonproc m' = nonproc m /\
    List.concat (slices (wb m) out) = out /\ List.concat (slices (wb m') out') = out' /\
    length (types m) = length (slices (wb m) out) /\ length (types m') = length (slices (wb m') out') /\
    Forall2 (fun x y : cls * list str =>
        (y = x /\ (is_ascii (List.concat (snd x)) = false -> exists z, snd x = [z] /\ In z (nonproc m))) \/
        (is_ascii (List.concat (snd x)) = false /\ snd y = [lit "<non-en>"] /\ (fst y = fst x \/ fst x = CSplitContainer /\ fst y = CNonEng)) \/
        (param d SPLIT = lit "F" /\ fst x = CStringLiteral /\ fst y = CStringLiteral /\ collapsed_string (snd x) (snd y)))
      (combine (types m) (slices (wb m) out)) (combine (types m') (slices (wb m') out')).
```

`rocq/theories/P_Unicode.v:378`
```coq
Theorem C102_options : forall sn ronin st no_spaces no_case no_com no_str mx full,
  (exists d d',
    basic_config sn ronin st no_spaces false no_case no_com no_str mx = Ok d /\
    basic_config sn ronin st no_spaces true no_case no_com no_str mx = Ok d' /\ unicode_and_not d d') /\
  (exists d d',
    nosplit_config no_spaces false no_com no_str full mx = Ok d /\
    nosplit_config no_spaces true no_com no_str full mx = Ok d' /\ unicode_and_not d d').
```

## C103: learn-bpe commands at the same time do not spoil each other's results

If several learn-bpe commands for the same dataset, for the same or different numbers of merges, run at the same time, every directory of codes that is not just being written has the complete results of textbook learning with as many merges as its name says; what is there once is never changed; every command ends, and none fails except that another one has made its directory in the meantime; for every command that has ended there is a directory with as many merges as it has learned.

*For*: all corpora, all numbers of commands and of merges, all times at which commands start, all interleavings of their steps and of the parts in which the files are written. *Status*: partial.

Not true of the code without restriction: C103_together, C103_progress for all runs in which no command lists the directories while another one is writing its own; C103_kept and C103_ends for all runs. C103_while_saving_refuted: a command that looks while another one is saving reads the beginning of the list of merges and then the complete vocabulary; both commands end regularly, and the directory of the second lacks a merge and is no result of learning. The commands have their dataset and id already; that killed commands leave unusable directories is C75.

`rocq/theories/P_LearnTogether.v:222`
```coq
Theorem C103_together : forall s, t_apart py_int c s ->
  (forall k d, dget (t_dirs s) k = Some d ->
     (exists n files, In (TSaving n k files) (t_procs s)) \/
     (exists l v, greedy (characters c) l v /\ length l = k /\ has_results c l v d)) /\
  (forall n r, In (TEnded n r) (t_procs s) ->
     In r [Learned; AlreadyThere; DirExists] /\
     exists l v d, greedy (characters c) l v /\ length l <= n /\ (length l < n -> Forall (fun wf => length (fst wf) = 1) v) /\
       dget (t_dirs s) (length l) = Some d /\ (r = Learned -> has_results c l v d)).
```

`rocq/theories/P_LearnTogether.v:246`
```coq
Theorem C103_progress : forall s, t_apart py_int c s ->
  (forall p, In p (t_procs s) -> exists n r, p = TEnded n r) \/ exists s', apart py_int c s s'.
```

`rocq/theories/P_LearnTogether.v:291`
```coq
Theorem C103_kept : forall py_int c s s' k d,
  t_later py_int c s s' -> dget (t_dirs s) k = Some d -> (forall n files, ~ In (TSaving n k files) (t_procs s)) ->
  dget (t_dirs s') k = Some d.
```

`rocq/theories/P_LearnTogether.v:349`
```coq
Theorem C103_ends : forall py_int c, well_founded (fun s' s => tstep py_int c s s').
```

`rocq/theories/P_LearnTogether.v:447`
```coq
Theorem C103_while_saving_refuted :
  corpus_ok ex_corpus /\
  exists s d, t_later ascii_int ex_corpus t_init s /\ t_procs s = [TEnded 2 Learned; TEnded 3 Learned] /\
    dget (t_dirs s) 3 = Some d /\
    option_map (fun f => match read_merges f None with Ok ml => map m_pair (ml_iter ml) | Err _ => [] end) (f_merges d)
      = Some [(lit "l", lit "o"); (lit "low", lit "@"); (lit "x", lit "@@")] /\
    forall l v, greedy (characters ex_corpus) l v -> ~ has_results ex_corpus l v d.
```

## C104: With bpe the vocabulary is closed and bounded by the number of merges

Whatever texts are preprocessed with bpe codes of n merges and whatever the other options, each token of the output is a single character, the subtoken that one of the merges makes, the mere end of a word, 0, 1, a mark for something hidden, or one of the tokens listed as not processed. So there are at most n + 1 different subtokens longer than a character, however much is preprocessed.

*For*: all texts, any number of them; all merge lists; all options. *Status*: proved.

Proved from the tokens of the lexer to the output (C104_output, C104_size), for single words (C104_word) and for the first n merges of a file (C104_file). Merge lists without repeated pairs and a cache that agrees with them, as everywhere for bpe (C18, C96); C104_ex reaches the bound.

`rocq/theories/P_Closed.v:72`
```coq
Theorem C104_word b l w ws : usable b l -> ~ In 32%N w -> get_bpe_subwords b w = Ok ws ->
  Forall (piece (map fst l)) (mark ws).
```

`rocq/theories/P_Closed.v:234`
```coq
Theorem C104_output : forall E K o d b l lexed tokens out m,
  py_ascii E -> py_text E -> ascii_classes K -> lexer_ok lexed -> usable b l -> is_bpe d = true ->
  convert_text E K lexed = Ok tokens -> to_repr E o d (Some b) tokens = Ok (out, m) ->
  Forall (fun x => piece (map fst l) x \/ special x \/ exists y, In y (nonproc m) /\ x = y ++ ph_compound_word_end) out.
```

`rocq/theories/P_Closed.v:253`
```coq
Theorem C104_size : forall E K o b l xs,
  py_ascii E -> py_text E -> ascii_classes K -> usable b l ->
  NoDup xs -> Forall (comes_from E K o b) xs -> length xs <= S (length l).
```

`rocq/theories/P_Closed.v:273`
```coq
Theorem C104_file : forall E K o content ml n mn xs,
  py_ascii E -> py_text E -> ascii_classes K ->
  read_merges content None = Ok ml -> length ml = length (file_lines content) -> 0 < n -> read_merges content (Some n) = Ok mn ->
  NoDup xs -> Forall (comes_from E K o {| bd_merges := mn; bd_cache := [] |}) xs -> length xs <= S n.
```

## C105: learn-bpe commands for different datasets at the same time give different ids

If learn-bpe commands for different datasets whose names cannot lead to the same id run at the same time, and any of them is killed at any moment, there is never an id that two datasets have; a dataset that has an id keeps it; a command that comes to learning has an id for its dataset, the one it had before, or one that is made of its name or given with --id, and that no dataset had; no command has to wait for another one; and if all of them end, all this holds for the commands started next.

*For*: all numbers of commands, all contents of the directory of codes that finished commands leave, all orders in which it is listed, all interleavings of the steps, also with preprocessing commands that make directories. *Status*: partial.

Not true of the code without restriction: C105_distinct, C105_stays, C105_given, C105_again, C105_progress for commands for different datasets whose names do not lead to the same id, if the ids that are there belong to codes with merges (a command killed before that leaves an id that is given again, C36_unfinished_refuted) and the names have no special characters of regular expressions (C36_special_refuted). C105_same_name_refuted: two datasets of the same name, learned at the same time, get the same id. C105_same_dataset_refuted: of two commands for the same new dataset one can replace the id that the other one has written, after that has ended.

`rocq/theories/P_Ids.v:293`
```coq
Theorem C105_distinct : forall D cs s, settled D -> NoDup (map q_name cs) -> Forall (fine D) cs -> names_apart cs ->
  i_later (i_begin D cs) s -> distinct (i_dirs s).
```

`rocq/theories/P_Ids.v:298`
```coq
Theorem C105_stays : forall D cs s s' n i, settled D -> NoDup (map q_name cs) -> Forall (fine D) cs -> names_apart cs ->
  i_later (i_begin D cs) s -> i_later s s' -> has (i_dirs s) n i -> has (i_dirs s') n i.
```

`rocq/theories/P_Ids.v:304`
```coq
Theorem C105_given : forall D cs s p, settled D -> NoDup (map q_name cs) -> Forall (fine D) cs -> names_apart cs ->
  i_later (i_begin D cs) s -> In p (i_procs s) -> (p = ILearn (cmd_of p) \/ p = IDone (cmd_of p)) ->
  exists i, has (i_dirs s) (q_name (cmd_of p)) i /\
    (has D (q_name (cmd_of p)) i \/ ids_for (cmd_of p) i /\ (forall n, ~ has D n i)).
```

`rocq/theories/P_Ids.v:324`
```coq
Theorem C105_again : forall D cs s, settled D -> NoDup (map q_name cs) -> Forall (fine D) cs -> names_apart cs ->
  Forall (fun c => exists m, py_int (q_sub c) = Some m /\ (0 < m <= maxsize)%Z) cs ->
  i_later (i_begin D cs) s -> Forall (fun p => p = IDone (cmd_of p)) (i_procs s) -> settled (i_dirs s).
```

`rocq/theories/P_Ids.v:340`
```coq
Theorem C105_progress : forall s l1 p l2, i_procs s = l1 ++ p :: l2 ->
  p = IDone (cmd_of p) \/ (exists e, p = IFailed (cmd_of p) e) \/
  exists dirs' p', istep s {| i_dirs := dirs'; i_procs := l1 ++ p' :: l2 |} /\ cmd_of p' = cmd_of p.
```

`rocq/theories/P_Ids.v:457`
```coq
Theorem C105_same_name_refuted : exists D cs s, settled ascii_int 5000 (fun s => s) D /\ NoDup (map q_name cs) /\
  Forall (fine (fun s => s) literal_number D) cs /\ ex_later (i_begin D cs) s /\ Forall (fun p => p = IDone (cmd_of p)) (i_procs s) /\
  ~ distinct (fun s => s) (i_dirs s).
```

`rocq/theories/P_Ids.v:473`
```coq
Theorem C105_same_dataset_refuted : exists c s s', let cs := [c; c] in
  settled ascii_int 5000 (fun s => s) [] /\ Forall (fine (fun s => s) literal_number []) cs /\ names_apart cs /\
  ex_later (i_begin [] cs) s /\ ex_later s s' /\ In (IDone c) (i_procs s) /\
  ex_has (i_dirs s) (q_name c) (lit "proj") /\ ex_has (i_dirs s') (q_name c) (lit "proj_1").
```

## C106: Removing the cache does not change the results

Whatever parts of the cache, that is, saved lists of files, parsed files, corpus sizes and the splittings kept for words, are removed between runs, together with the marks that they are complete, and whatever is killed before or after that: the next run that ends gives the same files, the same list of special tokens, the same corpus size and a vocabulary that counts all tokens, and such a run is not prevented from ending.

*For*: all datasets, all functions that parse and split, all histories of killed and finished runs and of removals, all subsets of the files removed. *Status*: partial.

Not true of the code without restriction: C106_same and C106_finish for parsed and preprocessed files, C106_list for the lists of files of a dataset that does not change (a changed one: C83), C106_corpus for corpora of one output directory (C64), C106_word for kept splittings that are looked up once (C18_cached_word_refuted). A marker is removed with the files it stands for, and a stage that was changed since it was marked is removed as a whole. C106_output_refuted: the preprocessed dataset is not part of the cache; if it is removed after its vocabulary was calculated, the same call does not make it again and returns a corpus without files.

`rocq/theories/P_Removed.v:71`
```coq
Theorem C106_same : forall s s', reach_mod s -> ph s = Done -> goes_on s s' -> ph s' = Done ->
  (forall i, i < n -> dest (parsed s') i = dest (parsed s) i /\ dest (prep s') i = dest (prep s) i) /\ nonbpe s' = nonbpe s.
```

`rocq/theories/P_Removed.v:83`
```coq
Theorem C106_finish : forall s s1 s2, reach_clean s -> (forall i, i < n -> src i <> None) -> modified s s1 ->
  run content n src parse repr nonprocessable placeholder_tokens base_bpe s1 s2 -> (forall s', ~ step s2 s') -> ph s2 = Done.
```

`rocq/theories/P_Removed.v:130`
```coq
Theorem C106_list : forall now ds s l, f_hist (f_init now ds) s -> In (FDone (Some l)) (l_procs s) -> l = ds.
```

`rocq/theories/P_Removed.v:141`
```coq
Theorem C106_corpus : forall output (allowed : M_Dataset.run -> Prop) d l r calc sizes,
  (forall r, allowed r -> plain_run r /\ slashless r /\ r_output r = Some output) ->
  (forall r r', allowed r -> allowed r' -> same_task r r' -> tokens r = tokens r') ->
  session allowed d l -> In (r, calc) l -> Forall writable (tokens r) -> (forall q, sizes q = d_size d q \/ sizes q = None) ->
  let d' := {| d_prep := d_prep d; d_vocab := d_vocab d; d_size := sizes |} in
  snd (get_corpus_size d' (corpus_of r calc)) = snd (get_corpus_size d (corpus_of r calc)) /\
  (calc = true -> exists v, load_vocab d' (corpus_of r calc) = Ok v /\ counts_exactly v (List.concat (tokens r))) /\
  d_prep d' (c_prep (corpus_of r calc)) = Some (map preprocessed_file (tokens r)).
```

`rocq/theories/P_Removed.v:160`
```coq
Theorem C106_output_refuted : forall r, tokens r <> [] -> exists d,
  session (fun r' => r' = r) d [(r, true)] /\
  let d' := without_output d (prep_path prep_root r) in
  preprocess_corpus d' r true d' (Ok (corpus_of r true)) /\ d_prep d' (c_prep (corpus_of r true)) = None /\
  forall d'' c, preprocess_corpus d' r true d'' c -> d_prep d'' (c_prep (corpus_of r true)) = None.
```

`rocq/theories/P_Removed.v:183`
```coq
Theorem C106_word : forall b l kept w, usable b l -> (forall x parts, dget kept x = Some parts -> dget (bd_cache b) x = Some parts) -> ~ In 32%N w ->
  get_bpe_subwords {| bd_merges := bd_merges b; bd_cache := kept |} w = get_bpe_subwords b w.
```

## C107: Results that were changed are set aside, not lost, when they are made anew

When a finished stage has been changed since it was finished, it is archived before it is made again: then everything that was in it, and its marker, is found under the archived names and nothing is left at the old place. Whether archiving succeeds or fails, files elsewhere stay as they are, and what has been archived stays whatever is archived later.

*For*: every directory tree, every path of results and every place of the archive, all times, every sequence of calls of archiving, successful or not. *Status*: partial.

Not true of the code without restriction: C107_kept (success), C107_others (success or failure), C107_stays (all later calls), C107_possible (when it succeeds). os.rename with its errors for existing targets, devices and directories below themselves. C107_device_refuted: if the output is on another device than the cache, os.rename always fails, so that the changed results can never be made anew: every later run ends with this error. C107_second_refuted: the same for results whose name and second of last change are those of something that was archived before, as with two output directories.

`rocq/theories/P_Archive.v:279`
```coq
Theorem C107_kept : forall t p fs fs', archive_path t p fs = (fs', None) -> tidy fs ->
  exists x s k, look p fs = Some x /\ get_timestamp clock limit (shape x) = Ok s /\ look (marker p) fs = Some k /\
    look (archived (name_of p) s) fs' = Some x /\ look (archived (name_of (marker p)) s) fs' = Some k /\
    look p fs' = None /\ look (marker p) fs' = None.
```

`rocq/theories/P_Archive.v:335`
```coq
Theorem C107_others : forall t p fs fs' err q m c, archive_path t p fs = (fs', err) ->
  look q fs = Some (EFile m c) -> ~ below p q -> ~ below (marker p) q -> (forall s, q <> archived (name_of (marker p)) s) ->
  (forall m c, look p fs <> Some (EFile m c)) -> look q fs' = Some (EFile m c).
```

`rocq/theories/P_Archive.v:357`
```coq
Theorem C107_stays : forall calls fs n s rest m c, rest <> [] -> look (archived n s ++ rest) fs = Some (EFile m c) ->
  Forall (fun tp => snd tp <> [] /\ ~ below (snd tp) preps /\ ~ below (marker (snd tp)) preps /\ forall n s, ~ below (archived n s) (snd tp)) calls ->
  look (archived n s ++ rest) (archive_all calls fs) = Some (EFile m c).
```

`rocq/theories/P_Archive.v:419`
```coq
Theorem C107_possible : forall t p fs m es, p <> [] -> to_archive p fs = true ->
  look preps fs = Some (EDir m es) -> dev (parent p) = dev preps -> ~ below p preps ->
  (forall s, look (archived (name_of p) s) fs = None /\ look (archived (name_of (marker p)) s) fs = None) ->
  exists fs', archive_path t p fs = (fs', None).
```

`rocq/theories/P_Archive.v:430`
```coq
Theorem C107_device_refuted : forall p fs calls x s m c, p <> [] ->
  look p fs = Some x -> get_timestamp clock limit (shape x) = Ok s -> look (marker p) fs = Some (EFile m c) -> c <> stamp_str s -> dev (parent p) <> dev preps -> ~ below p preps -> ~ below (marker p) preps ->
  Forall (fun tp => snd tp = p) calls ->
  to_archive p (archive_all calls fs) = true /\ forall t, exists e, snd (archive_path t p (archive_all calls fs)) = Some e.
```

`rocq/theories/P_Archive.v:453`
```coq
Theorem C107_second_refuted : forall p fs calls x s m e es, look p fs = Some x -> get_timestamp clock limit (shape x) = Ok s ->
  look (archived (name_of p) s) fs = Some (EDir m (e :: es)) -> Forall (fun tp => snd tp = p) calls ->
  archive_all calls fs = fs /\ forall t, exists f, archive_path t p fs = (fs, Some f).
```

## C108: Commands with different options for the same dataset do not disturb each other

Commands that preprocess the same dataset with different options share the parsed dataset. They may be started at any time, also while others are at work, and any of them may be killed: none fails because of the others, each comes to its end if it is not killed, and then has an output file for every file of the dataset, with the representation that belongs to its own options.

*For*: every dataset, every parser and representation, every number of commands, every interleaving of their steps, every sequence of kills, every state left by earlier commands. *Status*: partial.

Not true of the code without restriction: C108_right: whatever happens, no output file is wrong, and a command that has ended regularly has all of them. C108_parsed: none fails once the dataset has been parsed. C108_patient and C108_ends: none fails and each comes to its end if a command is started only when no other one is still parsing (the preprocessing may overlap, kills at any time, any earlier state, at least one file). C108_refuted: a second command that looks while the first one has opened its marker but not written it moves the parsed dataset away, and the first one fails. C108_reading_refuted: with three commands one that is preprocessing can fail. Writing a parsed file is one step here (the common temporary file: C82).

`rocq/theories/P_Shared.v:72`
```coq
Theorem C108_right : forall d es, (forall f t x, pfile _ d f = Some (t, x) -> x = parse f) ->
  forall c, In c (w_commands _ (happened es (Build_world _ d []))) ->
  (forall f s, out c f = Some s -> s = to_repr (opt c) (parse f)) /\ (at_ c = QDone -> forall f, In f files -> out c f = Some (to_repr (opt c) (parse f))).
```

`rocq/theories/P_Shared.v:120`
```coq
Theorem C108_parsed : forall d es, pdir _ d = true -> (forall f, In f files -> pfile _ d f <> None) -> pmark _ d = Some (Some (stamp_of d)) ->
  let w := happened es (Build_world _ d []) in
  (forall c, In c (w_commands _ w) -> at_ c <> QFailed) /\ forall f, pfile _ (w_parsed _ w) f = pfile _ d f.
```

`rocq/theories/P_Shared.v:246`
```coq
Theorem C108_patient : forall d es, (0 < now _ d)%N -> (forall f t x, pfile _ d f = Some (t, x) -> (0 < t)%N) ->
  (forall s, pmark _ d = Some (Some s) -> (0 < s)%N /\ (s = stamp_of d -> forall f, In f files -> pfile _ d f <> None)) ->
  patient es (Build_world _ d []) = true ->
  forall c, In c (w_commands _ (happened es (Build_world _ d []))) -> at_ c <> QFailed.
```

`rocq/theories/P_Shared.v:305`
```coq
Theorem C108_ends : forall d es, (0 < now _ d)%N -> (forall f t x, pfile _ d f = Some (t, x) -> (0 < t)%N /\ x = parse f) ->
  (forall s, pmark _ d = Some (Some s) -> (0 < s)%N /\ (s = stamp_of d -> forall f, In f files -> pfile _ d f <> None)) ->
  patient es (Build_world _ d []) = true ->
  forall i c, nth_error (w_commands _ (happened es (Build_world _ d []))) i = Some c -> at_ c <> QKilled ->
  exists k c', nth_error (w_commands _ (happened (es ++ repeat (EStep i) k) (Build_world _ d []))) i = Some c' /\ at_ c' = QDone /\
    forall f, In f files -> out c' f = Some (to_repr (opt c) (parse f)).
```

`rocq/theories/P_Shared.v:364`
```coq
Theorem C108_refuted : exists files parse to_repr (d : parsed (list nat)) es c,
  files <> [] /\ (0 < now _ d)%N /\ (forall f, pfile _ d f = None) /\ pmark _ d = None /\
  In c (w_commands _ (happened files _ parse to_repr es (Build_world _ d []))) /\ at_ c = QFailed /\
  (forall i, ~ In (EKill i) es) /\ length (w_commands _ (happened files _ parse to_repr es (Build_world _ d []))) = 2.
```

`rocq/theories/P_Shared.v:377`
```coq
Theorem C108_reading_refuted : exists files parse to_repr (d : parsed (list nat)) es c,
  files <> [] /\ (0 < now _ d)%N /\ (forall f, pfile _ d f = None) /\ pmark _ d = None /\
  nth_error (w_commands _ (happened files _ parse to_repr es (Build_world _ d []))) 0 = Some c /\ at_ c = QPrep files /\
  (exists c', nth_error (w_commands _ (happened files _ parse to_repr (es ++ [EStep 0]) (Build_world _ d []))) 0 = Some c' /\ at_ c' = QFailed) /\
  (forall i, ~ In (EKill i) es).
```

## C109: Files that disappear while a command is running are left out and do no harm

If a file of the dataset has disappeared between the scan of the dataset and its parsing, there is a message and the file is ignored: the command goes on with the other files and ends, and its output files are right. If the file is there again, a later command processes it.

*For*: every list of files, every parser and representation, every history of runs, kills and files that come and go, every moment at which a file is read. *Status*: partial.

Not true of the code without restriction: C109_right: every output file belongs to what some run has read, and a run that ends has one for every file of the list. C109_all_found: no run fails if all files are found. C109_comes_back: a file that is missing does no harm if it is there again before a run has finished the parsing. C109_missing_refuted: if a file of the list is missing when it is to be parsed, the message says that it is ignored, but the run fails afterwards in preprocessing (there is no parsed file), and every later run as well, also if the file is there again, as the parsing is marked as finished. The name of the dataset is the same in all runs: if the time stamp of the dataset changes, everything is done anew (C53); removing a file from the top directory does not change it (C53_root_refuted).

`rocq/theories/P_Missing.v:119`
```coq
Theorem C109_right : forall h s, runs nothing h s ->
  (forall f x, r_out _ s f = Some x -> exists src k b, In (src, k) h /\ src f = Found b /\ x = to_repr (parse f b)) /\
  forall src s', run src s Ended s' -> forall f, In f files -> exists src' k b, In (src', k) (h ++ [(src, Ended)]) /\ src' f = Found b /\ r_out _ s' f = Some (to_repr (parse f b)).
```

`rocq/theories/P_Missing.v:178`
```coq
Theorem C109_all_found : forall h s, runs nothing h s -> (forall src k f, In (src, k) h -> In f files -> found (src f)) ->
  (forall src k, In (src, k) h -> k <> Failed) /\
  forall src, (forall f, In f files -> found (src f)) -> (exists s', run src s Ended s') /\ forall s', ~ run src s Failed s'.
```

`rocq/theories/P_Missing.v:187`
```coq
Theorem C109_comes_back : forall h s, runs nothing h s -> r_pmark _ s = false -> forall src, (forall f, In f files -> r_parsed _ s f = None -> found (src f)) ->
  (exists s', run src s Ended s') /\ forall s', ~ run src s Failed s'.
```

`rocq/theories/P_Missing.v:255`
```coq
Theorem C109_missing_refuted : forall f src, In f files -> src f = Gone -> (forall g, In g files -> src g <> Broken) ->
  (exists s', run src nothing Failed s') /\ (forall s', ~ run src nothing Ended s') /\
  forall s', run src nothing Failed s' -> forall h s2, runs s' h s2 -> (forall src' k, In (src', k) h -> k <> Ended) /\ r_out _ s2 f = None.
```

## C110: Links to directories do not keep a scan from ending, and each file is processed once

A dataset may contain symbolic links to directories, also ones that lead back to a directory around them. The scan ends. It lists every file of the dataset under its own path, no name twice, and nothing but files to which a path over links leads that the system follows. Links that stay in the dataset add no files, and each file is processed once.

*For*: every file system with any links, every dataset in it, every filter for extensions, every number of links that the system follows. *Status*: partial.

Not true of the code without restriction: C110_listed: exactly the files to which a path over at most as many links leads as the system follows. C110_own and C110_distinct: every file under its own path, no name twice. C110_once: without links to directories each file exactly once. C110_inside: links that stay in the dataset add names, but no files. C110_stamp: the time stamp does not depend on how far links can be followed. C110_again_refuted: with one link to the dataset itself, its file is listed, parsed and written 41 times on a system that follows 40 links. C110_exponential_refuted: with two such links the list has 2^41 - 1 names for one file, so that the command does not end in any useful time. Paths are taken to be shorter than the system's limit of 4096 bytes.

`rocq/theories/P_LinkCycle.v:130`
```coq
Theorem C110_listed top budget path m es exts name : gwf top -> gwf (GDir m es) ->
  In name (scan_links top budget path (GDir m es) exts) <->
  exists p n mt k, k <= budget /\ route top (GDir m es) (p ++ [n]) k (GFile mt) /\ name = rel_name p n /\ selected exts name.
```

`rocq/theories/P_LinkCycle.v:148`
```coq
Theorem C110_own top budget path m es exts p n mt : gwf top -> gwf (GDir m es) ->
  real_at (GDir m es) (p ++ [n]) (GFile mt) -> selected exts (rel_name p n) ->
  In (rel_name p n) (scan_links top budget path (GDir m es) exts).
```

`rocq/theories/P_LinkCycle.v:157`
```coq
Theorem C110_distinct top budget path m es exts : gwf top -> gwf (GDir m es) ->
  NoDup (scan_links top budget path (GDir m es) exts).
```

`rocq/theories/P_LinkCycle.v:180`
```coq
Theorem C110_once top budget path m es exts name : gwf top -> gwf (GDir m es) ->
  (forall p target, ~ real_at (GDir m es) p (GTo target)) ->
  NoDup (scan_links top budget path (GDir m es) exts) /\
  (In name (scan_links top budget path (GDir m es) exts) <->
   exists p n mt, real_at (GDir m es) (p ++ [n]) (GFile mt) /\ name = rel_name p n /\ selected exts name).
```

`rocq/theories/P_LinkCycle.v:235`
```coq
Theorem C110_inside top base budget path m es exts name :
  gwf top -> real_at top base (GDir m es) ->
  (forall p target, real_at (GDir m es) p (GTo target) -> exists q, target = base ++ q) ->
  (forall l e, exts = Some l -> In e l -> no_char slash e) ->
  In name (scan_links top budget path (GDir m es) exts) ->
  exists p q n k mt, name = rel_name p n /\ route top (GDir m es) (p ++ [n]) k (GFile mt) /\
    real_at (GDir m es) (q ++ [n]) (GFile mt) /\ In (rel_name q n) (scan_links top budget path (GDir m es) exts).
```

`rocq/theories/P_LinkCycle.v:309`
```coq
Theorem C110_stamp top clock limit b b' m es : gwf top ->
  (forall p target, real_at (GDir m es) p (GTo target) -> exists m' es', real_at top target (GDir m' es')) ->
  get_timestamp clock limit (view top (S b) (GDir m es)) = get_timestamp clock limit (view top (S b') (GDir m es)).
```

`rocq/theories/P_LinkCycle.v:341`
```coq
Theorem C110_again_refuted :
  gwf ex_loop /\ (forall p m, real_at ex_loop p (GFile m) -> p = [lit "a"]) /\
  length (scan_links ex_loop 40 (lit "d") ex_loop None) = 41 /\
  In (lit "l/l/l/a") (scan_links ex_loop 40 (lit "d") ex_loop None).
```

`rocq/theories/P_LinkCycle.v:353`
```coq
Theorem C110_exponential_refuted :
  gwf ex_loops /\ (forall p m, real_at ex_loops p (GFile m) -> p = [lit "a"]) /\
  forall budget path, length (scan_links ex_loops budget path ex_loops None) = 2 ^ (S budget) - 1.
```

## C111: A file that cannot be read does not keep other files from being processed, and does no lasting harm

If a file of the dataset cannot be read, because of its permissions, say, the command leaves it out and processes the other ones. Whether or not the command fails: what has been parsed and written stays, no wrong output is left, and once the file can be read, the next command ends with the right output for all files.

*For*: every list of files, every parser and representation, every history of runs that fail or are killed at any moment, every combination of files that can and cannot be read in each of them. *Status*: partial.

Not true of the code without restriction: C111_recovers: runs fail only because of files that cannot be read in them, and after any number of such runs and of kills the next one in which all files can be read does not fail and can end (with the right outputs by C109_right). C111_kept: what has been parsed and written stays. C111_others_refuted: only FileNotFoundError is caught; while there is one file that cannot be read for another reason (PermissionError, say), no run ends, and there is no output for any of the other files.

`rocq/theories/P_Missing.v:195`
```coq
Theorem C111_recovers : forall h s, runs nothing h s -> (forall src k f, In (src, k) h -> In f files -> src f <> Gone) ->
  (forall src, In (src, Failed) h -> exists f, In f files /\ src f = Broken) /\
  forall src, (forall f, In f files -> found (src f)) -> (exists s', run src s Ended s') /\ forall s', ~ run src s Failed s'.
```

`rocq/theories/P_Missing.v:202`
```coq
Theorem C111_kept : forall h s s', runs s h s' ->
  (forall f t, r_parsed _ s f = Some t -> r_parsed _ s' f = Some t) /\ forall f x, r_out _ s f = Some x -> r_out _ s' f = Some x.
```

`rocq/theories/P_Missing.v:216`
```coq
Theorem C111_others_refuted : forall f h s, In f files -> runs nothing h s -> (forall src k, In (src, k) h -> src f = Broken) ->
  (forall src k, In (src, k) h -> k <> Ended) /\ (forall g, r_out _ s g = None) /\
  forall src, src f = Broken -> (exists s', run src s Failed s') /\ forall s', ~ run src s Ended s'.
```

## C112: Preprocessing gives files and directories names that the file system takes

Whatever names the files of a dataset have, whatever extensions are asked for and whatever the configuration is: the names of lists, parsed files, outputs, temporary files, parts of vocabularies, markers and archives are not longer than the file system allows, so that no run fails because of them.

*For*: every dataset, every run, every limit for the length of names, every length of the time in a name, every sequence of the operations of a run. *Status*: partial.

Not true of the code without restriction: C112_exact: all names fit exactly if the directories given fit, the name of the directory with the results is 38 bytes shorter than the limit, every file name 12 bytes, and, where special tokens are collected, the written form of each output name has room for the time and 3 more. C112_fits: then a run does what it does without a limit. C112_width: the written form has between one and four characters for a byte, four for every byte of a letter that is not ASCII. C112_usual: conditions for a limit of 255 bytes. C112_long_refuted: a file with a name of 244 to 255 bytes stops the command. C112_letters_refuted: when special tokens are collected (learning bpe codes), a file name with 57 bytes of letters that are not ASCII does. C112_extensions_refuted: with extensions of 238 bytes together, separators counted, no dataset can be preprocessed. The limit of 4096 bytes for a whole path is not modelled.

`rocq/theories/P_Names.v:35`
```coq
Theorem C112_width : forall s,
  let n := basename (sv_dest s) in let k := 6 + length (sv_time s) in
  length n + k <= length (part_name s) <= 4 * length n + k /\
  (Forall plain_char n -> length (part_name s) = length n + k) /\
  (forall a b, n = a ++ b -> Forall (fun c => 128 <= c)%N a -> Forall plain_char b -> length (part_name s) = 4 * length a + length b + k).
```

`rocq/theories/P_Names.v:177`
```coq
Theorem C112_exact : forall cwd cache config r t digits limit,
  plain_names r -> wf t -> (is_dir t = false -> valid_name (basename (r_path r))) ->
  (forall o, named_op cwd cache config r t digits o -> forallb (fits limit) (paths_of o) = true) <-> room limit digits cwd cache config r t.
```

`rocq/theories/P_Names.v:284`
```coq
Theorem C112_fits : forall cwd cache config r t digits limit os fs,
  plain_names r -> wf t -> (is_dir t = false -> valid_name (basename (r_path r))) -> room limit digits cwd cache config r t ->
  Forall (fun to => named_op cwd cache config r t digits (snd to)) os ->
  perform_all_within limit os fs = Some (perform_all os fs).
```

`rocq/theories/P_Names.v:299`
```coq
Theorem C112_usual : forall cwd cache config r t,
  fits 255 (abs_parts cwd cache) = true -> fits 255 (abs_parts cwd config) = true -> fits 255 (abs_parts cwd (output_of cache r)) = true ->
  length (prep_basename r) <= 217 ->
  (forall f, In f (scan_files (r_path r) t (r_exts r)) -> fits 255 (split_on slash f) = true /\
     (length (basename f) <= 56 \/ (length (basename f) <= 224 /\ Forall plain_char (basename f))
      \/ (length (basename f) <= 243 /\ is_base_bpe_config (r_config r) = false))) ->
  room 255 20 cwd cache config r t.
```

`rocq/theories/P_Names.v:330`
```coq
Theorem C112_long_refuted : forall cwd cache config r t f,
  plain_names r -> wf t -> (is_dir t = false -> valid_name (basename (r_path r))) ->
  In f (scan_files (r_path r) t (r_exts r)) -> 243 < length (basename f) ->
  exists o, In o (parse_outputs cwd cache r t) /\
    (forall digits c, named_op cwd cache config r t digits (WriteFile (abs_parts cwd (temp_name o)) c)) /\
    forall a s c b fs, perform_all_within 255 (a ++ (s, WriteFile (abs_parts cwd (temp_name o)) c) :: b) fs = None.
```

`rocq/theories/P_Names.v:346`
```coq
Theorem C112_letters_refuted : forall cwd cache config r t f x y,
  plain_names r -> wf t -> (is_dir t = false -> valid_name (basename (r_path r))) -> is_base_bpe_config (r_config r) = true ->
  In f (scan_files (r_path r) t (r_exts r)) -> basename f = x ++ y -> Forall (fun c => 128 <= c)%N x -> Forall plain_char y ->
  226 < 4 * length x + length y ->
  exists o, In o (prep_outputs cwd cache r t) /\
    forall s, sv_dest s = o -> 18 <= length (sv_time s) ->
    (forall c, named_op cwd cache config r t (length (sv_time s)) (WriteFile (parts_folder cwd config r ++ [part_name s]) c)) /\
    forall a m c b fs, perform_all_within 255 (a ++ (m, WriteFile (parts_folder cwd config r ++ [part_name s]) c) :: b) fs = None.
```

`rocq/theories/P_Names.v:367`
```coq
Theorem C112_extensions_refuted : forall cwd cache config r t es digits,
  plain_names r -> r_exts r = Some es -> 237 < list_sum (map (fun e => S (length e)) es) ->
  named_op cwd cache config r t digits (MakeDirs (abs_parts cwd (parsed_at cache r))) /\
  forall a m b fs, perform_all_within 255 (a ++ (m, MakeDirs (abs_parts cwd (parsed_at cache r))) :: b) fs = None.
```

## C113: The directory given is the one that is read and written, whatever letters its path has

Whatever bytes the path of a dataset or of an output directory consists of: if it exists, its files are listed and processed, and the outputs are in the directory that is made and reported; if it does not, this is an error. A dataset with files is never taken for an empty one.

*For*: every path of bytes, every contents of the file system, every filter for extensions, UTF-8 and ISO-8859-1 as encoding of the file system. *Status*: partial.

Not true of the code without restriction: C113_round_trip: the os functions are asked about the bytes that were given. C113_files: on a UTF-8 system for every path that is UTF-8, and in both locales for every ASCII path, the right files are listed and the outputs go to the directory that is made. C113_missing: a path where nothing is is an error. C113_bytes_refuted: on a UTF-8 system a path that is not UTF-8 is always a UnicodeEncodeError. C113_locale_refuted: in an ISO-8859-1 locale, for every path that is not ASCII str.encode() gives other bytes; if nothing is there, the dataset is taken for an empty one without an error, and outputs go to another directory than the one made and reported. Other encodings are not modelled.

`rocq/theories/P_PathEnc.v:99`
```coq
Theorem C113_round_trip : forall e b, is_bytes b -> fsencode e (fsdecode e b) = Ok b.
```

`rocq/theories/P_PathEnc.v:109`
```coq
Theorem C113_files : forall e world b t exts, is_bytes b -> world b = Some t ->
  (e = Utf8 /\ (exists s, utf8_decode b = Some s)) \/ Forall (fun c => c < 128) b ->
  list_files e world (fsdecode e b) exts = Ok (scan_files b t exts) /\
  made_at e (fsdecode e b) = Ok b /\ put_at (fsdecode e b) = Ok b.
```

`rocq/theories/P_PathEnc.v:124`
```coq
Theorem C113_missing : forall e world b exts, is_bytes b -> world b = None -> list_files e world (fsdecode e b) exts = Err ValueError.
```

`rocq/theories/P_PathEnc.v:129`
```coq
Theorem C113_bytes_refuted : forall world b t exts, is_bytes b -> utf8_decode b = None -> world b = Some t ->
  list_files Utf8 world (fsdecode Utf8 b) exts = Err UnicodeError /\
  made_at Utf8 (fsdecode Utf8 b) = Ok b /\ put_at (fsdecode Utf8 b) = Err UnicodeError.
```

`rocq/theories/P_PathEnc.v:141`
```coq
Theorem C113_locale_refuted : forall world b t exts, is_bytes b -> ~ Forall (fun c => c < 128) b -> world b = Some t ->
  exists p, p <> b /\ put_at (fsdecode Latin1 b) = Ok p /\ made_at Latin1 (fsdecode Latin1 b) = Ok b /\
    list_files Latin1 world (fsdecode Latin1 b) exts = Ok match world p with Some u => scan_files p u exts | None => [] end.
```

## C114: split_numbers splits the numbers, in code, comments and strings, and nothing else

With split_numbers=True there are the same full tokens with the same types as without; every number, in code as well as in comments and strings, is given by its characters, one subtoken each, between <w> and </w> if there are several; every other full token is the same, and so are the non-processable tokens.

*For*: every sequence of tokens of the lexer, every setting of the other options of basic. *Status*: proved.

C114_split_numbers for all tokens of the parser, for characters with simple case (as in C86) whose case is the usual one for ascii letters. Numbers in comments and strings are the words that are number literals (C14); in code they are what the lexer takes for numbers. C114_options: split_numbers gives two such configurations, whatever the other options are. Digits in words like v12 belong to the words and stay together.

`rocq/theories/P_SplitNumbers.v:358`
```coq
Theorem C114_split_numbers : forall E K G lo up o d d' b lexed l out m,
  ascii_classes K -> simple_case E K G lo up -> (forall c, (c < 128)%N -> lo c = ascii_to_lower c) ->
  numbers_and_not d d' -> Forall (fun tv => Forall G (snd tv)) lexed ->
  convert_text E K lexed = Ok l -> to_repr E o d b l = Ok (out, m) ->
  exists out' m', to_repr E o d' b l = Ok (out', m') /\ nonproc m' = nonproc m /\ types m' = types m /\
    List.concat (slices (wb m) out) = out /\ List.concat (slices (wb m') out') = out' /\
    length (types m) = length (slices (wb m) out) /\
    Forall2 (fun (x : cls * list str) (y : list str) =>
        let prose := In (fst x) [COneLineComment; CMultilineComment; CStringLiteral] in
        (fst x = CNumber -> exists v, snd x = [v]) /\
        (forall v, snd x = [v] -> (fst x = CNumber \/ (prose /\ number_literal v)) -> y = in_digits v) /\
        (fst x <> CNumber -> (prose -> forall v, snd x = [v] -> ~ number_literal v) -> y = snd x))
      (combine (types m) (slices (wb m) out)) (slices (wb m') out').
```

`rocq/theories/P_SplitNumbers.v:400`
```coq
Theorem C114_options : forall no_spaces no_unicode no_case no_com no_str mx,
  exists d d',
    basic_config false false false no_spaces no_unicode no_case no_com no_str mx = Ok d /\
    basic_config true false false no_spaces no_unicode no_case no_com no_str mx = Ok d' /\ numbers_and_not d d'.
```

## C115: full_strings joins the tokens of each string into one and changes nothing else

With full_strings=True every string is one token and nothing else changes: the tokens of the string without the option, in their order, with the spaces of the string between them as non-breaking spaces. All other tokens and their types are the same. A string within the limit is given exactly as it is in the source, apart from these spaces and the case of numbers.

*For*: every sequence of tokens of the lexer, every setting of the other options of nosplit (no_unicode is in C102), every string. *Status*: proved.

C115_full_strings for all tokens of the parser; the non-processable tokens that are lost are those of strings. C115_verbatim: the text of a string within the limit (limits that can be encoded, see C40), for characters with simple case (as in C86). C115_options: full_strings gives two such configurations, whatever the other options are.

`rocq/theories/P_FullStrings.v:214`
```coq
Theorem C115_full_strings : forall E K o d d' b lexed l out m,
  ascii_classes K -> py_text E -> full_and_not d d' -> In (param d TABS_NEWLINES) [lit "s"; lit "0"] ->
  convert_text E K lexed = Ok l -> to_repr E o d b l = Ok (out, m) ->
  exists out' m' groups, to_repr E o d' b l = Ok (out', m') /\
    List.concat (slices (wb m) out) = out /\ List.concat (slices (wb m') out') = out' /\
    length (types m) = length (slices (wb m) out) /\ length (types m') = length (slices (wb m') out') /\
    (forall x, In x (nonproc m') -> In x (nonproc m)) /\
    (forall x, In x (nonproc m) -> In x (nonproc m') \/
       exists ws, In (CStringLiteral, ws) (combine (types m) (slices (wb m) out)) /\ In x ws) /\
    combine (types m) (slices (wb m) out) = List.concat groups /\
    Forall2 (fun (g : list (cls * list str)) (y : cls * list str) =>
        (g = [y] /\ fst y <> CStringLiteral) \/
        (exists s, y = (CStringLiteral, [s]) /\ Forall (fun x => fst x = CStringLiteral) g /\
                   spaced (gap_chars d) s (List.concat (map snd g))))
      groups (combine (types m') (slices (wb m') out')).
```

`rocq/theories/P_FullStrings.v:312`
```coq
Theorem C115_verbatim : forall E K G lo up o d b no_spaces no_com mx t r (v : str) l,
  ascii_classes K -> simple_case E K G lo up -> Forall G v ->
  nosplit_config no_spaces false no_com false true mx = Ok d -> (2 <= mx < 62)%Z \/ mx = maxsize -> (Z.of_nat (length v) <= mx)%Z ->
  t = ("Literal" :: "String" :: r)%string -> v <> [10%N] -> v <> [9%N] -> blank K v = false ->
  convert_text E K [(t, v)] = Ok l ->
  exists s m, to_repr E o d b l = Ok ([s], m) /\ lowered lo (no_break v) s /\
    ((forall ps w, pieces K v ps -> In (PWord w) ps -> number_literal w -> lower E w = w) -> s = no_break v).
```

`rocq/theories/P_FullStrings.v:348`
```coq
Theorem C115_options : forall no_spaces no_com no_str mx,
  exists d d',
    nosplit_config no_spaces false no_com no_str false mx = Ok d /\
    nosplit_config no_spaces false no_com no_str true mx = Ok d' /\ full_and_not d d' /\ In (param d TABS_NEWLINES) [lit "s"; lit "0"].
```

## C116: Encoding a vocabulary encodes each word, keeps the counts and the order, and joins no two words

encode gives, for a vocabulary of words with counts, each word by its textbook byte-pair encoding with blanks between the parts, with its count and in the same order. Different words stay different, and the word is recovered from its parts. A word with an at sign that is neither doubled nor last is a ValueError and nothing is returned.

*For*: every vocabulary, every merge list without repeated pairs, every count. *Status*: partial.

Not true of the code without restriction: C116_encodes: for words without blanks (the tokeniser produces no others), by the textbook definition of S_Bpe, and spelling defined without to_char_list. C116_refused: a word that cannot be spelled is refused, and the whole vocabulary with it. C116_word: encode_word, for one word, gives the parts. C116_blank_refuted: in a word with a blank the blanks are lost, with every merge list, so that the word is not recovered. The progress bar for long words is not modelled.

`rocq/theories/P_EncodeDict.v:136`
```coq
Theorem C116_encodes words : NoDup (map fst words) -> (forall e, In e words -> no_char 32 (fst e)) ->
  Forall (fun e => exists s, spelled (fst e) s) words ->
  exists out, encode words ml = Ok out /\ Forall2 becomes words out /\ NoDup (map fst out) /\
    map (fun e => squeeze (fst e)) out = map fst words.
```

`rocq/theories/P_EncodeDict.v:152`
```coq
Theorem C116_refused (words : dict str Z) : ~ Forall (fun e => exists s, spelled (fst e) s) words -> encode words ml = Err ValueError.
```

`rocq/theories/P_EncodeDict.v:161`
```coq
Theorem C116_word w s : no_char 32 w -> w <> [] -> spelled w s -> exists r, encode_word_by w ml = Ok r /\ encode_word ml w = Ok r /\
  bpe_result (map fst l) s r.
```

`rocq/theories/P_EncodeDict.v:173`
```coq
Theorem C116_blank_refuted w r : In 32%N w -> encode_word_by w ml = Ok r -> List.concat r = squeeze w /\ List.concat r <> w.
```

## C117: Comparing tokens, configurations and metadata with == tells what is the same

Two parsed tokens are == exactly if they are of the same class (a semicolon is not an operator with the same text) and have the same content down to every nested token. Two configurations are == exactly if their encoded strings, which name the directories of the results, are the same, whatever the order in which the options were given. Lists of tokens that are == are preprocessed to the same output and metadata, or to the same error, with configurations that are ==. Metadata are == exactly if they have the same boundaries, types and set of non-processable tokens.

*For*: all parsed tokens of every nesting, all valid configurations in any order of their parameters, all metadata, all splitters and bpe data. *Status*: proved.

C117_tokens for all parsed tokens, by induction over the nesting; C117_configs for all valid configurations, as dictionaries in any order; C117_alike: equal tokens and configurations give the same output, metadata or error; C117_metadata: the non-processable tokens are compared as sets, as those of every complete preprocessing are. Comparisons with objects of other classes are not modelled.

`rocq/theories/P_Equal.v:34`
```coq
Theorem C117_tokens : forall a b, token_eq a b = true <-> a = b.
```

`rocq/theories/P_Equal.v:96`
```coq
Theorem C117_configs : forall d d', mk_prep_config d = Ok d -> mk_prep_config d' = Ok d' ->
  (config_eq d d' = true <-> config_str d = config_str d').
```

`rocq/theories/P_Equal.v:106`
```coq
Theorem C117_alike : forall E o b d d' l l', mk_prep_config d = Ok d -> mk_prep_config d' = Ok d' ->
  config_eq d d' = true -> all_eq token_eq l l' = true -> to_repr E o d b l = to_repr E o d' b l'.
```

`rocq/theories/P_Equal.v:118`
```coq
Theorem C117_metadata : forall a b, meta_eq a b = true <-> (forall t, In t (nonproc a) <-> In t (nonproc b)) /\ wb a = wb b /\ types a = types b.
```
