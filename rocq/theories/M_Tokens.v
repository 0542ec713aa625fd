(** Token classes of codeprep/tokens/ and placeholders (codeprep/preprocess/placeholders.py 5-19). *)
From Verif Require Import M_Base L_Base.

(** ** Placeholders *)
Definition ph_comment : str := lit "<comment>".
Definition ph_string_literal : str := lit "<str-literal>".
Definition ph_word_start : str := lit "<w>".
Definition ph_word_end : str := lit "</w>".
Definition ph_capital : str := lit "<Cap>".
Definition ph_capitals : str := lit "<CAPS>".
Definition ph_ect : str := lit "<EOF>".
Definition ph_non_eng : str := lit "<non-en>".
Definition ph_non_ascii_seq : str := [247%N].
Definition ph_olc_end : str := lit "<EOL>".
Definition ph_compound_word_end : str := lit "</t>".
Definition ph_space_in_str : str := [160%N].

Definition s_nl : str := [10%N].
Definition s_tab : str := [9%N].
Definition s_quote : str := [34%N].
Definition s_underscore : str := [95%N].

(** ** Python's case functions: quantified, not defined.
    [is_upper_ch], [is_lower_ch], [is_title_ch] are the code point classes used by str.isupper and
    str.islower; [lower], [upper], [capitalize] are the string methods. *)
Record pycase := {
  is_lower_ch : N -> bool;
  is_upper_ch : N -> bool;
  is_title_ch : N -> bool;
  lower : str -> str;
  upper : str -> str;
  capitalize : str -> str
}.

(** [s.islower()]: no upper or title case character and at least one lower case character *)
Definition islower (E : pycase) (s : str) : bool :=
  negb (existsb (fun c => is_upper_ch E c || is_title_ch E c) s) && existsb (is_lower_ch E) s.

(** [s.isupper()]: no lower or title case character and at least one upper case character *)
Definition isupper (E : pycase) (s : str) : bool :=
  negb (existsb (fun c => is_lower_ch E c || is_title_ch E c) s) && existsb (is_upper_ch E) s.

(** ** Token classes, used as values in [types_to_be_repr] and in the metadata *)
Inductive cls :=
| CNewLine | CTab | CSpaceInString
| CNumber | COne | CZero
| CSplitContainer | CWord | CUnderscore | CNonEng
| COneLineComment | CMultilineComment | CStringLiteral
| CKeyWord | COperator | CSemicolon | COpeningCurlyBracket | CClosingCurlyBracket
| COpeningBracket | CClosingBracket | CNonCodeChar | CSpecialToken.

Definition cls_eqb (a b : cls) : bool :=
  match a, b with
  | CNewLine, CNewLine | CTab, CTab | CSpaceInString, CSpaceInString
  | CNumber, CNumber | COne, COne | CZero, CZero
  | CSplitContainer, CSplitContainer | CWord, CWord | CUnderscore, CUnderscore | CNonEng, CNonEng
  | COneLineComment, COneLineComment | CMultilineComment, CMultilineComment
  | CStringLiteral, CStringLiteral
  | CKeyWord, CKeyWord | COperator, COperator | CSemicolon, CSemicolon
  | COpeningCurlyBracket, COpeningCurlyBracket | CClosingCurlyBracket, CClosingCurlyBracket
  | COpeningBracket, COpeningBracket | CClosingBracket, CClosingBracket
  | CNonCodeChar, CNonCodeChar | CSpecialToken, CSpecialToken => true
  | _, _ => false
  end.
#[global, refine] Instance Eqb_cls : Eqb cls := {| eqb := cls_eqb |}.
Proof. intros x y; destruct x, y; constructor; congruence. Defined.

(** codeprep/tokens/word.py 34-41 (Word.Capitalization) *)
Inductive capitalization := CapUndefined | CapNone | CapFirstLetter | CapAll.

(** Subtokens: codeprep/tokens/word.py Underscore 14-26, Word 28-118 *)
Inductive subtoken :=
| Underscore
| Word (canonic_form : str) (cap : capitalization).

(** Subclasses of NonProcessibleToken (word.py 120-179) *)
Inductive np_cls :=
| NpKeyWord | NpOperator | NpSemicolon | NpOpeningCurlyBracket | NpClosingCurlyBracket
| NpOpeningBracket | NpClosingBracket | NpNonCodeChar | NpSpecialToken.

(** Parsed tokens.  [Number] holds the value after the constructor's [lower()]
    (codeprep/tokens/numeric.py 14-15); [One] and [Zero] are the subclasses of lines 40-47. *)
Inductive token :=
| NewLine
| Tab
| SpaceInString (n_chars : nat)
| Number (val : str)
| One
| Zero
| NonProc (c : np_cls) (t : str)
| SplitContainer (subtokens : list subtoken)
| NonEng (processable_token : list subtoken)
| OneLineComment (subtokens : list token)
| MultilineComment (subtokens : list token)
| StringLiteral (subtokens : list token) (len : Z).

Definition np_class (c : np_cls) : cls :=
  match c with
  | NpKeyWord => CKeyWord | NpOperator => COperator | NpSemicolon => CSemicolon
  | NpOpeningCurlyBracket => COpeningCurlyBracket | NpClosingCurlyBracket => CClosingCurlyBracket
  | NpOpeningBracket => COpeningBracket | NpClosingBracket => CClosingBracket
  | NpNonCodeChar => CNonCodeChar | NpSpecialToken => CSpecialToken
  end.

(** [type(token)] *)
Definition class_of (t : token) : cls :=
  match t with
  | NewLine => CNewLine | Tab => CTab | SpaceInString _ => CSpaceInString
  | Number _ => CNumber | One => COne | Zero => CZero
  | NonProc c _ => np_class c
  | SplitContainer _ => CSplitContainer | NonEng _ => CNonEng
  | OneLineComment _ => COneLineComment | MultilineComment _ => CMultilineComment
  | StringLiteral _ _ => CStringLiteral
  end.

(** ** Word (codeprep/tokens/word.py 28-118) *)

(** Word._is_strictly_upper 53-54 *)
Definition is_strictly_upper (E : pycase) (s : str) : bool :=
  isupper E s && negb (isupper E (lower E s)).

(** Word._check_canonic_form_is_valid 56-60 *)
Definition canonic_ok (E : pycase) (s : str) : bool :=
  negb (is_strictly_upper E s
        || match s with [] => false | c :: _ => is_strictly_upper E [c] end).

(** Word.__init__ 43-47 *)
Definition mk_word (E : pycase) (s : str) (c : capitalization) : res subtoken :=
  if canonic_ok E s then Ok (Word s c) else Err AssertionError.

(** Word.from_ 105-117 *)
Definition word_from (E : pycase) (s : str) : res subtoken :=
  match s with
  | [] => Err ValueError
  | c :: rest =>
      if islower E s then mk_word E s CapNone
      else if isupper E s then mk_word E (lower E s) CapAll
      else if isupper E [c] then mk_word E (lower E [c] ++ rest) CapFirstLetter
      else mk_word E s CapUndefined
  end.

(** Word.__with_preserved_case 85-93 *)
Definition with_preserved_case (E : pycase) (canonic : str) (c : capitalization) : str :=
  match c with
  | CapUndefined | CapNone => canonic
  | CapFirstLetter => capitalize E canonic
  | CapAll => upper E canonic
  end.

(** Word.__with_capitalization_prefixes 65-74 *)
Definition with_capitalization_prefixes (c : capitalization) (subwords : list str) : list str :=
  match c with
  | CapUndefined | CapNone => subwords
  | CapFirstLetter => ph_capital :: subwords
  | CapAll => ph_capitals :: subwords
  end.

(** [torepr(s)[0][0]] for a subtoken that is not represented specially
    (Underscore.non_preprocessed_repr 24-25, Word.non_preprocessed_repr 95-96) *)
Definition subtoken_str (E : pycase) (s : subtoken) : str :=
  match s with
  | Underscore => s_underscore
  | Word w c => with_preserved_case E w c
  end.

(** Number.__init__ (numeric.py 14-15) *)
Definition mk_number (E : pycase) (v : str) : token := Number (lower E v).

(** codeprep/noneng.py 11-19 *)
Definition is_ascii_char (c : N) : bool := N.ltb c 128.
Definition is_ascii (s : str) : bool := forallb is_ascii_char s.

(** codeprep/noneng.py 22-60, the loop with flag [ongoing_non_ascii_seq]; [ph] is the placeholder *)
Fixpoint replace_non_ascii_loop (ph : str) (ongoing : bool) (w : str) : str :=
  match w with
  | [] => if ongoing then ph else []
  | ch :: t =>
      if is_ascii_char ch
      then (if ongoing then ph else []) ++ ch :: replace_non_ascii_loop ph false t
      else replace_non_ascii_loop ph true t
  end.
Definition replace_non_ascii_seqs (w ph : str) : res str :=
  if Nat.eqb (length ph) 1 then Ok (replace_non_ascii_loop ph false w) else Err ValueError.

(** ** The ascii instance of the case functions *)
Definition ascii_upper_ch (c : N) : bool := N.leb 65 c && N.leb c 90.
Definition ascii_lower_ch (c : N) : bool := N.leb 97 c && N.leb c 122.
Definition ascii_to_lower (c : N) : N := if ascii_upper_ch c then (c + 32)%N else c.
Definition ascii_to_upper (c : N) : N := if ascii_lower_ch c then (c - 32)%N else c.
Definition ascii_case : pycase := {|
  is_lower_ch := ascii_lower_ch;
  is_upper_ch := ascii_upper_ch;
  is_title_ch := fun _ => false;
  lower := map ascii_to_lower;
  upper := map ascii_to_upper;
  capitalize := fun s => match s with [] => [] | c :: t => ascii_to_upper c :: map ascii_to_lower t end
|}.
