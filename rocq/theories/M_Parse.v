(** Parsing of lexer tokens: codeprep/parse/subtokens.py, codeprep/parse/matchers.py, codeprep/parse/core.py. *)
From Verif Require Import M_Base L_Base M_Tokens M_Regex.

(** Character classes of the regex package and of str.strip; all of them are parameters.  Facts about single
    characters that are used are stated where they are needed. *)
Record charclass := {
  is_w : N -> bool;        (* \w *)
  is_up : N -> bool;       (* [[:upper:]] *)
  is_low : N -> bool;      (* [[:lower:]] *)
  is_blank : N -> bool     (* stripped by str.strip *)
}.

Definition in_range (a b : N) (c : N) : bool := N.leb a c && N.leb c b.
Definition is_hex (c : N) : bool := is_digit c || in_range 97 102 c || in_range 65 70 c.
Definition is_bin (c : N) : bool := in_range 48 49 c.
Definition ch_in (s : string) (c : N) : bool := existsb (N.eqb c) (lit s).
Definition not_space (c : N) : bool := negb (N.eqb c 32).

(** the expression of split_identifier (subtokens.py 20) *)
Definition identifier_re (K : charclass) : re :=
  Alt (Chr (ch_in "_"))
  (Alt (Plus (Chr is_digit))
  (Alt (Seq (Opt (Chr (is_up K))) (Plus (Chr (is_low K))))
  (Alt (Seq (Plus (Chr (is_up K))) (NotNext (is_low K)))
       (Chr not_space)))).

(** NUMBER_PATTERN (30-38) *)
Definition exponent_re : re := Opt (Seq (Chr (ch_in "eE")) (Seq (Opt (Chr (ch_in "-+"))) (Plus (Chr is_digit)))).
Definition float_suffix_re : re := Opt (Chr (ch_in "fFdD")).
Definition HEX_REGEX : re :=
  Seq (Str (lit "0x")) (Seq (Star (Seq (Plus (Chr is_hex)) (Chr (ch_in "_")))) (Seq (Plus (Chr is_hex)) (Opt (Chr (ch_in "lL"))))).
Definition BIN_REGEX : re :=
  Seq (Str (lit "0b")) (Seq (Star (Seq (Plus (Chr is_bin)) (Chr (ch_in "_")))) (Seq (Plus (Chr is_bin)) (Opt (Chr (ch_in "lL"))))).
Definition IR_REGEX : re :=
  Seq (Star (Seq (Plus (Chr is_digit)) (Chr (ch_in "_")))) (Seq (Plus (Chr is_digit)) (Opt (Chr (ch_in "lLfFdD")))).
Definition DBL_REGEXA : re :=
  Seq (Plus (Chr is_digit)) (Seq (Chr (ch_in ".")) (Seq (Plus (Chr is_digit)) (Seq exponent_re float_suffix_re))).
Definition DBL_REGEXB : re :=
  Seq (Plus (Chr is_digit)) (Seq (Chr (ch_in ".")) (Seq exponent_re float_suffix_re)).
Definition DBL_REGEXC : re :=
  Seq (Chr (ch_in ".")) (Seq (Plus (Chr is_digit)) (Seq exponent_re float_suffix_re)).
Definition DBL_REGEXD : re :=
  Seq (Plus (Chr is_digit)) (Seq (Chr (ch_in "eE"))
    (Seq (Opt (Chr (ch_in "-+"))) (Seq (Plus (Chr is_digit)) float_suffix_re))).
Definition NUMBER_PATTERN : re :=
  Alt HEX_REGEX (Alt BIN_REGEX (Alt IR_REGEX (Alt DBL_REGEXA (Alt DBL_REGEXB (Alt DBL_REGEXC DBL_REGEXD))))).

(** is_number (41-112) *)
Definition is_number (w : str) : bool := fullmatch NUMBER_PATTERN w.

(** is_non_eng (noneng.py 10-19) *)
Definition is_non_eng (w : str) : bool := negb (is_ascii w).

Definition four_spaces : str := repeat 32%N 4.

Section Parse.
  Variables (E : pycase) (K : charclass).

  (** split_identifier (18-24) *)
  Definition split_identifier (w : str) : res token :=
    subs <- mapM (fun p => if eqb p s_underscore then Ok Underscore else word_from E p) (finditer (identifier_re K) w) ;;
    Ok (if is_non_eng w then NonEng subs else SplitContainer subs).

  (** to_parsed_token (115-125) *)
  Definition to_parsed_token (w : str) : res token :=
    if eqb w s_nl then Ok NewLine
    else if eqb w s_tab then Ok Tab
    else if is_number w then Ok (mk_number E w)
    else if fullmatch (Plus (Chr (is_w K))) w then split_identifier w
    else Ok (NonProc NpNonCodeChar w).

  (** split_string (128-142) *)
  Definition spaces_re : re := Plus (Chr (N.eqb 32)).
  Definition string_re : re := Alt (Plus (Chr (is_w K))) (Alt (Chr not_space) spaces_re).
  Definition split_string (s : str) : res (list token) :=
    mapM (fun m => if fullmatch spaces_re m then Ok (SpaceInString (length m)) else to_parsed_token m) (finditer string_re s).

  (** split_into_words (145-158) *)
  Definition words_re : re := Alt (Plus (Chr (is_w K))) (Alt (Chr not_space) (Str four_spaces)).
  Definition split_into_words (s : str) : res (list token) :=
    mapM (fun m => if eqb m four_spaces then Ok Tab else to_parsed_token m) (finditer words_re s).

  (** ** Lexer tokens.  A pygments token type is the path of its names below Token. *)
  Definition token_type := list string.
  (** [t in Token.A.B]: pygments.token._TokenType.__contains__ (t is Token.A.B or one of its children) *)
  Fixpoint type_in (t anc : token_type) : bool :=
    match anc, t with
    | [], _ => true
    | a :: anc', x :: t' => if String.eqb a x then type_in t' anc' else false
    | _ :: _, [] => false
    end.
  Definition type_is (t u : token_type) : bool := if list_eq_dec string_dec t u then true else false.

  (** [value.strip() == ''] *)
  Definition blank (v : str) : bool := forallb (is_blank K) v.

  (** OperatorMatcher.transform (matchers.py 123-135) *)
  Definition operator_token (v : str) : token :=
    if eqb v (lit ";") then NonProc NpSemicolon v
    else if eqb v (lit "{") then NonProc NpOpeningCurlyBracket v
    else if eqb v (lit "}") then NonProc NpClosingCurlyBracket v
    else if eqb v (lit "(") then NonProc NpOpeningBracket v
    else if eqb v (lit ")") then NonProc NpClosingBracket v
    else NonProc NpOperator v.

  (** NumberMatchers.transform (110-116) *)
  Definition number_token (v : str) : token :=
    if eqb v (lit "0") then Zero else if eqb v (lit "1") then One else mk_number E v.

  (** _convert (core.py 18-42): the first matcher that matches *)
  Definition convert (t : token_type) (v : str) : res (list token) :=
    if eqb v s_nl then Ok [NewLine]                                                     (* NewLineMatcher *)
    else if eqb v s_tab then Ok [Tab]                                                   (* TabMatcher *)
    else if blank v then Ok (repeat Tab (length v / 4))                                 (* WhitespaceMatcher *)
    else if type_is t ["Operator"]%string || type_in t ["Punctuation"]%string
         then Ok [operator_token v]                                                     (* OperatorMatcher *)
    else if type_in t ["Literal"; "Number"]%string then Ok [number_token v]             (* NumberMatchers *)
    else if type_in t ["Name"]%string then split_into_words v                           (* WordMatcher *)
    else if type_is t ["Literal"]%string || type_is t ["Literal"; "Date"]%string
         then split_into_words v                                                        (* GenericLiteralMatcher *)
    else if type_in t ["Keyword"]%string then Ok [NonProc NpKeyWord v]                  (* KeywordMatcher *)
    else if type_in t ["Literal"; "String"]%string then                                 (* StringMatcher *)
      l <- split_string v ;; Ok [StringLiteral l (Z.of_nat (length v))]
    else if type_is t ["Comment"; "Single"]%string then                                 (* OneLineCommentMatcher *)
      l <- split_into_words v ;; Ok [OneLineComment l]
    else if type_in t ["Comment"]%string then                                           (* MultiLineLineCommentMatcher *)
      l <- split_into_words v ;; Ok [MultilineComment l]
    else split_into_words v.                              (* GenericTokenMatcher, DefaultMatcher *)

  (** convert_text (core.py 45-58) after lexing; the lexer's output is an argument *)
  Fixpoint convert_text (lexed : list (token_type * str)) : res (list token) :=
    match lexed with
    | [] => Ok []
    | (t, v) :: rest => l <- convert t v ;; ls <- convert_text rest ;; Ok (l ++ ls)
    end.
End Parse.
