(** From the source text to the tokens of the lexer: convert_text (codeprep/parse/core.py 45-58) with what Pygments 2.6.1
    (requirements.txt) does around its lexers: get_lexer_by_name, guess_lexer (pygments/lexers/__init__.py) and Lexer.get_tokens
    (pygments/lexer.py) with the default options stripnl and ensurenl, which convert_text does not change.

    The lexers themselves are parameters: functions from the text to the list of (token type, value). *)
From Verif Require Import M_Base L_Base M_Literal M_Tokens M_Regex M_Parse.

Definition lexer := str -> list (token_type * str).

(** [by_name]: get_lexer_by_name, None is ClassNotFound.  [guess]: guess_lexer, which may raise ClassNotFound as well *)
Record pygments := { by_name : str -> option lexer; guess : str -> option lexer }.

(** [extension = extension or 'java'] (core.py 46) *)
Definition language (ext : option str) : str := match ext with None | Some [] => lit "java" | Some e => e end.

(** lines 47-54; the last else branch is never reached.  ClassNotFound is a ValueError. *)
Definition choose_lexer (P : pygments) (text : str) (ext : option str) : res lexer :=
  match by_name P (language ext) with
  | Some l => Ok l
  | None => match guess P text with Some l => Ok l | None => Err ValueError end
  end.

(** text.strip('\n') *)
Fixpoint lstrip_nl (s : str) : str :=
  match s with c :: t => if N.eqb c 10 then lstrip_nl t else s | [] => [] end.
Definition strip_nl (s : str) : str := rev (lstrip_nl (rev (lstrip_nl s))).

(** Lexer.get_tokens: what the lexer is given *)
Definition without_bom (s : str) : str := match s with c :: t => if N.eqb c 65279 then t else s | [] => [] end.
Definition lexer_input (text : str) : str :=
  let s := strip_nl (univ_newlines (without_bom text)) in
  if ends_with [10%N] s then s else s ++ [10%N].

(** convert_text (core.py 45-58) *)
Definition parse_source (P : pygments) (E : pycase) (K : charclass) (text : str) (ext : option str) : res (list token) :=
  l <- choose_lexer P text ext ;; convert_text E K (l (lexer_input text)).
