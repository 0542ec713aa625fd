(** codeprep/stemming.py: the case of a word is kept by its stem.  The Porter stemmer of nltk is a parameter. *)
From Verif Require Import M_Base M_Tokens.

(** stem (10-20) *)
Definition stem_word (E : pycase) (porter : str -> str) (word : str) : str :=
  match word with
  | [] => word
  | c :: _ =>
      let stemmed := porter word in
      if isupper E word then upper E stemmed
      else if isupper E [c] then capitalize E stemmed
      else stemmed
  end.
