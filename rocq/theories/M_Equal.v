(** Comparison with == of parsed tokens (codeprep/tokens/*.py), configurations (codeprep/prepconfig.py 134-135) and metadata
    (codeprep/preprocess/metadata.py 61-65).  Only objects of these classes are compared with each other. *)
From Verif Require Import M_Base L_Base M_Tokens M_Repr M_PrepConfig.

(** comparison of Python lists: as long, and equal items *)
Definition all_eq {A} (f : A -> A -> bool) : list A -> list A -> bool :=
  fix go a b := match a, b with
                | [], [] => true
                | x :: a', y :: b' => f x y && go a' b'
                | _, _ => false
                end.

(** comparison of members of the enumeration Word.Capitalization (word.py 34-38) *)
Definition cap_eq (a b : capitalization) : bool :=
  match a, b with
  | CapUndefined, CapUndefined | CapNone, CapNone | CapFirstLetter, CapFirstLetter | CapAll, CapAll => true
  | _, _ => false
  end.

(** Underscore.__eq__ (word.py 15-16), Word.__eq__ (word.py 101-103) *)
Definition subtoken_eq (a b : subtoken) : bool :=
  match a, b with
  | Underscore, Underscore => true
  | Word s c, Word s' c' => eqb s s' && cap_eq c c'
  | _, _ => false
  end.

(** Whitespace.__eq__ (whitespace.py 16-17), SpaceInString.__eq__ (whitespace.py 54-55), Number.__eq__ (numeric.py 36-37),
    NonProcessibleToken.__eq__ (word.py 124-125), NonEng.__eq__ (noneng.py 38-39), ProcessableTokenContainer.__eq__ and TextContainer.__eq__
    (containers.py 29-30 and 88-89), StringLiteral.__eq__ (containers.py 153-154).  The first test of all of them is that of the classes *)
Fixpoint token_eq (a b : token) : bool :=
  cls_eqb (class_of a) (class_of b) &&
  match a, b with
  | SpaceInString n, SpaceInString n' => Nat.eqb n n'
  | Number v, Number v' => eqb v v'
  | NonProc _ t, NonProc _ t' => eqb t t'
  | SplitContainer l, SplitContainer l' => all_eq subtoken_eq l l'
  | NonEng l, NonEng l' => all_eq subtoken_eq l l'
  | OneLineComment l, OneLineComment l' => all_eq token_eq l l'
  | MultilineComment l, MultilineComment l' => all_eq token_eq l l'
  | StringLiteral l n, StringLiteral l' n' => all_eq token_eq l l' && Z.eqb n n'
  | _, _ => true                                                   (* no more than the class: new line, tab, 0, 1 *)
  end.

(** PrepConfig.__eq__ (prepconfig.py 134-135): dictionaries are equal if they have as many keys, and the same values for them *)
Definition config_eq (a b : params) : bool :=
  Nat.eqb (length a) (length b) &&
  forallb (fun kv => match dget b (fst kv) with Some v => eqb (snd kv) v | None => false end) a.

(** PreprocessingMetadata.__eq__ (metadata.py 61-65); the tokens are sets *)
Definition meta_eq (a b : meta) : bool :=
  forallb (fun t => mem t (nonproc b)) (nonproc a) && forallb (fun t => mem t (nonproc a)) (nonproc b) &&
  all_eq Nat.eqb (wb a) (wb b) && all_eq cls_eqb (types a) (types b).
