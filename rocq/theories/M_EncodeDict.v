(** codeprep/bpepkg/bpe_encode.py 62-112: encode for a whole vocabulary, and encode_word (115-147) by way of it; M_BpeEncode has
    encode_word with encode put in place for one word.  The warning and the progress bar for long words are left out. *)
From Verif Require Import M_Base L_Base M_Literal M_Merge M_BpeEncode.

(** the dict comprehension (63) *)
Fixpoint letters_list (acc : dict str Z) (words : list (str * Z)) : res (dict str Z) :=
  match words with
  | [] => Ok acc
  | (k, v) :: t => cs <- to_char_list k ;; letters_list (dset acc (join (lit " ") cs) v) t
  end.

(** the loop over the words (65-111) *)
Fixpoint encode_words (ml : merge_list) (acc : dict str Z) (l : list (str * Z)) : res (dict str Z) :=
  match l with
  | [] => Ok acc
  | (letters, freq) :: t =>
      let subwords := split_on 32 letters in
      s <- encode_loop ml (length subwords) subwords ;;
      encode_words ml (dset acc (join (lit " ") s) freq) t
  end.

Definition encode (words : dict str Z) (ml : merge_list) : res (dict str Z) :=
  l <- letters_list [] words ;; encode_words ml [] l.

(** encode_word (145-147); popitem gives the last entry, KeyError if there is none *)
Definition encode_word_by (word : str) (ml : merge_list) : res (list str) :=
  d <- encode [(word, 0%Z)] ml ;;
  match rev d with (w, _) :: _ => Ok (split_on 32 w) | [] => Err KeyError end.
