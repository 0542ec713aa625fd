(** Representation of parsed tokens: codeprep/preprocess/core.py, codeprep/preprocess/metadata.py,
    codeprep/tokens/*.py (the repr methods), codeprep/pipeline/to_repr.py 40-57. *)
From Verif Require Import M_Base L_Base M_Tokens.

(** ** Metadata (codeprep/preprocess/metadata.py 18-65) *)
Record meta := { nonproc : list str; wb : list nat; types : list cls }.

(** PreprocessingMetadata() 19-27 *)
Definition meta0 : meta := {| nonproc := []; wb := [0]; types := [] |}.

(** update 35-56; the set union is list concatenation *)
Definition meta_update (m o : meta) : meta :=
  {| nonproc := nonproc m ++ nonproc o;
     wb := removelast (wb m) ++ map (fun b => last (wb m) 0 + b) (wb o);
     types := types m ++ types o |}.

(** set_all_tokens_type 32-33 *)
Definition set_all_tokens_type (c : cls) (m : meta) : meta :=
  {| nonproc := nonproc m; wb := wb m; types := repeat c (length (wb m) - 1) |}.

(** ParsedToken.wrap_in_metadata_for_full_word (tokens/rootclasses.py 11-19) *)
Definition full_word (c : cls) (tokens : list str) (non_proc : list str) : list str * meta :=
  (tokens, {| nonproc := non_proc; wb := [0; length tokens]; types := [c] |}).

(** ** ReprConfig (preprocess/reprconfig.py 13-27).  [bpe] tells whether bpe_data is present; the splitters
    are closures over it. *)
Record repr_config := {
  types_to_be_repr : list cls;
  bpe : bool;
  should_lowercase : bool;
  number_splitter : str -> res (list str);
  word_splitter : option (str -> res (list str));
  full_strings : bool;
  max_str_length : option Z
}.

Definition in_types (cfg : repr_config) (c : cls) : bool := mem c (types_to_be_repr cfg).

(** calling [repr_config.word_splitter]; it is None for split values 0 and F *)
Definition split_word (cfg : repr_config) (s : str) : res (list str) :=
  match word_splitter cfg with Some f => f s | None => Err TypeError end.

Section Repr.
  Variable E : pycase.

  (** str(SplitContainer): containers.py 35-36 and 56-58 without config *)
  Definition split_str (l : list subtoken) : str := List.concat (map (subtoken_str E) l).

  (** [non_preprocessed_repr()] without config, first component, and [str(token)].
      Container: " ".join of the tokens (containers.py 35-36). *)
  Fixpoint nonprep_none (t : token) : list str :=
    match t with
    | NewLine => [s_nl]
    | Tab => [s_tab]
    | SpaceInString n => [List.concat (repeat ph_space_in_str n)]
    | Number v => [v]
    | One => [lit "1"]
    | Zero => [lit "0"]
    | NonProc _ s => [s]
    | SplitContainer l => [split_str l]
    | NonEng l => [split_str l]
    | OneLineComment l => List.concat (map nonprep_none l) ++ [ph_olc_end]
    | MultilineComment l => List.concat (map nonprep_none l)
    | StringLiteral l _ => [List.concat (map (fun t => join (lit " ") (nonprep_none t)) l)]
    end.
  Definition tok_str (t : token) : str := join (lit " ") (nonprep_none t).

  (** wrap_in_word_boundaries_if_necessary (containers.py 39-43) *)
  Definition wrap_in_word_boundaries_if_necessary (r : list str) : list str :=
    match r with
    | [_] => r
    | [a; _] => if eqb a ph_capitals || eqb a ph_capital then r
                else [ph_word_start] ++ r ++ [ph_word_end]
    | _ => [ph_word_start] ++ r ++ [ph_word_end]
    end.

  (** torepr of a subtoken (word.py 76-96; Underscore is never in types_to_be_repr) *)
  Definition torepr_sub (cfg : repr_config) (s : subtoken) : res (list str) :=
    match s with
    | Underscore => Ok [s_underscore]
    | Word w c =>
        if in_types cfg CWord then
          if should_lowercase cfg
          then r <- split_word cfg w ;; Ok (with_capitalization_prefixes c r)
          else split_word cfg (with_preserved_case E w c)
        else Ok [with_preserved_case E w c]
    end.

  Fixpoint torepr_subs (cfg : repr_config) (l : list subtoken) : res (list str) :=
    match l with
    | [] => Ok []
    | s :: t => r <- torepr_sub cfg s ;; rs <- torepr_subs cfg t ;; Ok (r ++ rs)
    end.

  (** torepr of a SplitContainer (containers.py 56-69).  Line 57 takes the first element of the
      representation of each subtoken; with Word not in the types it is the only one. *)
  Definition torepr_split (cfg : repr_config) (l : list subtoken) : res (list str * meta) :=
    if in_types cfg CSplitContainer then
      if bpe cfg
      then r <- split_word cfg (split_str l) ;; Ok (full_word CSplitContainer r [])
      else r <- torepr_subs cfg l ;;
           Ok (full_word CSplitContainer (wrap_in_word_boundaries_if_necessary r) [])
    else
      heads <- mapM (fun s => r <- torepr_sub cfg s ;;
                              match r with [] => Err IndexError | x :: _ => Ok x end) l ;;
      Ok (full_word CSplitContainer [List.concat heads] []).

  (** StringLiteral._replace_non_ascii_seqs_if_necessary (containers.py 126-130) *)
  Definition string_text (cfg : repr_config) (t : token) : res str :=
    let s := tok_str t in
    if in_types cfg CNonEng
    then pieces <- mapM (fun p => replace_non_ascii_seqs p ph_non_ascii_seq) (split_on 160 s) ;;
         Ok (join ph_space_in_str pieces)
    else Ok s.

  Definition is_space_in_string (t : token) : bool :=
    match t with SpaceInString _ => true | _ => false end.

  (** to_repr_list (preprocess/core.py 12-20), parameterised by torepr.  The Python loop accumulates to the
      left: [acc] is (repr_res, all_metadata).  [keep] is the filter of containers.py 146, applied on the fly
      (a separate list filter is not accepted inside the recursion of [torepr]). *)
  Definition to_repr_list_with (keep : token -> bool) (f : token -> res (list str * meta)) :=
    fix go (acc : list str * meta) (l : list token) : res (list str * meta) :=
      match l with
      | [] => Ok acc
      | t :: rest =>
          if keep t then
            r <- f t ;;
            go (fst acc ++ fst r, meta_update (snd acc) (snd r)) rest
          else go acc rest
      end.

  (** torepr (preprocess/core.py 23-32) for a non-None config; lists are handled by to_repr_list_with *)
  Fixpoint torepr (cfg : repr_config) (t : token) : res (list str * meta) :=
    let rl := to_repr_list_with (fun _ => true) (torepr cfg) ([], meta0) in
    match t with
    | NewLine => (* whitespace.py 26-31 *)
        if in_types cfg CNewLine then Ok ([], meta0) else Ok (full_word CNewLine [s_nl] [s_nl])
    | Tab => (* whitespace.py 34-39 *)
        if in_types cfg CTab then Ok ([], meta0) else Ok (full_word CTab [s_tab] [s_tab])
    | SpaceInString n => (* whitespace.py 48-49 *)
        Ok (full_word CSpaceInString [List.concat (repeat ph_space_in_str n)] [])
    | Number v => (* numeric.py 23-34 *)
        if in_types cfg CNumber then
          subwords <- number_splitter cfg v ;;
          Ok (full_word CNumber
                (if (1 <? length subwords)%nat && negb (bpe cfg)
                 then [ph_word_start] ++ subwords ++ [ph_word_end] else subwords) [])
        else Ok (full_word CNumber [v] [])
    | One => Ok (full_word COne [lit "1"] [])    (* exact class test: One and Zero are never split *)
    | Zero => Ok (full_word CZero [lit "0"] [])
    | NonProc c s => (* word.py 133-134 *)
        Ok (full_word (np_class c) [s] [s])
    | SplitContainer l => torepr_split cfg l
    | NonEng l => (* noneng.py 22-30 *)
        if in_types cfg CNonEng then
          if bpe cfg then
            s <- replace_non_ascii_seqs (split_str l) ph_non_ascii_seq ;;
            w <- word_from E s ;;
            torepr_split cfg [w]
          else Ok (full_word CNonEng [ph_non_eng] [])
        else torepr_split cfg l
    | OneLineComment l => (* containers.py 96-97, 104-108 *)
        if in_types cfg COneLineComment then Ok (full_word COneLineComment [ph_comment] [])
        else r <- rl l ;;
             Ok (fst r ++ [ph_olc_end],
                 set_all_tokens_type COneLineComment
                   (meta_update (snd r) {| nonproc := []; wb := [0; 1]; types := [COneLineComment] |}))
    | MultilineComment l => (* containers.py 96-97, 115-118 *)
        if in_types cfg CMultilineComment then Ok (full_word CMultilineComment [ph_comment] [])
        else r <- rl l ;; Ok (fst r, set_all_tokens_type CMultilineComment (snd r))
    | StringLiteral l len => (* containers.py 132-151 *)
        if in_types cfg CStringLiteral then Ok (full_word CStringLiteral [ph_string_literal] [])
        else
          match max_str_length cfg with
          | None => Err TypeError
          | Some mx =>
              if (mx <? len)%Z then
                Ok (if full_strings cfg
                    then full_word CStringLiteral [s_quote ++ s_quote] []
                    else full_word CStringLiteral [s_quote; s_quote] [s_quote])
              else if bpe cfg then
                s <- string_text cfg t ;;
                r <- split_word cfg s ;;
                Ok (full_word CStringLiteral r [])
              else if full_strings cfg then
                s <- string_text cfg t ;;
                Ok (full_word CStringLiteral [s] [])
              else
                r <- to_repr_list_with (fun u => negb (is_space_in_string u)) (torepr cfg) ([], meta0) l ;;
                Ok (fst r, set_all_tokens_type CStringLiteral (snd r))
          end
    end.

  Definition to_repr_list (cfg : repr_config) (l : list token) : res (list str * meta) :=
    to_repr_list_with (fun _ => true) (torepr cfg) ([], meta0) l.
End Repr.

(** ** End-of-token marks (pipeline/to_repr.py 40-44) *)

(** [l[i] += suffix] for a Python index; [None] is IndexError *)
Fixpoint append_at (i : nat) (suf : str) (l : list str) : option (list str) :=
  match l, i with
  | [], _ => None
  | x :: t, O => Some ((x ++ suf) :: t)
  | x :: t, S j => match append_at j suf t with Some t' => Some (x :: t') | None => None end
  end.

(** [list_copy[index-1] += ...]; for index = 0 Python's index -1 is the last element *)
Definition mark_at (index : nat) (l : list str) : res (list str) :=
  of_option IndexError
    (match index with
     | O => append_at (length l - 1) ph_compound_word_end l
     | S i => append_at i ph_compound_word_end l
     end).

Fixpoint mark_all (indices : list nat) (l : list str) : res (list str) :=
  match indices with
  | [] => Ok l
  | i :: t => l' <- mark_at i l ;; mark_all t l'
  end.

Definition insert_and_word_tokens (prep_list : list str) (m : meta) : res (list str) :=
  mark_all (tl (wb m)) prep_list.

(** to_repr (pipeline/to_repr.py 47-53) for a given representation configuration *)
Definition to_repr_cfg (E : pycase) (cfg : repr_config) (is_bpe : bool) (l : list token)
  : res (list str * meta) :=
  r <- to_repr_list E cfg l ;;
  if is_bpe then l' <- insert_and_word_tokens (fst r) (snd r) ;; Ok (l', snd r)
  else Ok r.

(** ** Validity check (preprocess/metadata.py 74-94) *)
Definition is_terminal_subtoken (s : str) : bool := ends_with ph_compound_word_end s.

Fixpoint check_ends (idx : nat) (bs : list nat) (l : list str) : res unit :=
  match l with
  | [] => Ok tt
  | t :: rest =>
      if Bool.eqb (is_terminal_subtoken t) (mem (S idx) bs)
      then check_ends (S idx) bs rest
      else Err AssertionError
  end.

Definition check_metadata_validity (subwords : list str) (m : meta) (use_only_token_end_chars : bool) : res unit :=
  match wb m with
  | [] => Err ValueError
  | b0 :: _ =>
      if negb (Nat.eqb (length subwords) (last (wb m) 0)) then Err ValueError
      else if negb (Nat.eqb b0 0) then Err ValueError
      else if use_only_token_end_chars then check_ends 0 (wb m) subwords
      else Ok tt
  end.
