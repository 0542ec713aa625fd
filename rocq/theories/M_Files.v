(** Preprocessing one file of a corpus: codeprep/fileutils.py 36-48, codeprep/pipeline/parse_projects.py 22-45 and
    codeprep/pipeline/to_repr.py 60-81.  File names and contents are lists of bytes. *)
From Verif Require Import M_Base L_Base M_Tokens M_Literal M_Repr M_PrepConfig M_Registry M_Dataset M_Regex M_Parse M_Api.
Local Open Scope N_scope.

(** ** bytes.decode('utf-8'): None is a UnicodeDecodeError *)
Definition cont (b : N) : bool := (128 <=? b) && (b <=? 191).
(** a lead byte with the first continuation byte: no overlong forms, no surrogates, at most 0x10FFFF *)
Definition lead2 (a b : N) : bool := (194 <=? a) && (a <=? 223) && cont b.
Definition lead3 (a b : N) : bool :=
  (224 <=? a) && (a <=? 239) && cont b && implb (a =? 224) (160 <=? b) && implb (a =? 237) (b <=? 159).
Definition lead4 (a b : N) : bool :=
  (240 <=? a) && (a <=? 244) && cont b && implb (a =? 240) (144 <=? b) && implb (a =? 244) (b <=? 143).
Fixpoint utf8_decode (bs : str) : option str :=
  match bs with
  | [] => Some []
  | a :: t1 =>
      if a <? 128 then option_map (cons a) (utf8_decode t1) else
      match t1 with
      | [] => None
      | b :: t2 =>
          if lead2 a b then option_map (cons ((a - 192) * 64 + (b - 128))) (utf8_decode t2) else
          match t2 with
          | [] => None
          | c :: t3 =>
              if lead3 a b && cont c
              then option_map (cons ((a - 224) * 4096 + (b - 128) * 64 + (c - 128))) (utf8_decode t3) else
              match t3 with
              | [] => None
              | d :: t4 =>
                  if lead4 a b && cont c && cont d
                  then option_map (cons ((a - 240) * 262144 + (b - 128) * 4096 + (c - 128) * 64 + (d - 128))) (utf8_decode t4)
                  else None
              end
          end
      end
  end.

(** read_file_contents (36-43) with read_file_with_encoding (46-48); ISO-8859-1 maps every byte to the character
    with its number, so the last handler is never reached *)
Definition read_file_contents (bytes : str) : list str :=
  match utf8_decode bytes with
  | Some text => file_lines text
  | None => file_lines bytes
  end.

(** os.path.splitext(name)[1] of the last component: from the last dot on, dots at the beginning do not count *)
Definition strip_dots : str -> str := fix go s := match s with c :: t => if c =? 46 then go t else s | [] => [] end.
Definition splitext (path : str) : str :=
  let name := basename path in
  match rev (split_on 46 (strip_dots name)) with
  | e :: _ :: _ => 46 :: e
  | _ => []
  end.

(** [os.path.splitext(src_file_path)[1].decode()[1:]] (parse_projects.py 41) *)
Definition extension_of (path : str) : res str :=
  match utf8_decode (splitext path) with Some e => Ok (tl e) | None => Err UnicodeError end.

(** convert_text (parse/core.py 45-58) before lexing: which name is looked up; [lex] is pygments with the lexer of that name,
    or a guessed one if there is none *)
Definition parse_text (E : pycase) (K : charclass) (lex : str -> str -> list (token_type * str))
    (text : str) (ext : option str) : res (list token) :=
  convert_text E K (lex text (match ext with None | Some [] => lit "java" | Some e => e end)).

(** the preprocessed file (to_repr.py 56-57 and 76) *)
Definition preprocessed_content (tokens : list str) : str := to_literal_str (join (lit " ") tokens) ++ [10].

Section File.
  Variable parse : str -> option str -> res (list token).
  Variable repr : params -> list token -> globals -> res (list str * meta) * globals.
  Variable dk : disk.

  (** the text that is parsed (parse_projects.py 42) *)
  Definition source_text (bytes : str) : str := join [10] (read_file_contents bytes).

  (** preprocess_and_write of parse_projects.py (36-43) *)
  Definition parse_file (path bytes : str) : res (list token) :=
    ext <- extension_of path ;; parse (source_text bytes) (Some ext).

  (** preprocess_corpus (api/corpus.py 228-233), run (to_repr.py 139-140) and preprocess_and_write (73-75) for one
      file; the processes of the pool start with the bpe data of the main process *)
  Definition preprocess_file (g : globals) (config : params) (id : option str) (path bytes : str) : res (list str * meta) :=
    l <- parse_file path bytes ;;
    let l' := l ++ [NonProc NpSpecialToken ph_ect] in
    if is_bpe config then
      match id with
      | None | Some [] => Err AssertionError
      | Some i =>
          custom <- (if is_predefined_id i then Ok None else bind (from_id dk i) (fun i => Ok (Some i))) ;;
          match init_bpe_data dk g config custom true with
          | (Err e, _) => Err e
          | (Ok _, g') => fst (repr config l' g')
          end
      end
    else fst (repr config l' g).
End File.
