(** * BPE over the text of files (codeprep/bpepkg/wild_bpe.py 54-81, 453-461)

    A text file is read chunk after chunk; the decoder keeps the bytes of a character that is not complete yet, and a \r at the
    end of a chunk until the next one is decoded.  How the bytes are cut into chunks (CPython: 8192 bytes each) is left open. *)
From Verif Require Import M_Base L_Base M_Literal M_Files M_Wild M_WildRun.
Local Open Scope N_scope.

(** the incremental UTF-8 decoder: the characters of a chunk and the bytes kept; None is a UnicodeDecodeError *)
Definition keep (c : N) (r : option (str * str)) : option (str * str) := option_map (fun p => (c :: fst p, snd p)) r.
Fixpoint utf8_scan (bs : str) : option (str * str) :=
  match bs with
  | [] => Some ([], [])
  | a :: t1 =>
      if a <? 128 then keep a (utf8_scan t1) else
      match t1 with
      | [] => if (194 <=? a) && (a <=? 244) then Some ([], bs) else None
      | b :: t2 =>
          if lead2 a b then keep ((a - 192) * 64 + (b - 128)) (utf8_scan t2) else
          match t2 with
          | [] => if lead3 a b || lead4 a b then Some ([], bs) else None
          | c :: t3 =>
              if lead3 a b && cont c
              then keep ((a - 224) * 4096 + (b - 128) * 64 + (c - 128)) (utf8_scan t3) else
              match t3 with
              | [] => if lead4 a b && cont c then Some ([], bs) else None
              | d :: t4 =>
                  if lead4 a b && cont c && cont d
                  then keep ((a - 240) * 262144 + (b - 128) * 4096 + (c - 128) * 64 + (d - 128)) (utf8_scan t4)
                  else None
              end
          end
      end
  end.
(** the characters handed out, and whether decoding fails at last; bytes kept at the end of the file are an error *)
Fixpoint utf8_feed (kept : str) (chunks : list str) : str * bool :=
  match chunks with
  | [] => ([], match kept with [] => false | _ => true end)
  | ch :: t =>
      match utf8_scan (kept ++ ch) with
      | None => ([], true)
      | Some (text, kept) => let (text', e) := utf8_feed kept t in (text ++ text', e)
      end
  end.
(** get_char_iterator_for_file_with_encoding (64-73): with utf-8, and with ISO-8859-1, which never fails *)
Definition drop_cr (s : str) : str := match rev s with c :: r => if c =? 13 then rev r else s | [] => [] end.
Definition chars_utf8 (chunks : list str) : str * bool :=
  let (text, e) := utf8_feed [] chunks in (univ_newlines (if e then drop_cr text else text), e).
Definition chars_latin (chunks : list str) : str := univ_newlines (List.concat chunks).
(** escape_char (60-61) *)
Definition escape_char (c : N) : N := if c =? blank then 160 else c.
(** get_char_iterator_for_file (54-58) *)
Definition chars_of_file (chunks : list str) : str :=
  let (text, e) := chars_utf8 chunks in
  map escape_char text ++ (if e then map escape_char (chars_latin chunks) else []).
(** get_char_iterator_for_dir (76-81); [files]: names and contents, in the order of os.walk *)
Definition chars_of_dir (files : list (str * list str)) : str :=
  flat_map (fun f => if ends_with (lit ".py") (fst f) then chars_of_file (snd f) ++ [10; 10; 10] else []) files.
(** run_from_file (453-455), run_from_dir (458-460) *)
Definition run_from_file (ord : list str -> list str) (chunks : list str) (n : nat) := run_from_text ord (chars_of_file chunks) n.
Definition run_from_dir (ord : list str -> list str) (files : list (str * list str)) (n : nat) := run_from_text ord (chars_of_dir files) n.
