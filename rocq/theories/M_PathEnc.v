(** Paths as text and as bytes (codeprep/pipeline/dataset.py 54-69 and 128-151, codeprep/dirutils.py 27-52).  A path given on the command line
    is text that Python made from bytes with the encoding of the file system; os functions take it back to bytes with the same encoding,
    while codeprep makes bytes from it with str.encode(), which is always UTF-8. *)
From Verif Require Import M_Base L_Base M_Literal M_Dataset M_Files.
Local Open Scope N_scope.

(** os.fsdecode for UTF-8: bytes that are not part of a character become lone surrogates (surrogateescape).  Python escapes all bytes of an
    incomplete character at once; the bytes after the first are not the start of a character, so that one by one it is the same. *)
Fixpoint fs_decode (bs : str) : str :=
  match bs with
  | [] => []
  | a :: t1 =>
      if a <? 128 then a :: fs_decode t1 else
      match t1 with
      | [] => (56320 + a) :: fs_decode t1
      | b :: t2 =>
          if lead2 a b then ((a - 192) * 64 + (b - 128)) :: fs_decode t2 else
          match t2 with
          | [] => (56320 + a) :: fs_decode t1
          | c :: t3 =>
              if lead3 a b && cont c then ((a - 224) * 4096 + (b - 128) * 64 + (c - 128)) :: fs_decode t3 else
              match t3 with
              | [] => (56320 + a) :: fs_decode t1
              | d :: t4 =>
                  if lead4 a b && cont c && cont d
                  then ((a - 240) * 262144 + (b - 128) * 4096 + (c - 128) * 64 + (d - 128)) :: fs_decode t4
                  else (56320 + a) :: fs_decode t1
              end
          end
      end
  end.
Definition escaped (c : N) : bool := (56448 <=? c) && (c <=? 56575).
Definition fs_char (c : N) : res str := if escaped c then Ok [c - 56320] else utf8_char c.

(** the encoding of the file system: UTF-8, or ISO-8859-1 in a locale with that encoding *)
Inductive encoding := Utf8 | Latin1.
(** sys.argv *)
Definition fsdecode (e : encoding) (bs : str) : str := match e with Utf8 => fs_decode bs | Latin1 => bs end.
(** os.fsencode, as in every os function that is given text *)
Definition latin_char (c : N) : res str :=
  if escaped c then Ok [c - 56320] else if c <? 256 then Ok [c] else Err UnicodeError.
Definition fsencode (e : encoding) (s : str) : res str :=
  l <- mapM (match e with Utf8 => fs_char | Latin1 => latin_char end) s ;; Ok (List.concat l).

(** Dataset.create (dataset.py 133-134) and walk_and_save (dirutils.py 27-52): the files listed for a path; [world] has what there is under a
    path of bytes.  os.walk of a path where nothing is yields nothing. *)
Definition list_files (e : encoding) (world : str -> option node) (path : str) (exts : option (list str)) : res (list str) :=
  b <- fsencode e path ;;
  match world b with
  | None => Err ValueError
  | Some _ =>
      p <- utf8 path ;;
      Ok match world p with Some t => scan_files p t exts | None => [] end
  end.

(** the output directory: where it is made (dataset.py 141-142, os.makedirs of text), and where the files are put
    (get_new_file_name, dataset.py 68, os.path.join of bytes) *)
Definition made_at (e : encoding) (out : str) : res str := fsencode e out.
Definition put_at (out : str) : res str := utf8 out.
