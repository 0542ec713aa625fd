(** codeprep/util.py 238-243: to_literal_str and to_non_literal_str, i.e. Python's unicode-escape codec,
    and the text file conventions used by the readers and writers of codeprep. *)
From Verif Require Import M_Base L_Base.
Local Open Scope N_scope.

(** ** Encoding *)
Definition hex_digit (n : N) : N := if n <? 10 then 48 + n else 87 + n.

(** [k] lower-case hexadecimal digits of [n], most significant first *)
Fixpoint hex (k : nat) (n : N) : str :=
  match k with
  | O => []
  | S k' => hex k' (n / 16) ++ [hex_digit (n mod 16)]
  end.

(** one code point under [str.encode("unicode-escape")] *)
Definition esc_char (c : N) : str :=
  if c =? 92 then [92; 92]
  else if c =? 9 then [92; 116]
  else if c =? 10 then [92; 110]
  else if c =? 13 then [92; 114]
  else if (32 <=? c) && (c <? 127) then [c]
  else if c <? 256 then [92; 120] ++ hex 2 c
  else if c <? 65536 then [92; 117] ++ hex 4 c
  else [92; 85] ++ hex 8 c.

(** to_literal_str (util.py 242-243) *)
Definition to_literal_str (s : str) : str := List.concat (map esc_char s).

(** ** Decoding *)
Definition hex_val (c : N) : option N :=
  if (48 <=? c) && (c <=? 57) then Some (c - 48)
  else if (97 <=? c) && (c <=? 102) then Some (c - 87)
  else if (65 <=? c) && (c <=? 70) then Some (c - 55)
  else None.

Fixpoint hex_parse (acc : N) (s : str) : option N :=
  match s with
  | [] => Some acc
  | c :: t => match hex_val c with Some v => hex_parse (16 * acc + v) t | None => None end
  end.

Definition oct_val (c : N) : option N := if (48 <=? c) && (c <=? 55) then Some (c - 48) else None.

Definition emit (c : N) (r : res str) : res str := bind r (fun t => Ok (c :: t)).

(** [bytes.decode("unicode-escape")] on latin-1 bytes.  Simplification: the named escape \N{...} is
    reported as an error (the encoder never produces it).  [\U] escapes above 0x10FFFF are errors. *)
Fixpoint unescape_bytes (s : str) : res str :=
  match s with
  | [] => Ok []
  | c :: t =>
      if negb (c =? 92) then emit c (unescape_bytes t)
      else
        match t with
        | [] => Err UnicodeError
        | e :: r =>
            if e =? 10 then unescape_bytes r
            else if (e =? 92) || (e =? 39) || (e =? 34) then emit e (unescape_bytes r)
            else if e =? 98 then emit 8 (unescape_bytes r)
            else if e =? 102 then emit 12 (unescape_bytes r)
            else if e =? 116 then emit 9 (unescape_bytes r)
            else if e =? 110 then emit 10 (unescape_bytes r)
            else if e =? 114 then emit 13 (unescape_bytes r)
            else if e =? 118 then emit 11 (unescape_bytes r)
            else if e =? 97 then emit 7 (unescape_bytes r)
            else match oct_val e with
            | Some v1 =>
                match r with
                | o2 :: r2 =>
                    match oct_val o2 with
                    | Some v2 =>
                        match r2 with
                        | o3 :: r3 =>
                            match oct_val o3 with
                            | Some v3 => emit (64 * v1 + 8 * v2 + v3) (unescape_bytes r3)
                            | None => emit (8 * v1 + v2) (unescape_bytes r2)
                            end
                        | [] => emit (8 * v1 + v2) (unescape_bytes r2)
                        end
                    | None => emit v1 (unescape_bytes r)
                    end
                | [] => emit v1 (unescape_bytes r)
                end
            | None =>
                if e =? 120 then
                  match r with
                  | h1 :: h2 :: r' =>
                      match hex_parse 0 [h1; h2] with
                      | Some v => emit v (unescape_bytes r')
                      | None => Err UnicodeError
                      end
                  | _ => Err UnicodeError
                  end
                else if e =? 117 then
                  match r with
                  | h1 :: h2 :: h3 :: h4 :: r' =>
                      match hex_parse 0 [h1; h2; h3; h4] with
                      | Some v => emit v (unescape_bytes r')
                      | None => Err UnicodeError
                      end
                  | _ => Err UnicodeError
                  end
                else if e =? 85 then
                  match r with
                  | h1 :: h2 :: h3 :: h4 :: h5 :: h6 :: h7 :: h8 :: r' =>
                      match hex_parse 0 [h1; h2; h3; h4; h5; h6; h7; h8] with
                      | Some v => if v <=? 1114111 then emit v (unescape_bytes r') else Err UnicodeError
                      | None => Err UnicodeError
                      end
                  | _ => Err UnicodeError
                  end
                else if e =? 78 then Err UnicodeError
                else emit 92 (emit e (unescape_bytes r))
            end
        end
  end.

(** [str.encode()]: UTF-8; lone surrogates cannot be encoded *)
Definition utf8_char (c : N) : res str :=
  if c <? 128 then Ok [c]
  else if c <? 2048 then Ok [192 + c / 64; 128 + c mod 64]
  else if (55296 <=? c) && (c <=? 57343) then Err UnicodeError
  else if c <? 65536 then Ok [224 + c / 4096; 128 + (c / 64) mod 64; 128 + c mod 64]
  else Ok [240 + c / 262144; 128 + (c / 4096) mod 64; 128 + (c / 64) mod 64; 128 + c mod 64].

Definition utf8 (s : str) : res str := bind (mapM utf8_char s) (fun l => Ok (List.concat l)).

(** to_non_literal_str (util.py 238-239) *)
Definition to_non_literal_str (s : str) : res str := bind (utf8 s) unescape_bytes.

(** A Python string contains code points up to 0x10FFFF *)
Definition valid_str (s : str) : Prop := Forall (fun c => c <= 1114111) s.

(** ** Text files *)

(** universal newlines: [open(f, 'r')] translates \r\n and \r to \n *)
Fixpoint univ_newlines (s : str) : str :=
  match s with
  | [] => []
  | c :: t =>
      if c =? 13 then
        match t with
        | d :: t' => if d =? 10 then 10 :: univ_newlines t' else 10 :: univ_newlines t
        | [] => [10]
        end
      else c :: univ_newlines t
  end.

(** [for line in f: line = line.rstrip('\n')]: the lines of a text file without their newline;
    text after the last newline is a line if it is not empty *)
Definition file_lines (content : str) : list str :=
  let ls := split_on 10 (univ_newlines content) in
  match last ls [] with
  | [] => removelast ls
  | _ => ls
  end.

(** a writer that emits each line followed by a newline *)
Definition write_lines (ls : list str) : str := List.concat (map (fun l => l ++ [10]) ls).
