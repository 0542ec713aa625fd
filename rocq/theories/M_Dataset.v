(** codeprep/pipeline/dataset.py, codeprep/dirutils.py, codeprep/fileutils.py: names of output and cache
    directories, scanning of a dataset, saved file lists, output file names.

    Paths and file names are byte strings here; for str paths the utf-8 encoding is left out. *)
From Verif Require Import M_Base L_Base M_Literal M_PrepConfig.

Definition slash : N := 47%N.
Definition bar : N := 124%N.

(** ** Paths (os.path, posix) *)

(** os.path.basename *)
Definition basename (p : str) : str := last (split_on slash p) [].

(** os.path.join of two paths *)
Definition path_join (a b : str) : str :=
  if starts_with [slash] b then b
  else if eqb a [] || ends_with [slash] a then a ++ b
  else a ++ slash :: b.

(** os.path.abspath as a list of components; [cwd] has the components of the working directory.  A leading
    double slash is taken as a single one. *)
Fixpoint norm (acc : list str) (parts : list str) : list str :=
  match parts with
  | [] => acc
  | p :: t =>
      if eqb p [] || eqb p (lit ".") then norm acc t
      else if eqb p (lit "..") then norm (removelast acc) t
      else norm (acc ++ [p]) t
  end.
Definition abs_parts (cwd : list str) (p : str) : list str :=
  norm (if starts_with [slash] p then [] else cwd) (split_on slash p).

(** os.path.relpath *)
Fixpoint drop_common (a b : list str) : list str * list str :=
  match a, b with
  | x :: a', y :: b' => if eqb x y then drop_common a' b' else (a, b)
  | _, _ => (a, b)
  end.
Definition relpath (cwd : list str) (p start : str) : str :=
  let '(rest, up) := drop_common (abs_parts cwd p) (abs_parts cwd start) in
  match map (fun _ => lit "..") up ++ rest with
  | [] => lit "."
  | parts => join [slash] parts
  end.

(** ** File trees

    [File mtime], [Link] a symbolic link that is not a link to a directory, [Dir link mtime entries] a directory,
    [link] if it is reached through a symbolic link.  The entries are in the order of os.scandir. *)
Inductive node :=
| File (mtime : N)
| Link
| Dir (link : bool) (mtime : N) (entries : list (str * node)).

Definition is_dir (t : node) : bool := match t with Dir _ _ _ => true | _ => false end.
Definition is_link (t : node) : bool := match t with Link => true | _ => false end.

(** os.walk: the components of root relative to the start, and the entries of root *)
Fixpoint walk (follow : bool) (root : list str) (t : node) : list (list str * list (str * node)) :=
  match t with
  | Dir _ _ es =>
      (root, es) ::
      flat_map (fun e => match e with
                         | (n, t') =>
                             match t' with
                             | Dir link _ _ => if follow || negb link then walk follow (root ++ [n]) t' else []
                             | _ => []
                             end
                         end) es
  | _ => []
  end.

(** ** has_one_of_extensions (fileutils.py 12-33) *)
Definition has_one_of_extensions (name : str) (exts : list str) : bool :=
  existsb (fun e => ends_with (lit "." ++ e) name) exts.

(** ** normalize_extension_string (dataset.py 327-347)

    None stands for None and for the empty string (both are falsy wherever they are used).  The set is
    sorted as strings. *)
Fixpoint str_leb (a b : str) : bool :=
  match a, b with
  | [], _ => true
  | _ :: _, [] => false
  | x :: a', y :: b' => if N.eqb x y then str_leb a' b' else N.ltb x y
  end.
Fixpoint insert_unique (x : str) (l : list str) : list str :=
  match l with
  | [] => [x]
  | y :: t => if eqb x y then l else if str_leb x y then x :: l else y :: insert_unique x t
  end.
Definition sorted_set (l : list str) : list str := fold_right insert_unique [] l.
Definition normalize_extension_string (exts : str) : option (list str) :=
  if eqb exts [] then None else Some (sorted_set (split_on bar exts)).

(** ** walk_and_save (dirutils.py 27-52)

    The names of directories and of files that are written, in order. *)
Definition rel_root (root : list str) : str := match root with [] => lit "." | _ => join [slash] root end.
Definition scan_dirs (t : node) : list str :=
  flat_map (fun w => map (fun e => path_join (rel_root (fst w)) (fst e)) (filter (fun e => is_dir (snd e)) (snd w)))
    (walk true [] t).
Definition scan_files (path : str) (t : node) (exts : option (list str)) : list str :=
  match t with
  | Dir _ _ _ =>
      flat_map (fun w =>
        map fst
          (filter (fun e => match exts with
                            | Some (x :: xs) => has_one_of_extensions (fst e) (x :: xs)
                            | _ => true
                            end && negb (is_link (snd e)))
             (map (fun e => (path_join (rel_root (fst w)) (fst e), snd e))
                (filter (fun e => negb (is_dir (snd e))) (snd w)))))
        (walk true [] t)
  | _ => [basename path]
  end.

(** *** repr of bytes, as written by the formatted string *)
Definition hexdigit (n : N) : N := if (n <? 10)%N then (48 + n)%N else (87 + n)%N.
Definition bquote (b : str) : N := if existsb (N.eqb 39) b && negb (existsb (N.eqb 34) b) then 34%N else 39%N.
Definition brepr_char (q c : N) : str :=
  (if (c =? q) || (c =? 92) then [92; c]
   else if c =? 9 then [92; 116]
   else if c =? 10 then [92; 110]
   else if c =? 13 then [92; 114]
   else if (c <? 32) || (127 <=? c) then [92; 120; hexdigit (c / 16); hexdigit (c mod 16)]
   else [c])%N.
Definition brepr (b : str) : str :=
  let q := bquote b in 98%N :: q :: flat_map (brepr_char q) b ++ [q].

(** the content of the file list *)
Definition save_list (names : list str) : str := write_lines (map brepr names).

(** ** get_all_files (dataset.py 261-276): reading a saved list

    ast.literal_eval of one bytes literal: a byte prefix, a quote, the characters up to the same quote.  All
    escapes of Python except octal ones and line continuations are read; on other input it is a
    ValueError. *)
Definition hexval (c : N) : option N :=
  if ((48 <=? c) && (c <=? 57))%N then Some (c - 48)%N
  else if ((97 <=? c) && (c <=? 102))%N then Some (c - 87)%N
  else if ((65 <=? c) && (c <=? 70))%N then Some (c - 55)%N
  else None.
Definition simple_escape (c : N) : option N :=
  (match c with
   | 92 => Some 92 | 39 => Some 39 | 34 => Some 34 | 97 => Some 7 | 98 => Some 8 | 102 => Some 12
   | 110 => Some 10 | 114 => Some 13 | 116 => Some 9 | 118 => Some 11
   | _ => None
   end)%N.
Fixpoint beval_body (q : N) (fuel : nat) (s : str) : res str :=
  match fuel, s with
  | O, _ => Err OutOfFuel
  | S f, [] => Err ValueError
  | S f, c :: t =>
      if N.eqb c q then match t with [] => Ok [] | _ => Err ValueError end
      else if N.eqb c 92 then
        match t with
        | [] => Err ValueError
        | e :: t' =>
            if N.eqb e 120 then
              match t' with
              | h :: l :: t'' =>
                  match hexval h, hexval l with
                  | Some a, Some b => r <- beval_body q f t'' ;; Ok ((16 * a + b)%N :: r)
                  | _, _ => Err ValueError
                  end
              | _ => Err ValueError
              end
            else match simple_escape e with
                 | Some v => r <- beval_body q f t' ;; Ok (v :: r)
                 | None => if is_digit e || N.eqb e 10 then Err ValueError
                           else r <- beval_body q f t' ;; Ok (92%N :: e :: r)
                 end
        end
      else if (N.leb 128 c || N.eqb c 10)%bool then Err ValueError
      else r <- beval_body q f t ;; Ok (c :: r)
  end.
Definition beval (s : str) : res str :=
  match s with
  | p :: q :: t => if N.eqb p 98 && (N.eqb q 39 || N.eqb q 34) then beval_body q (S (length t)) t else Err ValueError
  | _ => Err ValueError
  end.
Definition read_list (content : str) : res (list str) := mapM beval (file_lines content).

(** ** SubDataset (dataset.py 34-69) *)
Definition original_suffix : str := [].
Definition parsed_suffix : str := lit ".parsed".
Definition prep_suffix : str := lit ".prep".
Definition not_finished : str := lit ".part".

Record sub_dataset := { sd_path : str; sd_suffix : str }.

(** file_iterator (54-61); [isfile] tells if the path is a regular file *)
Definition file_iterator (sd : sub_dataset) (isfile : bool) (files : list str) : list str :=
  map (fun f => if isfile then sd_path sd ++ sd_suffix sd else path_join (sd_path sd) (f ++ sd_suffix sd)) files.

(** get_new_file_name (63-69) *)
Definition chop (s suffix : str) : str := firstn (length s - length suffix) s.
Definition get_new_file_name (cwd : list str) (sd new : sub_dataset) (file_path : str) : str :=
  let rel := relpath cwd file_path (sd_path sd) in
  let rel := if eqb rel (lit ".") then basename file_path else rel in
  path_join (sd_path new) ((if eqb (sd_suffix sd) [] then rel else chop rel (sd_suffix sd)) ++ sd_suffix new).

(** the file that is written before it is renamed (parse_projects.py 33, to_repr.py 71) *)
Definition temp_name (dest : str) : str := dest ++ not_finished.

(** ** get_timestamp (dirutils.py 80-82): year, month, day, hour, minute, second with two digits each *)
Record stamp := { st_y : N; st_mo : N; st_d : N; st_h : N; st_mi : N; st_s : N }.
Definition two_digits (n : N) : str := [48 + n / 10; 48 + n mod 10]%N.
Definition stamp_str (t : stamp) : str :=
  two_digits (st_y t) ++ lit "-" ++ two_digits (st_mo t) ++ lit "-" ++ two_digits (st_d t) ++ lit "T"
  ++ two_digits (st_h t) ++ lit "-" ++ two_digits (st_mi t) ++ lit "-" ++ two_digits (st_s t).

(** ** Names of directories (dataset.py 173-259)

    A run: the path of the dataset, its time stamp, the normalized extensions, the preprocessing
    configuration, merge list id and number of merges of custom bpe codes, the output directory if given. *)
Record run := {
  r_path : str;
  r_stamp : stamp;
  r_exts : option (list str);
  r_config : params;
  r_custom : option (str * N);
  r_output : option str
}.

(** get_dataset_dir_name *)
Definition dataset_dir_name (r : run) : str :=
  basename (r_path r) ++ lit "_" ++ stamp_str (r_stamp r)
  ++ match r_exts r with Some (e :: es) => lit "_" ++ join (lit "_") (e :: es) | _ => [] end.

(** _get_prep_suffix *)
Definition get_prep_suffix (r : run) : str :=
  config_str (r_config r) ++ match r_custom r with Some (i, n) => lit "_" ++ i ++ lit "-" ++ dec n | None => [] end.

(** _get_path_to_parsed_dataset, path_to_file_list_folder *)
Definition parsed_path (dir : str) (r : run) : str := path_join dir (dataset_dir_name r).

(** _get_path_to_prep_dataset; an empty output directory is falsy *)
Definition prep_basename (r : run) : str :=
  dataset_dir_name r ++ lit "_-_" ++ get_prep_suffix r
  ++ match r_output r with Some (_ :: _) => lit "_-_prep" | _ => [] end.
Definition prep_path (dir : str) (r : run) : str :=
  path_join match r_output r with Some (c :: o) => c :: o | _ => dir end (prep_basename r).

(** vocab_path *)
Definition vocab_path (dir : str) (r : run) : str :=
  path_join dir (dataset_dir_name r ++ lit "_-_" ++ get_prep_suffix r).

(** path_to_prep_corpus_size_file *)
Definition corpus_size_path (sizes_dir prep_dir : str) (r : run) : str :=
  path_join sizes_dir (basename (prep_path prep_dir r)).
