(** codeprep/pipeline/bperegistry.py and codeprep/bpepkg/bpe_config.py *)
From Verif Require Import M_Base L_Base.

(** ** parse_merge_list_id (128-150)

    InvalidBpeCodesIdError is ValueError here.  The pattern is matched at the start of the string: a name
    without newline, a dash, a number that starts with 1-9, then the end or a final newline.  The number has no
    dash, so the dash is the last one. *)
Fixpoint last_sep (sep : N) (s : str) : option (str * str) :=
  match s with
  | [] => None
  | c :: t =>
      match last_sep sep t with
      | Some (a, b) => Some (c :: a, b)
      | None => if N.eqb c sep then Some ([], t) else None
      end
  end.

Definition dash : N := 45%N.
Definition underscore : N := 95%N.
Definition newline : N := 10%N.

(** a digit 1-9, then digits *)
Definition is_positive_number (s : str) : bool :=
  match s with
  | [] => false
  | c :: t => is_digit c && negb (N.eqb c 48) && forallb is_digit t
  end.

(** [$] matches before a final newline *)
Definition chop_newline (s : str) : str :=
  match s with
  | [] => s
  | _ => if N.eqb (last s 0%N) newline then removelast s else s
  end.

Definition parse_merge_list_id (s : str) : res (str * N) :=
  match last_sep dash (chop_newline s) with
  | Some (name, num) =>
      if is_positive_number num && negb (existsb (N.eqb newline) name)
      then match parse_digits 0 num with
           | Some n => Ok (name, n)
           | None => Err ValueError
           end
      else Err ValueError
  | None => Err ValueError
  end.

(** ** _get_extreme_n_merges (199-212), get_min_merges (215-216), get_max_merges (219-220)

    [py_int] is Python's int() on a directory name, None where it raises ValueError; [maxsize] is
    sys.maxsize. *)
Section Merges.
  Variable py_int : str -> option Z.
  Variable maxsize : Z.

  Definition get_extreme (in_order : Z -> Z -> Z -> bool) (limit init : Z) (subdirs : list str) : option Z :=
    let e := fold_left (fun e d => match py_int d with
                                   | Some num => if in_order e num limit then num else e
                                   | None => e
                                   end) subdirs init in
    if Z.eqb e init then None else Some e.

  Definition get_min_merges (subdirs : list str) (limit : Z) : option Z :=
    get_extreme (fun e n l => (n <? e) && (l <=? n))%Z limit maxsize subdirs.
  Definition get_max_merges (subdirs : list str) (limit : Z) : option Z :=
    get_extreme (fun e n l => (e <? n) && (n <=? l))%Z limit 0 subdirs.

  (** CustomBpeConfig.create (51-65): the directory whose merges are used for [n] merges *)
  Definition config_dir (subdirs : list str) (n : Z) : res Z :=
    match get_min_merges subdirs n with
    | Some m => if Z.eqb m 0 then Err ValueError else Ok m
    | None => Err ValueError
    end.
End Merges.

(** ** Custom ids: get_codes_id_by_bpe_path (91-97), _get_all_custom_bpe_codes_and_max_merges (223-232)

    A bpe directory is the content of its id file, None if there is no such file, and the names of its
    subdirectories.  [strip] is str.strip. *)
Definition bpe_dir := (option str * list str)%type.

Section NewId.
  Variable py_int : str -> option Z.
  Variable maxsize : Z.
  Variable strip : str -> str.

  Definition codes_id (d : bpe_dir) : option str := option_map strip (fst d).

  (** the keys of the dictionary; [if code and max_merges] *)
  Definition existing_ids (dirs : list bpe_dir) : list str :=
    flat_map (fun d => match codes_id d, get_max_merges py_int (snd d) maxsize with
                       | Some code, Some m => if eqb code [] || Z.eqb m 0 then [] else [code]
                       | _, _ => []
                       end) dirs.

  (** *** create_new_id_from (100-119)

      [number_of base full] is m[1] for the match m of [full] with the pattern made of [base], an underscore
      and a group of digits, None if there is no match; [base] is inserted unquoted.  A group in [base] can
      make m[1] something else than a number. *)
  Variable number_of : str -> str -> option str.

  Definition extract_number (full_id id_base : str) : res N :=
    match number_of id_base full_id with
    | Some ds => if negb (eqb ds []) && forallb is_digit ds
                 then match parse_digits 0 ds with Some n => Ok n | None => Err ValueError end
                 else Err ValueError
    | None => Ok 0%N
    end.

  Definition id_base (basename suffix : str) : str :=
    join (lit "_") (basename :: (if eqb suffix [] then [] else [suffix])).

  Definition create_new_id (basename suffix : str) (dirs : list bpe_dir) : res str :=
    let existing := existing_ids dirs in
    let base := id_base basename suffix in
    if mem base existing
    then numbers <- mapM (fun d => extract_number d base) existing ;;
         Ok (base ++ lit "_" ++ dec (fold_right N.max 0 numbers + 1))%N
    else Ok base.

  (** with a predefined id *)
  Definition create_new_id_from (basename suffix : str) (dirs : list bpe_dir) (predefined : option str) : res str :=
    match predefined with
    | Some i => if eqb i [] then create_new_id basename suffix dirs else Ok i
    | None => create_new_id basename suffix dirs
    end.
End NewId.

(** ** BpeConfig (bpe_config.py) *)
Record bpe_config := {
  bc_case : str;            (** CASE *)
  bc_word_end : bool;       (** WORD_END *)
  bc_base : str;            (** BASE *)
  bc_unicode : str          (** UNICODE *)
}.

(** possible_param_values (23-28), _check_invariants (37-42) *)
Definition bc_valid (c : bpe_config) : bool :=
  mem (bc_case c) [lit "yes"] && mem (bc_base c) [lit "all"; lit "code"; lit "java"]
  && mem (bc_unicode c) [lit "yes"; lit "no"; lit "bytes"].
Definition make_bpe_config (c : bpe_config) : res bpe_config := if bc_valid c then Ok c else Err ValueError.

(** to_suffix (92-137) *)
Definition to_suffix (c : bpe_config) : str :=
  join (lit "_")
    ((if eqb (bc_case c) (lit "no") then [lit "nocase"]
      else if eqb (bc_case c) (lit "prefix") then [lit "prefix"] else [])
     ++ (if bc_word_end c then [lit "we"] else [])
     ++ (if eqb (bc_unicode c) (lit "no") then [lit "nounicode"]
         else if eqb (bc_unicode c) (lit "bytes") then [lit "bytes"] else [])).

(** from_suffix (69-90) *)
Definition from_suffix (s : str) : res bpe_config :=
  make_bpe_config
    {| bc_case := if contains (lit "nocase") s then lit "no"
                  else if contains (lit "prefix") s then lit "prefix" else lit "yes";
       bc_word_end := contains (lit "we") s;
       bc_base := lit "code";
       bc_unicode := if contains (lit "nounicode") s then lit "no"
                     else if contains (lit "bytes") s then lit "bytes" else lit "yes" |}.

(** get_base_vocab_dir (153-162): the pattern splits at the first [_-_]; names with a
    newline are left out.  [bpe_dir_parts] is (m[1], m[2]). *)
Fixpoint bpe_dir_parts (s : str) : str * str :=
  if starts_with (lit "_-_") s then ([], s)
  else match s with
       | [] => ([], [])
       | c :: t => let r := bpe_dir_parts t in (c :: fst r, snd r)
       end.
(** the name of the bpe directory: dataset.py bpe_path (215-223) *)
Definition bpe_dir_name (dataset_dir : str) (c : bpe_config) : str :=
  join (lit "_-_") (dataset_dir :: (if eqb (to_suffix c) [] then [] else [to_suffix c])).
