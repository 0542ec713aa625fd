(** * Preprocessing texts through the API (codeprep/api/text.py 21-40) and the bpe data kept in the
    process (codeprep/pipeline/to_repr.py 36-37 and 84-115)

    The parser is a parameter: a function of the text and the extension that may raise.  So is what turns
    parsed tokens into strings, as a function that may change the bpe data it is given (unescape changes
    lists of the cache, bpe_encode.py 43); M_PrepConfig.to_repr is the instance without such changes. *)
From Coq Require Import List NArith Bool.
From Verif Require Import M_Base M_Tokens M_Literal M_Repr M_Merge M_BpeEncode M_PrepConfig M_Registry M_Pipeline.
Import ListNotations.

(** BpeData() (bpe_encode.py 20-23): both attributes are None at first *)
Record bpe_object := { ob_cache : option bpe_cache; ob_merges : option merge_list }.
Definition new_object : bpe_object := {| ob_cache := None; ob_merges := None |}.

(** global_bpe_data (to_repr.py 36-37): None if the name is not defined yet.  An object is always true *)
Definition globals := option bpe_object.

(** What is on the disk: merges_cache.txt and merges.txt of the packaged codes by case and number of merges;
    for an id and a number of merges whether CustomBpeConfig.create (bperegistry.py 51-65) finds a directory,
    the merges.txt in it, and the non-bpe vocabulary of the id (vocabloader.py 23-25) *)
Record disk := {
  dk_cache : str -> str -> option str;
  dk_merges : str -> str -> option str;
  dk_find : str -> N -> res unit;
  dk_codes : str -> N -> option str;
  dk_nonbpe : str -> res str
}.

(** open of a file that may be missing *)
Definition open_file (f : option str) : res str := match f with Some s => Ok s | None => Err FileNotFoundError end.

(** the custom bpe configuration: name and number of merges.  The number is at least 1 (M_Registry), so that
    can_use_cache_file (bperegistry.py 43-44) is false and the cache starts empty *)
Definition from_id (dk : disk) (id : str) : res (str * N) :=
  i <- parse_merge_list_id id ;; _ <- dk_find dk (fst i) (snd i) ;; Ok i.

(** init_bpe_data (to_repr.py 84-115): the result and the globals afterwards.  The new object is stored before
    anything is read, and attributes are set one after the other *)
Definition init_bpe_data (dk : disk) (g : globals) (d : params) (custom : option (str * N)) (force : bool)
  : res unit * globals :=
  match g, force with
  | Some o, false => (Ok tt, Some o)
  | _, _ =>
      match custom with
      | Some (name, n) =>
          match bind (open_file (dk_codes dk name n)) (fun f => read_merges f (Some (N.to_nat n))) with
          | Err e => (Err e, Some {| ob_cache := Some []; ob_merges := None |})
          | Ok ml =>
              match bind (dk_nonbpe dk name) load_vocab_set with
              | Err e => (Err e, Some {| ob_cache := Some []; ob_merges := Some ml |})
              | Ok nonbpe =>
                  (Ok tt, Some {| ob_cache := Some (fold_left (fun c s => dset c s [s]) nonbpe []); ob_merges := Some ml |})
              end
          end
      | None =>
          match dget bpe_n_merges_dict (param d SPLIT) with
          | None => (Err KeyError, Some new_object)
          | Some dir =>
              let case_dir := if param_in d CASE "u" then lit "case" else lit "nocase" in
              match match dk_cache dk case_dir dir with Some f => read_bpe_cache f | None => Ok [] end with
              | Err e => (Err e, Some new_object)
              | Ok c =>
                  match bind (open_file (dk_merges dk case_dir dir)) (fun f => read_merges f None) with
                  | Err e => (Err e, Some {| ob_cache := Some c; ob_merges := None |})
                  | Ok ml => (Ok tt, Some {| ob_cache := Some c; ob_merges := Some ml |})
                  end
              end
          end
      end
  end.

(** A call: text, extension, configuration, id of bpe codes, force_reinit_bpe_data, append_eof.
    With return_metadata=False the first component of the result is returned *)
Record call := {
  c_text : str; c_ext : option str; c_config : params; c_id : option str; c_force : bool; c_eof : bool
}.

Section Api.
  Variable parse : str -> option str -> res (list token).
  Variable repr : params -> list token -> globals -> res (list str * meta) * globals.
  Variable dk : disk.

  (** remove_trailing_newline (21-22) *)
  Definition remove_trailing_newline (l : list token) : list token :=
    match rev l with NewLine :: l' => rev l' | _ => l end.

  (** preprocess (25-40) *)
  Definition preprocess (g : globals) (c : call) : res (list str * meta) * globals :=
    match parse (c_text c) (c_ext c) with
    | Err e => (Err e, g)
    | Ok l =>
        let l1 := remove_trailing_newline l in
        let l2 := if c_eof c then l1 ++ [NonProc NpSpecialToken ph_ect] else l1 in
        if is_bpe (c_config c) then
          match c_id c with
          | None | Some [] => (Err AssertionError, g)
          | Some id =>
              match (if is_predefined_id id then Ok None else bind (from_id dk id) (fun i => Ok (Some i))) with
              | Err e => (Err e, g)
              | Ok custom =>
                  match init_bpe_data dk g (c_config c) custom (c_force c) with
                  | (Err e, g') => (Err e, g')
                  | (Ok _, g') => repr (c_config c) l2 g'
                  end
              end
          end
        else repr (c_config c) l2 g
    end.

  (** a history of calls *)
  Fixpoint after (g : globals) (l : list call) : globals :=
    match l with [] => g | c :: l' => after (snd (preprocess g c)) l' end.
End Api.

(** to_repr without changes of the cache.  An object whose attributes are still None raises as soon as a word is
    looked up ("argument of type 'NoneType' is not iterable", AttributeError for merges); here: always *)
Definition plain_repr (E : pycase) (o : splitters) (d : params) (l : list token) (g : globals)
  : res (list str * meta) * globals :=
  (match g with
   | Some {| ob_cache := Some c; ob_merges := Some ml |} => to_repr E o d (Some {| bd_merges := ml; bd_cache := c |}) l
   | Some _ => if is_bpe d then Err TypeError else to_repr E o d None l
   | None => to_repr E o d None l
   end, g).
