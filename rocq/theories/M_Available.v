(** The ids listed in the message for an unknown id (codeprep/pipeline/bperegistry.py 165-176, 192-196, 223-232) *)
From Verif Require Import M_Base L_Base M_PrepConfig M_Registry M_Learned.

Section Available.
  Variable py_int : str -> option Z.
  Variable maxsize : Z.
  Variable strip : str -> str.

  (** _get_all_custom_bpe_codes_and_max_merges (223-232); [names] is the order of os.walk.  [existing_ids] of M_Registry are the keys *)
  Definition all_codes_and_max_merges (w : world) (names : list str) : dict str Z :=
    fold_left (fun result name =>
                 match dget (w_bpe w) name with
                 | None => result
                 | Some r =>
                     match codes_id strip (r_id r, subdirs r), get_max_merges py_int (subdirs r) maxsize with
                     | Some code, Some m => if eqb code [] || Z.eqb m 0 then result else dset result code m
                     | _, _ => result
                     end
                 end) names [].

  (** format_available_merge_list_ids (192-196).  The numbers are positive *)
  Definition format_available_merge_list_ids (w : world) (names : list str) : str :=
    List.concat (map (fun kv => fst kv ++ lit "-[1.." ++ dec (Z.to_N (snd kv)) ++ lit "]" ++ [newline])
                     (all_codes_and_max_merges w names)).
End Available.
