(** codeprep/bpepkg/merge.py and codeprep/bpepkg/cache.py *)
From Verif Require Import M_Base L_Base M_Literal.

Definition pair := (str * str)%type.

(** Merge (merge.py 13-41) once it is in a MergeList; [freq] may be None *)
Record merge := { m_pair : pair; m_freq : option Z; m_priority : nat }.

(** MergeList.merges (merge.py 102-103): dict from pair to Merge *)
Definition merge_list := dict pair merge.
Definition ml_empty : merge_list := [].

(** append (134-143); [prio] is the priority of the appended Merge, None if not given *)
Definition ml_append (ml : merge_list) (p : pair) (freq : option Z) (prio : option Z) : res merge_list :=
  match prio with
  | None => Ok (dset ml p {| m_pair := p; m_freq := freq; m_priority := length ml |})
  | Some z =>
      if Z.eqb z (Z.of_nat (length ml))
      then Ok (dset ml p {| m_pair := p; m_freq := freq; m_priority := length ml |})
      else Err ValueError
  end.

(** __iter__ / _get_sorted_merges (111-119): values in insertion order *)
Definition ml_iter (ml : merge_list) : list merge := dvals ml.

(** __contains__ (105-106) *)
Definition ml_contains (ml : merge_list) (p : pair) : bool := dmem ml p.

(** get_priority (145-146) *)
Definition ml_priority (ml : merge_list) (p : pair) : option nat := option_map m_priority (dget ml p).

(** __add__ (121-132) *)
Fixpoint ml_add_loop (first_list_len : nat) (acc : merge_list) (others : list merge) : res merge_list :=
  match others with
  | [] => Ok acc
  | m :: t =>
      acc' <- ml_append acc (m_pair m) (m_freq m) (Some (Z.of_nat (m_priority m) + Z.of_nat first_list_len)%Z) ;;
      ml_add_loop first_list_len acc' t
  end.
Definition ml_add (a b : merge_list) : res merge_list := ml_add_loop (length a) a (ml_iter b).

(** Merge.parse_file_entry (19-28): pair and optional frequency *)
Definition parse_file_entry (line : str) : res (pair * option Z) :=
  s <- to_non_literal_str line ;;
  match split_on 32 s with
  | [a; b] => Ok ((a, b), None)
  | a :: b :: f :: _ => z <- parse_int f ;; Ok ((a, b), Some z)
  | _ => Err ValueError
  end.

(** the loop of read_merges (159-167) over the lines of the file; n_merges = None or 0 means no limit *)
Fixpoint read_merges_loop (n_merges : option nat) (idx : nat) (ml : merge_list) (lines : list str) : res merge_list :=
  match lines with
  | [] => Ok ml
  | line :: t =>
      let stop := match n_merges with
                  | None => false
                  | Some O => false
                  | Some n => (n <=? idx)%nat
                  end in
      if stop then Ok ml
      else
        e <- parse_file_entry line ;;
        ml' <- ml_append ml (fst e) (snd e) (Some (Z.of_nat idx)) ;;
        read_merges_loop n_merges (S idx) ml' t
  end.
Definition read_merges (content : str) (n_merges : option nat) : res merge_list :=
  read_merges_loop n_merges 0 ml_empty (file_lines content).

(** [f"{merge.freq}"] *)
Definition freq_str (f : option Z) : str := match f with Some z => decZ z | None => lit "None" end.

(** dump_merges (170-173) *)
Definition merge_line (m : merge) : str :=
  to_literal_str (join (lit " ") [fst (m_pair m); snd (m_pair m)]) ++ lit " " ++ freq_str (m_freq m).
Definition dump_merges (ml : merge_list) : str := write_lines (map merge_line (ml_iter ml)).

(** ** Cache files (cache.py 21-36) *)
Definition bpe_cache := dict str (list str).

Fixpoint read_bpe_cache_loop (acc : bpe_cache) (lines : list str) : res bpe_cache :=
  match lines with
  | [] => Ok acc
  | line :: t =>
      match split_on 9 line with
      | k :: v :: _ =>
          v' <- to_non_literal_str v ;;
          k' <- to_non_literal_str k ;;
          read_bpe_cache_loop (dset acc k' (split_on 32 v')) t
      | _ => Err IndexError
      end
  end.
Definition read_bpe_cache (content : str) : res bpe_cache := read_bpe_cache_loop [] (file_lines content).

Definition dump_bpe_cache (c : bpe_cache) : str :=
  write_lines (map (fun kv => to_literal_str (fst kv) ++ [9%N] ++ to_literal_str (join (lit " ") (snd kv))) c).
