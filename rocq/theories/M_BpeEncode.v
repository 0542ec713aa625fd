(** codeprep/bpepkg/bpe_encode.py *)
From Verif Require Import M_Base L_Base M_Literal M_Merge.

Definition at_ch : N := 64%N.
Definition at_str : str := [at_ch].

(** escape (31-36) *)
Definition escape (word : str) (merged : bool) : str :=
  let w := replace at_str [at_ch; at_ch] word in
  if merged then w ++ at_str else w ++ lit " " ++ at_str.

(** unescape (39-44): [parts[-1][-1]] raises IndexError on an empty list or empty last part *)
Definition unescape (parts : list str) : res (list str) :=
  match parts with
  | [] => Err IndexError
  | _ =>
      let lst := last parts [] in
      match lst with
      | [] => Err IndexError
      | _ =>
          if N.eqb (last lst 0%N) at_ch
          then Ok (map (replace [at_ch; at_ch] at_str) (removelast parts ++ [removelast lst]))
          else Err ValueError
      end
  end.

(** to_char_list (47-59) *)
Fixpoint to_char_list (word : str) : res (list str) :=
  match word with
  | [] => Ok []
  | c :: t =>
      if negb (N.eqb c at_ch) then r <- to_char_list t ;; Ok ([c] :: r)
      else match t with
           | [] => Ok [[c]]
           | d :: t' => if N.eqb d at_ch then r <- to_char_list t' ;; Ok ([c; d] :: r) else Err ValueError
           end
  end.

Section Encode.
  Variable merges : merge_list.

  (** the scan of one round (78-89): index [i], best priority so far ([None] is sys.maxsize) and the
      collected indices, last first *)
  Fixpoint scan (i : nat) (best : option nat) (idxs : list nat) (s : list str) : option nat * list nat :=
    match s with
    | a :: ((b :: _) as t) =>
        match ml_priority merges (a, b) with
        | None => scan (S i) best idxs t
        | Some p =>
            let better := match best with None => true | Some q => (p <? q)%nat end in
            let same := match best with None => false | Some q => (p =? q)%nat end in
            if better then scan (S i) (Some p) [i] t
            else if same then
              match idxs with
              | j :: _ => if (S j =? i)%nat then scan (S i) best idxs t else scan (S i) best (i :: idxs) t
              | [] => scan (S i) best (i :: idxs) t
              end
            else scan (S i) best idxs t
        end
    | _ => (best, idxs)
    end.

  (** rebuilding the list of subwords (94-102): [start] is start_idx *)
  Definition slice (a b : nat) (l : list str) : list str := firstn (b - a) (skipn a l).

  Fixpoint rebuild (s : list str) (start : nat) (idxs : list nat) : list str :=
    match idxs with
    | [] => slice start (length s) s
    | i :: t => slice start i s ++ [nth i s [] ++ nth (S i) s []] ++ rebuild s (i + 2) t
    end.

  (** one round of the while loop; None if nothing can be merged *)
  Definition encode_round (s : list str) : option (list str) :=
    match rev (snd (scan 0 None [] s)) with
    | [] => None
    | idxs => Some (rebuild s 0 idxs)
    end.

  (** while True (77-106) *)
  Fixpoint encode_loop (fuel : nat) (s : list str) : res (list str) :=
    match encode_round s with
    | None => Ok s
    | Some s' => match fuel with O => Err OutOfFuel | S f => encode_loop f s' end
    end.

  (** encode (62-112) for a dictionary with one word, and encode_word (115-147) *)
  Definition encode_word (word : str) : res (list str) :=
    letters <- to_char_list word ;;
    let subwords := split_on 32 (join (lit " ") letters) in
    s <- encode_loop (length subwords) subwords ;;
    Ok (split_on 32 (join (lit " ") s)).
End Encode.

Record bpe_data := { bd_merges : merge_list; bd_cache : bpe_cache }.

(** get_bpe_subwords (150-159), ignoring that unescape mutates a list found in the cache *)
Definition get_bpe_subwords (d : bpe_data) (word : str) : res (list str) :=
  let w := escape word true in
  r <- match dget (bd_cache d) w with
       | Some parts => Ok parts
       | None => encode_word (bd_merges d) w
       end ;;
  unescape r.

(** get_bpe_subwords with the mutation of line 43: when the list comes from the cache, the cached list itself
    loses the last character of its last part *)
Definition get_bpe_subwords_st (d : bpe_data) (word : str) : res (list str) * bpe_data :=
  let w := escape word true in
  match dget (bd_cache d) w with
  | Some parts =>
      match unescape parts with
      | Ok r => (Ok r, {| bd_merges := bd_merges d;
                          bd_cache := dset (bd_cache d) w (removelast parts ++ [removelast (last parts [])]) |})
      | Err e => (Err e, d)
      end
  | None => (bind (encode_word (bd_merges d) w) unescape, d)
  end.
