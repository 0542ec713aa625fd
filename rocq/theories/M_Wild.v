(** * BPE over whole texts (codeprep/bpepkg/wild_bpe.py)

    This module works on one long sequence of characters, not on words.  It keeps, for every pair of
    adjacent tokens, the sorted list of the positions where the pair starts.

    Simplification: a pair is written here as two strings; the code joins them with a space and splits
    them again.  Tokens contain no space (escape_char, lines 60-61, replaces spaces). *)
From Coq Require Import List ZArith Bool Lia.
From Verif Require Import M_Base.
Import ListNotations.
Local Open Scope Z_scope.

(** ** Lists of positions *)

(** merge_lists (wild_bpe.py 125-139) *)
Fixpoint merge_lists (main : list Z) (s : Z) {struct main} : list Z -> list Z * list Z :=
  fix go (l2 : list Z) : list Z * list Z :=
    match main with
    | [] => (l2, [])
    | m :: ms =>
        match l2 with
        | [] => ([], [])
        | x :: xs =>
            if m + s =? x then let (a, r) := merge_lists ms s xs in (a, Z.min m x :: r)
            else if m + s >? x then let (a, r) := go xs in (x :: a, r)
            else merge_lists ms s l2
        end
    end.

(** self_merge (wild_bpe.py 142-151); nothing calls it *)
Fixpoint self_merge_loop (main : list Z) (s : Z) : list Z :=
  match main with
  | m :: ms =>
      match ms with
      | [] => []
      | m' :: ms' => if m + s =? m' then m :: self_merge_loop ms' s else self_merge_loop ms s
      end
  | [] => []
  end.
Definition self_merge (main : list Z) (s : Z) : list Z * list Z := ([], self_merge_loop main s).

(** merge_lists_both (wild_bpe.py 154-188) *)
Fixpoint merge_both_loop (main : list Z) (s0 s1 : Z) {struct main} : list Z -> list Z * list Z :=
  fix go (l2 : list Z) : list Z * list Z :=
    match main with
    | [] => (l2, [])
    | m :: ms =>
        match ms with
        | [] => (l2, [])
        | m' :: _ =>
            match l2 with
            | [] => ([], [])
            | x :: xs =>
                if m + s0 =? x then
                  let (a, r) := merge_both_loop ms s0 s1 xs in
                  if m' + s1 =? x then (a, m :: r) else (x :: a, r)
                else if m + s0 >? x then let (a, r) := go xs in (x :: a, r)
                else merge_both_loop ms s0 s1 l2
            end
        end
    end.
Fixpoint zlist_eqb (a b : list Z) : bool :=
  match a, b with
  | [], [] => true
  | x :: a', y :: b' => (x =? y) && zlist_eqb a' b'
  | _, _ => false
  end.
Definition merge_lists_both (main l2 : list Z) (s : Z * Z) : res (list Z * list Z) :=
  if negb ((fst s >? 0) && (snd s <? 0)) then Err AssertionError
  else if zlist_eqb main l2 then Err AssertionError
  else Ok (merge_both_loop main (fst s) (snd s) l2).

(** choose_positions_to_merge (wild_bpe.py 245-263) *)
Fixpoint choose_positions_to_merge (main : list Z) (s : Z) : list Z * list Z :=
  match main with
  | [] => ([], [])
  | m :: ms =>
      match ms with
      | [] => ([m], [])
      | m' :: ms' =>
          if m + s =? m' then let (a, d) := choose_positions_to_merge ms' s in (m :: a, m' :: d)
          else let (a, d) := choose_positions_to_merge ms s in (m :: a, d)
      end
  end.
