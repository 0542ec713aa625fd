(** codeprep/bpepkg/merge.py 36-38, 108-109 and 148-156: equality of merges, length, items, slices and equality of merge lists.
    Slices have no step; a bound that is left out is [None]. *)
From Verif Require Import M_Base L_Base M_Merge.

(** Merge.__eq__ (36-38) *)
Definition freq_eqb (a b : option Z) : bool :=
  match a, b with Some x, Some y => Z.eqb x y | None, None => true | _, _ => false end.
Definition merge_eqb (a b : merge) : bool :=
  eqb (m_pair a) (m_pair b) && Nat.eqb (m_priority a) (m_priority b) && freq_eqb (m_freq a) (m_freq b).

(** __len__ (108-109) *)
Definition ml_len (ml : merge_list) : nat := length ml.

(** [lst[item]] of Python for a number (150) *)
Definition py_item {A} (l : list A) (i : Z) : res A :=
  let n := Z.of_nat (length l) in
  let j := if (i <? 0)%Z then (i + n)%Z else i in
  if (j <? 0)%Z then Err IndexError else of_option IndexError (nth_error l (Z.to_nat j)).

(** [lst[a:b]] *)
Definition py_bound (n : nat) (i : Z) : nat :=
  let j := if (i <? 0)%Z then (i + Z.of_nat n)%Z else i in
  if (j <? 0)%Z then 0 else Nat.min (Z.to_nat j) n.
Definition py_slice {A} (l : list A) (a b : option Z) : list A :=
  let lo := match a with Some i => py_bound (length l) i | None => 0 end in
  let hi := match b with Some i => py_bound (length l) i | None => length l end in
  firstn (hi - lo) (skipn lo l).

(** __getitem__ (148-150) *)
Definition ml_item (ml : merge_list) (i : Z) : res merge := py_item (ml_iter ml) i.
Definition ml_slice (ml : merge_list) (a b : option Z) : list merge := py_slice (ml_iter ml) a b.

(** __eq__ (155-156); lists are equal if they are as long and their items are equal *)
Fixpoint list_eqb {A} (f : A -> A -> bool) (a b : list A) : bool :=
  match a, b with
  | [], [] => true
  | x :: a', y :: b' => f x y && list_eqb f a' b'
  | _, _ => false
  end.
Definition ml_eq (a b : merge_list) : bool := list_eqb merge_eqb (ml_slice a None None) (ml_slice b None None).
