(** The file vocabsize: PartialVocab.write_stats and __generate_stats (codeprep/pipeline/vocab.py 79-85, 101-106) *)
From Verif Require Import M_Base L_Base M_Literal M_Tokens M_Learn M_Vocab.

Definition stats := list (nat * (Z * Z)).

(** [d[entry[0]].append(tuple(entry[1:]))] (102-104): the entries of one number of files, in their order *)
Definition entries_for (k : nat) (l : stats) : list (Z * Z) := map snd (filter (fun e => Nat.eqb (fst e) k) l).

(** The keys of [d], sorted as by line 106.  The code sorts the quotients float(k) / n_files; these are in the order of
    the numbers k, and two are the same only beyond 2^53 files, which is left out. *)
Fixpoint insert_key (k : nat) (l : list nat) : list nat :=
  match l with
  | [] => [k]
  | x :: t => if Nat.ltb k x then k :: l else if Nat.eqb k x then l else x :: insert_key k t
  end.
Definition sorted_keys (l : stats) : list nat := fold_right insert_key [] (map fst l).

(** [sum(elm) / len(elm)] (105) and the int() around it in write_stats (82, 85); as in M_Vocab, the quotient of floats
    is taken as exact *)
Definition average (l : list Z) : Z := (fold_right Z.add 0 l / Z.of_nat (length l))%Z.

(** __generate_stats (101-106): the numbers of files with the two averages *)
Definition generate_stats (p : pvocab) : stats :=
  map (fun k => let v := entries_for k (pv_stats p) in (k, (average (map fst v), average (map snd v))))
    (sorted_keys (pv_stats p)).

(** [f"{percent:.4f}"] (85) of k / n: rounded to four places.  If k / n is exactly between two of them, the result depends
    on the float next to k / n; [up] says which one it is. *)
Definition four_digits (n : N) : str :=
  [48 + n / 1000 mod 10; 48 + n / 100 mod 10; 48 + n / 10 mod 10; 48 + n mod 10]%N.
Definition percent_text (up : nat -> nat -> bool) (k n : nat) : str :=
  let a := (10000 * N.of_nat k)%N in
  let b := N.of_nat n in
  let q := (a / b)%N in
  let r := (2 * (a mod b))%N in
  let m := if N.ltb b r then (q + 1)%N else if N.eqb b r then (if up k n then q + 1 else q)%N else q in
  dec (m / 10000) ++ lit "." ++ four_digits m.

(** write_stats (79-85): the lines of the file *)
Definition stats_line (up : nat -> nat -> bool) (n : nat) (e : nat * (Z * Z)) : str :=
  percent_text up (fst e) n ++ lit " " ++ decZ (fst (snd e)) ++ lit " " ++ decZ (snd (snd e)).
Definition write_stats (up : nat -> nat -> bool) (p : pvocab) : res str :=
  match rev (generate_stats p) with
  | [] => Err IndexError
  | (_, (v, _)) :: _ => Ok (write_lines (decZ v :: map (stats_line up (pv_files p)) (generate_stats p)))
  end.
