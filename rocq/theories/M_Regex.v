(** A backtracking matcher for the regular expressions used by codeprep (python package regex).  The external
    engine is modelled, not its code: [ms r s] lists what remains of [s] after every match of [r] at the start of
    [s], in the order in which a backtracking engine tries them. *)
From Verif Require Import M_Base.

Inductive re :=
| Eps
| Chr (p : N -> bool)
| Seq (a b : re)
| Alt (a b : re)
| Star (a : re)                 (* greedy *)
| NotNext (p : N -> bool).      (* negative lookahead for one character *)

Definition Plus (a : re) : re := Seq a (Star a).
Definition Opt (a : re) : re := Alt a Eps.
Fixpoint Str (s : str) : re := match s with [] => Eps | c :: t => Seq (Chr (N.eqb c)) (Str t) end.

(** one more iteration must consume something, as in the engine *)
Fixpoint star_iter (f : str -> list str) (fuel : nat) (s : str) : list str :=
  match fuel with
  | O => [s]
  | S n => List.concat (map (fun t => if (length t <? length s)%nat then star_iter f n t else []) (f s)) ++ [s]
  end.

Fixpoint ms (r : re) (s : str) : list str :=
  match r with
  | Eps => [s]
  | Chr p => match s with c :: t => if p c then [t] else [] | [] => [] end
  | Seq a b => List.concat (map (ms b) (ms a s))
  | Alt a b => ms a s ++ ms b s
  | Star a => star_iter (ms a) (length s) s
  | NotNext p => match s with c :: _ => if p c then [] else [s] | [] => [s] end
  end.

(** regex.fullmatch(r, s) is not None *)
Definition fullmatch (r : re) (s : str) : bool := existsb (fun t => match t with [] => true | _ => false end) (ms r s).

(** [m[0] for m in regex.finditer(r, s)]: matches from left to right; a character at which nothing matches is
    skipped.  An empty match would also be skipped; the expressions of codeprep have none. *)
Fixpoint finditer_fuel (fuel : nat) (r : re) (s : str) : list str :=
  match fuel with
  | O => []
  | S n =>
      match s with
      | [] => []
      | _ :: rest =>
          match ms r s with
          | t :: _ => if (length t <? length s)%nat
                      then firstn (length s - length t) s :: finditer_fuel n r t
                      else finditer_fuel n r rest
          | [] => finditer_fuel n r rest
          end
      end
  end.
Definition finditer (r : re) (s : str) : list str := finditer_fuel (length s) r s.
