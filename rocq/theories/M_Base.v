(** Primitives of Python used by the modelled code: results with exceptions, strings,
    insertion-ordered dictionaries, decimal numbers.  No proofs here. *)
From Coq Require Export Ascii String NArith ZArith Bool Lia List.
From Coq Require Decimal.
Export ListNotations.
#[global] Open Scope list_scope.

(** ** Exceptions as values *)
Inductive exn :=
| ValueError | KeyError | IndexError | AssertionError | TypeError | EOFError
| FileNotFoundError | AttributeError | ZeroDivisionError | UnicodeError | SystemExit | NameError | RuntimeError
| StopIteration | OutOfFuel.

Inductive res (A : Type) :=
| Ok (a : A)
| Err (e : exn).
Arguments Ok {A} a.
Arguments Err {A} e.

Definition bind {A B} (r : res A) (f : A -> res B) : res B :=
  match r with Ok a => f a | Err e => Err e end.
Notation "x <- e ;; f" := (bind e (fun x => f)) (at level 61, e at next level, right associativity).
Notation "' p <- e ;; f" := (bind e (fun p => f)) (at level 61, p pattern, e at next level, right associativity).

Definition of_option {A} (e : exn) (o : option A) : res A :=
  match o with Some a => Ok a | None => Err e end.

Fixpoint mapM {A B} (f : A -> res B) (l : list A) : res (list B) :=
  match l with
  | [] => Ok []
  | x :: t => y <- f x ;; ys <- mapM f t ;; Ok (y :: ys)
  end.

(** ** Decidable equality by boolean function *)
Class Eqb (A : Type) := { eqb : A -> A -> bool; eqb_spec : forall x y, reflect (x = y) (eqb x y) }.
#[global] Arguments eqb {A Eqb} x y : simpl never.

(** ** Strings: lists of unicode code points *)
Definition str := list N.

Fixpoint lit (s : string) : str :=
  match s with
  | EmptyString => []
  | String c t => N_of_ascii c :: lit t
  end.

Fixpoint list_eqb {A} (eq : A -> A -> bool) (x y : list A) : bool :=
  match x, y with
  | [], [] => true
  | a :: x', b :: y' => eq a b && list_eqb eq x' y'
  | _, _ => false
  end.

(** [s.startswith(p)] *)
Fixpoint starts_with (p s : str) : bool :=
  match p, s with
  | [], _ => true
  | a :: p', b :: s' => N.eqb a b && starts_with p' s'
  | _ :: _, [] => false
  end.

(** [s.endswith(p)] *)
Definition ends_with (p s : str) : bool := starts_with (rev p) (rev s).

(** [p in s] *)
Fixpoint contains (p s : str) : bool :=
  starts_with p s || match s with [] => false | _ :: t => contains p t end.

(** [s.split(c)] for a one-character separator; never the empty list *)
Fixpoint split_on (c : N) (s : str) : list str :=
  match s with
  | [] => [[]]
  | x :: t =>
      if N.eqb x c then [] :: split_on c t
      else match split_on c t with
           | [] => [[x]]
           | w :: ws => (x :: w) :: ws
           end
  end.

(** [sep.join(l)] *)
Fixpoint join (sep : str) (l : list str) : str :=
  match l with
  | [] => []
  | [x] => x
  | x :: t => x ++ sep ++ join sep t
  end.

(** [s.replace(old, new)] for non-empty [old]; [skip] counts characters of a match still to drop *)
Fixpoint replace_from (old new : str) (skip : nat) (s : str) : str :=
  match s with
  | [] => []
  | c :: t =>
      match skip with
      | S k => replace_from old new k t
      | O => if starts_with old s
             then new ++ replace_from old new (length old - 1) t
             else c :: replace_from old new 0 t
      end
  end.
Definition replace (old new s : str) : str := replace_from old new 0 s.

(** [s.rstrip(c)] for one character *)
Fixpoint rstrip (c : N) (s : str) : str :=
  match s with
  | [] => []
  | x :: t => match rstrip c t with
              | [] => if N.eqb x c then [] else [x]
              | r => x :: r
              end
  end.

Definition no_char (c : N) (s : str) : Prop := ~ In c s.

(** ** Python dictionaries, in insertion order *)
Definition dict (K V : Type) := list (K * V).

Section Dict.
  Context {K V : Type} `{Eqb K}.

  Fixpoint dget (d : dict K V) (k : K) : option V :=
    match d with
    | [] => None
    | (k', v) :: t => if eqb k k' then Some v else dget t k
    end.

  Definition dmem (d : dict K V) (k : K) : bool :=
    match dget d k with Some _ => true | None => false end.

  (** [d[k] = v]: overwrites in place or appends *)
  Fixpoint dset (d : dict K V) (k : K) (v : V) : dict K V :=
    match d with
    | [] => [(k, v)]
    | (k', v') :: t => if eqb k k' then (k', v) :: t else (k', v') :: dset t k v
    end.

  (** [del d[k]] / [d.pop(k)] *)
  Fixpoint ddel (d : dict K V) (k : K) : dict K V :=
    match d with
    | [] => []
    | (k', v') :: t => if eqb k k' then t else (k', v') :: ddel t k
    end.

  Definition dkeys (d : dict K V) : list K := map fst d.
  Definition dvals (d : dict K V) : list V := map snd d.

  Definition mem (k : K) (l : list K) : bool := existsb (eqb k) l.
End Dict.

(** ** Decimal numbers *)
Fixpoint uint_str (u : Decimal.uint) : str :=
  match u with
  | Decimal.Nil => []
  | Decimal.D0 u => 48%N :: uint_str u
  | Decimal.D1 u => 49%N :: uint_str u
  | Decimal.D2 u => 50%N :: uint_str u
  | Decimal.D3 u => 51%N :: uint_str u
  | Decimal.D4 u => 52%N :: uint_str u
  | Decimal.D5 u => 53%N :: uint_str u
  | Decimal.D6 u => 54%N :: uint_str u
  | Decimal.D7 u => 55%N :: uint_str u
  | Decimal.D8 u => 56%N :: uint_str u
  | Decimal.D9 u => 57%N :: uint_str u
  end.

(** [str(n)] for a non-negative integer *)
Definition dec (n : N) : str := uint_str (N.to_uint n).

(** [str(z)] *)
Definition decZ (z : Z) : str :=
  match z with
  | Zneg p => 45%N :: dec (Npos p)
  | _ => dec (Z.to_N z)
  end.

Definition is_digit (c : N) : bool := (N.leb 48 c && N.leb c 57)%bool.

Fixpoint parse_digits (acc : N) (s : str) : option N :=
  match s with
  | [] => Some acc
  | c :: t => if is_digit c then parse_digits (10 * acc + (c - 48)) t else None
  end.

(** [int(s)] restricted to plain decimals: an optional sign and ascii digits.  (Python also accepts
    surrounding whitespace, single underscores between digits and other unicode decimal digits; none of
    these is ever written by the modelled code.) *)
Definition parse_int (s : str) : res Z :=
  match s with
  | [] => Err ValueError
  | c :: t =>
      if N.eqb c 45 then
        match t with [] => Err ValueError | _ => match parse_digits 0 t with Some n => Ok (- Z.of_N n)%Z | None => Err ValueError end end
      else if N.eqb c 43 then
        match t with [] => Err ValueError | _ => match parse_digits 0 t with Some n => Ok (Z.of_N n) | None => Err ValueError end end
      else match parse_digits 0 s with Some n => Ok (Z.of_N n) | None => Err ValueError end
  end.
