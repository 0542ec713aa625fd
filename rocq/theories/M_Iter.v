(** Iterators over subtokens: codeprep/subtokens.py 10-130.
    Simplified: boundaries are natural numbers (the code gets ints from the metadata). *)
From Verif Require Import M_Base.

Section Iter.
  Context {A B : Type}.

  (** TokenIterator.validate_word_boundaries 23-31; the error messages are dropped *)
  Definition validate_word_boundaries (subwords : list A) (bounds : list nat) : res unit :=
    match bounds with
    | [] => Err ValueError
    | first :: _ =>
        if negb (length subwords =? last bounds 0)%nat then Err ValueError
        else if negb (first =? 0)%nat then Err ValueError
        else Ok tt
    end.

  (** FullTokenIterator.__next__ 119-130: None is StopIteration; the state is current_full_word.  The value is
      paired with the index; without return_full_token_index the code drops the index. *)
  Definition full_next (fmt : list A -> B) (subwords : list A) (bounds : list nat) (cur : nat)
    : res (option (nat * B * nat)) :=
    if (length bounds - 1 <=? cur)%nat then Ok None
    else match nth_error bounds cur, nth_error bounds (cur + 1) with
         | Some a, Some b => Ok (Some (cur, fmt (firstn (b - a) (skipn a subwords)), cur + 1))
         | _, _ => Err IndexError
         end.

  (** SubtokenIterator.__next__ 66-78; the state is (current_index, current_full_word) *)
  Definition sub_next (fmt : list A -> B) (subwords : list A) (bounds : list nat) (st : nat * nat)
    : res (option (nat * B * (nat * nat))) :=
    let (i, f) := st in
    if (length subwords <=? i)%nat then Ok None
    else match nth_error subwords i with
         | None => Err IndexError
         | Some x =>
             match nth_error bounds (f + 1) with
             | None => Err IndexError
             | Some b => Ok (Some (f, fmt [x], (i + 1, if (b =? i + 1)%nat then f + 1 else f)))
             end
         end.
End Iter.

(** [list(iterator)] *)
Fixpoint drain {S T} (next : S -> res (option (T * S))) (fuel : nat) (s : S) : res (list T) :=
  match fuel with
  | O => Err OutOfFuel
  | S n =>
      r <- next s ;;
      match r with
      | None => Ok []
      | Some (x, s') => xs <- drain next n s' ;; Ok (x :: xs)
      end
  end.

(** [list(FullTokenIterator(...))] and [list(SubtokenIterator(...))] with return_full_token_index; one call of
    [next] more than there are values *)
Definition full_tokens {A B} (fmt : list A -> B) (subwords : list A) (bounds : list nat) : res (list (nat * B)) :=
  _ <- validate_word_boundaries subwords bounds ;;
  drain (full_next fmt subwords bounds) (S (length bounds)) 0.
Definition subtokens {A B} (fmt : list A -> B) (subwords : list A) (bounds : list nat) : res (list (nat * B)) :=
  _ <- validate_word_boundaries subwords bounds ;;
  drain (sub_next fmt subwords bounds) (S (length subwords)) (0, 0).
