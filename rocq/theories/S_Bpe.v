(** Textbook byte-pair encoding, used as specification.  Independent of the modelled code. *)
From Coq Require Import List NArith.
From Verif Require Import M_Base.
Import ListNotations.

(** a symbol is a string *)
Notation sym := str (only parsing).

Section Spec.
  (** [a] and [b] are neighbours in [s] *)
  Definition adjacent (p : sym * sym) (s : list sym) : Prop :=
    exists u v, s = u ++ fst p :: snd p :: v.

  Definition sym_eqb (a b : sym) : bool := if list_eq_dec N.eq_dec a b then true else false.

  (** merge all non-overlapping occurrences of the pair [p], from left to right *)
  Fixpoint merge_pair (p : sym * sym) (s : list sym) : list sym :=
    match s with
    | a :: ((b :: t) as r) =>
        if (sym_eqb a (fst p) && sym_eqb b (snd p))%bool
        then (a ++ b) :: merge_pair p t
        else a :: merge_pair p r
    | _ => s
    end.

  (** one step with the merges in priority order: the first merge that occurs is applied everywhere *)
  Definition bpe_step (merges : list (sym * sym)) (s s' : list sym) : Prop :=
    exists i p,
      nth_error merges i = Some p /\ adjacent p s /\
      (forall j q, j < i -> nth_error merges j = Some q -> ~ adjacent q s) /\
      s' = merge_pair p s.

  Inductive bpe_steps (merges : list (sym * sym)) : list sym -> list sym -> Prop :=
  | steps_refl s : bpe_steps merges s s
  | steps_step s s' s'' : bpe_step merges s s' -> bpe_steps merges s' s'' -> bpe_steps merges s s''.

  (** nothing can be merged *)
  Definition bpe_normal (merges : list (sym * sym)) (s : list sym) : Prop :=
    forall p, In p merges -> ~ adjacent p s.

  Definition bpe_result (merges : list (sym * sym)) (s r : list sym) : Prop :=
    bpe_steps merges s r /\ bpe_normal merges r.
End Spec.
