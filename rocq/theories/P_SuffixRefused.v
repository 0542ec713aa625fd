(** C37 once more: which suffixes of names of bpe directories are read as configurations, and as which. *)
From Coq Require Import List NArith Bool Lia Setoid.
From Verif Require Import M_Base L_Base M_Literal M_PrepConfig M_Registry P_Registry.
Import ListNotations.
Local Open Scope list_scope.

(** A string somewhere in another one. *)
Definition inside (x s : str) : Prop := exists u v, s = u ++ x ++ v.

(** For all strings: exactly those with nocase or prefix anywhere in them are refused, although BpeConfig has constants for both; all others
    are configurations, with word ends iff there is a we in them, and without unicode iff there is a nounicode, whatever else they have. *)
Theorem C37_refused : forall s,
  (from_suffix s = Err ValueError <-> inside (lit "nocase") s \/ inside (lit "prefix") s) /\
  (forall c, from_suffix s = Ok c <->
     ~ inside (lit "nocase") s /\ ~ inside (lit "prefix") s /\
     bc_case c = lit "yes" /\ bc_base c = lit "code" /\ (bc_word_end c = true <-> inside (lit "we") s) /\
     (inside (lit "nounicode") s /\ bc_unicode c = lit "no" \/
      ~ inside (lit "nounicode") s /\ inside (lit "bytes") s /\ bc_unicode c = lit "bytes" \/
      ~ inside (lit "nounicode") s /\ ~ inside (lit "bytes") s /\ bc_unicode c = lit "yes")).
Proof.
  intros s. unfold inside. setoid_rewrite <- contains_spec. unfold from_suffix, make_bpe_config.
  destruct (contains (lit "nocase") s), (contains (lit "prefix") s), (contains (lit "we") s), (contains (lit "nounicode") s), (contains (lit "bytes") s);
    unfold bc_valid; cbn [bc_case bc_base bc_unicode bc_word_end];
    match goal with |- context [if ?b then _ else _] => let v := eval vm_compute in b in change b with v end; cbv iota;
    (split; [split; [first [discriminate|intros _; auto]|first [reflexivity|intros [H|H]; discriminate H]]|]);
    intros [ca we ba un]; cbn [bc_case bc_base bc_unicode bc_word_end];
    (split; [first [discriminate|intros H; injection H as <- <- <- <-; intuition (auto; discriminate)]|]);
    intros (A & B & C & D & E & F); try (destruct (A eq_refl)); try (destruct (B eq_refl));
    (assert (we = true \/ we = false) as [->| ->] by (destruct we; auto)); destruct E as [E1 E2];
    try (specialize (E1 eq_refl); discriminate E1); try (specialize (E2 eq_refl); discriminate E2);
    destruct F as [[F1 F2]|[(F1 & F2 & F3)|(F1 & F2 & F3)]]; try discriminate; try (destruct (F1 eq_refl)); try (destruct (F2 eq_refl)); congruence.
Qed.
Print Assumptions C37_refused.

Example C37_refused_example :
  from_suffix (lit "_-_nocase_we") = Err ValueError /\
  from_suffix (lit "_-_answer_-_bytes") = Ok {| bc_case := lit "yes"; bc_word_end := true; bc_base := lit "code"; bc_unicode := lit "bytes" |}.
Proof. split; vm_compute; reflexivity. Qed.
