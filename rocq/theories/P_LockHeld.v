(** C93 once more: what is lost when a process is killed. *)
From Coq Require Import List NArith ZArith Bool Lia Arith.
From Verif Require Import M_Base L_Base M_Merger M_Counter P_Counter.
Import ListNotations.

(** finding: whenever a process is killed in a call, whatever the programs and the schedule were and are, no call of any process ever ends again: the
    results stay those from before, those of the killed process included, and the calls that were to come are still to come. *)
Theorem C93_every_killed_refuted : forall v prog s i, creach v prog s -> at_pc (procs s i) <> Outside ->
  forall s', csteps (kill s i) s' ->
  hist s' = hist s /\ (forall j, results (procs s' j) = results (procs s j)) /\
  (forall j, at_pc (procs s' j) = Outside) /\ (forall j, j <> i -> todo (procs s' j) = todo (procs s j)).
Proof.
  intros v prog s i R C s' H.
  assert (G : lock s' = Some i /\ hist s' = hist s /\ (forall j, results (procs s' j) = results (procs s j)) /\
    (forall j, at_pc (procs s' j) = Outside) /\ (forall j, j <> i -> todo (procs s' j) = todo (procs s j))); [|tauto].
  remember (kill s i) as s0 eqn:E0. induction H as [s0|s0 s1 s2 _ IH S].
  - subst s0. destruct (inv_reach v prog s R) as (_ & (k & _ & K) & _).
    destruct (lock s) as [l|] eqn:L; [|destruct K as [_ K]; destruct (C (K i))]. destruct K as [_ K].
    assert (l = i) as -> by (destruct (Nat.eq_dec i l); [auto|destruct (C (K i n))]).
    unfold kill. cbn [lock hist procs]. split; [exact L|]. split; [reflexivity|]. split; [|split].
    + intros j. unfold set_proc. destruct (Nat.eqb_spec j i) as [->|N]; reflexivity.
    + intros j. unfold set_proc. destruct (Nat.eqb_spec j i) as [->|N]; [reflexivity|]. apply K, N.
    + intros j N. unfold set_proc. destruct (Nat.eqb_spec j i) as [->|_]; [congruence|reflexivity].
  - specialize (IH E0). destruct IH as (HL & Hh & Hr & Ho & Ht).
    destruct S as [s1 j o rest _ _ HL'|s1 j Hc|s1 j Hc|s1 j d Hc Hv|s1 j Hc|s1 j x Hc|s1 j x n d Hc Hv|s1 j Hc|s1 j n d Hc Hv|s1 j Hc|s1 j o r Hc|s1 Hf];
      try (rewrite HL in HL'; discriminate); try (rewrite Ho in Hc; discriminate).
    cbn [with_sizes lock hist procs]. auto.
Qed.
Print Assumptions C93_every_killed_refuted.

(** The first of three merging processes is done; the second is killed while it has the lock. *)
Example C93_every_killed_example : exists s, creach 3 (merging 3) s /\ at_pc (procs s 1) <> Outside /\
  results (procs s 0) = [(OCmp 1, RBool false)] /\ todo (procs s 2) = [OCmp 1].
Proof.
  eexists. split.
  - eapply creach_step; [eapply creach_step; [eapply creach_step; [eapply creach_step; [eapply creach_step; [eapply creach_step; [apply creach_init|]|]|]|]|]|].
    + apply (c_acquire _ 0 (OCmp 1) []); reflexivity.
    + apply (c_cmp_size _ 0 1). reflexivity.
    + apply c_feed. cbn. lia.
    + apply (c_cmp _ 0 1 3 0); reflexivity.
    + apply (c_release _ 0 (OCmp 1) (RBool false)). reflexivity.
    + apply (c_acquire _ 1 (OCmp 1) []); reflexivity.
  - vm_compute. repeat split; discriminate.
Qed.
