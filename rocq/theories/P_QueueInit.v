(** C33: what the first pop of a new PriorityCounter gives, whatever the counts it was made with. *)
From Coq Require Import List Arith ZArith Lia Permutation.
From Verif Require Import M_Base L_Base M_Merge M_Learn P_Queue.
Import ListNotations.

Section Init.
  Context {K : Type} `{Eqb K}.

  Lemma entries_nth (d : dict K Z) : forall i e, In e (pc_entries i d) <->
    exists j k v, nth_error d j = Some (k, v) /\ e = {| e_prio := (- v)%Z; e_count := i + j; e_key := Some k |}.
  Proof.
    induction d as [|[k v] d IH]; intros i e; cbn [pc_entries In].
    - split; [intros []|]. intros (j & k & v & E & _). destruct j; discriminate.
    - rewrite IH. split.
      + intros [<-|(j & k' & v' & E & ->)].
        * exists 0, k, v. rewrite Nat.add_0_r. split; reflexivity.
        * exists (S j), k', v'. split; [exact E|]. f_equal. lia.
      + intros ([|j] & k' & v' & E & ->).
        * injection E as <- <-. left. rewrite Nat.add_0_r. reflexivity.
        * right. exists j, k', v'. split; [exact E|]. f_equal. lia.
  Qed.

  Lemma finder_has (l : list (pc_entry K)) e k : In e l -> e_key e = Some k -> dmem (pc_finder_of l) k = true.
  Proof.
    unfold pc_finder_of, dmem. generalize (@nil (K * (Z * nat))). induction l as [|x l IH]; [intros ? []|]. intros d Hin Hk. cbn [fold_left].
    assert (Keep : forall (l : list (pc_entry K)) (d : dict K (Z * nat)), dget d k <> None ->
      dget (fold_left (fun d e => match e_key e with Some k => dset d k (e_prio e, e_count e) | None => d end) l d) k <> None).
    { clear. induction l as [|y l IH]; intros d Hd; [exact Hd|]. cbn [fold_left]. apply IH. destruct (e_key y) as [k'|]; [|exact Hd].
      rewrite dget_dset. destruct (eqb k k'); [discriminate|exact Hd]. }
    destruct Hin as [->|Hin]; [|exact (IH _ Hin Hk)]. rewrite Hk.
    pose proof (Keep l (dset d k (e_prio e, e_count e))) as G. rewrite dget_dset_eq in G.
    destruct (dget (fold_left _ l _) k); [reflexivity|]. destruct G; [discriminate|reflexivity].
  Qed.

  (** The first of the entries with the greatest count, also if this count is zero or negative; KeyError only if there is none. *)
  Theorem C33_first_pop : forall d : dict K Z,
    match pc_pop (pc_init d) with
    | Ok (k, n, _) => exists i, nth_error d i = Some (k, n) /\
        forall j k' n', nth_error d j = Some (k', n') -> (n' < n)%Z \/ (n' = n /\ i <= j)
    | Err e => e = KeyError /\ d = []
    end.
  Proof.
    intros d. unfold pc_pop, pc_init. cbn [pc_pq pc_counter pc_finder pc_pop_loop].
    pose proof (heap_pop_spec (pc_entries 0 d)) as S. destruct (heap_pop (pc_entries 0 d)) as [[e rest]|].
    - destruct S as [P F]. assert (I : In e (pc_entries 0 d)) by (rewrite P; left; reflexivity).
      pose proof I as J. apply entries_nth in I. destruct I as (i & k & v & E & ->). cbn [e_key e_prio].
      rewrite (finder_has _ _ k J eq_refl),  Z.opp_involutive.
      exists i. split; [exact E|]. intros j k' n' Ej. rewrite Forall_forall in F.
      specialize (F {| e_prio := (- n')%Z; e_count := 0 + j; e_key := Some k' |}).
      rewrite entry_le_iff in F. cbn [e_prio e_count] in F.
      destruct F as [L|[L1 L2]]; [apply entries_nth; eauto|left; lia|right; lia].
    - split; [reflexivity|]. destruct d as [|[k v] d]; [reflexivity|discriminate S].
  Qed.

  (** Finding: if no count is positive and one is zero, a key with count zero is popped, although it counts nothing. *)
  Theorem C33_zeros_refuted : forall d : dict K Z,
    Forall (fun kv => (snd kv <= 0)%Z) d -> In 0%Z (map snd d) -> exists k st, pc_pop (pc_init d) = Ok (k, 0%Z, st).
  Proof.
    intros d F I. pose proof (C33_first_pop d) as P. apply in_map_iff in I. destruct I as ([k0 z] & E & I). cbn in E. subst z.
    apply In_nth_error in I. destruct I as [j Ej]. destruct (pc_pop (pc_init d)) as [[[k n] st]|e].
    - destruct P as (i & Ei & P). apply P in Ej. rewrite Forall_forall in F. apply nth_error_In, F in Ei. cbn in Ei.
      exists k, st. do 3 f_equal. lia.
    - destruct P as [_ ->]. destruct j; discriminate.
  Qed.
End Init.
Print Assumptions C33_first_pop.
Print Assumptions C33_zeros_refuted.

Example C33_first_pop_example :
  exists st st', pc_pop (pc_init [(1, 3%Z); (2, 5%Z); (3, 5%Z)]) = Ok (2, 5%Z, st) /\ pc_pop (pc_init [(1, (-2)%Z); (2, 0%Z)]) = Ok (2, 0%Z, st').
Proof. do 2 eexists. split; vm_compute; reflexivity. Qed.
