(** C62 once more: exactly which parts of the vocabulary of special tokens are kept. *)
From Coq Require Import List NArith Bool Permutation Lia.
From Verif Require Import M_Base L_Base M_Literal L_Literal M_Registry M_Dataset P_Dataset M_Pipeline P_Pipeline M_Parts P_Parts.
Import ListNotations.
Local Open Scope list_scope.

(** nothing with the same base name was saved later at the same instant *)
Definition kept (savings : list saving) (s : saving) : Prop :=
  exists before later, savings = before ++ s :: later /\
    forall s', In s' later -> basename (sv_dest s') <> basename (sv_dest s) \/ sv_time s' <> sv_time s.

Lemma saved_later l : forall d n, (forall s, In s l -> part_name s <> n) -> dget (fold_left save_metadata l d) n = dget d n.
Proof.
  induction l as [|x l IH]; intros d n H; [reflexivity|]. cbn [fold_left]. rewrite IH by (intros s Hs; apply H; right; exact Hs).
  unfold save_metadata. apply dget_dset_neq. intros E. exact (H x (or_introl eq_refl) (eq_sym E)) || exact (H x (or_introl eq_refl) E).
Qed.
Lemma kept_get savings s : Forall good_saving savings -> kept savings s -> dget (saved savings) (part_name s) = Some (part_file (sv_tokens s)).
Proof.
  intros G (l1 & l2 & -> & H). unfold saved. rewrite fold_left_app. cbn [fold_left]. rewrite saved_later.
  - unfold save_metadata. apply dget_dset_eq.
  - intros s' Hs E. rewrite Forall_forall in G.
    destruct (part_name_inj s' s) as [E1 E2]; [apply G, in_or_app; right; right; exact Hs|apply G, in_or_app; right; left; reflexivity|exact E|].
    destruct (H s' Hs); contradiction.
Qed.
Lemma get_kept savings n f : dget (saved savings) n = Some f -> exists s, kept savings s /\ n = part_name s /\ f = part_file (sv_tokens s).
Proof.
  unfold saved. induction savings as [|x l IH] using rev_ind; [discriminate|]. rewrite fold_left_app. cbn [fold_left]. unfold save_metadata at 1.
  rewrite dget_dset. destruct (eqb_spec n (part_name x)) as [->|Hn].
  - intros [= <-]. exists x. split; [|auto]. exists l, []. split; [reflexivity|]. intros s' [].
  - intros H. destruct (IH H) as (s & (l1 & l2 & -> & Hk) & -> & ->). exists s. split; [|auto]. exists l1, (l2 ++ [x]).
    split; [rewrite <- app_assoc; reflexivity|]. intros s' Hs. apply in_app_or in Hs. destruct Hs as [Hs|[<-|[]]]; [apply Hk, Hs|].
    destruct (list_eq_dec N.eq_dec (basename (sv_dest x)) (basename (sv_dest s))) as [E1|]; [|left; assumption].
    destruct (list_eq_dec N.eq_dec (sv_time x) (sv_time s)) as [E2|]; [|right; assumption].
    exfalso. apply Hn. unfold part_name. rewrite E1, E2. reflexivity.
Qed.

(** Whatever was saved, in which order: gathering is no error, and its tokens are the placeholders and those of the files for which nothing with
    the same base name was saved later at the same instant; the tokens of all other files are lost, unless a file that is kept has them too. *)
Theorem C62_kept : forall placeholders savings names,
  Forall good_saving savings -> Permutation names (dkeys (saved savings)) ->
  exists tokens, gather placeholders names (saved savings) = Ok tokens /\
    forall t, In t tokens <-> In t placeholders \/ exists s, kept savings s /\ In t (sv_tokens s).
Proof.
  intros placeholders savings names G P.
  set (g := fun n => match dget (saved savings) n with Some f => load_vocab_set f | None => Err FileNotFoundError end).
  assert (Load : forall s, kept savings s -> load_vocab_set (part_file (sv_tokens s)) = Ok (sv_tokens s)).
  { intros s (l1 & l2 & -> & _). apply load_part. rewrite Forall_forall in G. destruct (G s) as (_ & _ & Hv); [apply in_or_app; right; left; reflexivity|exact Hv]. }
  assert (Key : forall n, In n names -> exists s, kept savings s /\ g n = Ok (sv_tokens s)).
  { intros n Hn. apply (Permutation_in _ P) in Hn. unfold g. destruct (dget (saved savings) n) as [f|] eqn:D.
    - apply get_kept in D. destruct D as (s & Hs & _ & ->). exists s. split; [exact Hs|apply Load, Hs].
    - exfalso. revert Hn. apply dget_none. exact D. }
  destruct (mapM_total g names) as [ls Els]. { intros n Hn. destruct (Key n Hn) as (s & _ & E). eauto. }
  exists (List.concat ls ++ placeholders). unfold gather. fold g. rewrite Els. cbn [bind]. split; [reflexivity|].
  intros t. rewrite in_app_iff, in_concat. split; [intros [(x & Hx & Ht)|Ht]; [right|left; exact Ht]|intros [Ht|(s & Hs & Ht)]; [right; exact Ht|left]].
  - destruct (mapM_in _ _ _ _ Els Hx) as (n & Hn & E). destruct (Key n Hn) as (s & Hs & E').
    exists s. split; [exact Hs|]. rewrite E' in E. injection E as ->. exact Ht.
  - exists (sv_tokens s). split; [|exact Ht]. pose proof (kept_get savings s G Hs) as D. apply (mapM_in_ok _ _ _ (part_name s) _ Els).
    + apply (Permutation_in _ (Permutation_sym P)). apply dget_in in D. apply (in_map fst) in D. exact D.
    + unfold g. rewrite D. apply Load, Hs.
Qed.
Print Assumptions C62_kept.

(** Every token of a file that is saved before another one with the same base name at the same instant is lost, if no other file has it. *)
Theorem C62_every_same_instant_refuted : forall placeholders before s between s' after names t,
  let savings := before ++ s :: between ++ s' :: after in
  Forall good_saving savings -> Permutation names (dkeys (saved savings)) ->
  basename (sv_dest s) = basename (sv_dest s') -> sv_time s = sv_time s' ->
  In t (sv_tokens s) -> ~ In t placeholders -> (forall x, In x (before ++ between ++ s' :: after) -> ~ In t (sv_tokens x)) ->
  exists tokens, gather placeholders names (saved savings) = Ok tokens /\ ~ In t tokens.
Proof.
  intros placeholders before s between s' after names t savings G P Hb Ht Hin Hp Hother.
  destruct (C62_kept placeholders savings names G P) as (tokens & Hg & Hiff). exists tokens. split; [exact Hg|]. intros H. apply Hiff in H.
  destruct H as [H|(x & Hk & Hx)]; [contradiction|].
  assert (Ix : In x savings). { destruct Hk as (l1 & l2 & -> & _). apply in_or_app. right. left. reflexivity. }
  assert (Ex : x = s). { unfold savings in Ix. apply in_app_or in Ix. destruct Ix as [Ix|[Ix|Ix]]; [|congruence|]; exfalso; apply (Hother x); auto using in_or_app. }
  subst x. pose proof (kept_get savings s G Hk) as D.
  assert (T : exists u, kept (s' :: after) u /\ part_name u = part_name s /\ In u (s' :: after)).
  { clear -Hb Ht G. assert (E : part_name s' = part_name s) by (unfold part_name; rewrite Hb, Ht; reflexivity).
    assert (Q : dget (saved (s' :: after)) (part_name s) <> None).
    { unfold saved. assert (K : forall l d, dget d (part_name s) <> None -> dget (fold_left save_metadata l d) (part_name s) <> None).
      { induction l as [|y l IH]; intros d H; [exact H|]. cbn [fold_left]. apply IH. unfold save_metadata. rewrite dget_dset.
        destruct (eqb_spec (part_name s) (part_name y)); [discriminate|exact H]. }
      cbn [fold_left]. apply K. unfold save_metadata. rewrite E, dget_dset_eq. discriminate. }
    destruct (dget (saved (s' :: after)) (part_name s)) as [f|] eqn:Dq; [|congruence]. apply get_kept in Dq. destruct Dq as (u & Hu & En & _).
    exists u. split; [exact Hu|]. split; [symmetry; exact En|]. destruct Hu as (l1 & l2 & -> & _). apply in_or_app. right. left. reflexivity. }
  destruct T as (u & (k1 & k2 & Eu & Hu) & En & Iu).
  assert (Ku : kept savings u).
  { exists (before ++ s :: between ++ k1), k2. split; [|exact Hu]. unfold savings. rewrite Eu. rewrite <- !app_assoc. cbn [app]. rewrite <- !app_assoc. reflexivity. }
  pose proof (kept_get savings u G Ku) as D'. rewrite En in D'. rewrite D in D'. injection D' as E.
  assert (L1 : load_vocab_set (part_file (sv_tokens s)) = Ok (sv_tokens s)).
  { apply load_part. rewrite Forall_forall in G. apply (G s). unfold savings. apply in_or_app. right. left. reflexivity. }
  assert (L2 : load_vocab_set (part_file (sv_tokens u)) = Ok (sv_tokens u)).
  { apply load_part. rewrite Forall_forall in G. apply (G u). unfold savings. apply in_or_app. right. right. apply in_or_app. right. exact Iu. }
  rewrite E, L2 in L1. injection L1 as E'. apply (Hother u); [apply in_or_app; right; apply in_or_app; right; exact Iu|]. rewrite E'. exact Hin.
Qed.
Print Assumptions C62_every_same_instant_refuted.

Definition same_instant_ex : list saving :=
  [{| sv_dest := lit "/p/a/__init__.py.prep"; sv_time := lit "1583794859.25"; sv_tokens := [lit "def"; lit ":"] |};
   {| sv_dest := lit "/p/c/x.py.prep"; sv_time := lit "1583794859.25"; sv_tokens := [lit ":"] |};
   {| sv_dest := lit "/p/b/__init__.py.prep"; sv_time := lit "1583794859.25"; sv_tokens := [lit "class"] |}].
Example C62_kept_example :
  Forall good_saving same_instant_ex /\
  gather [lit "<EOF>"] (dkeys (saved same_instant_ex)) (saved same_instant_ex) = Ok [lit "class"; lit ":"; lit "<EOF>"].
Proof. split; [repeat apply Forall_cons; [good|good|good|apply Forall_nil]|vm_compute; reflexivity]. Qed.
