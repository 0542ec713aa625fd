(** Lemmas on textbook BPE: [S_Bpe]. *)
From Verif Require Import M_Base L_Base S_Bpe.
From Coq Require Import Arith.

Lemma sym_eqb_eq a b : sym_eqb a b = true <-> a = b.
Proof. unfold sym_eqb. destruct (list_eq_dec N.eq_dec a b); split; congruence. Qed.
Lemma sym_eqb_refl a : sym_eqb a a = true.
Proof. apply sym_eqb_eq. reflexivity. Qed.

Definition is_pair (p : sym * sym) (a b : sym) : bool := sym_eqb a (fst p) && sym_eqb b (snd p).

Lemma is_pair_eq p a b : is_pair p a b = true <-> p = (a, b).
Proof.
  unfold is_pair. rewrite andb_true_iff, !sym_eqb_eq. destruct p as [x y]; simpl. split.
  - intros [-> ->]. reflexivity.
  - intros E. injection E as -> ->. auto.
Qed.
Lemma is_pair_neq p a b : is_pair p a b = false <-> p <> (a, b).
Proof. rewrite <- is_pair_eq. destruct (is_pair p a b); split; congruence. Qed.

Lemma merge_pair_cons2 p a b t :
  merge_pair p (a :: b :: t) =
  if is_pair p a b then (a ++ b) :: merge_pair p t else a :: merge_pair p (b :: t).
Proof. reflexivity. Qed.
Lemma merge_pair_one p a : merge_pair p [a] = [a].
Proof. reflexivity. Qed.

(** two-step induction on lists *)
Lemma list_ind2 {A} (P : list A -> Prop) :
  P [] -> (forall a, P [a]) -> (forall a b t, P t -> P (b :: t) -> P (a :: b :: t)) -> forall l, P l.
Proof.
  intros H0 H1 H2. assert (H : forall l, P l /\ forall a, P (a :: l)).
  { induction l as [|x l [IH1 IH2]]; split; auto. }
  intros l. apply H.
Qed.

(** the list of adjacent pairs *)
Fixpoint pairs (s : list sym) : list (sym * sym) :=
  match s with
  | a :: ((b :: _) as t) => (a, b) :: pairs t
  | _ => []
  end.

Lemma in_pairs p s : In p (pairs s) <-> adjacent p s.
Proof.
  unfold adjacent. induction s as [|a|a b t _ IH] using list_ind2.
  - simpl. split; [intros []|]. intros (u & v & E). destruct u; discriminate.
  - simpl. split; [intros []|]. intros (u & v & E). destruct u as [|? [|]]; discriminate.
  - change (pairs (a :: b :: t)) with ((a, b) :: pairs (b :: t)). simpl In. rewrite IH. split.
    + intros [<-|(u & v & E)]; [exists [], t; reflexivity|].
      exists (a :: u), v. simpl. rewrite E. reflexivity.
    + intros (u & v & E). destruct u as [|x u].
      * simpl in E. injection E as -> -> ->. left. destruct p; reflexivity.
      * right. simpl in E. injection E as -> E. exists u, v. exact E.
Qed.

Lemma merge_pair_concat p s : List.concat (merge_pair p s) = List.concat s.
Proof.
  induction s as [|a|a b t IH1 IH2] using list_ind2; [reflexivity..|].
  rewrite merge_pair_cons2. destruct (is_pair p a b).
  - simpl. rewrite IH1, app_assoc. reflexivity.
  - change (List.concat (a :: merge_pair p (b :: t))) with (a ++ List.concat (merge_pair p (b :: t))).
    rewrite IH2. reflexivity.
Qed.

Lemma merge_pair_length p s : length (merge_pair p s) <= length s.
Proof.
  induction s as [|a|a b t IH1 IH2] using list_ind2; [simpl; lia..|].
  rewrite merge_pair_cons2. destruct (is_pair p a b); simpl in *; lia.
Qed.

Lemma merge_pair_length_lt p s : adjacent p s -> length (merge_pair p s) < length s.
Proof.
  rewrite <- in_pairs. induction s as [|a|a b t IH1 IH2] using list_ind2; [intros []..|].
  change (pairs (a :: b :: t)) with ((a, b) :: pairs (b :: t)).
  rewrite merge_pair_cons2. destruct (is_pair p a b) eqn:E.
  - intros _. pose proof (merge_pair_length p t). simpl. lia.
  - apply is_pair_neq in E. intros [Hin|Hin]; [congruence|]. apply IH2 in Hin. simpl in *. lia.
Qed.

Lemma merge_pair_id p s : ~ adjacent p s -> merge_pair p s = s.
Proof.
  rewrite <- in_pairs. induction s as [|a|a b t IH1 IH2] using list_ind2; [reflexivity..|].
  change (pairs (a :: b :: t)) with ((a, b) :: pairs (b :: t)).
  intros Hn. rewrite merge_pair_cons2. destruct (is_pair p a b) eqn:E.
  - exfalso. apply Hn. left. apply is_pair_eq in E. congruence.
  - f_equal. apply IH2. intros Hin. apply Hn. right. exact Hin.
Qed.

Lemma merge_pair_nonempty p s : s <> [] -> merge_pair p s <> [].
Proof.
  destruct s as [|a [|b t]]; [congruence|simpl; congruence|].
  intros _. rewrite merge_pair_cons2. destruct (is_pair p a b); congruence.
Qed.

(** merging only concatenates neighbours: groups of units *)
Lemma merge_pair_groups {U} (c : list U -> sym) (Hc : forall x y, c (x ++ y) = c x ++ c y) p gs :
  Forall (fun g => g <> []) gs ->
  exists gs', map c gs' = merge_pair p (map c gs)
              /\ List.concat gs' = List.concat gs /\ Forall (fun g => g <> []) gs'.
Proof.
  induction gs as [|a|a b t IH1 IH2] using list_ind2; intros Hne.
  - exists []. auto.
  - exists [a]. auto.
  - inversion Hne as [|? ? Ha Hne']; subst. inversion Hne' as [|? ? Hb Ht]; subst.
    cbn [map]. rewrite merge_pair_cons2. destruct (is_pair p (c a) (c b)).
    + destruct (IH1 Ht) as (g & E1 & E2 & E3). exists ((a ++ b) :: g). repeat split.
      * cbn [map]. rewrite E1, Hc. reflexivity.
      * simpl. rewrite E2, app_assoc. reflexivity.
      * constructor; [destruct a; simpl; congruence|exact E3].
    + destruct (IH2 Hne') as (g & E1 & E2 & E3). exists (a :: g). repeat split.
      * cbn [map] in *. rewrite E1. reflexivity.
      * simpl in *. rewrite E2. reflexivity.
      * constructor; assumption.
Qed.

Lemma bpe_steps_concat m s r : bpe_steps m s r -> List.concat r = List.concat s.
Proof.
  induction 1 as [s|s s' s'' (i & p & _ & _ & _ & ->) _ IH]; [reflexivity|].
  rewrite IH. apply merge_pair_concat.
Qed.

Lemma bpe_step_det m s a b : bpe_step m s a -> bpe_step m s b -> a = b.
Proof.
  intros (i & p & Hi & Ap & Mi & ->) (j & q & Hj & Aq & Mj & ->).
  destruct (Nat.lt_total i j) as [L|[->|L]].
  - exfalso. exact (Mj i p L Hi Ap).
  - congruence.
  - exfalso. exact (Mi j q L Hj Aq).
Qed.

Lemma bpe_normal_no_step m s s' : bpe_normal m s -> ~ bpe_step m s s'.
Proof.
  intros Hn (i & p & Hi & Ap & _). apply nth_error_In in Hi. exact (Hn p Hi Ap).
Qed.

Lemma bpe_result_det m s a b : bpe_result m s a -> bpe_result m s b -> a = b.
Proof.
  intros [Sa Na] [Sb Nb]. revert b Sb Nb.
  induction Sa as [s|s s' s'' St Sa IH]; intros b Sb Nb.
  - destruct Sb as [|s s' b St]; [reflexivity|]. exfalso. exact (bpe_normal_no_step _ _ _ Na St).
  - destruct Sb as [s|s t b St' Sb].
    + exfalso. exact (bpe_normal_no_step _ _ _ Nb St).
    + rewrite (bpe_step_det _ _ _ _ St' St) in Sb. auto.
Qed.

Lemma bpe_steps_groups {U} (c : list U -> sym) (Hc : forall x y, c (x ++ y) = c x ++ c y) m s r gs :
  bpe_steps m s r -> s = map c gs -> Forall (fun g => g <> []) gs ->
  exists gs', map c gs' = r /\ List.concat gs' = List.concat gs /\ Forall (fun g => g <> []) gs'.
Proof.
  intros H. revert gs. induction H as [s|s s' s'' (i & p & _ & _ & _ & E) _ IH]; intros gs Eg Hne.
  - exists gs. auto.
  - subst s. destruct (merge_pair_groups c Hc p gs Hne) as (g & E1 & E2 & E3). rewrite <- E in E1.
    destruct (IH g (eq_sym E1) E3) as (g' & F1 & F2 & F3). exists g'. repeat split; congruence || assumption.
Qed.
