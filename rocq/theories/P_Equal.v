(** * C117: what == says about parsed tokens, configurations and metadata *)
From Coq Require Import List NArith ZArith Bool Lia.
From Verif Require Import M_Base L_Base M_Literal M_Tokens M_Repr M_PrepConfig P_PrepConfig M_Equal.
Import ListNotations.
Local Open Scope list_scope.

Lemma all_eq_iff {A} (f : A -> A -> bool) (l : list A) : (forall x, In x l -> forall y, f x y = true <-> x = y) ->
  forall l', all_eq f l l' = true <-> l = l'.
Proof.
  induction l as [|x l IH]; intros H [|y l']; cbn [all_eq]; try (split; [discriminate|discriminate]); [split; reflexivity|].
  fold (all_eq f). rewrite andb_true_iff, (H x (or_introl eq_refl)), (IH (fun z Hz => H z (or_intror Hz))). split; [intros [-> ->]; reflexivity|intros [= -> ->]; auto].
Qed.
Lemma cls_eqb_iff a b : cls_eqb a b = true <-> a = b.
Proof. split; [destruct a, b; intros H; (discriminate H || reflexivity)|intros <-; destruct a; reflexivity]. Qed.
Lemma subtoken_eq_iff a b : subtoken_eq a b = true <-> a = b.
Proof.
  destruct a as [|s c], b as [|s' c']; cbn [subtoken_eq]; try (split; [discriminate|discriminate]); [split; reflexivity|].
  rewrite andb_true_iff. destruct (eqb_spec s s') as [->|E].
  - destruct c, c'; cbn [cap_eq]; split; intros H; try reflexivity; try (destruct H; discriminate); try discriminate H; auto.
  - split; [intros [H _]; discriminate H|intros [= H _]; contradiction].
Qed.
Lemma str_eq_iff (a b : str) : eqb a b = true <-> a = b.
Proof. destruct (eqb_spec a b) as [->|E]; split; intros H; try reflexivity; try discriminate H; contradiction. Qed.

Fixpoint tsize (t : token) : nat :=
  match t with
  | OneLineComment l | MultilineComment l | StringLiteral l _ => S (list_sum (map tsize l))
  | _ => 1
  end.
Lemma tsize_in l t : In t l -> tsize t < S (list_sum (map tsize l)).
Proof. induction l as [|x l IH]; intros []; cbn [map list_sum fold_right]; [subst; unfold list_sum; lia|apply IH in H; unfold list_sum in *; cbn [fold_right]; lia]. Qed.

(** == of two parsed tokens says whether they are the same: the same class, not only one that is derived from it, and the same content. *)
Theorem C117_tokens : forall a b, token_eq a b = true <-> a = b.
Proof.
  assert (K : forall n a, tsize a < n -> forall b, token_eq a b = true <-> a = b).
  { induction n as [|n IH]; [lia|]. intros a Ha b.
    assert (L : forall l, S (list_sum (map tsize l)) <= n -> forall l', all_eq token_eq l l' = true <-> l = l').
    { intros l Hl. apply all_eq_iff. intros x Hx. apply IH. pose proof (tsize_in l x Hx). lia. }
    assert (C : token_eq a b = true -> class_of a = class_of b).
    { intros H. destruct a; cbn [token_eq] in H; apply andb_true_iff in H; destruct H as [H _]; apply cls_eqb_iff; exact H. }
    assert (S' : forall l l', all_eq subtoken_eq l l' = true <-> l = l') by (intros l; apply all_eq_iff; intros x _; apply subtoken_eq_iff).
    split.
    - intros H. pose proof (C H) as Hc.
      destruct a, b; cbn [class_of] in Hc; try discriminate Hc; try (destruct c; discriminate Hc); try reflexivity;
        cbn [token_eq] in H; apply andb_true_iff in H; destruct H as [_ H]; cbn [tsize] in Ha.
      + apply PeanoNat.Nat.eqb_eq in H. congruence.
      + apply str_eq_iff in H. congruence.
      + apply str_eq_iff in H. subst. destruct c, c0; try discriminate Hc; reflexivity.
      + apply S' in H. congruence.
      + apply S' in H. congruence.
      + apply L in H; [congruence|lia].
      + apply L in H; [congruence|lia].
      + apply andb_true_iff in H. destruct H as [H1 H2]. apply Z.eqb_eq in H2. apply L in H1; [congruence|lia].
    - intros <-. destruct a; cbn [token_eq]; rewrite (proj2 (cls_eqb_iff _ _) eq_refl); cbn [andb]; cbn [tsize] in Ha; try reflexivity.
      + apply PeanoNat.Nat.eqb_refl.
      + apply eqb_refl.
      + apply eqb_refl.
      + apply S'. reflexivity.
      + apply S'. reflexivity.
      + apply L; [lia|reflexivity].
      + apply L; [lia|reflexivity].
      + rewrite Z.eqb_refl, andb_true_r. apply L; [lia|reflexivity]. }
  intros a b. apply (K (S (tsize a))). lia.
Qed.
Print Assumptions C117_tokens.

Lemma config_keys d : mk_prep_config d = Ok d -> NoDup (dkeys d) /\ forall p, In p (dkeys d).
Proof.
  intros H. assert (Hl : length d = 6).
  { unfold mk_prep_config, check_invariants in H. destruct (Nat.eqb (length d) 6) eqn:E; [apply PeanoNat.Nat.eqb_eq; exact E|discriminate H]. }
  destruct (config_str_of _ _ H) as (en & com & st & sp & tabs & ca & E1 & E2 & E3 & E4 & E5 & E6 & _).
  assert (All : forall p, In p (dkeys d)).
  { intros p. assert (exists v, dget d p = Some v) as [v Hv] by (destruct p; eauto). apply dget_in in Hv. apply (in_map fst) in Hv. exact Hv. }
  split; [|exact All]. apply (NoDup_incl_NoDup (l := prep_params)).
  - repeat constructor; cbn; intuition discriminate.
  - unfold dkeys. rewrite map_length, Hl. apply le_n.
  - intros p _. apply All.
Qed.
Lemma config_eq_iff d d' : mk_prep_config d = Ok d -> mk_prep_config d' = Ok d' ->
  (config_eq d d' = true <-> forall p, dget d p = dget d' p).
Proof.
  intros H H'. destruct (config_keys d H) as [N1 A1]. destruct (config_keys d' H') as [N2 A2]. unfold config_eq. rewrite andb_true_iff, forallb_forall.
  split.
  - intros [_ F] p. destruct (dget d p) as [v|] eqn:D.
    + apply dget_in in D. specialize (F _ D). cbn [fst snd] in F. destruct (dget d' p) as [v'|]; [|discriminate F]. apply str_eq_iff in F. congruence.
    + exfalso. revert D. destruct (config_str_of _ _ H) as (en & com & st & sp & tabs & ca & E1 & E2 & E3 & E4 & E5 & E6 & _). destruct p; congruence.
  - intros F. split.
    + unfold mk_prep_config, check_invariants in H, H'.
      destruct (Nat.eqb (length d) 6) eqn:E; [|discriminate H]. destruct (Nat.eqb (length d') 6) eqn:E'; [|discriminate H'].
      apply PeanoNat.Nat.eqb_eq in E, E'. rewrite E, E'. reflexivity.
    + intros [p v] Hin. cbn [fst snd]. rewrite <- F. rewrite (dget_nodup d p v N1 Hin). apply eqb_refl.
Qed.

(** == of two configurations says whether they have the same name in file names, whatever the order in which their options were given. *)
Theorem C117_configs : forall d d', mk_prep_config d = Ok d -> mk_prep_config d' = Ok d' ->
  (config_eq d d' = true <-> config_str d = config_str d').
Proof.
  intros d d' H H'. rewrite (config_eq_iff d d' H H'). split.
  - intros F. unfold config_str, param. f_equal. apply map_ext. intros p. rewrite F. reflexivity.
  - intros E p. exact (C38_encode_injective d d' d d' H H' E p).
Qed.
Print Assumptions C117_configs.

(** Equal tokens with equal configurations are preprocessed alike: the same output and the same metadata, or the same error. *)
Theorem C117_alike : forall E o b d d' l l', mk_prep_config d = Ok d -> mk_prep_config d' = Ok d' ->
  config_eq d d' = true -> all_eq token_eq l l' = true -> to_repr E o d b l = to_repr E o d' b l'.
Proof.
  intros E o b d d' l l' H H' Hc Hl. apply all_eq_iff in Hl; [|intros x _; apply C117_tokens]. subst l'.
  pose proof (proj1 (config_eq_iff d d' H H') Hc) as F.
  assert (P : forall p, param d p = param d' p) by (intros p; unfold param; rewrite F; reflexivity).
  assert (Q : forall p v, param_in d p v = param_in d' p v) by (intros p v; unfold param_in; rewrite P; reflexivity).
  unfold to_repr, get_repr_config, get_number_splitter, get_word_splitter, get_types_to_be_repr, is_bpe. rewrite P, !Q. reflexivity.
Qed.
Print Assumptions C117_alike.

(** == of metadata: the same tokens that are not split, in whatever order and however often they were met, the same boundaries and types. *)
Theorem C117_metadata : forall a b, meta_eq a b = true <-> (forall t, In t (nonproc a) <-> In t (nonproc b)) /\ wb a = wb b /\ types a = types b.
Proof.
  intros a b. unfold meta_eq. rewrite !andb_true_iff, !forallb_forall.
  rewrite (all_eq_iff Nat.eqb (wb a)) by (intros; apply PeanoNat.Nat.eqb_eq). rewrite (all_eq_iff cls_eqb (types a)) by (intros; apply cls_eqb_iff).
  assert (M : forall (t : str) (l : list str), mem t l = true <-> In t l) by (intros; apply mem_in).
  split.
  - intros [[[H1 H2] H3] H4]. split; [|auto]. intros t. split; intros H; apply M; auto.
  - intros (H1 & H2 & H3). repeat split; auto; intros t Ht; apply M, H1, Ht.
Qed.
Print Assumptions C117_metadata.

Example C117_example :
  let c := combine prep_params (chars_of "uc1Fsu") in let c' := rev c in
  mk_prep_config c = Ok c /\ mk_prep_config c' = Ok c' /\ c <> c' /\ config_eq c c' = true /\
  token_eq (NonProc NpSemicolon (lit ";")) (NonProc NpOperator (lit ";")) = false /\
  token_eq (StringLiteral [SplitContainer [Word (lit "a") CapAll]; SpaceInString 1] 3) (StringLiteral [SplitContainer [Word (lit "a") CapAll]; SpaceInString 2] 3) = false /\
  token_eq (OneLineComment [Number (lit "0x1f"); NewLine]) (OneLineComment [Number (lit "0x1f"); NewLine]) = true.
Proof. cbv zeta. repeat split; try (vm_compute; reflexivity). vm_compute. discriminate. Qed.
