(** C82: several commands on the same dataset. *)
From Verif Require Import M_Base L_Base M_Together.
From Coq Require Import Lia.

Lemma write_at_length k b c : length (write_at k b c) = Nat.max (S k) (length c).
Proof. revert c. induction k as [|k IH]; intros [|x c]; cbn; try rewrite IH; cbn; lia. Qed.
Lemma write_at_same k b c : nth_error (write_at k b c) k = Some b.
Proof. revert c. induction k as [|k IH]; intros [|x c]; cbn; auto. Qed.
Lemma write_at_other k b c i v : i <> k -> nth_error c i = Some v -> nth_error (write_at k b c) i = Some v.
Proof.
  revert c i. induction k as [|k IH]; intros [|x c] [|i] N H; cbn in *; auto; try discriminate; try congruence; try (apply IH; [lia|exact H]).
Qed.
Lemma list_ext {A} (a b : list A) : length a <= length b -> (forall k, k < length b -> nth_error a k = nth_error b k) -> a = b.
Proof.
  revert a. induction b as [|y b IH]; intros [|x a] L H; cbn in *; try lia; auto.
  - specialize (H 0 ltac:(lia)). discriminate.
  - pose proof (H 0 ltac:(lia)) as E. cbn in E. injection E as ->. f_equal. apply IH; [lia|]. intros k Hk. apply (H (S k)). lia.
Qed.
Lemma set_data_same f j c : set_data f j c j = c.
Proof. unfold set_data. rewrite Nat.eqb_refl. reflexivity. Qed.
Lemma set_data_other f j c i : i <> j -> set_data f j c i = f i.
Proof. intros N. unfold set_data. destruct (Nat.eqb_spec i j); [contradiction|reflexivity]. Qed.

Section C82.
  Variable text : list N.

  (** ** Without kills *)
  (** what is missing in an i-node is still going to be written *)
  Definition to_come (procs : list cp) (j k : nat) : Prop := exists o, In (CWriting j o) procs /\ o <= k.
  Record U (s : cstate) : Prop := {
    u_temp : forall j, c_temp s = Some j -> j < c_next s;
    u_dest : forall j, c_dest s = Some j -> j < c_next s;
    u_fd : forall j o, In (CWriting j o) (c_procs s) -> j < c_next s /\ o <= length text;
    u_len : forall j, j < c_next s -> length (c_data s j) <= length text;
    u_data : forall j k, j < c_next s -> k < length text -> nth_error (c_data s j) k = nth_error text k \/ to_come (c_procs s) j k;
    u_names : (exists p, In p (c_procs s) /\ match p with CWriting _ _ | CClosed => True | _ => False end) ->
              c_temp s <> None \/ c_dest s <> None;
    u_ended : forall ok, In (CEnded ok) (c_procs s) -> c_dest s <> None;
    u_alive : ~ In CKilled (c_procs s)
  }.

  Lemma in_mid {A} (x p : A) l1 l2 : In x (l1 ++ p :: l2) <-> x = p \/ In x (l1 ++ l2).
  Proof. rewrite !in_app_iff. cbn. intuition congruence. Qed.

  Lemma u_step s s' : U s -> cstep text s s' -> U s'.
  Proof.
    intros [UT UD UF UL UV UN UE UA] S.
    destruct S as [nx d t j l1 l2|nx d t l1 l2|nx d e l1 l2|nx d j e l1 l2|nx d t e fd k b l1 l2 Hb|nx d t e fd l1 l2|nx d j e l1 l2|nx d e l1 l2];
      cbn [c_next c_data c_temp c_dest c_procs] in *.
    - constructor; cbn [c_next c_data c_temp c_dest c_procs]; auto.
      + intros i o H. apply in_mid in H. destruct H as [H|H]; [discriminate|]. apply UF, in_mid. auto.
      + intros i k Hi Hk. destruct (UV i k Hi Hk) as [E|(o & H & L)]; [auto|]. right. exists o. split; [|exact L].
        apply in_mid in H. destruct H as [H|H]; [discriminate|]. apply in_mid. auto.
      + intros _. right. discriminate.
      + intros ok _. discriminate.
      + intros H. apply in_mid in H. destruct H as [H|H]; [discriminate|]. apply UA, in_mid. auto.
    - constructor; cbn [c_next c_data c_temp c_dest c_procs]; auto.
      + intros i o H. apply in_mid in H. destruct H as [H|H]; [discriminate|]. apply UF, in_mid. auto.
      + intros i k Hi Hk. destruct (UV i k Hi Hk) as [E|(o & H & L)]; [auto|]. right. exists o. split; [|exact L].
        apply in_mid in H. destruct H as [H|H]; [discriminate|]. apply in_mid. auto.
      + intros (p & H & M). apply in_mid in H. destruct H as [->|H]; [destruct M|]. apply UN. exists p. split; [apply in_mid; auto|exact M].
      + intros ok H. apply in_mid in H. destruct H as [H|H]; [discriminate|]. apply (UE ok), in_mid. auto.
      + intros H. apply in_mid in H. destruct H as [H|H]; [discriminate|]. apply UA, in_mid. auto.
    - constructor; cbn [c_next c_data c_temp c_dest c_procs].
      + intros j E. injection E as <-. lia.
      + intros j E. specialize (UD j E). lia.
      + intros i o H. apply in_mid in H. destruct H as [H|H]; [injection H as -> ->; lia|].
        specialize (UF i o). rewrite in_mid in UF. specialize (UF (or_intror H)). lia.
      + intros j Hj. destruct (Nat.eq_dec j nx) as [->|N]; [rewrite set_data_same; cbn; lia|]. rewrite set_data_other by exact N. apply UL. lia.
      + intros j k Hj Hk. destruct (Nat.eq_dec j nx) as [->|N].
        * right. exists 0. split; [apply in_mid; auto|lia].
        * rewrite set_data_other by exact N. destruct (UV j k ltac:(lia) Hk) as [E|(o & H & L)]; [auto|]. right. exists o. split; [|exact L].
          apply in_mid in H. destruct H as [H|H]; [discriminate|]. apply in_mid. auto.
      + intros _. left. discriminate.
      + intros ok H. apply in_mid in H. destruct H as [H|H]; [discriminate|]. apply (UE ok), in_mid. auto.
      + intros H. apply in_mid in H. destruct H as [H|H]; [discriminate|]. apply UA, in_mid. auto.
    - constructor; cbn [c_next c_data c_temp c_dest c_procs]; auto.
      + intros i o H. apply in_mid in H. destruct H as [H|H]; [injection H as -> ->; split; [apply UT; reflexivity|lia]|]. apply UF, in_mid. auto.
      + intros i Hi. destruct (Nat.eq_dec i j) as [->|N]; [rewrite set_data_same; cbn; lia|]. rewrite set_data_other by exact N. apply UL. lia.
      + intros i k Hi Hk. destruct (Nat.eq_dec i j) as [->|N].
        * right. exists 0. split; [apply in_mid; auto|lia].
        * rewrite set_data_other by exact N. destruct (UV i k Hi Hk) as [E|(o & H & L)]; [auto|]. right. exists o. split; [|exact L].
          apply in_mid in H. destruct H as [H|H]; [discriminate|]. apply in_mid. auto.
      + intros _. left. discriminate.
      + intros ok H. apply in_mid in H. destruct H as [H|H]; [discriminate|]. apply (UE ok), in_mid. auto.
      + intros H. apply in_mid in H. destruct H as [H|H]; [discriminate|]. apply UA, in_mid. auto.
    - assert (Hk : k < length text) by (apply nth_error_Some; congruence).
      pose proof (UF fd k) as Hfd. rewrite in_mid in Hfd. specialize (Hfd (or_introl eq_refl)).
      constructor; cbn [c_next c_data c_temp c_dest c_procs]; auto.
      + intros i o H. apply in_mid in H. destruct H as [H|H]; [injection H as -> ->; lia|]. apply UF, in_mid. auto.
      + intros i Hi. destruct (Nat.eq_dec i fd) as [->|N]; [|rewrite set_data_other by exact N; apply UL; lia].
        rewrite set_data_same, write_at_length. specialize (UL fd Hi). lia.
      + intros i q Hi Hq.
        assert (T : to_come (l1 ++ CWriting fd k :: l2) i q -> (i = fd /\ q = k) \/ to_come (l1 ++ CWriting fd (S k) :: l2) i q).
        { intros (o & H & L). apply in_mid in H. destruct H as [H|H].
          - injection H as -> ->. destruct (Nat.eq_dec q k) as [->|Nq]; [auto|]. right. exists (S k). split; [apply in_mid; auto|lia].
          - right. exists o. split; [apply in_mid; auto|exact L]. }
        destruct (Nat.eq_dec i fd) as [->|N].
        * rewrite set_data_same. destruct (Nat.eq_dec q k) as [->|Nq]; [left; rewrite write_at_same; congruence|].
          destruct (UV fd q Hi Hq) as [E|H]; [|destruct (T H) as [[_ X]|X]; [contradiction|auto]].
          left. destruct (nth_error text q) as [v|] eqn:Ev; [|apply nth_error_None in Ev; lia]. apply write_at_other; [exact Nq|exact E].
        * rewrite set_data_other by exact N. destruct (UV i q Hi Hq) as [E|H]; [auto|]. destruct (T H) as [[X _]|X]; [contradiction|auto].
      + intros _. apply UN. exists (CWriting fd k). split; [apply in_mid; auto|exact I].
      + intros ok H. apply in_mid in H. destruct H as [H|H]; [discriminate|]. apply (UE ok), in_mid. auto.
      + intros H. apply in_mid in H. destruct H as [H|H]; [discriminate|]. apply UA, in_mid. auto.
    - constructor; cbn [c_next c_data c_temp c_dest c_procs]; auto.
      + intros i o H. apply in_mid in H. destruct H as [H|H]; [discriminate|]. apply UF, in_mid. auto.
      + intros i k Hi Hk. destruct (UV i k Hi Hk) as [E|(o & H & L)]; [auto|]. apply in_mid in H. destruct H as [H|H].
        * injection H as -> ->. lia.
        * right. exists o. split; [apply in_mid; auto|exact L].
      + intros _. apply UN. exists (CWriting fd (length text)). split; [apply in_mid; auto|exact I].
      + intros ok H. apply in_mid in H. destruct H as [H|H]; [discriminate|]. apply (UE ok), in_mid. auto.
      + intros H. apply in_mid in H. destruct H as [H|H]; [discriminate|]. apply UA, in_mid. auto.
    - constructor; cbn [c_next c_data c_temp c_dest c_procs]; auto.
      + discriminate.
      + intros i o H. apply in_mid in H. destruct H as [H|H]; [discriminate|]. apply UF, in_mid. auto.
      + intros i k Hi Hk. destruct (UV i k Hi Hk) as [E|(o & H & L)]; [auto|]. right. exists o. split; [|exact L].
        apply in_mid in H. destruct H as [H|H]; [discriminate|]. apply in_mid. auto.
      + intros _. right. discriminate.
      + intros ok _. discriminate.
      + intros H. apply in_mid in H. destruct H as [H|H]; [discriminate|]. apply UA, in_mid. auto.
    - assert (E : e <> None).
      { destruct UN as [X|X]; [exists CClosed; split; [apply in_mid; auto|exact I]|congruence|exact X]. }
      constructor; cbn [c_next c_data c_temp c_dest c_procs]; auto.
      + intros i o H. apply in_mid in H. destruct H as [H|H]; [discriminate|]. apply UF, in_mid. auto.
      + intros i k Hi Hk. destruct (UV i k Hi Hk) as [E'|(o & H & L)]; [auto|]. right. exists o. split; [|exact L].
        apply in_mid in H. destruct H as [H|H]; [discriminate|]. apply in_mid. auto.
      + intros H. apply in_mid in H. destruct H as [H|H]; [discriminate|]. apply UA, in_mid. auto.
  Qed.

  Lemma u_reach s : c_unkilled text s -> U s.
  Proof.
    induction 1 as [|s R [UT UD UF UL UV UN UE UA]|s s' R IH S]; [| |apply (u_step s s' IH S)].
    - constructor; cbn; try discriminate; try lia; try tauto; try contradiction. intros (p & [] & _).
    - constructor; cbn [c_started c_next c_data c_temp c_dest c_procs]; auto.
      + intros j o H. apply in_app_or in H. destruct H as [H|[H|[]]]; [apply UF, H|discriminate].
      + intros j k Hj Hk. destruct (UV j k Hj Hk) as [E|(o & H & L)]; [auto|]. right. exists o. split; [apply in_or_app; auto|exact L].
      + intros (p & H & M). apply in_app_or in H. destruct H as [H|[<-|[]]]; [|destruct M]. apply UN. eauto.
      + intros ok H. apply in_app_or in H. destruct H as [H|[H|[]]]; [apply (UE ok H)|discriminate].
      + intros H. apply in_app_or in H. destruct H as [H|[H|[]]]; [apply UA, H|discriminate].
  Qed.

  (** Any number of commands, started at any time and mixed in any way, none of them killed: when all have ended, the
      output file is there and has the right content. *)
  Theorem C82_finally s : c_unkilled text s -> c_procs s <> [] -> (forall p, In p (c_procs s) -> c_over p) ->
    exists j, c_dest s = Some j /\ c_data s j = text.
  Proof.
    intros R N O. destruct (u_reach s R) as [UT UD UF UL UV UN UE UA].
    assert (D : c_dest s <> None).
    { destruct (c_procs s) as [|p l] eqn:E; [congruence|]. specialize (O p (or_introl eq_refl)). destruct p; try destruct O.
      - apply (UE ok). left. reflexivity.
      - exfalso. apply UA. left. reflexivity. }
    destruct (c_dest s) as [j|] eqn:E; [|congruence]. exists j. split; [reflexivity|]. specialize (UD j eq_refl).
    apply list_ext; [apply UL, UD|]. intros k Hk. destruct (UV j k UD Hk) as [X|(o & H & _)]; [exact X|]. destruct (O _ H).
  Qed.

  (** ** One command after the other, with kills *)
  Definition writes_to (p : cp) : option nat := match p with CWriting fd _ => Some fd | _ => None end.
  Record Q (s : cstate) : Prop := {
    q_temp : forall j, c_temp s = Some j -> j < c_next s /\ c_dest s <> Some j;
    q_dest : forall j, c_dest s = Some j -> j < c_next s /\ c_data s j = text;
    q_one : forall l1 p l2, c_procs s = l1 ++ p :: l2 -> c_over p \/ forall q, In q (l1 ++ l2) -> c_over q;
    q_fd : forall fd k, In (CWriting fd k) (c_procs s) -> c_temp s = Some fd /\ c_data s fd = firstn k text /\ k <= length text;
    q_closed : In CClosed (c_procs s) -> exists j, c_temp s = Some j /\ c_data s j = text;
    q_ok : ~ In (CEnded false) (c_procs s)
  }.

  Lemma one_step (l1 : list cp) p p' l2 : ~ c_over p ->
    (forall k1 q k2, l1 ++ p :: l2 = k1 ++ q :: k2 -> c_over q \/ forall r, In r (k1 ++ k2) -> c_over r) ->
    (forall k1 q k2, l1 ++ p' :: l2 = k1 ++ q :: k2 -> c_over q \/ forall r, In r (k1 ++ k2) -> c_over r)
    /\ (forall q, In q (l1 ++ l2) -> c_over q).
  Proof.
    intros N H. assert (A : forall q, In q (l1 ++ l2) -> c_over q) by (destruct (H l1 p l2 eq_refl); [contradiction|assumption]).
    split; [|exact A]. intros k1 q k2 E. destruct (app_eq_app _ _ _ _ E) as (l & [[E1 E2]|[E1 E2]]).
    - subst l1. destruct l as [|x l]; cbn in E2.
      + injection E2 as -> ->. right. intros r Hr. apply A. rewrite app_nil_r. exact Hr.
      + injection E2 as -> ->. left. apply A. apply in_or_app. left. apply in_elt.
    - subst k1. destruct l as [|x l]; cbn in E2.
      + injection E2 as -> ->. right. intros r Hr. apply A. rewrite app_nil_r in Hr. exact Hr.
      + injection E2 as -> ->. left. apply A. apply in_or_app. right. apply in_elt.
  Qed.

  Lemma firstn_write k b : nth_error text k = Some b -> write_at k b (firstn k text) = firstn (S k) text.
  Proof.
    revert k. induction text as [|x t IH]; intros [|k] H; try discriminate; cbn in *.
    - congruence.
    - f_equal. apply IH, H.
  Qed.

  Lemma over_not p : c_over p -> forall fd k, p <> CWriting fd k /\ p <> CClosed.
  Proof. destruct p; cbn; try tauto; split; discriminate. Qed.

  Lemma q_step s s' : Q s -> cstep text s s' -> Q s'.
  Proof.
    intros [QT QD QO QF QC QK] S.
    destruct S as [nx d t j l1 l2|nx d t l1 l2|nx d e l1 l2|nx d j e l1 l2|nx d t e fd k b l1 l2 Hb|nx d t e fd l1 l2|nx d j e l1 l2|nx d e l1 l2];
      cbn [c_next c_data c_temp c_dest c_procs] in *.
    1,2,3,4,5,6,7: match type of QO with forall k1 q k2, ?a ++ ?p :: ?b = _ -> _ =>
      match goal with |- Q {| c_procs := a ++ ?p' :: b |} =>
      destruct (one_step a p p' b (fun X => X) QO) as [QO' OV] end end.
    - constructor; cbn [c_next c_data c_temp c_dest c_procs]; auto.
      + intros fd k H. apply in_mid in H. destruct H as [H|H]; [discriminate|]. destruct (over_not _ (OV _ H) fd k). congruence.
      + intros H. apply in_mid in H. destruct H as [H|H]; [discriminate|]. destruct (over_not _ (OV _ H) 0 0). congruence.
      + intros H. apply in_mid in H. destruct H as [H|H]; [discriminate|]. apply QK, in_mid. auto.
    - constructor; cbn [c_next c_data c_temp c_dest c_procs]; auto.
      + intros fd k H. apply in_mid in H. destruct H as [H|H]; [discriminate|]. destruct (over_not _ (OV _ H) fd k). congruence.
      + intros H. apply in_mid in H. destruct H as [H|H]; [discriminate|]. destruct (over_not _ (OV _ H) 0 0). congruence.
      + intros H. apply in_mid in H. destruct H as [H|H]; [discriminate|]. apply QK, in_mid. auto.
    - constructor; cbn [c_next c_data c_temp c_dest c_procs].
      + intros j E. injection E as <-. split; [lia|]. intros E. destruct (QD nx E). lia.
      + intros j E. destruct (QD j E) as [H1 H2]. split; [lia|]. rewrite set_data_other by lia. exact H2.
      + exact QO'.
      + intros fd k H. apply in_mid in H. destruct H as [H|H]; [|destruct (over_not _ (OV _ H) fd k); congruence]. injection H as -> ->.
        split; [reflexivity|]. rewrite set_data_same. split; [reflexivity|lia].
      + intros H. apply in_mid in H. destruct H as [H|H]; [discriminate|]. destruct (over_not _ (OV _ H) 0 0). congruence.
      + intros H. apply in_mid in H. destruct H as [H|H]; [discriminate|]. apply QK, in_mid. auto.
    - destruct (QT j eq_refl) as [Hj Nj]. constructor; cbn [c_next c_data c_temp c_dest c_procs]; auto.
      + intros i E. destruct (QD i E) as [H1 H2]. split; [exact H1|]. rewrite set_data_other; [exact H2|congruence].
      + intros fd k H. apply in_mid in H. destruct H as [H|H]; [|destruct (over_not _ (OV _ H) fd k); congruence]. injection H as -> ->.
        split; [reflexivity|]. rewrite set_data_same. split; [reflexivity|lia].
      + intros H. apply in_mid in H. destruct H as [H|H]; [discriminate|]. destruct (over_not _ (OV _ H) 0 0). congruence.
      + intros H. apply in_mid in H. destruct H as [H|H]; [discriminate|]. apply QK, in_mid. auto.
    - destruct (QF fd k) as (Et & Ed & Hk); [apply in_mid; auto|]. subst t. destruct (QT fd eq_refl) as [Hj Nj].
      assert (Hk' : k < length text) by (apply nth_error_Some; congruence).
      constructor; cbn [c_next c_data c_temp c_dest c_procs]; auto.
      + intros i E. destruct (QD i E) as [H1 H2]. split; [exact H1|]. rewrite set_data_other; [exact H2|congruence].
      + intros fd' k' H. apply in_mid in H. destruct H as [H|H]; [|destruct (over_not _ (OV _ H) fd' k'); congruence]. injection H as -> ->.
        split; [reflexivity|]. rewrite set_data_same, Ed. split; [apply firstn_write, Hb|lia].
      + intros H. apply in_mid in H. destruct H as [H|H]; [discriminate|]. destruct (over_not _ (OV _ H) 0 0). congruence.
      + intros H. apply in_mid in H. destruct H as [H|H]; [discriminate|]. apply QK, in_mid. auto.
    - destruct (QF fd (length text)) as (Et & Ed & Hk); [apply in_mid; auto|].
      constructor; cbn [c_next c_data c_temp c_dest c_procs]; auto.
      + intros fd' k' H. apply in_mid in H. destruct H as [H|H]; [discriminate|]. destruct (over_not _ (OV _ H) fd' k'). congruence.
      + intros _. exists fd. split; [exact Et|]. rewrite Ed. apply firstn_all.
      + intros H. apply in_mid in H. destruct H as [H|H]; [discriminate|]. apply QK, in_mid. auto.
    - destruct QC as (i & Ei & Ed); [apply in_mid; auto|]. injection Ei as <-. destruct (QT j eq_refl) as [Hj Nj].
      constructor; cbn [c_next c_data c_temp c_dest c_procs]; auto.
      + discriminate.
      + intros i E. injection E as <-. auto.
      + intros fd' k' H. apply in_mid in H. destruct H as [H|H]; [discriminate|]. destruct (over_not _ (OV _ H) fd' k'). congruence.
      + intros H. apply in_mid in H. destruct H as [H|H]; [discriminate|]. destruct (over_not _ (OV _ H) 0 0). congruence.
      + intros H. apply in_mid in H. destruct H as [H|H]; [discriminate|]. apply QK, in_mid. auto.
    - exfalso. destruct QC as (i & Ei & _); [apply in_mid; auto|]. discriminate.
  Qed.
  Lemma in_procs_one l1 p l2 : (forall q, In q (l1 ++ l2) -> c_over q) ->
    forall k1 q k2, l1 ++ p :: l2 = k1 ++ q :: k2 -> c_over q \/ forall r, In r (k1 ++ k2) -> c_over r.
  Proof.
    intros A. destruct (one_step l1 CStart p l2 (fun X => X)) as [X _]; [|exact X].
    intros k1 q k2 E. destruct (app_eq_app _ _ _ _ E) as (l & [[E1 E2]|[E1 E2]]).
    - subst l1. destruct l as [|x l]; cbn in E2; injection E2; intros; subst.
      + right. intros r Hr. apply A. rewrite app_nil_r. exact Hr.
      + left. apply A. apply in_or_app. left. apply in_elt.
    - subst k1. destruct l as [|x l]; cbn in E2; injection E2; intros; subst.
      + right. intros r Hr. apply A. rewrite app_nil_r in Hr. exact Hr.
      + left. apply A. apply in_or_app. right. apply in_elt.
  Qed.
  Lemma q_reach s : c_one_by_one text s -> Q s.
  Proof.
    induction 1 as [|s R [QT QD QO QF QC QK] A|s s' R IH S|s s' R [QT QD QO QF QC QK] K]; [| |apply (q_step s s' IH S)|].
    - constructor; cbn; try discriminate; try contradiction; try tauto. intros l1 p l2 E. destruct l1; discriminate.
    - constructor; cbn [c_started c_next c_data c_temp c_dest c_procs]; auto.
      + intros l1 p l2 E. apply (in_procs_one (c_procs s) CStart []); [|exact E]. rewrite app_nil_r. exact A.
      + intros fd k H. apply in_app_or in H. destruct H as [H|[H|[]]]; [apply QF, H|discriminate].
      + intros H. apply in_app_or in H. destruct H as [H|[H|[]]]; [apply QC, H|discriminate].
      + intros H. apply in_app_or in H. destruct H as [H|[H|[]]]; [apply QK, H|discriminate].
    - destruct K as [nx d t e l1 p l2]. cbn [c_next c_data c_temp c_dest c_procs] in *.
      constructor; cbn [c_next c_data c_temp c_dest c_procs]; auto.
      + intros k1 q k2 E. destruct (app_eq_app _ _ _ _ E) as (l & [[E1 E2]|[E1 E2]]).
        * subst l1. destruct l as [|x l]; cbn in E2; injection E2; intros; subst; [left; exact I|].
          destruct (QO k1 x (l ++ p :: l2)) as [X|X]; [rewrite <- app_assoc; reflexivity|left; exact X|right].
          intros r Hr. rewrite app_assoc in Hr. apply in_mid in Hr. destruct Hr as [->|Hr]; [exact I|]. apply X. rewrite app_assoc. apply in_mid. auto.
        * subst k1. destruct l as [|x l]; cbn in E2; injection E2; intros; subst; [left; exact I|].
          destruct (QO (l1 ++ p :: l) q k2) as [X|X]; [rewrite <- app_assoc; reflexivity|left; exact X|right].
          intros r Hr. rewrite <- app_assoc in Hr. cbn in Hr. apply in_mid in Hr. destruct Hr as [->|Hr]; [exact I|]. apply X.
          rewrite <- app_assoc. cbn. apply in_mid. auto.
      + intros fd k H. apply QF. apply in_mid in H. destruct H as [H|H]; [discriminate|]. apply in_mid. auto.
      + intros H. apply QC. apply in_mid in H. destruct H as [H|H]; [discriminate|]. apply in_mid. auto.
      + intros H. apply QK. apply in_mid in H. destruct H as [H|H]; [discriminate|]. apply in_mid. auto.
  Qed.

  (** One command after the other, any of them killed anywhere: the output file, when it is there, is right, and no command fails. *)
  Theorem C82_one_by_one s : c_one_by_one text s ->
    (forall j, c_dest s = Some j -> c_data s j = text) /\ ~ In (CEnded false) (c_procs s).
  Proof. intros R. destruct (q_reach s R) as [_ QD _ _ _ QK]. split; [|exact QK]. intros j E. apply (QD j E). Qed.
End C82.
Print Assumptions C82_finally.
Print Assumptions C82_one_by_one.

(** ** What can go wrong *)
Section Witness.
  Variable text : list N.
  Definition mkc nx d t e l := {| c_next := nx; c_data := d; c_temp := t; c_dest := e; c_procs := l |}.

  (** two commands have found no file; one has opened the temporary file and written everything *)
  Lemma w_written : exists d, c_unkilled text (mkc 1 d (Some 0) None [CClosed; CPassed]).
  Proof.
    assert (S : c_unkilled text (mkc 1 (set_data (fun _ => []) 0 []) (Some 0) None [CWriting 0 0; CPassed])).
    { eapply cu_step; [|apply (c_create text 0 (fun _ => []) None [] [CPassed])].
      eapply cu_step; [|apply (c_pass text 0 (fun _ => []) None [CPassed] [])].
      eapply cu_step; [|apply (c_pass text 0 (fun _ => []) None [] [CStart])].
      apply (cu_start text (mkc 0 (fun _ => []) None None [CStart])). apply (cu_start text c_init). apply cu_init. }
    assert (W : forall k, k <= length text -> exists d, c_unkilled text (mkc 1 d (Some 0) None [CWriting 0 k; CPassed])).
    { induction k as [|k IH]; intros Hk; [eexists; exact S|]. destruct IH as [d R]; [lia|].
      destruct (nth_error text k) as [b|] eqn:E; [|apply nth_error_None in E; lia].
      eexists. eapply cu_step; [exact R|]. apply (c_write text 1 d (Some 0) None 0 k b [] [CPassed] E). }
    destruct (W (length text) (Nat.le_refl _)) as [d R]. exists d. eapply cu_step; [exact R|].
    apply (c_close text 1 d (Some 0) None 0 [] [CPassed]).
  Qed.
  (** the other one opens the same temporary file; the first one gives it its name *)
  Lemma w_emptied : exists d, d 0 = [] /\ c_unkilled text (mkc 1 d None (Some 0) [CEnded true; CWriting 0 0]).
  Proof.
    destruct w_written as [d R]. exists (set_data d 0 []). split; [reflexivity|].
    eapply cu_step; [|apply (c_rename text 1 (set_data d 0 []) 0 None [] [CWriting 0 0])].
    eapply cu_step; [exact R|]. apply (c_truncate text 1 d 0 None [CClosed] []).
  Qed.

  Lemma unkilled_reach s : c_unkilled text s -> c_reach text s.
  Proof. induction 1 as [|s R IH|s s' R IH S]; [apply cr_init|apply cr_start, IH|eapply cr_step; eassumption]. Qed.

  (** Two commands, none of them killed: one of them ends with an error. *)
  Theorem C82_error_refuted : exists s, c_unkilled text s /\ c_procs s = [CEnded true; CEnded false].
  Proof.
    destruct w_emptied as (d0 & _ & R0).
    assert (W : forall k, k <= length text -> exists d, c_unkilled text (mkc 1 d None (Some 0) [CEnded true; CWriting 0 k])).
    { induction k as [|k IH]; intros Hk; [eexists; exact R0|]. destruct IH as [d R]; [lia|].
      destruct (nth_error text k) as [b|] eqn:E; [|apply nth_error_None in E; lia].
      eexists. eapply cu_step; [exact R|]. apply (c_write text 1 d None (Some 0) 0 k b [CEnded true] [] E). }
    destruct (W (length text) (Nat.le_refl _)) as [d R]. eexists. split; [|shelve].
    eapply cu_step; [|apply (c_rename_fails text 1 d (Some 0) [CEnded true] [])].
    eapply cu_step; [exact R|]. apply (c_close text 1 d None (Some 0) 0 [CEnded true] []).
    Unshelve. reflexivity.
  Qed.

  (** Two commands, none of them killed: when the first one has ended without an error, the output file can be empty. *)
  Theorem C82_complete_refuted : text <> [] ->
    exists s j, c_unkilled text s /\ In (CEnded true) (c_procs s) /\ c_dest s = Some j /\ c_data s j = [] /\ c_data s j <> text.
  Proof.
    intros N. destruct w_emptied as (d & E & R). exists (mkc 1 d None (Some 0) [CEnded true; CWriting 0 0]), 0.
    cbn. rewrite E. repeat split; auto.
  Qed.

  (** ... and when the other one is killed then, it stays empty whatever commands follow. *)
  Theorem C82_forever_refuted : text <> [] ->
    exists s j, c_reach text s /\ (forall p, In p (c_procs s) -> c_over p) /\
      forall s', c_later text s s' -> c_dest s' = Some j /\ c_data s' j = [] /\ c_data s' j <> text.
  Proof.
    intros N. destruct w_emptied as (d & E & R). exists (mkc 1 d None (Some 0) [CEnded true; CKilled]), 0. split; [|split].
    - eapply cr_kill; [|apply (c_kill_intro 1 d None (Some 0) [CEnded true] (CWriting 0 0) [])].
      apply unkilled_reach, R.
    - intros p [<-|[<-|[]]]; exact I.
    - intros s' L.
      assert (K : c_dest s' = Some 0 /\ c_data s' 0 = [] /\ forall p, In p (c_procs s') -> p = CStart \/ c_over p).
      { induction L as [|s1 L (K1 & K2 & K3)|s1 s2 L (K1 & K2 & K3) S|s1 s2 L (K1 & K2 & K3) K].
        - cbn. split; [reflexivity|]. split; [exact E|]. intros p [<-|[<-|[]]]; right; exact I.
        - cbn. split; [exact K1|]. split; [exact K2|]. intros p H. apply in_app_or in H. destruct H as [H|[<-|[]]]; auto.
        - destruct S; cbn [c_dest c_data c_procs] in *;
            try (exfalso; match type of K3 with forall p, In p (?a ++ ?q :: ?b) -> _ => destruct (K3 q (in_elt q a b)) as [X|X]; [discriminate|destruct X] end).
          split; [exact K1|]. split; [exact K2|]. intros p H. apply in_mid in H. destruct H as [->|H]; [right; exact I|]. apply K3, in_mid. auto.
        - destruct K. cbn [c_dest c_data c_procs] in *. split; [exact K1|]. split; [exact K2|].
          intros q H. apply in_mid in H. destruct H as [->|H]; [right; exact I|]. apply K3, in_mid. auto. }
      destruct K as (K1 & K2 & _). rewrite K2. auto.
  Qed.
End Witness.
Print Assumptions C82_error_refuted.
Print Assumptions C82_complete_refuted.
Print Assumptions C82_forever_refuted.

(** A case that meets the hypotheses of C82_finally: three commands; two overlap, the third one comes when all is done. *)
Example C82_ex : exists s, c_unkilled [7%N; 9%N] s /\ c_procs s = [CEnded true; CEnded false; CEnded true] /\ c_data s 0 = [7%N; 9%N].
Proof.
  eexists. split.
  { eapply cu_step; [|eapply (c_skip [7%N; 9%N] 1 _ None 0 [CEnded true; CEnded false] [])].
  eapply (cu_start [7%N; 9%N] (mkc 1 _ None (Some 0) [CEnded true; CEnded false])).
  eapply cu_step; [|eapply (c_rename_fails [7%N; 9%N] 1 _ (Some 0) [CEnded true] [])].
  eapply cu_step; [|eapply (c_close [7%N; 9%N] 1 _ None (Some 0) 0 [CEnded true] [])].
  eapply cu_step; [|eapply (c_write [7%N; 9%N] 1 _ None (Some 0) 0 1 9%N [CEnded true] [] eq_refl)].
  eapply cu_step; [|eapply (c_write [7%N; 9%N] 1 _ None (Some 0) 0 0 7%N [CEnded true] [] eq_refl)].
  eapply cu_step; [|eapply (c_rename [7%N; 9%N] 1 _ 0 None [] [CWriting 0 0])].
  eapply cu_step; [|eapply (c_close [7%N; 9%N] 1 _ (Some 0) None 0 [] [CWriting 0 0])].
  eapply cu_step; [|eapply (c_write [7%N; 9%N] 1 _ (Some 0) None 0 1 9%N [] [CWriting 0 0] eq_refl)].
  eapply cu_step; [|eapply (c_truncate [7%N; 9%N] 1 _ 0 None [CWriting 0 1] [])].
  eapply cu_step; [|eapply (c_write [7%N; 9%N] 1 _ (Some 0) None 0 0 7%N [] [CPassed] eq_refl)].
  eapply cu_step; [|eapply (c_create [7%N; 9%N] 0 (fun _ => []) None [] [CPassed])].
  eapply cu_step; [|eapply (c_pass [7%N; 9%N] 0 (fun _ => []) None [CPassed] [])].
  eapply cu_step; [|eapply (c_pass [7%N; 9%N] 0 (fun _ => []) None [] [CStart])].
  apply (cu_start [7%N; 9%N] (mkc 0 (fun _ => []) None None [CStart])). apply (cu_start [7%N; 9%N] c_init). apply cu_init. }
  split; reflexivity.
Qed.
