(** C80: the corpus size file with kills and several processes. *)
From Verif Require Import M_Base L_Base M_Vocab L_Vocab P_Vocab M_SizeFile.
From Coq Require Import Lia Permutation.

Section C80.
  Variable files : list str.
  Notation right := (length (corpus_tokens files)).

  Definition p_ok (f : option str) (p : sp) : Prop :=
    match p with
    | SOpen n => n = right
    | SWrite n => n = right /\ f <> None
    | SRead => f <> None
    | SDone r => r = Ok (Z.of_nat right) \/ r = Err ValueError
    | _ => True
    end.
  Definition f_ok (f : option str) : Prop := f = None \/ f = Some [] \/ f = Some (dec (N.of_nat right)).
  Definition s_ok (s : sstate) : Prop := f_ok (s_file s) /\ forall p, In p (s_procs s) -> p_ok (s_file s) p.

  Lemma size_perm fs : Permutation fs files -> calc_corpus_size fs = right.
  Proof.
    intros P. rewrite corpus_size_spec. unfold corpus_tokens. apply Permutation_length. apply Permutation_flat_map. exact P.
  Qed.
  Lemma p_ok_some f f' p : p_ok f p -> (f <> None -> f' <> None) -> p_ok f' p.
  Proof. intros H N. destruct p; cbn in *; auto. destruct H. auto. Qed.

  Lemma s_ok_step a b : s_ok a -> sys_size files a b -> s_ok b.
  Proof.
    intros [F H] S. destruct S as [f f' l1 p p' l2 P|f l|f l1 p l2]; unfold s_ok in *; cbn [s_file s_procs] in *.
    - assert (Hp : p_ok f p) by (apply H, in_elt).
      assert (X : f_ok f' /\ p_ok f' p' /\ (f <> None -> f' <> None)).
      { destruct P as [s| |f fs P|f n|f n|s|]; cbn [p_ok] in *; repeat split; auto; try discriminate.
        - apply size_perm, P.
        - right. left. reflexivity.
        - right. right. destruct Hp as [-> _]. reflexivity.
        - destruct F as [F|[F|F]]; [discriminate|..]; injection F as ->.
          + right. reflexivity.
          + left. rewrite parse_int_dec, nat_N_Z. reflexivity.
        - congruence. }
      destruct X as (F' & Hp' & N). split; [exact F'|]. intros q Hq. apply in_app_or in Hq.
      destruct Hq as [Hq|[<-|Hq]]; [|exact Hp'|]; (apply (p_ok_some f); [|exact N]); apply H, in_or_app; [left|right; right]; exact Hq.
    - split; [exact F|]. intros q Hq. apply in_app_or in Hq. destruct Hq as [Hq|[<-|[]]]; [apply H, Hq|exact I].
    - split; [exact F|]. intros q Hq. apply in_app_or in Hq.
      destruct Hq as [Hq|[<-|Hq]]; [|exact I|]; apply H, in_or_app; [left|right; right]; exact Hq.
  Qed.
  Lemma s_ok_reach s : size_reach files s -> s_ok s.
  Proof.
    intros R. induction R as [|a b R IH S]; [|apply (s_ok_step a b IH S)]. split; [left; reflexivity|]. intros p [].
  Qed.

  (** In all histories with any number of callers and kills: a number that is returned is the number of tokens of the corpus, and the only
      exception is ValueError. *)
  Theorem C80_never_wrong s r : size_reach files s -> In (SDone r) (s_procs s) ->
    r = Ok (Z.of_nat (length (corpus_tokens files))) \/ r = Err ValueError.
  Proof. intros R H. apply (proj2 (s_ok_reach s R) (SDone r) H). Qed.

  (** ** Calls one after the other, none of them killed: no exception *)
  (** a call that runs alone to its end *)
  Inductive alone : option str -> sp -> option str -> sp -> Prop :=
  | alone_refl f p : alone f p f p
  | alone_next f p f' p' f'' p'' : sstep files f p f' p' -> alone f' p' f'' p'' -> alone f p f'' p''.

  Inductive one_by_one : option str -> list (res Z) -> Prop :=
  | obo_none : one_by_one None []
  | obo_call f l f' r : one_by_one f l -> alone f SStart f' (SDone r) -> one_by_one f' (l ++ [r]).

  Lemma alone_right f p f' r : alone f p f' (SDone r) ->
    match p with
    | SStart => f = None \/ f = Some (dec (N.of_nat right))
    | SCalc => True
    | SOpen n | SWrite n => n = right
    | SRead => f = Some (dec (N.of_nat right))
    | SDone r0 => r0 = Ok (Z.of_nat right) /\ f = Some (dec (N.of_nat right))
    | SKilled => True
    end -> r = Ok (Z.of_nat right) /\ f' = Some (dec (N.of_nat right)).
  Proof.
    intros A. remember (SDone r) as e eqn:E. induction A as [f p|f p f1 p1 f2 p2 S A IH]; intros H.
    - subst p. exact H.
    - apply (IH E). destruct S as [s| |f fs P|f n|f n|s|]; cbn in *; auto.
      + destruct H as [H|H]; [discriminate|exact H].
      + apply size_perm, P.
      + congruence.
      + injection H as ->. rewrite parse_int_dec, nat_N_Z. auto.
      + discriminate.
  Qed.

  Theorem C80_one_by_one f l : one_by_one f l -> Forall (fun r => r = Ok (Z.of_nat (length (corpus_tokens files)))) l.
  Proof.
    intros O. assert (X : Forall (fun r => r = Ok (Z.of_nat right)) l /\ (f = None \/ f = Some (dec (N.of_nat right)))); [|apply X].
    induction O as [|f l f' r O [F IH] A]; [split; [constructor|left; reflexivity]|].
    destruct (alone_right _ _ _ _ A IH) as [-> E]. split; [|right; exact E]. apply Forall_app. auto.
  Qed.

  (** ** Killed between opening and writing: every later call raises ValueError *)
  Inductive later : sstate -> sstate -> Prop :=
  | later_refl s : later s s
  | later_next a b c : sys_size files a b -> later b c -> later a c.

  Theorem C80_killed_refuted l s : (forall p, In p l -> p = SKilled) -> later {| s_file := Some []; s_procs := l |} s ->
    s_file s = Some [] /\ forall r, In (SDone r) (s_procs s) -> r = Err ValueError.
  Proof.
    intros K L.
    assert (G : forall a, later a s -> s_file a = Some [] ->
              (forall p, In p (s_procs a) -> p = SKilled \/ p = SStart \/ p = SRead \/ p = SDone (Err ValueError)) ->
              s_file s = Some [] /\ forall p, In p (s_procs s) -> p = SKilled \/ p = SStart \/ p = SRead \/ p = SDone (Err ValueError)).
    { clear. intros a L. induction L as [s|a b c S L IH]; intros F H; [auto|]. apply IH; clear IH L.
      - destruct S as [f f' l1 p p' l2 P|f l|f l1 p l2]; cbn [s_file s_procs] in *; auto. specialize (H p (in_elt _ _ _)).
        destruct P; auto; destruct H as [H|[H|[H|H]]]; discriminate.
      - destruct S as [f f' l1 p p' l2 P|f l|f l1 p l2]; cbn [s_file s_procs] in *.
        + pose proof (H p (in_elt _ _ _)) as Hp. intros q Hq. apply in_app_or in Hq.
          destruct Hq as [Hq|[<-|Hq]]; [apply H, in_or_app; left; exact Hq| |apply H, in_or_app; right; right; exact Hq].
          destruct P; auto; try (destruct Hp as [Hp|[Hp|[Hp|Hp]]]; discriminate); try discriminate. injection F as ->. auto.
        + intros q Hq. apply in_app_or in Hq. destruct Hq as [Hq|[<-|[]]]; [apply H, Hq|auto].
        + intros q Hq. apply in_app_or in Hq. destruct Hq as [Hq|[<-|Hq]]; [|auto|]; apply H, in_or_app; [left|right; right]; exact Hq. }
    destruct (G _ L eq_refl) as [F H]; [intros p Hp; left; apply K, Hp|]. split; [exact F|].
    intros r Hr. destruct (H _ Hr) as [E|[E|[E|E]]]; congruence.
  Qed.

  (** such a state is reached whatever the corpus is *)
  Theorem C80_killed_reachable : size_reach files {| s_file := Some []; s_procs := [SKilled] |}.
  Proof.
    assert (R := sr_init files).
    eapply sr_next in R; [|apply (ss_start files)]. cbn [app] in R.
    eapply sr_next in R; [|eapply (ss_step files _ _ [] _ _ []), size_missing]. cbn [app] in R.
    eapply sr_next in R; [|eapply (ss_step files _ _ [] _ _ []), size_calc, Permutation_refl]. cbn [app] in R.
    eapply sr_next in R; [|eapply (ss_step files _ _ [] _ _ []), size_open]. cbn [app] in R.
    eapply sr_next in R; [|apply (ss_kill files _ [] _ [])]. exact R.
  Qed.

  (** Two calls at the same time, without any kill: one of them can fail because the other one has just opened the file *)
  Theorem C80_at_the_same_time_refuted : exists s, size_reach files s /\
    s_procs s = [SDone (Err ValueError); SDone (Ok (Z.of_nat (length (corpus_tokens files))))].
  Proof.
    assert (R := sr_init files).
    eapply sr_next in R; [|apply (ss_start files)]. cbn [app] in R.
    eapply sr_next in R; [|apply (ss_start files)]. cbn [app] in R.
    eapply sr_next in R; [|eapply (ss_step files _ _ [SStart] _ _ []), size_missing]. cbn [app] in R.
    eapply sr_next in R; [|eapply (ss_step files _ _ [SStart] _ _ []), size_calc, Permutation_refl]. cbn [app] in R.
    eapply sr_next in R; [|eapply (ss_step files _ _ [SStart] _ _ []), size_open]. cbn [app] in R.
    eapply sr_next in R; [|eapply (ss_step files _ _ [] SStart SRead [_]), size_exists]. cbn [app] in R.
    eapply sr_next in R; [|eapply (ss_step files _ _ [] SRead _ [_]), size_read]. cbn [app] in R.
    eapply sr_next in R; [|eapply (ss_step files _ _ [_] _ _ []), size_write]. cbn [app] in R.
    eapply sr_next in R; [|eapply (ss_step files _ _ [_] SRead _ []), size_read]. cbn [app] in R.
    eexists. split; [exact R|]. cbn [s_procs].
    rewrite (size_perm files (Permutation_refl _)), parse_int_dec, nat_N_Z. reflexivity.
  Qed.
End C80.
Print Assumptions C80_never_wrong.
Print Assumptions C80_one_by_one.
Print Assumptions C80_killed_refuted.
Print Assumptions C80_killed_reachable.
Print Assumptions C80_at_the_same_time_refuted.

(** two calls for a corpus of two files with seven tokens; the line end belongs to the last word of a line *)
Example C80_ex : one_by_one [lit "a b c" ++ [10%N] ++ lit "d"; lit "e f g"] (Some (lit "7")) [Ok 7%Z; Ok 7%Z].
Proof.
  apply (obo_call _ (Some (lit "7")) [Ok 7%Z]); [apply (obo_call _ None []); [constructor|]|].
  - eapply alone_next; [apply size_missing|]. eapply alone_next; [apply size_calc, Permutation_refl|].
    eapply alone_next; [apply size_open|]. eapply alone_next; [apply size_write|].
    eapply alone_next; [apply size_read|]. vm_compute. apply alone_refl.
  - eapply alone_next; [apply size_exists|]. eapply alone_next; [apply size_read|]. vm_compute. apply alone_refl.
Qed.
