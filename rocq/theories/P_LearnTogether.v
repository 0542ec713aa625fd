(** C103: learn-bpe commands for one dataset at the same time. *)
From Verif Require Import M_Base L_Base M_Literal L_Literal S_Bpe L_Bpe M_Merge L_Merge M_BpeEncode L_BpeEncode
  M_Learn P_Queue L_Learn P_Learn M_Vocab L_Vocab P_Vocab M_Registry P_Registry M_BpeRun P_BpeRun M_LearnTogether.
From Coq Require Import Lia Permutation.

Definition one_symbol (v : split_vocab) : Prop := Forall (fun wf => length (fst wf) = 1) v.

(** what a command for [n] merges saves as [k] merges *)
Definition result (c : corpus) (n k : nat) (files : contents) : Prop :=
  exists l v, greedy (characters c) l v /\ length l = k /\ k <= n /\ (k < n -> one_symbol v) /\
    files = results (split_words c v) (ml_of l).

Definition key (p : tproc) : list nat := match p with TSaving _ k _ => [k] | _ => [] end.
Definition keys (ps : list tproc) : list nat := flat_map key ps.

Definition partly (files : contents) (d : bdir) : Prop := stopped files d \/ d = complete files.

Definition proc_ok (c : corpus) (dirs : bstate) (sk : list nat) (p : tproc) : Prop :=
  match p with
  | TStart _ | TListed _ None => True
  | TListed n (Some k) => k <= n /\ ~ In k sk /\ exists d, dget dirs k = Some d /\ saved c k d
  | TRead n k done => k <= n /\ ~ In k sk /\ exists l v, greedy (characters c) l v /\ length l = k /\ done = ml_of l /\
      dget dirs k = Some (complete (results (split_words c v) (ml_of l)))
  | TPrepared n done v other => exists l, greedy (characters c) l v /\ length l <= n /\ done = ml_of l /\ other = other_strings c
  | TLearned n k files | TChecked n k files => result c n k files
  | TSaving n k files => result c n k files /\ exists d, dget dirs k = Some d /\ partly files d
  | TEnded n Learned => exists k files, result c n k files /\ dget dirs k = Some (complete files) /\ ~ In k sk
  | TEnded n AlreadyThere | TEnded n DirExists => exists k files, result c n k files /\ dmem dirs k = true
  | TEnded _ (Raised _) => False
  end.

Definition state_ok (c : corpus) (s : tstate) : Prop :=
  NoDup (keys (t_procs s)) /\
  (forall k d, dget (t_dirs s) k = Some d -> In k (keys (t_procs s)) \/ saved c k d) /\
  Forall (proc_ok c (t_dirs s) (keys (t_procs s))) (t_procs s).

Lemma dmem_get {V} (d : dict nat V) k : dmem d k = true <-> exists v, dget d k = Some v.
Proof. unfold dmem. destruct (dget d k) as [v|]; split; eauto; try discriminate. intros (v & [=]). Qed.
Lemma dmem_none {V} (d : dict nat V) k : dmem d k = false <-> dget d k = None.
Proof. unfold dmem. destruct (dget d k) as [v|]; split; congruence. Qed.

Lemma writes_partly files d d' : writes files d d' -> partly files d'.
Proof.
  intros [o p q H _|o p q H _|o p q H _|o p q H _]; [left; econstructor; exact H..|].
  destruct q as [|x q]; [right|left; econstructor; [exact H|discriminate]]. rewrite app_nil_r in H. subst p. reflexivity.
Qed.

Lemma partly_goes files d : partly files d -> d = complete files \/ exists d', writes files d d'.
Proof.
  intros [H|H]; [right|left; exact H]. destruct H as [|p q H|p q H|p q H|p q H Hq].
  - eexists. apply (wr_res files None [] (c_res files)); reflexivity.
  - destruct q as [|x q].
    + rewrite app_nil_r in H. subst p. eexists. apply (wr_cache files None [] (c_cache files)); reflexivity.
    + eexists. apply (wr_res files (Some p) (p ++ x :: q) []); [rewrite app_nil_r; exact H|]. exists (x :: q). split; [discriminate|reflexivity].
  - destruct q as [|x q].
    + rewrite app_nil_r in H. subst p. eexists. apply (wr_merges files None [] (c_merges files)); reflexivity.
    + eexists. apply (wr_cache files (Some p) (p ++ x :: q) []); [rewrite app_nil_r; exact H|]. exists (x :: q). split; [discriminate|reflexivity].
  - destruct q as [|x q].
    + rewrite app_nil_r in H. subst p. eexists. apply (wr_reass files None [] (c_reass files)); reflexivity.
    + eexists. apply (wr_merges files (Some p) (p ++ x :: q) []); [rewrite app_nil_r; exact H|]. exists (x :: q). split; [discriminate|reflexivity].
  - eexists. apply (wr_reass files (Some p) (p ++ q) []); [rewrite app_nil_r; exact H|]. exists q. split; [exact Hq|reflexivity].
Qed.

(** what the other commands know stays right *)
Lemma frame c dirs dirs' sk sk' q :
  (forall k d, dget dirs k = Some d -> ~ In k sk -> dget dirs' k = Some d /\ ~ In k sk') ->
  (forall k, dmem dirs k = true -> dmem dirs' k = true) ->
  (forall k, In k (key q) -> dget dirs' k = dget dirs k) ->
  proc_ok c dirs sk q -> proc_ok c dirs' sk' q.
Proof.
  intros F1 F2 F3. destruct q as [n|n [k|]|n k done|n done v other|n k files|n k files|n k files|n [| | |e]]; cbn [proc_ok]; auto.
  - intros (A & B & d & D & S). destruct (F1 _ _ D B) as [D' B']. split; [exact A|]. split; [exact B'|]. eauto.
  - intros (A & B & l & v & G & L & M & D). destruct (F1 _ _ D B) as [D' B']. split; [exact A|]. split; [exact B'|]. exists l, v. auto.
  - intros (R & d & D & P). split; [exact R|]. exists d. split; [|exact P]. rewrite F3; [exact D|]. left. reflexivity.
  - intros (k & files & R & D & B). exists k, files. split; [exact R|]. apply (F1 _ _ D B).
  - intros (k & files & R & D). exists k, files. auto.
  - intros (k & files & R & D). exists k, files. auto.
Qed.

Lemma keys_app a b : keys (a ++ b) = keys a ++ keys b.
Proof. apply flat_map_app. Qed.
Lemma keys_mid l1 p l2 : keys (l1 ++ p :: l2) = keys l1 ++ key p ++ keys l2.
Proof. rewrite keys_app. reflexivity. Qed.
Lemma in_keys k q ps : In q ps -> In k (key q) -> In k (keys ps).
Proof. intros H1 H2. apply in_flat_map. eauto. Qed.

Section Together.
  Variable py_int : str -> option Z.
  Hypothesis py_int_dec : forall k, py_int (dec k) = Some (Z.of_N k).
  Variable c : corpus.
  Hypothesis Hc : corpus_ok c.

  Lemma learned_ok n l0 v0 : greedy (characters c) l0 v0 -> length l0 <= n ->
    exists k files, learned_from n (ml_of l0) v0 (other_strings c) = Ok (k, files) /\ result c n k files.
  Proof.
    intros G0 Hn. destruct (learn_rest c l0 v0 n Hc G0) as (l & v' & new & G & E1 & E2 & E3 & E4 & E5 & _).
    exists (length (l0 ++ l)), (results (split_words c v') (ml_of (l0 ++ l))). split.
    - unfold learned_from. assert (Lm : length (ml_of l0) = length l0) by (unfold ml_of; rewrite ml_from_length, map_length; reflexivity).
      rewrite Lm, E1. cbn [bind]. rewrite E3. cbn [bind]. rewrite E2. unfold ml_of at 1. rewrite ml_from_length, map_length. reflexivity.
    - exists (l0 ++ l), v'. rewrite app_length. split; [exact G|]. split; [reflexivity|]. split; [lia|]. split; [|reflexivity].
      intros Hlt. apply E5. lia.
  Qed.

  (** a command that changes no directory *)
  Lemma same_dirs dirs p p' l1 l2 :
    state_ok c {| t_dirs := dirs; t_procs := l1 ++ p :: l2 |} -> key p = [] -> key p' = [] ->
    proc_ok c dirs (keys (l1 ++ p :: l2)) p' -> state_ok c {| t_dirs := dirs; t_procs := l1 ++ p' :: l2 |}.
  Proof.
    intros (I1 & I2 & I3) Kp Kp' P. unfold state_ok in *. cbn [t_dirs t_procs] in *.
    assert (E : keys (l1 ++ p' :: l2) = keys (l1 ++ p :: l2)) by (rewrite !keys_mid, Kp, Kp'; reflexivity).
    rewrite E. split; [exact I1|]. split; [exact I2|]. apply Forall_app in I3. destruct I3 as [A B]. inversion B as [|? ? _ B2]; subst.
    apply Forall_app. split; [exact A|constructor; assumption].
  Qed.

  Lemma step_ok s s' : state_ok c s -> apart py_int c s s' -> state_ok c s'.
  Proof.
    intros I H. destruct H as [dirs dirs' p p' l1 l2 H Hlook].
    pose proof I as (I1 & I2 & I3). cbn [t_dirs t_procs] in I1, I2, I3.
    pose proof I3 as I3'. apply Forall_app in I3'. destruct I3' as [A B]. inversion B as [|? ? P B2]; subst. clear B.
    destruct H as [n|n|n k|n k done|n done v other|n k files|n k files Hk|n k files Hk|n k files d d' Hd Hw|n k files Hd].
    - (* looking *)
      assert (K0 : keys (l1 ++ TStart n :: l2) = []).
      { rewrite keys_mid. cbn [key app]. rewrite <- keys_app.
        assert (Hl : forall q, In q (l1 ++ l2) -> saving q = false) by (apply Hlook; reflexivity).
        clear -Hl. induction (l1 ++ l2) as [|q qs IH]; [reflexivity|]. unfold keys. cbn [flat_map].
        pose proof (Hl q (or_introl eq_refl)) as Hq. destruct q; try discriminate; cbn [key app]; apply IH; intros; apply Hl; right; assumption. }
      apply (same_dirs dirs (TStart n)); [exact I|reflexivity..|]. rewrite K0.
      pose proof (most_merges_spec py_int py_int_dec dirs n) as M. destruct (most_merges py_int dirs n) as [k|]; [|exact Logic.I].
      destruct M as (M1 & M2 & _). cbn [proc_ok]. split; [lia|]. split; [intros []|].
      destruct (dget dirs k) as [d|] eqn:D.
      + exists d. split; [reflexivity|]. destruct (I2 _ _ D) as [Hin|Hs]; [|exact Hs]. rewrite K0 in Hin. destruct Hin.
      + exfalso. apply dget_none in D. contradiction.
    - rewrite (scratch_prepared c Hc). apply (same_dirs dirs (TListed n None)); [exact I|reflexivity..|].
      exists []. split; [constructor|]. split; [apply Nat.le_0_l|]. split; reflexivity.
    - cbn [proc_ok] in P. destruct P as (P1 & P2 & d & D & l & v & G & L & ->).
      destruct (greedy_words _ _ _ Hc G) as (_ & _ & _ & G1 & G2).
      unfold read_done. rewrite D. cbn [complete f_merges open_file bind results c_merges]. rewrite (merges_back l G2 G1).
      apply (same_dirs dirs (TListed n (Some k))); [exact I|reflexivity..|]. cbn [proc_ok]. split; [exact P1|]. split; [exact P2|]. exists l, v. auto.
    - cbn [proc_ok] in P. destruct P as (P1 & P2 & l & v & G & L & -> & D).
      unfold read_vocab. rewrite D. rewrite (resume_prepared c l v _ Hc G) by reflexivity.
      apply (same_dirs dirs (TRead n k (ml_of l))); [exact I|reflexivity..|]. cbn [proc_ok]. exists l. rewrite L. auto.
    - cbn [proc_ok] in P. destruct P as (l & G & L & -> & ->). destruct (learned_ok n l v G L) as (k & files & -> & R).
      apply (same_dirs dirs (TPrepared n (ml_of l) v (other_strings c))); [exact I|reflexivity..|exact R].
    - cbn [proc_ok] in P. destruct (dmem dirs k) eqn:Hk; (apply (same_dirs dirs (TLearned n k files)); [exact I|reflexivity..|]); [|exact P].
      exists k, files. auto.
    - (* the directory is made *)
      cbn [proc_ok] in P. apply dmem_none in Hk. rewrite keys_mid in I1, I2, A, B2. cbn [key app] in I1, I2, A, B2.
      assert (Nk : ~ In k (keys l1 ++ keys l2)).
      { intros Hin. apply in_app_or in Hin. assert (Q : exists q, In q (l1 ++ l2) /\ In k (key q)).
        { destruct Hin as [Hin|Hin]; apply in_flat_map in Hin; destruct Hin as (q & Q1 & Q2); exists q; (split; [apply in_or_app|exact Q2]); auto. }
        destruct Q as (q & Q1 & Q2). assert (PQ : proc_ok c dirs (keys l1 ++ keys l2) q).
        { apply in_app_or in Q1. rewrite Forall_forall in A, B2. destruct Q1; auto. }
        destruct q; try destruct Q2 as [<-|[]]; try (destruct Q2; fail). cbn [proc_ok] in PQ. destruct PQ as (_ & d & D & _). congruence. }
      assert (Fr : forall q, In q (l1 ++ l2) -> proc_ok c dirs (keys l1 ++ keys l2) q ->
                   proc_ok c (dset dirs k empty_dir) (keys l1 ++ k :: keys l2) q).
      { intros q Hq. apply frame.
        - intros k0 d D B0. assert (k0 <> k) by congruence. split; [rewrite dget_dset_neq; auto|].
          intros Hin. apply in_app_or in Hin. destruct Hin as [Hin|[Hin|Hin]]; [apply B0, in_or_app; auto|congruence|apply B0, in_or_app; auto].
        - intros k0 H0. apply dmem_get in H0. destruct H0 as (d & D). apply dmem_get. exists d. rewrite dget_dset_neq; [exact D|congruence].
        - intros k0 H0. apply dget_dset_neq. intros ->. apply Nk. rewrite <- keys_app. eapply in_keys; eassumption. }
      unfold state_ok. cbn [t_dirs t_procs]. rewrite keys_mid. cbn [key app]. split.
      { apply NoDup_Add with (a := k) (l := keys l1 ++ keys l2); [apply Add_app|]. split; assumption. }
      split.
      { intros k0 d D. destruct (Nat.eq_dec k0 k) as [->|Hne]; [left; apply in_or_app; right; left; reflexivity|].
        rewrite dget_dset_neq in D by congruence. destruct (I2 _ _ D) as [Hin|Hs]; [left|right; exact Hs].
        apply in_app_or in Hin. apply in_or_app. destruct Hin; [left|right; right]; assumption. }
      apply Forall_app. rewrite Forall_forall in A, B2. split; [|constructor].
      + apply Forall_forall. intros q Hq. apply Fr; [apply in_or_app; auto|apply A, Hq].
      + cbn [proc_ok]. split; [exact P|]. exists empty_dir. split; [apply dget_dset_eq|]. left. constructor.
      + apply Forall_forall. intros q Hq. apply Fr; [apply in_or_app; auto|apply B2, Hq].
    - cbn [proc_ok] in P. apply (same_dirs dirs (TChecked n k files)); [exact I|reflexivity..|]. exists k, files. auto.
    - (* writing *)
      cbn [proc_ok] in P. destruct P as (R & _). rewrite keys_mid in I1, I2, A, B2. cbn [key app] in I1, I2, A, B2.
      assert (Nk : ~ In k (keys l1 ++ keys l2)) by (apply NoDup_remove_2, I1).
      assert (Fr : forall q, In q (l1 ++ l2) -> proc_ok c dirs (keys l1 ++ k :: keys l2) q ->
                   proc_ok c (dset dirs k d') (keys l1 ++ k :: keys l2) q).
      { intros q Hq. apply frame.
        - intros k0 d0 D B0. assert (k0 <> k) by (intros ->; apply B0, in_or_app; right; left; reflexivity).
          split; [rewrite dget_dset_neq; auto|exact B0].
        - intros k0 H0. apply dmem_get in H0. destruct H0 as (d0 & D). apply dmem_get. destruct (Nat.eq_dec k0 k) as [->|Hne].
          + exists d'. apply dget_dset_eq.
          + exists d0. rewrite dget_dset_neq; [exact D|congruence].
        - intros k0 H0. apply dget_dset_neq. intros ->. apply Nk. rewrite <- keys_app. eapply in_keys; eassumption. }
      unfold state_ok. cbn [t_dirs t_procs]. rewrite keys_mid. cbn [key app]. split; [exact I1|]. split.
      { intros k0 d0 D. destruct (Nat.eq_dec k0 k) as [->|Hne]; [left; apply in_or_app; right; left; reflexivity|].
        rewrite dget_dset_neq in D by congruence. apply (I2 _ _ D). }
      apply Forall_app. rewrite Forall_forall in A, B2. split; [|constructor].
      + apply Forall_forall. intros q Hq. apply Fr; [apply in_or_app; auto|apply A, Hq].
      + cbn [proc_ok]. split; [exact R|]. exists d'. split; [apply dget_dset_eq|]. eapply writes_partly, Hw.
      + apply Forall_forall. intros q Hq. apply Fr; [apply in_or_app; auto|apply B2, Hq].
    - (* saved *)
      cbn [proc_ok] in P. destruct P as (R & _). rewrite keys_mid in I1, I2, A, B2. cbn [key app] in I1, I2, A, B2.
      assert (Nk : ~ In k (keys l1 ++ keys l2)) by (apply NoDup_remove_2, I1).
      assert (Fr : forall q, In q (l1 ++ l2) -> proc_ok c dirs (keys l1 ++ k :: keys l2) q -> proc_ok c dirs (keys l1 ++ keys l2) q).
      { intros q Hq. apply frame; auto. intros k0 d0 D B0. split; [exact D|]. intros Hin. apply B0.
        apply in_app_or in Hin. apply in_or_app. destruct Hin; [left|right; right]; assumption. }
      unfold state_ok. cbn [t_dirs t_procs]. rewrite keys_mid. cbn [key app]. split; [eapply NoDup_remove_1, I1|]. split.
      { intros k0 d0 D. destruct (I2 _ _ D) as [Hin|Hs]; [|right; exact Hs]. apply in_app_or in Hin. destruct Hin as [Hin|[<-|Hin]].
        - left. apply in_or_app. auto.
        - right. rewrite Hd in D. injection D as <-. destruct R as (l & v & G & L & _ & _ & ->). exists l, v. auto.
        - left. apply in_or_app. auto. }
      apply Forall_app. rewrite Forall_forall in A, B2. split; [|constructor].
      + apply Forall_forall. intros q Hq. apply Fr; [apply in_or_app; auto|apply A, Hq].
      + cbn [proc_ok]. exists k, files. auto.
      + apply Forall_forall. intros q Hq. apply Fr; [apply in_or_app; auto|apply B2, Hq].
  Qed.

  Lemma apart_ok s : t_apart py_int c s -> state_ok c s.
  Proof.
    induction 1 as [|n s _ IH|s s' _ IH H].
    - split; [constructor|]. split; [discriminate|constructor].
    - destruct IH as (I1 & I2 & I3). unfold state_ok, t_started. cbn [t_dirs t_procs].
      assert (E : keys (t_procs s ++ [TStart n]) = keys (t_procs s)) by (rewrite keys_app; apply app_nil_r).
      rewrite E. split; [exact I1|]. split; [exact I2|]. apply Forall_app. split; [exact I3|]. constructor; [exact I|constructor].
    - eapply step_ok; eassumption.
  Qed.

  (** C103: Commands for the same dataset at the same time, none of which looks for earlier results while another one is saving.
      Every directory that is not being written has complete results of textbook learning.  No command fails except that its
      directory was made by another one in the meantime; each that has ended has found or made a directory of as many merges as it
      has learned, which are as many as it was asked for unless every word has become one symbol. *)
  Theorem C103_together : forall s, t_apart py_int c s ->
    (forall k d, dget (t_dirs s) k = Some d ->
       (exists n files, In (TSaving n k files) (t_procs s)) \/
       (exists l v, greedy (characters c) l v /\ length l = k /\ has_results c l v d)) /\
    (forall n r, In (TEnded n r) (t_procs s) ->
       In r [Learned; AlreadyThere; DirExists] /\
       exists l v d, greedy (characters c) l v /\ length l <= n /\ (length l < n -> Forall (fun wf => length (fst wf) = 1) v) /\
         dget (t_dirs s) (length l) = Some d /\ (r = Learned -> has_results c l v d)).
  Proof.
    intros s H. destruct (apart_ok s H) as (I1 & I2 & I3). split.
    - intros k d D. destruct (I2 _ _ D) as [Hin|(l & v & G & L & ->)].
      + left. apply in_flat_map in Hin. destruct Hin as (q & Q1 & Q2). destruct q; try destruct Q2 as [<-|[]]; try (destruct Q2; fail). eauto.
      + right. exists l, v. split; [exact G|]. split; [exact L|]. apply saved_results; assumption.
    - intros n r Hin. rewrite Forall_forall in I3. specialize (I3 _ Hin). destruct r as [| | |e]; cbn [proc_ok] in I3.
      + destruct I3 as (k & files & (l & v & G & L & Hk & Hs & ->) & D & _). split; [left; reflexivity|].
        exists l, v, (complete (results (split_words c v) (ml_of l))). subst k. repeat (split; [assumption|]). intros _. apply saved_results; assumption.
      + destruct I3 as (k & files & (l & v & G & L & Hk & Hs & ->) & D). split; [right; left; reflexivity|].
        apply dmem_get in D. destruct D as (d & D). exists l, v, d. subst k. repeat (split; [assumption|]). discriminate.
      + destruct I3 as (k & files & (l & v & G & L & Hk & Hs & ->) & D). split; [right; right; left; reflexivity|].
        apply dmem_get in D. destruct D as (d & D). exists l, v, d. subst k. repeat (split; [assumption|]). discriminate.
      + destruct I3.
  Qed.

  (** a command can always go on until all have ended *)
  Theorem C103_progress : forall s, t_apart py_int c s ->
    (forall p, In p (t_procs s) -> exists n r, p = TEnded n r) \/ exists s', apart py_int c s s'.
  Proof.
    intros s H. destruct (apart_ok s H) as (I1 & I2 & I3). destruct s as [dirs ps]. cbn [t_dirs t_procs] in *.
    assert (Go : forall p, In p ps -> looks p = false -> (forall n r, p <> TEnded n r) -> exists s', apart py_int c {| t_dirs := dirs; t_procs := ps |} s').
    { intros p Hin Hl Hne. rewrite Forall_forall in I3. pose proof (I3 _ Hin) as P.
      apply in_split in Hin. destruct Hin as (l1 & l2 & ->).
      assert (D : exists dirs' p', tdoes py_int c dirs p dirs' p').
      { destruct p as [n|n [k|]|n k done|n done v other|n k files|n k files|n k files|n r]; try discriminate.
        - do 2 eexists. apply td_merges.
        - do 2 eexists. apply td_scratch.
        - do 2 eexists. apply td_vocab.
        - do 2 eexists. apply td_learn.
        - do 2 eexists. apply td_exists.
        - destruct (dmem dirs k) eqn:Hk; do 2 eexists; [apply td_makedirs_fails|apply td_makedirs]; exact Hk.
        - cbn [proc_ok] in P. destruct P as (_ & d & D & Pd). destruct (partly_goes _ _ Pd) as [->|(d' & W)].
          + do 2 eexists. apply td_saved, D.
          + do 2 eexists. eapply td_write; eassumption.
        - exfalso. eapply Hne. reflexivity. }
      destruct D as (dirs' & p' & D). eexists. apply (ap_step _ _ _ _ _ _ _ _ D). rewrite Hl. discriminate. }
    assert (Dec : (exists p, In p ps /\ looks p = false /\ forall n r, p <> TEnded n r) \/
                  (forall p, In p ps -> looks p = true \/ exists n r, p = TEnded n r)).
    { clear. induction ps as [|p ps [IH|IH]].
      - right. intros p [].
      - left. destruct IH as (q & Hq & Hl). exists q. split; [right; exact Hq|exact Hl].
      - destruct p as [n|n k|n k done|n done v other|n k files|n k files|n k files|n r];
          try (left; eexists; split; [left; reflexivity|]; split; [reflexivity|discriminate]);
          (right; intros q [<-|Hq]; [|apply IH, Hq]); [left; reflexivity|right; eauto]. }
    destruct Dec as [(p & Hin & Hl & Hne)|Dec]; [right; eapply Go; eassumption|].
    assert (Dec' : (exists n, In (TStart n) ps) \/ forall p, In p ps -> exists n r, p = TEnded n r).
    { revert Dec. clear. induction ps as [|p ps IH]; intros Dec; [right; intros p []|]. destruct (Dec p (or_introl eq_refl)) as [Hl|He].
      - left. destruct p; try discriminate. eexists. left. reflexivity.
      - destruct IH as [(n & Hn)|IH]; [intros q Hq; apply Dec; right; exact Hq|left; exists n; right; exact Hn|right].
        intros q [<-|Hq]; [exact He|apply IH, Hq]. }
    destruct Dec' as [(n & Hn)|Dec']; [right|left; exact Dec']. apply in_split in Hn. destruct Hn as (l1 & l2 & ->).
    eexists. apply (ap_step _ _ _ _ _ _ _ _ (td_list py_int c dirs n)). intros _ q Hq. destruct (Dec q) as [Hl|(m & r & ->)].
    - apply in_app_or in Hq. apply in_or_app. destruct Hq; [left|right; right]; assumption.
    - destruct q; try discriminate. reflexivity.
    - reflexivity.
  Qed.
End Together.
Print Assumptions C103_together.
Print Assumptions C103_progress.

(** A directory that is there and that nobody is writing is never touched again, whatever commands do. *)
Theorem C103_kept : forall py_int c s s' k d,
  t_later py_int c s s' -> dget (t_dirs s) k = Some d -> (forall n files, ~ In (TSaving n k files) (t_procs s)) ->
  dget (t_dirs s') k = Some d.
Proof.
  intros py_int c s s' k d H D N.
  assert (G : dget (t_dirs s') k = Some d /\ forall n files, ~ In (TSaving n k files) (t_procs s')); [|apply G].
  induction H as [|n s1 _ IH|s1 s2 _ IH H]; [split; assumption| |].
  - destruct IH as [IH1 IH2]. split; [exact IH1|]. intros m files Hin. cbn [t_started t_procs] in Hin. apply in_app_or in Hin.
    destruct Hin as [Hin|[[=]|[]]]. exact (IH2 _ _ Hin).
  - destruct IH as [IH1 IH2]. destruct H as [dirs dirs' p p' l1 l2 H]. cbn [t_dirs t_procs] in *.
    assert (O : forall n files, ~ In (TSaving n k files) (l1 ++ l2)).
    { intros n files Hin. apply (IH2 n files). apply in_app_or in Hin. apply in_or_app. destruct Hin; [left|right; right]; assumption. }
    assert (Q : dget dirs' k = Some d /\ forall n files, p' <> TSaving n k files).
    { destruct H as [n|n|n j|n j done|n done v other|n j files|n j files Hj|n j files Hj|n j files e e' Hd Hw|n j files Hd].
      - split; [exact IH1|discriminate].
      - split; [exact IH1|]. destruct (prepare_scratch c). discriminate.
      - split; [exact IH1|]. destruct (read_done dirs j); discriminate.
      - split; [exact IH1|]. destruct (read_vocab c dirs j) as [[? ?]|]; discriminate.
      - split; [exact IH1|]. destruct (learned_from n done v other) as [[? ?]|]; discriminate.
      - split; [exact IH1|]. destruct (dmem dirs j); discriminate.
      - apply dmem_none in Hj. assert (j <> k) by congruence. split; [rewrite dget_dset_neq; auto|]. intros m f [=]. contradiction.
      - split; [exact IH1|discriminate].
      - assert (j <> k). { intros ->. apply (IH2 n files). apply in_or_app. right. left. reflexivity. }
        split; [rewrite dget_dset_neq; auto|]. intros m f [=]. contradiction.
      - split; [exact IH1|discriminate]. }
    destruct Q as [Q1 Q2]. split; [exact Q1|]. intros n files Hin. apply in_app_or in Hin.
    destruct Hin as [Hin|[Hin|Hin]]; [apply (O n files), in_or_app; auto|exact (Q2 _ _ Hin)|apply (O n files), in_or_app; auto].
Qed.
Print Assumptions C103_kept.

(** ** Every command ends *)
Definition rank (p : tproc) : nat :=
  match p with
  | TStart _ => 7 | TListed _ _ => 6 | TRead _ _ _ => 5 | TPrepared _ _ _ _ => 4 | TLearned _ _ _ => 3 | TChecked _ _ _ => 2
  | TSaving _ _ _ => 1 | TEnded _ _ => 0
  end.
Definition size (o : option str) : nat := match o with None => 0 | Some p => S (length p) end.
Definition dir_size (d : bdir) : nat := size (f_res d) + size (f_cache d) + size (f_merges d) + size (f_reass d).
Definition missing (dirs : bstate) (p : tproc) : nat :=
  match p with
  | TSaving _ k files => dir_size (complete files) - match dget dirs k with Some d => dir_size d | None => 0 end
  | _ => 0
  end.
Definition total {A} (f : A -> nat) (l : list A) : nat := fold_right (fun x n => f x + n) 0 l.
Lemma total_app {A} (f : A -> nat) a b : total f (a ++ b) = total f a + total f b.
Proof. induction a as [|x a IH]; [reflexivity|]. cbn [app total fold_right]. fold (total f (a ++ b)). fold (total f a). lia. Qed.
Lemma total_le {A} (f g : A -> nat) l : (forall x, f x <= g x) -> total f l <= total g l.
Proof. intros H. induction l as [|x l IH]; [constructor|]. cbn [total fold_right]. fold (total f l) (total g l). specialize (H x). lia. Qed.
Lemma writes_size files d d' : writes files d d' -> dir_size d < dir_size d' <= dir_size (complete files).
Proof.
  assert (G : forall o p, grows o p -> size o < size (Some p)).
  { intros [p0|] p; cbn [grows size]; [intros (r & Hr & ->); rewrite app_length; destruct r; [congruence|]; cbn [length]; lia|intros ->; cbn; lia]. }
  assert (L : forall x p q : str, x = p ++ q -> size (Some p) <= size (Some x)) by (intros x p q ->; cbn [size]; rewrite app_length; lia).
  intros [o p q H g|o p q H g|o p q H g|o p q H g]; pose proof (G _ _ g); pose proof (L _ _ _ H);
    unfold dir_size; cbn [complete f_res f_cache f_merges f_reass]; unfold size in *; lia.
Qed.

(** no schedule goes on for ever without new commands *)
Theorem C103_ends : forall py_int c, well_founded (fun s' s => tstep py_int c s s').
Proof.
  intros py_int c.
  assert (Lex : forall a b s, total rank (t_procs s) <= a -> total (missing (t_dirs s)) (t_procs s) <= b -> Acc (fun s' s => tstep py_int c s s') s).
  { assert (G : forall a s, total rank (t_procs s) < a -> Acc (fun s' s => tstep py_int c s s') s); [|intros a b s H _; apply (G (S a)); lia].
    induction a as [|a IHa]; [intros; lia|]. intros s Ha. remember (total (missing (t_dirs s)) (t_procs s)) as b eqn:Eb.
    assert (Hb : total (missing (t_dirs s)) (t_procs s) < S b) by lia. clear Eb. revert s Ha Hb. generalize (S b). clear b.
    induction n as [|b IHb]; [intros; lia|]. intros s Ha Hb. constructor. intros s' H. destruct H as [dirs dirs' p p' l1 l2 H].
    cbn [t_dirs t_procs] in Ha, Hb. rewrite total_app in Ha. cbn [total fold_right] in Ha. fold (total rank l2) in Ha.
    assert (Q : rank p' < rank p \/ (exists n k files d d', p = TSaving n k files /\ p' = p /\ dget dirs k = Some d /\ writes files d d' /\ dirs' = dset dirs k d')).
    { destruct H as [n|n|n j|n j done|n done v other|n j files|n j files Hj|n j files Hj|n j files e e' Hd Hw|n j files Hd];
        try (left; cbn; lia).
      - left. destruct (read_done dirs j); cbn; lia.
      - left. destruct (read_vocab c dirs j) as [[? ?]|]; cbn; lia.
      - left. destruct (learned_from n done v other) as [[? ?]|]; cbn; lia.
      - left. destruct (dmem dirs j); cbn; lia.
      - right. exists n, j, files, e, e'. auto. }
    destruct Q as [Q|(n & k & files & d & d' & -> & -> & D & W & ->)].
    - apply IHa. cbn [t_procs]. rewrite total_app. cbn [total fold_right]. fold (total rank l2). lia.
    - apply IHb; cbn [t_dirs t_procs].
      + rewrite total_app. cbn [total fold_right]. fold (total rank l2). lia.
      + destruct (writes_size _ _ _ W) as [W1 W2].
        assert (M : forall q, missing (dset dirs k d') q <= missing dirs q).
        { intros [| | | | | |m j f|]; cbn [missing]; try lia. destruct (Nat.eq_dec j k) as [->|Hne].
          - rewrite dget_dset_eq, D. lia.
          - rewrite dget_dset_neq by congruence. lia. }
        rewrite total_app in Hb |- *. cbn [total fold_right] in Hb |- *. fold (total (missing dirs) l2) in Hb. fold (total (missing (dset dirs k d')) l2).
        pose proof (total_le _ _ l1 M) as M1. pose proof (total_le _ _ l2 M) as M2.
        assert (M0 : missing (dset dirs k d') (TSaving n k files) < missing dirs (TSaving n k files)).
        { cbn [missing]. rewrite dget_dset_eq, D. lia. }
        lia. }
  intros s. eapply Lex; reflexivity.
Qed.
Print Assumptions C103_ends.

(** ** Looking for earlier results while they are being saved *)
Lemma go py_int c s0 dirs dirs' p p' l1 l2 :
  t_later py_int c s0 {| t_dirs := dirs; t_procs := l1 ++ p :: l2 |} -> tdoes py_int c dirs p dirs' p' ->
  t_later py_int c s0 {| t_dirs := dirs'; t_procs := l1 ++ p' :: l2 |}.
Proof. intros H D. eapply tl_step; [exact H|]. constructor. exact D. Qed.

(** two commands, for 2 and for 3 merges *)
Definition ex_A : contents := of_run ex_corpus [] 2.
Definition ex_part : str := firstn 6 (c_merges ex_A).
Definition ex_done : merge_list := match read_merges ex_part None with Ok d => d | Err _ => ml_empty end.
Definition ex_vo : split_vocab * dict str Z := match prepare_resume ex_corpus (complete ex_A) with Ok vo => vo | Err _ => ([], []) end.
Definition ex_B : contents := match learned_from 3 ex_done (fst ex_vo) (snd ex_vo) with Ok (_, f) => f | Err _ => ex_A end.

(** the files of a directory, opened and then written at once *)
Lemma write_file py_int c s0 n k files l1 l2 dirs d d1 d2 :
  t_later py_int c s0 {| t_dirs := dset dirs k d; t_procs := l1 ++ TSaving n k files :: l2 |} ->
  writes files d d1 -> writes files d1 d2 -> (forall a b, dset (dset dirs k a) k b = dset dirs k b) ->
  t_later py_int c s0 {| t_dirs := dset dirs k d2; t_procs := l1 ++ TSaving n k files :: l2 |}.
Proof.
  intros H W1 W2 Hs. rewrite <- (Hs d1 d2). eapply go; [|eapply td_write; [apply dget_dset_eq|exact W2]].
  rewrite <- (Hs d d1). eapply go; [exact H|]. eapply td_write; [apply dget_dset_eq|exact W1].
Qed.
Lemma dset_twice {V} (dirs : dict nat V) k a b : dset (dset dirs k a) k b = dset dirs k b.
Proof.
  induction dirs as [|[j x] dirs IH]; cbn [dset].
  - rewrite eqb_refl. reflexivity.
  - destruct (eqb k j) eqn:E; cbn [dset]; rewrite E; [reflexivity|]. rewrite IH. reflexivity.
Qed.
Lemma whole (x : str) : x <> [] -> grows (Some []) x.
Proof. intros H. exists x. split; [exact H|reflexivity]. Qed.
Lemma all_of (x : str) : x = x ++ [].
Proof. symmetry. apply app_nil_r. Qed.

Lemma save_first py_int c s0 n k files l1 l2 dirs :
  t_later py_int c s0 {| t_dirs := dset dirs k empty_dir; t_procs := l1 ++ TSaving n k files :: l2 |} ->
  c_res files <> [] -> c_cache files <> [] ->
  t_later py_int c s0 {| t_dirs := dset dirs k {| f_res := Some (c_res files); f_cache := Some (c_cache files); f_merges := None; f_reass := None |};
                         t_procs := l1 ++ TSaving n k files :: l2 |}.
Proof.
  intros H N1 N2. eapply write_file; [|eapply (wr_cache files None []); reflexivity|eapply wr_cache; [apply all_of|apply whole, N2]|apply dset_twice].
  eapply write_file; [|eapply (wr_res files None []); reflexivity|eapply wr_res; [apply all_of|apply whole, N1]|apply dset_twice]. exact H.
Qed.
Lemma save_last py_int c s0 n k files l1 l2 dirs :
  t_later py_int c s0 {| t_dirs := dset dirs k {| f_res := Some (c_res files); f_cache := Some (c_cache files); f_merges := Some (c_merges files); f_reass := None |};
                         t_procs := l1 ++ TSaving n k files :: l2 |} ->
  c_reass files <> [] ->
  t_later py_int c s0 {| t_dirs := dset dirs k (complete files); t_procs := l1 ++ TEnded n Learned :: l2 |}.
Proof.
  intros H N. eapply go; [|apply td_saved, dget_dset_eq].
  eapply write_file; [|eapply (wr_reass files None []); reflexivity|eapply wr_reass; [apply all_of|apply whole, N]|apply dset_twice]. exact H.
Qed.

Lemma complete_merges f r ca me re :
  complete f = {| f_res := Some r; f_cache := Some ca; f_merges := Some me; f_reass := Some re |} -> me = c_merges f.
Proof. intros [=]. congruence. Qed.
Lemma two_fst {A B} (x y : A) t (l : list (A * B)) : x :: y :: t = map fst l -> exists m n l', l = (x, m) :: (y, n) :: l'.
Proof. destruct l as [|[a m] [|[b n] l]]; intros [=]. subst. eauto. Qed.
Lemma second_counts v p m q n l v' : greedy v ((p, m) :: (q, n) :: l) v' ->
  (0 < corpus_count (map (fun wf => (merge_pair p (fst wf), snd wf)) v) q)%Z.
Proof. intros G. inversion G as [|? ? ? ? ? _ G2]; subst. inversion G2 as [|? ? ? ? ? (M & P & _) _]; subst. exact P. Qed.

(** finding: a command that looks for earlier results while another one is saving reads the beginning of the list of merges and
    then the complete vocabulary: its own list lacks merges, and no textbook learning gives it.  Both commands end regularly *)
Theorem C103_while_saving_refuted :
  corpus_ok ex_corpus /\
  exists s d, t_later ascii_int ex_corpus t_init s /\ t_procs s = [TEnded 2 Learned; TEnded 3 Learned] /\
    dget (t_dirs s) 3 = Some d /\
    option_map (fun f => match read_merges f None with Ok ml => map m_pair (ml_iter ml) | Err _ => [] end) (f_merges d)
      = Some [(lit "l", lit "o"); (lit "low", lit "@"); (lit "x", lit "@@")] /\
    forall l v, greedy (characters ex_corpus) l v -> ~ has_results ex_corpus l v d.
Proof.
  split; [apply C54_ex|]. set (s0 := t_init). set (vo := prepare_scratch ex_corpus).
  assert (H0 : t_later ascii_int ex_corpus s0 {| t_dirs := []; t_procs := [] ++ TStart 2 :: [TStart 3] |}).
  { apply (tl_start _ _ s0 3 {| t_dirs := []; t_procs := [TStart 2] |}). apply (tl_start _ _ s0 2 t_init). apply tl_here. }
  assert (H1 : t_later ascii_int ex_corpus s0 {| t_dirs := dset [] 2 empty_dir; t_procs := [] ++ TSaving 2 2 ex_A :: [TStart 3] |}).
  { eapply go; [|apply td_makedirs; reflexivity].
    eapply go; [|exact (td_exists ascii_int ex_corpus [] 2 2 ex_A)].
    assert (E : TLearned 2 2 ex_A = match learned_from 2 ml_empty (fst vo) (snd vo) with Ok (k, files) => TLearned 2 k files | Err e => TEnded 2 (Raised e) end)
      by (vm_compute; reflexivity).
    rewrite E. eapply go; [|apply td_learn]. eapply go; [|apply td_scratch]. exact (go _ _ _ _ _ _ _ [] [TStart 3] H0 (td_list ascii_int ex_corpus [] 2)). }
  apply save_first in H1; [|vm_compute; discriminate..].
  assert (W1 : writes ex_A {| f_res := Some (c_res ex_A); f_cache := Some (c_cache ex_A); f_merges := None; f_reass := None |}
                           {| f_res := Some (c_res ex_A); f_cache := Some (c_cache ex_A); f_merges := Some []; f_reass := None |})
    by exact (wr_merges ex_A None [] (c_merges ex_A) eq_refl eq_refl).
  assert (W2 : writes ex_A {| f_res := Some (c_res ex_A); f_cache := Some (c_cache ex_A); f_merges := Some []; f_reass := None |}
                           {| f_res := Some (c_res ex_A); f_cache := Some (c_cache ex_A); f_merges := Some ex_part; f_reass := None |}).
  { eapply (wr_merges ex_A (Some []) ex_part (skipn 6 (c_merges ex_A))); [symmetry; apply firstn_skipn|]. apply whole. vm_compute. discriminate. }
  assert (W3 : writes ex_A {| f_res := Some (c_res ex_A); f_cache := Some (c_cache ex_A); f_merges := Some ex_part; f_reass := None |}
                           {| f_res := Some (c_res ex_A); f_cache := Some (c_cache ex_A); f_merges := Some (c_merges ex_A); f_reass := None |}).
  { eapply (wr_merges ex_A (Some ex_part) (c_merges ex_A)); [apply all_of|]. exists (skipn 6 (c_merges ex_A)).
    split; [vm_compute; discriminate|]. symmetry. apply firstn_skipn. }
  pose proof (write_file _ _ _ _ _ _ _ _ _ _ _ _ H1 W1 W2 (dset_twice _ _)) as H2. clear H1.
  (* the other command *)
  set (dp := {| f_res := Some (c_res ex_A); f_cache := Some (c_cache ex_A); f_merges := Some ex_part; f_reass := None |}) in *.
  assert (H3 : t_later ascii_int ex_corpus s0 {| t_dirs := dset [] 2 dp; t_procs := [TSaving 2 2 ex_A] ++ TRead 3 2 ex_done :: [] |}).
  { assert (E : TRead 3 2 ex_done = match read_done (dset [] 2 dp) 2 with Ok done => TRead 3 2 done | Err e => TEnded 3 (Raised e) end)
      by (vm_compute; reflexivity).
    rewrite E. eapply go; [|apply td_merges].
    assert (E2 : TListed 3 (Some 2) = TListed 3 (most_merges ascii_int (dset [] 2 dp) 3)) by (vm_compute; reflexivity).
    rewrite E2. eapply go; [|apply td_list]. exact H2. }
  clear H2.
  assert (H4 : t_later ascii_int ex_corpus s0 {| t_dirs := dset [] 2 (complete ex_A); t_procs := [] ++ TEnded 2 Learned :: [TRead 3 2 ex_done] |}).
  { apply save_last; [|vm_compute; discriminate]. rewrite <- (dset_twice [] 2 dp). eapply go; [exact H3|].
    eapply td_write; [apply dget_dset_eq|exact W3]. }
  clear H3.
  assert (H5 : t_later ascii_int ex_corpus s0 {| t_dirs := dset (dset [] 2 (complete ex_A)) 3 empty_dir; t_procs := [TEnded 2 Learned] ++ TSaving 3 3 ex_B :: [] |}).
  { eapply go; [|apply td_makedirs; reflexivity].
    eapply go; [|exact (td_exists ascii_int ex_corpus (dset [] 2 (complete ex_A)) 3 3 ex_B)].
    assert (E : TLearned 3 3 ex_B = match learned_from 3 ex_done (fst ex_vo) (snd ex_vo) with Ok (k, files) => TLearned 3 k files | Err e => TEnded 3 (Raised e) end)
      by (vm_compute; reflexivity).
    rewrite E. eapply go; [|apply td_learn].
    assert (E2 : TPrepared 3 ex_done (fst ex_vo) (snd ex_vo) = match read_vocab ex_corpus (dset [] 2 (complete ex_A)) 2 with Ok (v, other) => TPrepared 3 ex_done v other | Err e => TEnded 3 (Raised e) end)
      by (vm_compute; reflexivity).
    rewrite E2. eapply go; [|apply td_vocab]. exact H4. }
  apply save_first in H5; [|vm_compute; discriminate..].
  pose proof (write_file _ _ _ _ _ _ _ _ _ _ _ _ H5 (wr_merges ex_B None [] (c_merges ex_B) eq_refl eq_refl)
    (wr_merges ex_B (Some []) (c_merges ex_B) [] (all_of _) (whole (c_merges ex_B) ltac:(vm_compute; discriminate))) (dset_twice _ _)) as H6.
  apply save_last in H6; [|vm_compute; discriminate].
  eexists _, (complete ex_B). split; [exact H6|]. split; [reflexivity|]. split; [apply dget_dset_eq|]. split; [vm_compute; reflexivity|].
  intros l v G (r & ca & me & re & ml & Ed & Em & El & _). apply complete_merges in Ed. subst me.
  assert (Er : exists ml', read_merges (c_merges ex_B) None = Ok ml' /\ map m_pair (ml_iter ml') = [(lit "l", lit "o"); (lit "low", lit "@"); (lit "x", lit "@@")])
    by (vm_compute; eexists; split; reflexivity).
  destruct Er as (ml' & Er & Ep). rewrite Er in Em. injection Em as <-. apply (f_equal (map fst)) in El. rewrite !map_map in El. cbn [fst] in El.
  change (map m_pair (ml_iter ml') = map fst l) in El. rewrite Ep in El.
  apply two_fst in El. destruct El as (n1 & n2 & l' & ->). apply second_counts in G.
  assert (Z : corpus_count (map (fun wf => (merge_pair (lit "l", lit "o") (fst wf), snd wf)) (characters ex_corpus)) (lit "low", lit "@") = 0%Z)
    by (vm_compute; reflexivity).
  rewrite Z in G. exact (Z.lt_irrefl _ G).
Qed.
Print Assumptions C103_while_saving_refuted.

(** three commands: two learn 2 merges at the same time and one of them finds that the directory has been created meanwhile; the
    third one starts when they are done and finds that nothing is to be learned *)
Lemma ago dirs dirs' p p' l1 l2 :
  t_apart ascii_int ex_corpus {| t_dirs := dirs; t_procs := l1 ++ p :: l2 |} -> tdoes ascii_int ex_corpus dirs p dirs' p' ->
  (looks p = true -> forall q, In q (l1 ++ l2) -> saving q = false) ->
  t_apart ascii_int ex_corpus {| t_dirs := dirs'; t_procs := l1 ++ p' :: l2 |}.
Proof. intros H D L. eapply ta_step; [exact H|]. constructor; assumption. Qed.
Lemma awrite n k files l1 l2 dirs d d' :
  t_apart ascii_int ex_corpus {| t_dirs := dset dirs k d; t_procs := l1 ++ TSaving n k files :: l2 |} -> writes files d d' ->
  t_apart ascii_int ex_corpus {| t_dirs := dset dirs k d'; t_procs := l1 ++ TSaving n k files :: l2 |}.
Proof.
  intros H W. rewrite <- (dset_twice dirs k d d'). eapply ago; [exact H| |discriminate]. eapply td_write; [apply dget_dset_eq|exact W].
Qed.
Lemma asave n k files l1 l2 dirs :
  t_apart ascii_int ex_corpus {| t_dirs := dset dirs k empty_dir; t_procs := l1 ++ TSaving n k files :: l2 |} ->
  c_res files <> [] -> c_cache files <> [] -> c_merges files <> [] -> c_reass files <> [] ->
  t_apart ascii_int ex_corpus {| t_dirs := dset dirs k (complete files); t_procs := l1 ++ TEnded n Learned :: l2 |}.
Proof.
  intros H N1 N2 N3 N4. eapply ago; [|apply td_saved, dget_dset_eq|discriminate].
  eapply awrite; [|eapply wr_reass; [apply all_of|apply whole, N4]]. eapply awrite; [|eapply (wr_reass files None []); reflexivity].
  eapply awrite; [|eapply wr_merges; [apply all_of|apply whole, N3]]. eapply awrite; [|eapply (wr_merges files None []); reflexivity].
  eapply awrite; [|eapply wr_cache; [apply all_of|apply whole, N2]]. eapply awrite; [|eapply (wr_cache files None []); reflexivity].
  eapply awrite; [|eapply wr_res; [apply all_of|apply whole, N1]]. eapply awrite; [|eapply (wr_res files None []); reflexivity]. exact H.
Qed.
Example C103_ex : corpus_ok ex_corpus /\
  t_apart ascii_int ex_corpus {| t_dirs := [(2, complete ex_A)]; t_procs := [TEnded 2 Learned; TEnded 2 DirExists; TEnded 2 AlreadyThere] |}.
Proof.
  split; [apply C54_ex|]. set (vo := prepare_scratch ex_corpus).
  assert (E : TLearned 2 2 ex_A = match learned_from 2 ml_empty (fst vo) (snd vo) with Ok (k, files) => TLearned 2 k files | Err e => TEnded 2 (Raised e) end)
    by (vm_compute; reflexivity).
  assert (H0 : t_apart ascii_int ex_corpus {| t_dirs := []; t_procs := [] ++ TStart 2 :: [TStart 2] |})
    by exact (ta_start _ _ 2 _ (ta_start _ _ 2 _ (ta_init _ _))).
  assert (H1 : t_apart ascii_int ex_corpus {| t_dirs := []; t_procs := [] ++ TChecked 2 2 ex_A :: [TStart 2] |}).
  { eapply ago; [|exact (td_exists ascii_int ex_corpus [] 2 2 ex_A)|discriminate]. rewrite E.
    eapply ago; [|apply td_learn|discriminate]. eapply ago; [|apply td_scratch|discriminate].
    refine (ago _ _ _ _ [] [TStart 2] H0 (td_list ascii_int ex_corpus [] 2) _). intros _ q [<-|[]]. reflexivity. }
  assert (H2 : t_apart ascii_int ex_corpus {| t_dirs := []; t_procs := [TChecked 2 2 ex_A] ++ TChecked 2 2 ex_A :: [] |}).
  { eapply ago; [|exact (td_exists ascii_int ex_corpus [] 2 2 ex_A)|discriminate]. rewrite E.
    eapply ago; [|apply td_learn|discriminate]. eapply ago; [|apply td_scratch|discriminate].
    refine (ago _ _ _ _ [TChecked 2 2 ex_A] [] H1 (td_list ascii_int ex_corpus [] 2) _). intros _ q [<-|[]]. reflexivity. }
  pose proof (ago _ _ _ _ [] [TChecked 2 2 ex_A] H2 (td_makedirs ascii_int ex_corpus [] 2 2 ex_A eq_refl) ltac:(discriminate)) as H3.
  pose proof (ago _ _ _ _ [TSaving 2 2 ex_A] [] H3 (td_makedirs_fails ascii_int ex_corpus (dset [] 2 empty_dir) 2 2 ex_A eq_refl) ltac:(discriminate)) as H4.
  pose proof (asave 2 2 ex_A [] _ [] H4 ltac:(vm_compute; discriminate) ltac:(vm_compute; discriminate)
    ltac:(vm_compute; discriminate) ltac:(vm_compute; discriminate)) as H5.
  pose proof (ta_start _ _ 2 _ H5) as H6. unfold t_started in H6. cbn [t_dirs t_procs app] in H6.
  set (dirs := dset [] 2 (complete ex_A)) in *. change [(2, complete ex_A)] with dirs.
  set (two := [TEnded 2 Learned; TEnded 2 DirExists]).
  change (t_apart ascii_int ex_corpus {| t_dirs := dirs; t_procs := two ++ TStart 2 :: [] |}) in H6.
  change (t_apart ascii_int ex_corpus {| t_dirs := dirs; t_procs := two ++ TEnded 2 AlreadyThere :: [] |}).
  eapply ago; [|exact (td_exists ascii_int ex_corpus dirs 2 2 ex_A)|discriminate].
  set (rd := match read_done dirs 2 with Ok done => done | Err _ => ml_empty end).
  set (rv := match read_vocab ex_corpus dirs 2 with Ok vo => vo | Err _ => ([], []) end).
  assert (E2 : TLearned 2 2 ex_A = match learned_from 2 rd (fst rv) (snd rv) with Ok (k, files) => TLearned 2 k files | Err e => TEnded 2 (Raised e) end)
    by (vm_compute; reflexivity).
  rewrite E2. eapply ago; [|apply td_learn|discriminate].
  assert (E3 : TPrepared 2 rd (fst rv) (snd rv) = match read_vocab ex_corpus dirs 2 with Ok (v, other) => TPrepared 2 rd v other | Err e => TEnded 2 (Raised e) end)
    by (vm_compute; reflexivity).
  rewrite E3. eapply ago; [|apply td_vocab|discriminate].
  assert (E4 : TRead 2 2 rd = match read_done dirs 2 with Ok done => TRead 2 2 done | Err e => TEnded 2 (Raised e) end)
    by (vm_compute; reflexivity).
  rewrite E4. eapply ago; [|apply td_merges|discriminate].
  assert (E5 : TListed 2 (Some 2) = TListed 2 (most_merges ascii_int dirs 2)) by (vm_compute; reflexivity).
  rewrite E5. eapply ago; [exact H6|apply td_list|]. intros _ q [<-|[<-|[]]]; reflexivity.
Qed.
