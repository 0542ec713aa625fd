(** C42-C45: parallel merging of partial vocabularies, its interruption and its restart. *)
From Verif Require Import M_Base L_Base M_Literal M_Learn M_Vocab L_Vocab P_Vocab M_Merger L_Merger.
From Coq Require Import Lia Permutation.

Lemma combine_fst {A B} (a : list A) (b : list B) : length a = length b -> map fst (combine a b) = a.
Proof. revert b. induction a as [|x a IH]; intros [|y b] H; try discriminate; [reflexivity|]. cbn. rewrite IH; [reflexivity|]. cbn in H. lia. Qed.
Lemma combine_snd {A B} (a : list A) (b : list B) : length a = length b -> map snd (combine a b) = b.
Proof. revert b. induction a as [|x a IH]; intros [|y b] H; try discriminate; [reflexivity|]. cbn. rewrite IH; [reflexivity|]. cbn in H. lia. Qed.

Lemma created max_groups n_chunks files groups ids l0 : max_groups <> 0 -> n_chunks <> 0 -> files <> [] ->
  groupify files max_groups = Ok groups -> length ids = length groups ->
  initial_partial_vocabs max_groups n_chunks files ids = Ok l0 ->
  map pv_id l0 = ids /\ l0 <> [] /\ has_words (map UPlain l0) (corpus_tokens files).
Proof.
  intros Hm Hc Hf G L E. unfold initial_partial_vocabs in E. rewrite G in E. cbn [bind] in E. injection E as <-.
  assert (LL : length (chunk_labels (length groups) n_chunks) = length groups).
  { rewrite labels_mod by exact Hc. rewrite map_length. apply seq_length. }
  assert (LC : length (combine (chunk_labels (length groups) n_chunks) ids) = length groups) by (rewrite combine_length; lia).
  set (cc := combine (chunk_labels (length groups) n_chunks) ids) in *.
  assert (S : map snd cc = ids) by (apply combine_snd; lia).
  destruct (C46_partition files max_groups groups Hm G) as (P & _).
  assert (W : has_words (map UPlain (map (fun x => let '(g, (chunk, i)) := x in new_pvocab i (get_vocab g) chunk) (combine groups cc)))
                (corpus_tokens files)).
  { exists (map corpus_tokens groups). split.
    - clearbody cc. clear -LC. revert cc LC. induction groups as [|g groups IH]; intros [|[c i] cc] LC; try discriminate; [constructor|].
      cbn. constructor; [|apply IH; cbn in LC; lia]. cbn. constructor. apply C47_partial_vocab.
    - rewrite <- flat_map_concat_map. unfold corpus_tokens. rewrite <- (Permutation_flat_map file_tokens P).
      clear. induction groups as [|g groups IH]; [reflexivity|]. cbn. rewrite flat_map_app. apply Permutation_app_head. exact IH. }
  assert (I : map pv_id (map (fun x => let '(g, (chunk, i)) := x in new_pvocab i (get_vocab g) chunk) (combine groups cc)) = ids).
  { rewrite <- S. clearbody cc. clear -LC. revert cc LC. induction groups as [|g groups IH]; intros [|[c i] cc] LC; try discriminate; [reflexivity|].
    cbn. f_equal. apply IH. cbn in LC. lia. }
  split; [exact I|]. split; [|exact W]. intros Z. rewrite Z in I. cbn in I. rewrite <- I in L.
  destruct groups as [|g groups]; [|discriminate]. apply Permutation_nil in P. exact (Hf P).
Qed.

(** ** The invariant of the whole computation *)
Definition node_ok (ws : list str) (a : node) : Prop :=
  match a with
  | Down d ready size vocab => out_ok ws size vocab /\ (ready = true -> must_run size vocab = true -> complete d ws)
  | Up r => INV r ws
  end.

Lemma must_run_absent ws size vocab : out_ok ws size vocab -> must_run size vocab = true -> vocab = Absent.
Proof. intros [H|[-> [->|(d & _ & ->)]]]; [auto|discriminate..]. Qed.

Lemma node_ok_sys max_groups n_chunks files a b : max_groups <> 0 -> n_chunks <> 0 ->
  sys max_groups n_chunks files a b -> node_ok (corpus_tokens files) a -> node_ok (corpus_tokens files) b.
Proof.
  intros Hm Hc S H. destruct S; cbn [node_ok] in *.
  - eapply inv_step; eassumption.
  - split; [apply inv_out; exact H|]. intros R M. apply inv_complete; assumption.
  - split; [tauto|discriminate].
  - destruct (created _ _ _ _ _ _ Hm Hc H2 H3 H5 H6) as (I & N & W).
    assert (Q : Permutation (map UPlain l0) (map UPlain l)) by (apply Permutation_map; symmetry; assumption).
    apply inv_start; auto.
    + intros ->. apply Permutation_nil in H7. congruence.
    + apply (must_run_absent (corpus_tokens files) size); tauto.
    + split; [rewrite ufiles_plain; reflexivity|]. rewrite uids_plain. apply (Permutation_NoDup (l := map pv_id l0)).
      * apply Permutation_map. symmetry. assumption.
      * rewrite I. assumption.
    + apply (has_words_perm _ _ _ Q W).
  - destruct H as [O C]. split; [exact O|]. intros _ _. destruct (C eq_refl H0) as (us & D & W & N).
    exact (proj1 (finish_all_spec eof _ ts d us D W N H1) d' H2).
  - destruct H as [O C]. destruct (C eq_refl H0) as (us & D & W & N).
    destruct (finish_all_spec eof _ ts d us D W N H2) as (_ & F & _). destruct (F _ H3) as [CC T].
    destruct (load_complete d' ls _ CC T H4) as (l' & E & -> & N' & D' & W'). rewrite E in H5. injection H5 as ->.
    apply inv_start; auto; [apply (must_run_absent (corpus_tokens files) size); tauto|].
    intros f Hf. apply H6. apply (Permutation_in _ H4). exact Hf.
Qed.

Lemma node_ok_reachable max_groups n_chunks files a : max_groups <> 0 -> n_chunks <> 0 ->
  reachable max_groups n_chunks files a -> node_ok (corpus_tokens files) a.
Proof.
  intros Hm Hc R. induction R as [|a b R IH S].
  - split; [left; reflexivity|]. intros Z. discriminate Z.
  - exact (node_ok_sys _ _ _ _ _ Hm Hc S IH).
Qed.

(** ** C42

    However the computation was started, interrupted, restarted and scheduled, once all processes have ended exactly
    one of them has written, the vocabulary file lists each word with its number of occurrences in all files, and
    the size file has the number of distinct words. *)
Theorem C42_result max_groups n_chunks files r : max_groups <> 0 -> n_chunks <> 0 ->
  reachable max_groups n_chunks files (Up r) -> (forall p, In p (r_procs r) -> exists b, p = PDone b) ->
  length (filter (fun p => match p with PDone true => true | _ => false end) (r_procs r)) = 1
  /\ sh_size (r_shared r) = Full (Z.of_nat (length (nodup str_dec (corpus_tokens files))))
  /\ exists d, sh_vocab (r_shared r) = Full (write_vocab d) /\ counts_exactly d (corpus_tokens files).
Proof.
  intros Hm Hc R A. pose proof (node_ok_reachable _ _ _ _ Hm Hc R) as H. cbn in H. destruct H as ((tk & k & C) & _ & O).
  assert (F : forall l, (forall p, In p l -> exists b, p = PDone b) -> sumf past l = length l
      /\ sumf isfin l = length (filter (fun p => match p with PDone true => true | _ => false end) l)).
  { induction l as [|p l IH]; intros Al; [auto|]. destruct IH as [I1 I2]; [intros q Hq; apply Al; right; exact Hq|].
    destruct (Al p (or_introl eq_refl)) as (b & ->). cbn [sumf fold_right filter length] in *. unfold sumf in *. rewrite I1, I2.
    destruct b; cbn; auto. }
  destruct (F _ A) as [F1 F2]. pose proof (ci_past _ _ _ C) as P. pose proof (ci_fin _ _ _ C) as FF.
  assert (K : sh_counter (r_shared r) = 0) by lia. rewrite K, F2 in FF. split; [exact FF|].
  destruct (filter _ (r_procs r)) as [|p l] eqn:E; [discriminate|].
  assert (Ip : In p (p :: l)) by (left; reflexivity). rewrite <- E in Ip. apply filter_In in Ip. destruct Ip as [Ip Tp].
  rewrite Forall_forall in O. specialize (O p Ip). destruct p as [| | |? ? ? ? ?| | | | | | |[]]; try discriminate. cbn in O.
  destruct O as [O1 (d & Hd & O2)]. split; [exact O1|]. exists d. auto.
Qed.

(** At any moment, also after interruptions, a completely written vocabulary file is right. *)
Theorem C42_written max_groups n_chunks files d ready size text : max_groups <> 0 -> n_chunks <> 0 ->
  reachable max_groups n_chunks files (Down d ready size (Full text)) ->
  exists c, text = write_vocab c /\ counts_exactly c (corpus_tokens files)
    /\ size = Full (Z.of_nat (length (nodup str_dec (corpus_tokens files)))).
Proof.
  intros Hm Hc R. pose proof (node_ok_reachable _ _ _ _ Hm Hc R) as [[H|[H1 [H2|(c & Hc' & E)]]] _]; try discriminate.
  injection E as ->. exists c. auto.
Qed.

(** ** C43 *)
Theorem C43_no_deadlock max_groups n_chunks files r : max_groups <> 0 -> n_chunks <> 0 ->
  reachable max_groups n_chunks files (Up r) -> (forall p, In p (r_procs r) -> exists b, p = PDone b) \/ exists r', step r r'.
Proof. intros Hm Hc R. apply (inv_progress r (corpus_tokens files)). apply (node_ok_reachable _ _ _ _ Hm Hc R). Qed.

Inductive steps : nat -> run -> run -> Prop :=
| steps_0 r : steps 0 r r
| steps_S n r r' r'' : step r r' -> steps n r' r'' -> steps (S n) r r''.

(** From any reachable state every run is finite; the bound does not depend on the schedule. *)
Theorem C43_finite max_groups n_chunks files r : max_groups <> 0 -> n_chunks <> 0 ->
  reachable max_groups n_chunks files (Up r) -> exists bound, forall n r', steps n r r' -> n <= bound.
Proof.
  intros Hm Hc R. pose proof (node_ok_reachable _ _ _ _ Hm Hc R) as H. cbn in H. exists (measure r).
  intros n r' S. clear R. induction S as [r|n r r' r'' S _ IH]; [lia|].
  pose proof (inv_measure r r' _ H S). specialize (IH (inv_step _ _ _ H S)). lia.
Qed.

(** Together: every run that is not interrupted can be continued until the right vocabulary is written. *)
Theorem C43_ends max_groups n_chunks files r : max_groups <> 0 -> n_chunks <> 0 ->
  reachable max_groups n_chunks files (Up r) ->
  exists n r' d, steps n r r' /\ sh_vocab (r_shared r') = Full (write_vocab d) /\ counts_exactly d (corpus_tokens files).
Proof.
  intros Hm Hc. remember (measure r) as b eqn:E. revert r E. induction b as [b IH] using lt_wf_ind. intros r -> R.
  destruct (C43_no_deadlock _ _ _ _ Hm Hc R) as [A|(r1 & St)].
  - destruct (C42_result _ _ _ _ Hm Hc R A) as (_ & _ & d & V & C). exists 0, r, d. split; [constructor|auto].
  - assert (R1 : reachable max_groups n_chunks files (Up r1)) by (eapply reach_sys; [exact R|constructor; exact St]).
    pose proof (node_ok_reachable _ _ _ _ Hm Hc R) as H. cbn in H.
    destruct (IH (measure r1) (inv_measure _ _ _ H St) r1 eq_refl R1) as (n & r' & d & SS & V & C).
    exists (S n), r', d. split; [econstructor; eassumption|auto].
Qed.

(** ** C44

    In every state in which an interrupted computation can be found, provided an incomplete file is reported with
    EOFError: for every order in which the directory is listed, the unfinished merges are completed or undone, the
    files are loaded, and together they count each word as often as it occurs in the files. *)
Definition total_count (w : str) (l : list pvocab) : Z := fold_right Z.add 0%Z (map (fun v => counter_get (pv_counts v) w) l).

Lemma total_words l : forall ws, has_words (map UPlain l) ws -> forall w, total_count w l = zcount w ws.
Proof.
  induction l as [|v l IH]; intros ws H w.
  - destruct H as (wss & F & P). inversion F; subst. cbn in P. apply Permutation_nil in P. subst. reflexivity.
  - cbn [map] in H. rewrite has_words_cons in H. destruct H as (wv & wr & B & H & P).
    assert (Q : zcount w ws = zcount w (wv ++ wr)).
    { unfold zcount. f_equal. symmetry. apply (proj1 (Permutation_count_occ str_dec _ _) P). }
    rewrite Q, zcount_app. unfold total_count in *. cbn [map fold_right]. rewrite (IH wr H w). f_equal.
    apply (counts_exactly_get _ _ (built_counts _ _ B)).
Qed.

Theorem C44_restart max_groups n_chunks files d size vocab ts : max_groups <> 0 -> n_chunks <> 0 ->
  reachable max_groups n_chunks files (Down d true size vocab) -> must_run size vocab = true ->
  Permutation ts (triples_of d) ->
  exists d', snd (finish_all true ts d) = Ok d'
    /\ forall ls, Permutation ls d' -> exists l, load_files ls = Ok l /\ forall w, total_count w l = zcount w (corpus_tokens files).
Proof.
  intros Hm Hc R M P. destruct (node_ok_reachable _ _ _ _ Hm Hc R) as [_ C]. destruct (C eq_refl M) as (us & D & W & N).
  destruct (finish_all_spec true _ ts d us D W N P) as (_ & F & E). destruct (E (or_introl eq_refl)) as (d' & Ed').
  exists d'. split; [exact Ed'|]. intros ls Q. destruct (F d' Ed') as [CC T].
  destruct (load_complete d' ls _ CC T Q) as (l & El & _ & _ & _ & W'). exists l. split; [exact El|]. apply total_words, W'.
Qed.

(** If an incomplete file is reported with another exception, restarting fails whenever one is there. *)
Theorem C44_truncated_refuted ts : forall d a b n, In (a, b, n, None) ts -> exists e, snd (finish_all false ts d) = Err e.
Proof.
  induction ts as [|[[[a' b'] n'] c] ts IH]; intros d a b n H; [destruct H|]. cbn [finish_all].
  destruct c as [m|]; [|cbn; eauto]. destruct H as [H|H]; [discriminate|].
  destruct (IH (rename_triple a' b' n' m (rm_plain b' (rm_plain a' d))) a b n H) as (e & E).
  unfold finish_file_dumping. cbn zeta beta iota.
  destruct (finish_all false ts (rename_triple a' b' n' m (rm_plain b' (rm_plain a' d)))) as [tr r]. cbn [snd] in *. eauto.
Qed.

(** ** C45

    Interrupted anywhere except in writing the vocabulary file, the computation leaves either a right vocabulary or
    none, and then the next run computes it. *)
Theorem C45_otherwise max_groups n_chunks files d ready size vocab : max_groups <> 0 -> n_chunks <> 0 ->
  reachable max_groups n_chunks files (Down d ready size vocab) -> vocab <> Part ->
  (vocab = Absent /\ must_run size vocab = true)
  \/ (exists c, vocab = Full (write_vocab c) /\ counts_exactly c (corpus_tokens files)).
Proof.
  intros Hm Hc R N. pose proof (node_ok_reachable _ _ _ _ Hm Hc R) as [[->|[-> [H|(c & Hc' & E)]]] _]; [left| |right].
  - split; [reflexivity|]. unfold must_run. destruct size; reflexivity.
  - congruence.
  - exists c. auto.
Qed.

Lemma reachable_start max_groups n_chunks files : max_groups <> 0 -> n_chunks <> 0 -> files <> [] ->
  exists r, reachable max_groups n_chunks files (Up r) /\ sh_vocab (r_shared r) = Absent.
Proof.
  intros Hm Hc Hf. destruct (C46_groups files max_groups Hm) as (groups & G & _).
  set (ids := map N.of_nat (seq 0 (length groups))).
  assert (L : length ids = length groups) by (unfold ids; rewrite map_length; apply seq_length).
  assert (ND : NoDup ids).
  { unfold ids. apply FinFun.Injective_map_NoDup; [|apply seq_NoDup]. intros x y E. lia. }
  assert (E : exists l0, initial_partial_vocabs max_groups n_chunks files ids = Ok l0).
  { unfold initial_partial_vocabs. rewrite G. cbn [bind]. eauto. }
  destruct E as (l0 & E). destruct (created _ _ _ _ _ _ Hm Hc Hf G L E) as (I & _ & _).
  eexists. split.
  - eapply reach_sys; [apply reach_init|].
    apply (sys_created max_groups n_chunks files [] Absent Absent groups ids l0 l0 1 (N.of_nat (length groups))); auto.
    intros f Hfi. apply in_map_iff in Hfi. destruct Hfi as (v & <- & Hv). apply (in_map pv_id) in Hv. rewrite I in Hv.
    unfold ids in Hv. apply in_map_iff in Hv. destruct Hv as (k & <- & Hk). apply in_seq in Hk. lia.
  - reflexivity.
Qed.

(** For every corpus there is a point at which an interruption leaves an incomplete vocabulary file that no later
    run completes: nothing is done any more. *)
Theorem C45_refuted max_groups n_chunks files : max_groups <> 0 -> n_chunks <> 0 -> files <> [] ->
  exists d ready size, reachable max_groups n_chunks files (Down d ready size Part)
    /\ forall b, ~ sys max_groups n_chunks files (Down d ready size Part) b.
Proof.
  intros Hm Hc Hf. destruct (reachable_start _ _ _ Hm Hc Hf) as (r & R & A).
  destruct (C43_ends _ _ _ _ Hm Hc R) as (n & r' & c & SS & V & _).
  assert (X : exists r1, reachable max_groups n_chunks files (Up r1) /\ sh_vocab (r_shared r1) = Part).
  { induction SS as [r|n r r1 r2 St SS IH]; [congruence|].
    assert (R1 : reachable max_groups n_chunks files (Up r1)) by (eapply reach_sys; [exact R|constructor; exact St]).
    pose proof (node_ok_reachable _ _ _ _ Hm Hc R) as (_ & _ & O).
    destruct (sh_vocab (r_shared r1)) as [| |t] eqn:E; [apply IH; auto|eauto|].
    exfalso. destruct St as [chunks sh sh' l1 p p' l2 P]. cbn [r_shared r_procs] in *. apply Forall_app in O. destruct O as [_ O].
    inversion O as [|? ? Op _]; subst. destruct P; cbn in E, Op; try congruence. destruct Op as [_ Op]. congruence. }
  destruct X as (r1 & R1 & P). exists (sh_disk (r_shared r1)), (sh_ready (r_shared r1)), (sh_size (r_shared r1)).
  assert (RD : reachable max_groups n_chunks files (Down (sh_disk (r_shared r1)) (sh_ready (r_shared r1)) (sh_size (r_shared r1)) Part)).
  { rewrite <- P. eapply reach_sys; [exact R1|constructor]. }
  split; [exact RD|]. destruct (node_ok_reachable _ _ _ _ Hm Hc RD) as [[Z|[Z _]] _]; [discriminate|]. rewrite Z.
  intros b B. remember (sh_ready (r_shared r1)) as rd. inversion B; subst; discriminate.
Qed.

(** ** Timeouts

    A process that waits too long for the second vocabulary leaves without being counted; then nobody finishes:
    all processes end and no vocabulary is written. *)
Inductive runs_to : run -> run -> Prop :=
| runs_refl r : runs_to r r
| runs_trans r r' r'' : step_or_timeout r r' -> runs_to r' r'' -> runs_to r r''.
Lemma do_step chunks sh l1 p l2 sh' p' r : pstep chunks sh p sh' p' ->
  runs_to {| r_chunks := chunks; r_shared := sh'; r_procs := l1 ++ p' :: l2 |} r ->
  runs_to {| r_chunks := chunks; r_shared := sh; r_procs := l1 ++ p :: l2 |} r.
Proof. intros P R. eapply runs_trans; [apply sot_step, step_proc, P|exact R]. Qed.
Lemma do_timeout chunks sh l1 p l2 sh' p' r : timeout_step sh p sh' p' ->
  runs_to {| r_chunks := chunks; r_shared := sh'; r_procs := l1 ++ p' :: l2 |} r ->
  runs_to {| r_chunks := chunks; r_shared := sh; r_procs := l1 ++ p :: l2 |} r.
Proof. intros P R. eapply runs_trans; [apply sot_timeout, P|exact R]. Qed.

Definition tv (i : N) : pvocab := new_pvocab i (get_vocab [lit "a"]) 0.
Theorem C42_timeout_refuted : exists r,
  runs_to (start_run 2 [tv 0; tv 1; tv 2] 3 (map Plain [tv 0; tv 1; tv 2]) Absent Absent) r
  /\ (forall p, In p (r_procs r) -> p = PDone false) /\ sh_vocab (r_shared r) = Absent.
Proof.
  eexists. split.
  - unfold start_run.
    change (repeat PIdle 2) with ([] ++ PIdle :: [PIdle]).
    eapply do_step; [apply step_ticket; reflexivity|].
    eapply do_step; [apply (step_first _ _ 0 (tv 0) [] [tv 1; tv 2]); reflexivity|].
    eapply do_step; [apply (step_second _ _ 0 (tv 0) (tv 1) [] [tv 2] 1 3); reflexivity || discriminate|].
    change ([] ++ ?p :: [PIdle]) with ([p] ++ PIdle :: []).
    eapply do_step; [apply step_ticket; reflexivity|].
    eapply do_step; [apply (step_first _ _ 0 (tv 2) [] []); reflexivity|].
    eapply do_timeout; [apply timeout_second; intros w []|].
    change ([?p] ++ ?q :: []) with ([] ++ p :: [q]).
    eapply do_step; [apply step_open|]. eapply do_step; [apply step_dump|]. eapply do_step; [apply step_rm_first|].
    eapply do_step; [apply step_rm_second|]. eapply do_step; [apply step_rename|]. eapply do_step; [apply step_put|].
    eapply do_step; [apply step_stop; reflexivity|].
    eapply do_step; [apply (step_leave _ _ 1); [reflexivity|discriminate]|].
    apply runs_refl.
  - cbn. split; [|reflexivity]. intros p [<-|[<-|[]]]; reflexivity.
Qed.
Print Assumptions C42_result.
Print Assumptions C42_written.
Print Assumptions C42_timeout_refuted.
Print Assumptions C43_no_deadlock.
Print Assumptions C43_finite.
Print Assumptions C43_ends.
Print Assumptions C44_restart.
Print Assumptions C44_truncated_refuted.
Print Assumptions C45_otherwise.
Print Assumptions C45_refuted.

(** ** Concrete cases *)
Definition corpus3 : list str := [lit "a b"; lit "b"; lit "c b"].
(** a run in which all processes have ended *)
Example C42_ex : exists r, reachable 3 2 corpus3 (Up r) /\ forall p, In p (r_procs r) -> exists b, p = PDone b.
Proof.
  destruct (reachable_start 3 2 corpus3) as (r & R & _); [discriminate..|].
  remember (measure r) as m eqn:E. revert r E R. induction m as [m IH] using lt_wf_ind. intros r -> R.
  assert (M : 3 <> 0) by discriminate. assert (M2 : 2 <> 0) by discriminate.
  destruct (C43_no_deadlock 3 2 corpus3 r M M2 R) as [A|(r1 & St)]; [eauto|].
  pose proof (node_ok_reachable _ _ _ _ M M2 R) as H. cbn [node_ok] in H.
  apply (IH (measure r1) (inv_measure _ _ _ H St) r1 eq_refl). eapply reach_sys; [exact R|constructor; exact St].
Qed.

Lemma reach_step mg nc files chunks sh l1 p l2 sh' p' : pstep chunks sh p sh' p' ->
  reachable mg nc files (Up {| r_chunks := chunks; r_shared := sh; r_procs := l1 ++ p :: l2 |}) ->
  reachable mg nc files (Up {| r_chunks := chunks; r_shared := sh'; r_procs := l1 ++ p' :: l2 |}).
Proof. intros P R. eapply reach_sys; [exact R|]. constructor. constructor. exact P. Qed.

(** an interruption after a merge has been dumped and its first part removed: the restart finds a merged vocabulary
    and one that is not merged yet *)
Definition parts3 : list pvocab :=
  [new_pvocab 0 (get_vocab [lit "a b"]) 0; new_pvocab 1 (get_vocab [lit "b"]) 0; new_pvocab 2 (get_vocab [lit "c b"]) 0].
Example C44_ex : exists d, reachable 3 1 corpus3 (Down d true Absent Absent)
  /\ length d = 3 /\ triples_of d <> [].
Proof.
  assert (R : reachable 3 1 corpus3 (Up (start_run 1 parts3 3 (map Plain parts3) Absent Absent))).
  { eapply reach_sys; [apply reach_init|].
    eapply (sys_created 3 1 corpus3 [] Absent Absent _ [0%N; 1%N; 2%N] parts3); try reflexivity; try discriminate.
    - repeat constructor; cbn; intuition discriminate.
    - intros f Hf. cbn in Hf. repeat (destruct Hf as [<-|Hf]; [reflexivity|]). destruct Hf. }
  unfold start_run in R. change (repeat PIdle 1) with ([] ++ PIdle :: []) in R.
  eapply reach_step in R; [|eapply step_ticket; reflexivity].
  eapply reach_step in R; [|eapply (step_first _ _ _ _ []); reflexivity].
  eapply reach_step in R; [|eapply (step_second _ _ _ _ _ [] _ 1 3); [reflexivity..|discriminate]].
  eapply reach_step in R; [|apply step_open]. eapply reach_step in R; [|apply step_dump].
  eapply reach_step in R; [|apply step_rm_first].
  eexists. split; [|split].
  - eapply reach_sys; [exact R|]. apply sys_down.
  - reflexivity.
  - discriminate.
Qed.

(** from the start of a run the theorems on its end apply *)
Example C43_ex : exists r, reachable 3 1 corpus3 (Up r) /\ (exists r', step r r')
  /\ exists n r' d, steps n r r' /\ sh_vocab (r_shared r') = Full (write_vocab d) /\ counts_exactly d (corpus_tokens corpus3).
Proof.
  assert (R : reachable 3 1 corpus3 (Up (start_run 1 parts3 3 (map Plain parts3) Absent Absent))).
  { eapply reach_sys; [apply reach_init|].
    eapply (sys_created 3 1 corpus3 [] Absent Absent _ [0%N; 1%N; 2%N] parts3); try reflexivity; try discriminate.
    - repeat constructor; cbn; intuition discriminate.
    - intros f Hf. cbn in Hf. repeat (destruct Hf as [<-|Hf]; [reflexivity|]). destruct Hf. }
  exists (start_run 1 parts3 3 (map Plain parts3) Absent Absent). split; [exact R|]. split.
  - eexists. unfold start_run. change (repeat PIdle 1) with ([] ++ PIdle :: []). constructor. eapply step_ticket. reflexivity.
  - apply (C43_ends 3 1 corpus3 _); [discriminate..|exact R].
Qed.

(** a completely written vocabulary, and one that is not there *)
Example C42_written_ex : exists d ready size text, reachable 3 2 corpus3 (Down d ready size (Full text))
  /\ exists n, size = Full n.
Proof.
  destruct C42_ex as (r & R & A). assert (M : 3 <> 0) by discriminate. assert (M2 : 2 <> 0) by discriminate.
  destruct (C42_result 3 2 corpus3 r M M2 R A) as (_ & S & d & V & _).
  pose proof (reach_sys _ _ _ _ _ R (sys_down _ _ _ r)) as D. rewrite V in D.
  do 4 eexists. split; [exact D|]. rewrite S. eauto.
Qed.
Example C45_ex : exists d, reachable 3 1 corpus3 (Down d true Absent Absent) /\ must_run Absent Absent = true.
Proof.
  destruct C44_ex as (d & R & _). exists d. split; [exact R|].
  destruct (C45_otherwise 3 1 corpus3 d true Absent Absent) as [[_ H]|(c & H & _)]; try discriminate; [exact R|exact H].
Qed.
