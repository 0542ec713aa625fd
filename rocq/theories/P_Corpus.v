(** C63, C64: the corpus returned by preprocess_corpus. *)
From Coq Require Import Lia Permutation.
From Verif Require Import M_Base L_Base M_Literal L_Literal M_PrepConfig P_PrepConfig M_Vocab L_Vocab P_Vocab M_Registry P_Registry M_Dataset P_Dataset M_Corpus.

(** Two runs are for the same thing as far as the program can tell: name and time stamp of the dataset, extensions,
    configuration, bpe codes. *)
Definition same_task (r r' : run) : Prop :=
  basename (r_path r) = basename (r_path r') /\ r_stamp r = r_stamp r' /\ listed (r_exts r) = listed (r_exts r') /\
  (forall p, param (r_config r) p = param (r_config r') p) /\ r_custom r = r_custom r'.
Definition slashless (r : run) : Prop :=
  Forall (no_char slash) (listed (r_exts r)) /\ match r_custom r with Some (i, _) => no_char slash i | None => True end.
(** the run with another output directory *)
Definition to_output (o : str) (r : run) : run :=
  {| r_path := r_path r; r_stamp := r_stamp r; r_exts := r_exts r; r_config := r_config r; r_custom := r_custom r;
     r_output := Some o |}.

Lemma same_task_refl r : same_task r r.
Proof. repeat split. Qed.
Lemma same_task_sym r r' : same_task r r' -> same_task r' r.
Proof. intros (A & B & C & D & E). repeat split; auto. Qed.

Lemma same_task_dir r r' : same_task r r' -> dataset_dir_name r = dataset_dir_name r' /\ get_prep_suffix r = get_prep_suffix r'.
Proof.
  intros (A & B & C & D & E). unfold dataset_dir_name, get_prep_suffix. rewrite A, B, E. split.
  - do 3 f_equal. destruct (r_exts r) as [[|e es]|]; destruct (r_exts r') as [[|e' es']|]; cbn [listed] in C;
      try discriminate; try reflexivity. injection C as -> ->. reflexivity.
  - f_equal. unfold config_str. f_equal. apply map_ext. exact D.
Qed.
Lemma same_task_vocab dir r r' : same_task r r' -> vocab_path dir r = vocab_path dir r'.
Proof. intros H. destruct (same_task_dir r r' H) as [A B]. unfold vocab_path. rewrite A, B. reflexivity. Qed.
Lemma same_task_prep dir r r' : same_task r r' -> r_output r = r_output r' -> prep_path dir r = prep_path dir r'.
Proof. intros H O. destruct (same_task_dir r r' H) as [A B]. unfold prep_path, prep_basename. rewrite A, B, O. reflexivity. Qed.

Lemma last_slash_piece q : no_char slash (last (split_on slash q) []).
Proof.
  pose proof (split_on_pieces slash q) as HF. rewrite Forall_forall in HF.
  apply HF. destruct (exists_last (split_on_nonempty slash q)) as (l & x & El).
  rewrite El, last_last. apply in_app_iff. right. left. reflexivity.
Qed.

Lemma prep_basename_slashless r : plain_run r -> slashless r -> no_char slash (prep_basename r).
Proof.
  intros (Hs & Hc & _ & _) (He & Hi). unfold prep_basename, dataset_dir_name, get_prep_suffix.
  assert (D : forall n c, (c < 48 \/ 57 < c)%N -> no_char c (dec n)).
  { intros n c Hn H. pose proof (dec_digits n) as HF. rewrite Forall_forall in HF. apply HF in H. unfold is_digit in H.
    apply andb_true_iff in H. rewrite !N.leb_le in H. lia. }
  destruct (config_str_shape _ Hc) as [_ Ha].
  assert (Hst : no_char slash (stamp_str (r_stamp r))).
  { destruct Hs as (A1 & A2 & A3 & A4 & A5 & A6). unfold stamp_str.
    repeat (apply no_char_app; split); try (apply two_digits_no; [assumption|unfold slash; lia]); (intros [E|[]]; discriminate). }
  revert Hst. generalize (stamp_str (r_stamp r)). intros st Hst.
  revert Ha. generalize (config_str (r_config r)). intros cs Ha.
  repeat (apply no_char_app; split); try (intros [E|[]]; discriminate); try exact Hst.
  - apply last_slash_piece.
  - destruct (r_exts r) as [[|e es]|]; [intros []| |intros []]. cbn [listed] in He. apply no_char_app. split; [intros [E|[]]; discriminate|].
    intros H. revert H. change (no_char slash (join (lit "_") (e :: es))).
    generalize e, He. clear. induction es as [|x es IH]; intros e He.
    + cbn [join]. inversion He; subst. assumption.
    + change (join (lit "_") (e :: x :: es)) with (e ++ lit "_" ++ join (lit "_") (x :: es)).
      inversion He; subst. apply no_char_app. split; [assumption|]. apply no_char_app. split; [intros [E|[]]; discriminate|].
      apply IH. assumption.
  - intros [E|[E|[E|[]]]]; discriminate.
  - intros H. rewrite Forall_forall in Ha. apply Ha in H. unfold alnum, slash in H. lia.
  - destruct (r_custom r) as [[i n]|]; [|intros []]. repeat (apply no_char_app; split); try (intros [E|[]]; discriminate).
    + exact Hi.
    + apply D. unfold slash. lia.
  - destruct (r_output r) as [[|]|]; intros H; cbn in H; intuition discriminate.
Qed.

Lemma last_two (b : list str) : forall a, b <> [] -> last (a ++ b) [] = last b [].
Proof.
  intros a Hb. destruct (exists_last Hb) as (l & x & ->). rewrite app_assoc, !last_last. reflexivity.
Qed.
Lemma basename_join d b : no_char slash b -> basename (path_join d b) = b.
Proof.
  intros H. unfold basename, path_join.
  assert (S : starts_with [slash] b = false).
  { destruct b as [|c b]; [reflexivity|]. cbn [starts_with]. destruct (N.eqb_spec slash c) as [<-|_]; [|reflexivity].
    exfalso. apply H. left. reflexivity. }
  rewrite S. destruct (eqb_spec d []) as [->|N]; cbn [orb].
  - cbn [app]. rewrite split_on_no_char by exact H. reflexivity.
  - destruct (ends_with [slash] d) eqn:E.
    + apply ends_with_spec in E. destruct E as (u & ->). rewrite <- app_assoc. cbn [app].
      rewrite split_on_app_sep, (last_two (split_on slash b)) by apply split_on_nonempty.
      rewrite split_on_no_char by exact H. reflexivity.
    + rewrite split_on_app_sep, (last_two (split_on slash b)) by apply split_on_nonempty.
      rewrite split_on_no_char by exact H. reflexivity.
Qed.

Lemma put_same {A} (f : str -> option A) p v : put f p v p = Some v.
Proof. unfold put. rewrite eqb_refl. reflexivity. Qed.
Lemma put_other {A} (f : str -> option A) p q v : q <> p -> put f p v q = f q.
Proof. intros N. unfold put. apply eqb_neq in N. rewrite N. reflexivity. Qed.

Lemma dget_perm (d d' : counts) w : NoDup (dkeys d) -> Permutation d d' -> dget d w = dget d' w.
Proof.
  intros N P. assert (N' : NoDup (dkeys d')) by (eapply Permutation_NoDup; [|exact N]; apply Permutation_map; exact P).
  destruct (dget d w) as [x|] eqn:E; destruct (dget d' w) as [y|] eqn:E'; try reflexivity.
  - apply dget_in in E. apply dget_in in E'. apply (Permutation_in _ P) in E.
    f_equal. apply (dget_nodup d' w x N') in E. apply (dget_nodup d' w y N') in E'. congruence.
  - apply dget_some_key in E. apply dget_none in E'. exfalso. apply E'.
    eapply Permutation_in; [|exact E]. apply Permutation_map. exact P.
  - apply dget_some_key in E'. apply dget_none in E. exfalso. apply E.
    eapply Permutation_in; [|exact E']. apply Permutation_map, Permutation_sym. exact P.
Qed.

Section Results.
  Variables prep_root vocab_root sizes_root : str.
  (** the tokens that preprocessing a dataset gives, file by file *)
  Variable tokens : run -> list (list str).
  Definition files_of (r : run) : list str := map preprocessed_file (tokens r).
  Notation pre := (prep_path prep_root).
  Notation voc := (vocab_path vocab_root).
  Notation siz := (corpus_size_path sizes_root prep_root).
  Notation session := (session prep_root vocab_root sizes_root files_of).
  Notation preprocess_corpus := (preprocess_corpus prep_root vocab_root sizes_root files_of).
  Notation corpus_of := (corpus_of prep_root vocab_root sizes_root).

  (** *** All calls use the same output directory *)
  Section OneOutput.
    Variable output : str.
    Variable allowed : run -> Prop.
    Hypothesis allowed_plain : forall r, allowed r -> plain_run r /\ slashless r /\ r_output r = Some output.
    Hypothesis task_tokens : forall r r', allowed r -> allowed r' -> same_task r r' -> tokens r = tokens r'.

    Lemma siz_eq r : allowed r -> siz r = path_join sizes_root (prep_basename r).
    Proof.
      intros A. destruct (allowed_plain r A) as (Hp & Hs & _). unfold corpus_size_path, prep_path.
      rewrite basename_join by (apply prep_basename_slashless; assumption). reflexivity.
    Qed.
    Lemma path_join_inj d (a b : str) : no_char slash a -> no_char slash b -> path_join d a = path_join d b -> a = b.
    Proof. intros Ha Hb E. rewrite <- (basename_join d a Ha), <- (basename_join d b Hb), E. reflexivity. Qed.
    Lemma pre_task r r' : allowed r -> allowed r' -> pre r = pre r' -> same_task r r'.
    Proof.
      intros A A' E. destruct (allowed_plain r A) as (Hp & _ & O). destruct (allowed_plain r' A') as (Hp' & _ & O').
      apply (C41_prep_path prep_root); congruence || assumption.
    Qed.
    Lemma voc_task r r' : allowed r -> allowed r' -> voc r = voc r' -> same_task r r'.
    Proof.
      intros A A' E. destruct (allowed_plain r A) as (Hp & _ & O). destruct (allowed_plain r' A') as (Hp' & _ & O').
      apply (C41_vocab_path vocab_root); assumption.
    Qed.
    Lemma siz_task r r' : allowed r -> allowed r' -> siz r = siz r' -> same_task r r'.
    Proof.
      intros A A' E. rewrite !siz_eq in E by assumption.
      destruct (allowed_plain r A) as (Hp & Hs & O). destruct (allowed_plain r' A') as (Hp' & Hs' & O').
      apply path_join_inj in E; try (apply prep_basename_slashless; assumption). apply C41_prep; assumption.
    Qed.
    Lemma task_pre r r' : allowed r -> allowed r' -> same_task r r' -> pre r = pre r'.
    Proof.
      intros A A' E. apply same_task_prep; [exact E|]. destruct (allowed_plain r A) as (_ & _ & ->). destruct (allowed_plain r' A') as (_ & _ & ->).
      reflexivity.
    Qed.
    Lemma task_files r r' : allowed r -> allowed r' -> same_task r r' -> files_of r = files_of r'.
    Proof. intros A A' E. unfold files_of. rewrite (task_tokens r r' A A' E). reflexivity. Qed.

    Definition inv (d : disk) (l : list (run * bool)) : Prop :=
      (forall q x, d_prep d q = Some x -> exists r, allowed r /\ q = pre r /\ x = files_of r) /\
      (forall q v, d_vocab d q = Some v -> exists r c, allowed r /\ q = voc r /\ d_prep d (pre r) = Some (files_of r) /\
         Permutation c (get_vocab (files_of r)) /\ v = write_vocab c) /\
      (forall q n, d_size d q = Some n -> exists r, allowed r /\ q = siz r /\ n = calc_corpus_size (files_of r)) /\
      (forall r calc, In (r, calc) l -> allowed r /\ d_prep d (pre r) = Some (files_of r) /\
         (calc = true -> d_vocab d (voc r) <> None)).

    Lemma rup_inv d l r : allowed r -> inv d l ->
      inv (run_until_preprocessing prep_root files_of d r) l /\
      d_prep (run_until_preprocessing prep_root files_of d r) (pre r) = Some (files_of r) /\
      d_vocab (run_until_preprocessing prep_root files_of d r) = d_vocab d /\
      d_size (run_until_preprocessing prep_root files_of d r) = d_size d.
    Proof.
      intros A (I1 & I2 & I3 & I4). unfold run_until_preprocessing.
      destruct (d_prep d (pre r)) as [x|] eqn:E.
      - split; [exact (conj I1 (conj I2 (conj I3 I4)))|]. split; [|split; reflexivity]. rewrite E. f_equal.
        destruct (I1 _ _ E) as (r' & A' & Er & ->). apply task_files; [assumption|assumption|].
        apply pre_task; [assumption|assumption|]. symmetry. exact Er.
      - assert (K : forall q, d_prep d q <> None -> q <> pre r) by (intros q Hq ->; contradiction).
        split; [|split; [apply put_same|split; reflexivity]]. unfold inv. cbn [d_prep d_vocab d_size]. split; [|split; [|split]].
        + intros q x Hq. destruct (eqb_spec q (pre r)) as [->|N].
          * rewrite put_same in Hq. injection Hq as <-. eauto.
          * rewrite put_other in Hq by exact N. eauto.
        + intros q v Hq. destruct (I2 q v Hq) as (r' & c & A' & Eq & Hp & Hc & Hv). exists r', c.
          rewrite put_other by (apply K; congruence). auto.
        + exact I3.
        + intros r' calc Hin. destruct (I4 _ _ Hin) as (A' & Hp & Hv). rewrite put_other by (apply K; congruence). auto.
    Qed.

    Lemma session_inv d l : session allowed d l -> inv d l.
    Proof.
      induction 1 as [|d l r calc d' c _ IH A P|d l r calc d' e _ IH A P|d l r calc _ IH Hin|d l sizes _ IH Hq].
      - repeat split; cbn; try discriminate; contradiction.
      - destruct (rup_inv d l r A IH) as (J & Jp & Jv & Js). inversion P; subst; clear P.
        + destruct J as (J1 & J2 & J3 & J4). split; [exact J1|]. split; [exact J2|]. split; [exact J3|].
          intros r0 calc [E|Hin]; [|exact (J4 _ _ Hin)]. injection E as <- <-. split; [exact A|]. split; [exact Jp|]. discriminate.
        + destruct IH as (I1 & I2 & I3 & I4). split; [exact I1|]. split; [exact I2|]. split; [exact I3|].
          intros r0 calc [E|Hin]; [|exact (I4 _ _ Hin)]. injection E as <- <-. split; [exact A|]. split; [|congruence].
          match goal with E : d_vocab _ _ = Some _ |- _ => destruct (I2 _ _ E) as (r' & c & A' & Er & Hp & _) end. pose proof (voc_task r r' A A' Er) as T.
          rewrite (task_pre r r' A A' T), (task_files r r' A A' T). exact Hp.
        + destruct J as (J1 & J2 & J3 & J4). unfold contents in *. rewrite Jp in *. cbn [d_prep d_vocab d_size].
          split; [exact J1|]. split; [|split].
          * cbn [d_prep d_vocab]. intros q v Hq. destruct (eqb_spec q (voc r)) as [->|N].
            -- rewrite put_same in Hq. injection Hq as <-. exists r, c0. auto.
            -- rewrite put_other in Hq by exact N. apply J2. rewrite Jv. exact Hq.
          * cbn [d_size]. intros q n Hq. apply J3. rewrite Js. exact Hq.
          * cbn [d_prep d_vocab]. intros r0 calc [E|Hin].
            -- injection E as <- <-. split; [exact A|]. split; [exact Jp|]. intros _. rewrite put_same. discriminate.
            -- destruct (J4 _ _ Hin) as (A0 & P0 & V0). split; [exact A0|]. split; [exact P0|]. intros Hc. specialize (V0 Hc). rewrite Jv in V0.
               unfold put. destruct (eqb (voc r0) (voc r)); [discriminate|exact V0].
      - destruct (rup_inv d l r A IH) as (J & Jp & Jv & Js). inversion P; subst; clear P. exact J.
      - unfold get_corpus_size. destruct (d_size d (c_size (corpus_of r calc))) eqn:E; [exact IH|].
        destruct IH as (I1 & I2 & I3 & I4). split; [exact I1|]. split; [exact I2|]. split; [|exact I4].
        cbn [fst d_size]. intros q n Hq. destruct (I4 _ _ Hin) as (A & Hp & _).
        destruct (eqb_spec q (siz r)) as [->|N].
        + change (c_size (corpus_of r calc)) with (siz r) in Hq. rewrite put_same in Hq. injection Hq as <-.
          exists r. split; [exact A|]. split; [reflexivity|]. unfold contents. change (c_prep (corpus_of r calc)) with (pre r).
          rewrite Hp. reflexivity.
        + change (c_size (corpus_of r calc)) with (siz r) in Hq. rewrite put_other in Hq by exact N. eauto.
      - destruct IH as (I1 & I2 & I3 & I4). split; [exact I1|]. split; [exact I2|]. split; [|exact I4].
        cbn [d_size]. intros q n E. apply I3. destruct (Hq q); congruence.
    Qed.

    (** C63: If all calls use one output directory, every corpus that was returned, with or without vocabulary, has all
        its preprocessed files, whatever other calls were made before and after. *)
    Theorem C63_one_output d l r calc : session allowed d l -> In (r, calc) l ->
      d_prep d (c_prep (corpus_of r calc)) = Some (map preprocessed_file (tokens r)).
    Proof. intros S Hin. apply (session_inv d l S) in Hin. apply Hin. Qed.

    (** C64: ... and its reported size is the number of its tokens, and its vocabulary counts them exactly. *)
    Theorem C64_one_output d l r calc : session allowed d l -> In (r, calc) l -> Forall writable (tokens r) ->
      snd (get_corpus_size d (corpus_of r calc)) = length (List.concat (tokens r)) /\
      (calc = true -> exists v, load_vocab d (corpus_of r calc) = Ok v /\ counts_exactly v (List.concat (tokens r))) /\
      (calc = false -> load_vocab d (corpus_of r calc) = Err ValueError).
    Proof.
      intros S Hin Hw. destruct (session_inv d l S) as (I1 & I2 & I3 & I4). destruct (I4 _ _ Hin) as (A & Hp & Hv). split; [|split].
      - assert (T : calc_corpus_size (files_of r) = length (List.concat (tokens r))).
        { rewrite corpus_size_spec. unfold files_of, corpus_tokens. clear - Hw. induction Hw as [|t ts Ht Hts IH]; [reflexivity|].
          cbn [map flat_map List.concat]. rewrite !app_length, IH, preprocessed_tokens, map_length by exact Ht. reflexivity. }
        unfold get_corpus_size. change (c_size (corpus_of r calc)) with (siz r). destruct (d_size d (siz r)) as [n|] eqn:E; cbn [snd].
        + destruct (I3 _ _ E) as (r' & A' & Er & ->). rewrite <- T. f_equal. symmetry. apply task_files; [assumption|assumption|].
          apply siz_task; assumption.
        + unfold contents. change (c_prep (corpus_of r calc)) with (pre r). rewrite Hp. exact T.
      - intros ->. specialize (Hv eq_refl). unfold load_vocab. cbn [c_vocab M_Corpus.corpus_of].
        destruct (d_vocab d (voc r)) as [v|] eqn:E; [|contradiction]. destruct (I2 _ _ E) as (r' & c & A' & Er & _ & Hc & ->).
        rewrite <- (task_files r r' A A' (voc_task r r' A A' Er)) in Hc.
        apply C47_tokens; [exact Hw|]. pose proof (C47_partial_vocab (files_of r)) as [N G].
        assert (Nc : NoDup (dkeys c)).
        { eapply Permutation_NoDup; [|exact N]. apply Permutation_map, Permutation_sym, Hc. }
        split; [exact Nc|]. intros w. change (map preprocessed_file (tokens r)) with (files_of r). rewrite <- G.
        apply dget_perm; assumption.
      - intros ->. reflexivity.
    Qed.
  End OneOutput.

  (** *** Several output directories *)
  Section AnyOutput.
    Variable allowed : run -> Prop.
    Hypothesis path_tokens : forall r r', allowed r -> allowed r' -> pre r = pre r' -> tokens r = tokens r'.

    Lemma session_prep d l : session allowed d l ->
      forall q x, d_prep d q = Some x -> exists r, allowed r /\ q = pre r /\ x = files_of r.
    Proof.
      assert (R : forall d r, allowed r -> (forall q x, d_prep d q = Some x -> exists r, allowed r /\ q = pre r /\ x = files_of r) ->
                forall q x, d_prep (run_until_preprocessing prep_root files_of d r) q = Some x -> exists r, allowed r /\ q = pre r /\ x = files_of r).
      { intros d0 r A I q x. unfold run_until_preprocessing. destruct (d_prep d0 (pre r)); [apply I|]. cbn [d_prep]. intros Hq.
        destruct (eqb_spec q (pre r)) as [->|N]; [rewrite put_same in Hq; injection Hq as <-; eauto|].
        rewrite put_other in Hq by exact N. eauto. }
      induction 1 as [|d l r calc d' c _ IH A P|d l r calc d' e _ IH A P|d l r calc _ IH Hin|d l sizes _ IH Hq].
      - discriminate.
      - specialize (R d r A IH). inversion P; subst; clear P; cbn [d_prep]; assumption.
      - specialize (R d r A IH). inversion P; subst; clear P; cbn [d_prep]; assumption.
      - unfold get_corpus_size. destruct (d_size d _); exact IH.
      - exact IH.
    Qed.

    (** C63: A call without vocabulary, and a call whose vocabulary was not there before, returns a complete corpus
        for every output directory. *)
    Theorem C63_no_vocab_before d l r calc d' c : session allowed d l -> allowed r ->
      preprocess_corpus d r calc d' (Ok c) -> calc = false \/ d_vocab d (voc r) = None ->
      d_prep d' (c_prep c) = Some (map preprocessed_file (tokens r)).
    Proof.
      intros S A P V. pose proof (session_prep d l S) as I.
      assert (K : d_prep (run_until_preprocessing prep_root files_of d r) (pre r) = Some (files_of r)).
      { unfold run_until_preprocessing. destruct (d_prep d (pre r)) as [x|] eqn:E.
        - rewrite E. destruct (I _ _ E) as (r' & A' & Er & ->). unfold files_of. rewrite (path_tokens r r' A A' Er). reflexivity.
        - apply put_same. }
      inversion P; subst; clear P; cbn [d_prep c_prep M_Corpus.corpus_of]; try exact K.
      destruct V; congruence.
    Qed.
  End AnyOutput.

  Lemma second_output r o1 o2 : tokens (to_output o1 r) <> [] -> pre (to_output o1 r) <> pre (to_output o2 r) ->
    exists d, session (fun _ => True) d [(to_output o2 r, true); (to_output o1 r, true)] /\
      d_prep d (pre (to_output o2 r)) = None /\ d_prep d (pre (to_output o1 r)) = Some (files_of (to_output o1 r)) /\
      d_size d = fun _ => None.
  Proof.
    intros Ht Hne. set (r1 := to_output o1 r) in *. set (r2 := to_output o2 r) in *.
    assert (Hv : voc r1 = voc r2) by reflexivity.
    set (d0 := run_until_preprocessing prep_root files_of empty_disk r1).
    assert (P0 : d_prep d0 (pre r1) = Some (files_of r1)) by apply put_same.
    exists {| d_prep := d_prep d0; d_vocab := put (d_vocab empty_disk) (voc r1) (write_vocab (get_vocab (files_of r1)));
              d_size := d_size empty_disk |}. split; [|split; [|split; [exact P0|reflexivity]]].
    - eapply session_call with (c := corpus_of r2 true); [|exact I|].
      + eapply session_call with (c := corpus_of r1 true); [apply session_start|exact I|].
        apply corpus_vocab_counted; [reflexivity| |]; fold d0; unfold contents; rewrite P0.
        * unfold files_of. intros E. apply Ht. destruct (tokens r1); [reflexivity|discriminate E].
        * apply Permutation_refl.
      + eapply corpus_vocab_exists. cbn [d_vocab]. rewrite <- Hv. apply put_same.
    - cbn [d_prep c_prep M_Corpus.corpus_of]. unfold d0, run_until_preprocessing. cbn [d_prep empty_disk].
      rewrite put_other by (intros E; apply Hne; symmetry; exact E). reflexivity.
  Qed.

  (** C63: The vocabulary does not depend on the output directory.  If it was calculated for one output directory,
      a call for the same dataset and options with another output directory returns a corpus without any file. *)
  Theorem C63_second_output_refuted r o1 o2 : tokens (to_output o1 r) <> [] -> pre (to_output o1 r) <> pre (to_output o2 r) ->
    exists d, session (fun _ => True) d [(to_output o2 r, true); (to_output o1 r, true)] /\
      d_prep d (c_prep (corpus_of (to_output o2 r) true)) = None.
  Proof. intros Ht Hne. destruct (second_output r o1 o2 Ht Hne) as (d & S & E & _). exists d. split; assumption. Qed.

  (** C64: ... and asking that corpus for its size makes the program report 0 tokens for the complete one as well. *)
  Theorem C64_second_output_refuted r o1 o2 : tokens (to_output o1 r) <> [] -> o1 <> [] -> o2 <> [] ->
    pre (to_output o1 r) <> pre (to_output o2 r) -> plain_run r -> slashless r ->
    exists d, session (fun _ => True) d [(to_output o2 r, true); (to_output o1 r, true)] /\
      d_prep d (c_prep (corpus_of (to_output o1 r) true)) = Some (map preprocessed_file (tokens (to_output o1 r))) /\
      snd (get_corpus_size d (corpus_of (to_output o1 r) true)) = 0.
  Proof.
    intros Ht Ho1 Ho2 Hne Hp Hs. destruct (second_output r o1 o2 Ht Hne) as (d & S & E2 & E1 & Es).
    exists (fst (get_corpus_size d (corpus_of (to_output o2 r) true))). split; [|split].
    - apply session_size; [exact S|left; reflexivity].
    - unfold get_corpus_size. rewrite Es. exact E1.
    - assert (Q : forall o, o <> [] -> siz (to_output o r) = path_join sizes_root (dataset_dir_name r ++ lit "_-_" ++ get_prep_suffix r ++ lit "_-_prep")).
      { intros o Ho. unfold corpus_size_path, prep_path.
        rewrite basename_join by (apply prep_basename_slashless; [exact Hp|exact Hs]). destruct o; [contradiction|reflexivity]. }
      unfold get_corpus_size. rewrite Es. cbn [fst d_size].
      change (c_size (corpus_of (to_output o1 r) true)) with (siz (to_output o1 r)).
      change (c_size (corpus_of (to_output o2 r) true)) with (siz (to_output o2 r)).
      rewrite (Q o1 Ho1), (Q o2 Ho2), put_same. cbn [snd].
      unfold contents. change (c_prep (corpus_of (to_output o2 r) true)) with (pre (to_output o2 r)). rewrite E2. reflexivity.
  Qed.
End Results.
Print Assumptions C63_one_output.
Print Assumptions C63_no_vocab_before.
Print Assumptions C63_second_output_refuted.
Print Assumptions C64_one_output.
Print Assumptions C64_second_output_refuted.

(** A dataset with one file, first preprocessed for /out1, then for /out2, both times with its vocabulary *)
Definition ex_run : run := run_ex (lit "/data/my_proj") (Some [lit "java"]) None.
Definition ex_tokens (r : run) : list (list str) := [[lit "int"; lit "x"; lit "int"]].
Example C63_second_output_example :
  prep_path [] (to_output (lit "/out1") ex_run) <> prep_path [] (to_output (lit "/out2") ex_run) /\ ex_tokens ex_run <> [] /\
  plain_run ex_run /\ slashless ex_run.
Proof.
  split; [vm_compute; discriminate|]. split; [discriminate|]. split.
  - split; [vm_compute; auto 10|]. split; [vm_compute; reflexivity|]. split; [|exact I].
    apply Forall_cons; [|apply Forall_nil]. split; intros H; vm_compute in H; intuition discriminate.
  - split; [|exact I]. apply Forall_cons; [|apply Forall_nil]. intros H; vm_compute in H; intuition discriminate.
Qed.
(** one output directory: a session with a complete corpus, its size and vocabulary *)
Example C64_one_output_example : exists d,
  session [] [] [] (files_of ex_tokens) (fun r => r = to_output (lit "/out1") ex_run) d [(to_output (lit "/out1") ex_run, true)] /\
  snd (get_corpus_size d (corpus_of [] [] [] (to_output (lit "/out1") ex_run) true)) = 3 /\
  load_vocab d (corpus_of [] [] [] (to_output (lit "/out1") ex_run) true) = Ok [(lit "int", 2%Z); (lit "x", 1%Z)] /\
  d_prep d (lit "/out1/my_proj_20-03-09T23-00-59_java_-_Uc140u_-_prep") = Some [lit "int x int" ++ [10%N]].
Proof.
  eexists. split.
  - eapply session_call with (c := corpus_of [] [] [] (to_output (lit "/out1") ex_run) true); [apply session_start|reflexivity|].
    eapply corpus_vocab_counted with (c := get_vocab (files_of ex_tokens ex_run)); [reflexivity|vm_compute; discriminate|].
    apply Permutation_refl.
  - split; [vm_compute; reflexivity|]. split; vm_compute; reflexivity.
Qed.
