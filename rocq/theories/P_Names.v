(** * C112: names that are too long for the file system *)
From Coq Require Import Lia.
From Verif Require Import M_Base L_Base M_PrepConfig M_Dataset P_Dataset M_Parts P_Parts P_Corpus M_Timestamp M_Place P_Place M_Names.

(** ** The length of the written form of a name *)
Definition width (q c : N) : nat := length (brepr_char q c).
Lemma brepr_length b : length (brepr b) = 3 + list_sum (map (width (bquote b)) b).
Proof.
  unfold brepr. cbn [length]. rewrite app_length. cbn [length]. unfold width.
  enough (K : length (flat_map (brepr_char (bquote b)) b) = list_sum (map (fun c => length (brepr_char (bquote b) c)) b)) by (rewrite K; lia).
  generalize (bquote b) as q. intros q. induction b as [|c b IH]; [reflexivity|]. cbn [flat_map map list_sum fold_right].
  rewrite app_length, IH. reflexivity.
Qed.
Lemma width_bounds q c : 1 <= width q c <= 4.
Proof. unfold width, brepr_char. repeat (destruct (_ : bool); [cbn; lia|]). cbn. lia. Qed.
Lemma width_high q c : (128 <= c)%N -> (q = 34 \/ q = 39)%N -> width q c = 4.
Proof.
  intros H Q. unfold width, brepr_char.
  rewrite (proj2 (N.eqb_neq c q)), (proj2 (N.eqb_neq c 92)), (proj2 (N.eqb_neq c 9)), (proj2 (N.eqb_neq c 10)), (proj2 (N.eqb_neq c 13)) by lia.
  cbn [orb]. rewrite (proj2 (N.leb_le 127 c)) by lia. rewrite orb_true_r. reflexivity.
Qed.
Definition plain_char (c : N) : Prop := (32 <= c < 127)%N /\ c <> 39%N /\ c <> 34%N /\ c <> 92%N.
Lemma width_plain q c : plain_char c -> (q = 34 \/ q = 39)%N -> width q c = 1.
Proof.
  intros (H & H1 & H2 & H3) Q. unfold width, brepr_char.
  rewrite (proj2 (N.eqb_neq c q)), (proj2 (N.eqb_neq c 92)), (proj2 (N.eqb_neq c 9)), (proj2 (N.eqb_neq c 10)), (proj2 (N.eqb_neq c 13)) by lia.
  rewrite (proj2 (N.ltb_ge c 32)), (proj2 (N.leb_gt 127 c)) by lia. reflexivity.
Qed.
Lemma sum_map_const {A} (f : A -> nat) k l : Forall (fun x => f x = k) l -> list_sum (map f l) = k * length l.
Proof. induction 1 as [|x l E F IH]; cbn [map list_sum fold_right length]; [lia|]. change (fold_right plus 0 (map f l)) with (list_sum (map f l)). rewrite IH, E. lia. Qed.
Lemma sum_map_bounds {A} (f : A -> nat) a b l : (forall x, a <= f x <= b) -> a * length l <= list_sum (map f l) <= b * length l.
Proof. intros H. induction l as [|x l IH]; cbn [map list_sum fold_right length]; [lia|]. change (fold_right plus 0 (map f l)) with (list_sum (map f l)). specialize (H x). lia. Qed.

(** Between one and four characters for a byte: one for ordinary characters, four for each byte of a character that is not ASCII. *)
Theorem C112_width : forall s,
  let n := basename (sv_dest s) in let k := 6 + length (sv_time s) in
  length n + k <= length (part_name s) <= 4 * length n + k /\
  (Forall plain_char n -> length (part_name s) = length n + k) /\
  (forall a b, n = a ++ b -> Forall (fun c => 128 <= c)%N a -> Forall plain_char b -> length (part_name s) = 4 * length a + length b + k).
Proof.
  intros s n k. assert (E : length (part_name s) = list_sum (map (width (bquote n)) n) + k).
  { unfold part_name. fold n. rewrite !app_length, brepr_length. change (length (lit "_-_")) with 3. unfold k. lia. }
  assert (Q : (bquote n = 34 \/ bquote n = 39)%N) by (unfold bquote; destruct (_ && _)%bool; auto).
  rewrite E. split; [|split].
  - pose proof (sum_map_bounds (width (bquote n)) 1 4 n (width_bounds _)). lia.
  - intros F. rewrite (sum_map_const _ 1); [lia|]. eapply Forall_impl; [|exact F]. intros c H. apply width_plain; assumption.
  - intros a b Eab Fa Fb. rewrite Eab at 2. rewrite map_app, list_sum_app.
    rewrite (sum_map_const _ 4 a), (sum_map_const _ 1 b); [lia| |].
    + eapply Forall_impl; [|exact Fb]. intros c H. apply width_plain; assumption.
    + eapply Forall_impl; [|exact Fa]. intros c H. apply width_high; assumption.
Qed.
Print Assumptions C112_width.

(** ** Which names fit *)
Lemma fits_app l a b : fits l (a ++ b) = (fits l a && fits l b)%bool.
Proof. apply forallb_app. Qed.
Lemma fits_one l n : fits l [n] = true <-> length n <= l.
Proof. unfold fits. cbn [forallb]. rewrite andb_true_r. apply Nat.leb_le. Qed.
Lemma fits_snoc l a n : fits l (a ++ [n]) = true <-> fits l a = true /\ length n <= l.
Proof. rewrite fits_app, andb_true_iff, fits_one. reflexivity. Qed.
Lemma fits_snoc2 l a n m : fits l (a ++ [n; m]) = true <-> fits l a = true /\ length n <= l /\ length m <= l.
Proof. change [n; m] with ([n] ++ [m]). rewrite app_assoc, !fits_snoc. tauto. Qed.

Lemma path_join_names base p n : Forall valid_name (p ++ [n]) -> basename (path_join base (join [slash] (p ++ [n]))) = n.
Proof.
  intros F. pose proof F as F0. apply Forall_app in F0. destruct F0 as [Fp Fn]. inversion Fn as [|? ? Vn _]; subst.
  assert (J : split_on slash (join [slash] (p ++ [n])) = p ++ [n]).
  { apply split_join; [intros Y; apply app_eq_nil in Y; destruct Y; discriminate|]. apply valid_no_slash. exact F. }
  assert (NS : starts_with [slash] (join [slash] (p ++ [n])) = false).
  { rewrite <- (app_nil_r (join [slash] (p ++ [n]))). apply join_start; assumption. }
  unfold path_join, basename. rewrite NS. destruct (eqb base [] || ends_with [slash] base)%bool eqn:Eb.
  - apply orb_true_iff in Eb. destruct Eb as [Eb|Eb].
    + apply (proj1 (L_Base.eqb_eq base [])) in Eb. rewrite Eb. cbn [app]. rewrite J. apply last_last.
    + apply ends_with_spec in Eb. destruct Eb as [b ->]. rewrite <- app_assoc. cbn [app]. rewrite split_on_app_sep, J, app_assoc. apply last_last.
  - rewrite split_on_app_sep, J, app_assoc. apply last_last.
Qed.

Section Fits.
  Variable cwd : list str.
  Variables cache config : str.
  Variable r : run.
  Variable t : node.
  Variables digits limit : nat.
  Notation parts := (abs_parts cwd).
  Notation fit p := (fits limit p = true).

  Hypothesis plain : plain_names r.
  Hypothesis wft : wf t.
  Hypothesis single : is_dir t = false -> valid_name (basename (r_path r)).

  Lemma names_split f p n : names f p n -> Forall valid_name p -> valid_name n ->
    basename f = n /\ (1 <= limit -> (fit (split_on slash f) <-> fit p /\ length n <= limit)).
  Proof.
    intros H Vp Vn.
    assert (S : (p = [] /\ (split_on slash f = [lit "."; n] \/ split_on slash f = [n])) \/ split_on slash f = p ++ [n]).
    { destruct H as [->|[-> ->]].
      - unfold rel_name. rewrite split_on_app_sep, (split_on_no_char slash n) by apply Vn. unfold rel_root.
        destruct p as [|x p]; [left; split; [reflexivity|]; left; reflexivity|]. right. rewrite split_join; [reflexivity|discriminate|].
        apply valid_no_slash. exact Vp.
      - left. split; [reflexivity|]. right. apply split_on_no_char, Vn. }
    unfold basename. destruct S as [(-> & [S|S])|S]; rewrite S.
    - split; [reflexivity|]. intros L. unfold fits. cbn [forallb length lit]. rewrite andb_true_r, andb_true_iff.
      change (length (lit ".")) with 1. rewrite !Nat.leb_le. intuition.
    - split; [reflexivity|]. intros L. rewrite fits_one. unfold fits. cbn. tauto.
    - split; [apply last_last|]. intros L. apply fits_snoc.
  Qed.

  (** the outputs of a stage, by the names in the dataset *)
  Lemma outputs_spec (b : bool) o : In o (if b then parse_outputs cwd cache r t else prep_outputs cwd cache r t) ->
    let base := parts (if b then parsed_at cache r else prep_at cache r) in let suf := if b then parsed_suffix else prep_suffix in
    exists f p n, In f (scan_files (r_path r) t (r_exts r)) /\ names f p n /\ Forall valid_name p /\ valid_name n /\ parts o = base ++ p ++ [n ++ suf] /\ parts (temp_name o) = base ++ p ++ [n ++ suf ++ not_finished] /\ basename o = n ++ suf.
  Proof.
    destruct (parts_exist (r_path r) t (r_exts r) wft single) as (ps & Hps & Hf).
    assert (G : forall base suf, plain_suffix suf -> suf <> [] ->
      In o (map (fun pn => path_join base (join [slash] (fst pn ++ [snd pn]) ++ suf)) ps) ->
      exists f p n, In f (scan_files (r_path r) t (r_exts r)) /\ names f p n /\ Forall valid_name p /\ valid_name n /\
        parts o = parts base ++ p ++ [n ++ suf] /\ parts (temp_name o) = parts base ++ p ++ [n ++ suf ++ not_finished] /\ basename o = n ++ suf).
    { destruct Hps as (HE & HF & _). rewrite Forall_forall in HF.
      intros base suf Hs Hne H. apply in_map_iff in H. destruct H as ([p n] & <- & H). destruct (HF _ H) as [Hp Hn]. cbn [fst snd] in *.
      assert (X : exists f, In f (scan_files (r_path r) t (r_exts r)) /\ names f p n).
      { clear -HE H. induction HE as [|f pn fs ps E HE IH]; [destruct H|]. destruct H as [->|H].
        - exists f. split; [left; reflexivity|exact E].
        - destruct (IH H) as (f' & I & N). exists f'. split; [right; exact I|exact N]. }
      destruct X as (f & I & X). exists f, p, n. split; [exact I|]. split; [exact X|]. split; [exact Hp|]. split; [exact Hn|].
      split; [apply new_file_parts; assumption|]. split.
      - unfold temp_name. rewrite path_join_suffix by (intros Y; apply app_eq_nil in Y; destruct Y; contradiction). rewrite <- app_assoc.
        apply new_file_parts; [assumption|assumption|]. destruct Hs as [Hs1 Hs2]. split; [|right; rewrite app_length; simpl; lia].
        apply no_char_app. split; [exact Hs1|]. intros Y. vm_compute in Y. intuition discriminate.
      - rewrite <- join_last. apply path_join_names. apply Forall_app. split; [exact Hp|]. constructor; [|constructor].
        destruct Hs; apply valid_name_suffix; assumption. }
    change (parse_outputs cwd cache r t) with (parse_targets cwd (r_path r) (parsed_at cache r) t (r_exts r)).
    change (prep_outputs cwd cache r t) with (prep_targets cwd (r_path r) (parsed_at cache r) (prep_at cache r) t (r_exts r)).
    destruct b; cbv zeta; intros H.
    - rewrite (parse_targets_spec _ _ _ _ _ _ Hps Hf) in H. apply (G _ _ plain_parsed) in H; [exact H|discriminate].
    - rewrite (prep_targets_spec _ _ _ _ _ _ _ Hps) in H. apply (G _ _ plain_prep) in H; [exact H|discriminate].
  Qed.

  (** every file of the dataset has outputs *)
  Lemma outputs_exist f : In f (scan_files (r_path r) t (r_exts r)) ->
    (exists o p n, In o (parse_outputs cwd cache r t) /\ names f p n /\ Forall valid_name p /\ valid_name n /\
       parts (temp_name o) = parts (parsed_at cache r) ++ p ++ [n ++ parsed_suffix ++ not_finished]) /\
    (exists o, In o (prep_outputs cwd cache r t) /\ basename o = basename f ++ prep_suffix).
  Proof.
    destruct (parts_exist (r_path r) t (r_exts r) wft single) as (ps & Hps & Hf). intros I.
    assert (X : exists p n, In (p, n) ps /\ names f p n /\ Forall valid_name p /\ valid_name n).
    { destruct Hps as (HE & HF & _). clear -I HE HF. induction HE as [|f' [p n] fs ps E HE IH]; [destruct I|].
      inversion HF as [|? ? [Vp Vn] HF']; subst. destruct I as [->|I].
      - exists p, n. split; [left; reflexivity|]. auto.
      - destruct (IH HF' I) as (p' & n' & J & K). exists p', n'. split; [right; exact J|exact K]. }
    destruct X as (p & n & J & X & Vp & Vn). split.
    - set (o := path_join (parsed_at cache r) (join [slash] (p ++ [n]) ++ parsed_suffix)). exists o, p, n.
      split; [change (In o (parse_targets cwd (r_path r) (parsed_at cache r) t (r_exts r)));
              rewrite (parse_targets_spec _ _ _ _ _ _ Hps Hf); apply in_map_iff; exists (p, n); split; [reflexivity|exact J]|].
      split; [exact X|]. split; [exact Vp|]. split; [exact Vn|]. unfold o, temp_name.
      rewrite path_join_suffix by (intros Y; apply app_eq_nil in Y; destruct Y; discriminate). rewrite <- app_assoc.
      apply new_file_parts; [assumption|assumption|]. split; [|right; vm_compute; lia]. intros Y. vm_compute in Y. intuition discriminate.
    - set (o := path_join (prep_at cache r) (join [slash] (p ++ [n]) ++ prep_suffix)).
      assert (K : In o (prep_outputs cwd cache r t)).
      { change (In o (prep_targets cwd (r_path r) (parsed_at cache r) (prep_at cache r) t (r_exts r))).
        rewrite (prep_targets_spec _ _ _ _ _ _ _ Hps). apply in_map_iff. exists (p, n). split; [reflexivity|exact J]. }
      exists o. split; [exact K|]. destruct (names_split f p n X Vp Vn) as [-> _].
      unfold o. rewrite <- join_last, path_join_names by (apply Forall_app; split; [exact Vp|]; constructor; [|constructor]; destruct plain_prep; apply valid_name_suffix; assumption).
      reflexivity.
  Qed.
End Fits.

(** All names of a run fit exactly if: those of the directories it is given do; the name of the directory with the results has room for
    what an archive adds to it; and every file has room for what is added to its name while it is parsed and, where special tokens are
    collected, for the name of its part in its written form. *)
Definition room (limit digits : nat) (cwd : list str) (cache config : str) (r : run) (t : node) : Prop :=
  fits limit (abs_parts cwd cache) = true /\ fits limit (abs_parts cwd config) = true /\ fits limit (abs_parts cwd (output_of cache r)) = true /\
  length (prep_basename r) + 38 <= limit /\
  forall f, In f (scan_files (r_path r) t (r_exts r)) ->
    fits limit (split_on slash f) = true /\ length (basename f) + 12 <= limit /\
    (is_base_bpe_config (r_config r) = true -> length (brepr (basename f ++ lit ".prep")) + 3 + digits <= limit).

Theorem C112_exact : forall cwd cache config r t digits limit,
  plain_names r -> wf t -> (is_dir t = false -> valid_name (basename (r_path r))) ->
  (forall o, named_op cwd cache config r t digits o -> forallb (fits limit) (paths_of o) = true) <-> room limit digits cwd cache config r t.
Proof.
  intros cwd cache config r t digits limit P W S.
  pose proof (parsed_parts cwd cache r P) as EP. pose proof (prep_parts cwd cache r P) as EQ. unfold results in EQ.
  pose proof (preps_parts cwd cache) as ED. pose proof (folder_parts cwd cache r P) as EF.
  pose proof (lists_parts cwd cache) as EL. pose proof (sizes_parts cwd cache) as ES.
  assert (EB : abs_parts cwd (path_join (bpes_dir config) (dataset_dir_name r)) = abs_parts cwd config ++ [lit "bpe"; dataset_dir_name r]).
  { rewrite parts_join1 by (apply dir_name_valid; exact P). unfold bpes_dir.
    rewrite parts_join1 by (apply (valid_long (lit "bpe")); [intros Hi; vm_compute in Hi; intuition discriminate|vm_compute; lia]).
    rewrite <- app_assoc. reflexivity. }
  assert (EV : vocab_at cwd config r = abs_parts cwd config ++ [lit "vocab"; dataset_dir_name r ++ lit "_-_" ++ get_prep_suffix r]).
  { unfold vocab_at, vocab_path. rewrite parts_join1 by (apply vocab_name_valid; exact P). unfold vocabs_dir.
    rewrite parts_join1 by (apply (valid_long (lit "vocab")); [intros Hi; vm_compute in Hi; intuition discriminate|vm_compute; lia]).
    rewrite <- app_assoc. reflexivity. }
  assert (EZ : abs_parts cwd (corpus_size_path (sizes_dir cache) (preps_dir cache) r) = abs_parts cwd cache ++ [lit "corpus_sizes"; prep_basename r]).
  { unfold corpus_size_path. change (prep_path (preps_dir cache) r) with (path_join (output_of cache r) (prep_basename r)).
    rewrite basename_join by (apply prep_basename_valid; exact P). rewrite parts_join1 by (apply prep_basename_valid; exact P).
    rewrite ES, <- app_assoc. reflexivity. }
  assert (MP : marker (abs_parts cwd (parsed_at cache r)) = abs_parts cwd cache ++ [lit "parsed_datasets"; lit "." ++ dataset_dir_name r ++ lit ".lastmodif"]).
  { rewrite EP. rewrite (marker_app _ (abs_parts cwd cache ++ [lit "parsed_datasets"]) (dataset_dir_name r)) by (rewrite <- app_assoc; reflexivity).
    rewrite <- app_assoc. reflexivity. }
  assert (MQ : marker (abs_parts cwd (prep_at cache r)) = abs_parts cwd (output_of cache r) ++ [lit "." ++ prep_basename r ++ lit ".lastmodif"]).
  { rewrite EQ. apply marker_app. reflexivity. }
  assert (MF : marker (abs_parts cwd (list_folder cache r)) = abs_parts cwd cache ++ [lit "file_lists"; lit "." ++ dataset_dir_name r ++ lit ".lastmodif"]).
  { rewrite EF. rewrite (marker_app _ (abs_parts cwd cache ++ [lit "file_lists"]) (dataset_dir_name r)) by (rewrite <- app_assoc; reflexivity).
    rewrite <- app_assoc. reflexivity. }
  assert (N1 : forall a n m, name_of (a ++ [n; m]) = m).
  { intros a n m. unfold name_of. change [n; m] with ([n] ++ [m]). rewrite app_assoc. apply last_last. }
  assert (N0 : forall a (n : str), name_of (a ++ [n]) = n) by (intros a n; apply last_last).
  assert (Ldir : length (dataset_dir_name r) + 3 + length (get_prep_suffix r) <= length (prep_basename r)).
  { unfold prep_basename. rewrite !app_length. change (length (lit "_-_")) with 3. lia. }
  split.
  - intros H.
    assert (G : forall o p, named_op cwd cache config r t digits o -> In p (paths_of o) -> fits limit p = true).
    { intros o p N I. specialize (H o N). rewrite forallb_forall in H. apply H. exact I. }
    assert (A1 : fits limit (marker (abs_parts cwd (prep_at cache r))) = true).
    { apply (G (WriteFile (marker (abs_parts cwd (prep_at cache r))) [])); [|left; reflexivity]. apply nm_ready. cbn [In]. tauto. }
    assert (A2 : fits limit (abs_parts cwd (preps_dir cache)
                   ++ [name_of (marker (abs_parts cwd (prep_at cache r))) ++ lit ".archived." ++ stamp_str (r_stamp r)]) = true).
    { eapply G; [apply (nm_archive_marker cwd cache config r t digits (prep_at cache r) (r_stamp r)); cbn [In]; tauto|right; left; reflexivity]. }
    assert (A3 : fits limit (abs_parts cwd (path_join (bpes_dir config) (dataset_dir_name r))) = true).
    { eapply G; [apply nm_create; do 4 right; left; reflexivity|left; reflexivity]. }
    rewrite MQ, fits_snoc in A1. rewrite MQ, N0, fits_snoc, ED, fits_snoc in A2. rewrite EB, fits_snoc2 in A3.
    destruct A2 as [[A2 _] A2']. rewrite !app_length in A2'. change (length (lit ".")) with 1 in A2'. change (length (lit ".lastmodif")) with 10 in A2'.
    change (length (lit ".archived.")) with 10 in A2'. change (length (stamp_str (r_stamp r))) with 17 in A2'.
    split; [exact A2|]. split; [apply A3|]. split; [apply A1|]. split; [lia|]. intros f I.
    destruct (outputs_exist cwd cache r t limit W S f I) as ((o & p & n & Io & X & Vp & Vn & E) & (q & Iq & Eq)).
    destruct (names_split limit f p n X Vp Vn) as [Eb Hs].
    assert (A4 : fits limit (abs_parts cwd (temp_name o)) = true).
    { apply (G (WriteFile (abs_parts cwd (temp_name o)) [])); [|left; reflexivity]. apply nm_output. apply in_or_app. left. exact Io. }
    rewrite E, fits_app, andb_true_iff, fits_snoc, !app_length in A4. destruct A4 as (_ & A4 & A4').
    change (length parsed_suffix) with 7 in A4'. change (length not_finished) with 5 in A4'.
    split; [apply Hs; [lia|]; split; [exact A4|lia]|]. split; [rewrite Eb; lia|]. intros B.
    set (s := {| sv_dest := q; sv_time := repeat 48%N digits; sv_tokens := [] |}).
    assert (A5 : fits limit (parts_folder cwd config r ++ [part_name s]) = true).
    { apply (G (WriteFile (parts_folder cwd config r ++ [part_name s]) [])); [|left; reflexivity]. apply (nm_part cwd cache config r t digits s []); [exact B|exact Iq|].
      unfold s. cbn [sv_time]. rewrite repeat_length. apply le_n. }
    rewrite fits_snoc in A5. destruct A5 as [_ A5]. unfold part_name, s in A5. cbn [sv_dest sv_time] in A5. rewrite Eq, !app_length, repeat_length in A5.
    change (length (lit "_-_")) with 3 in A5. change (lit ".prep") with prep_suffix. lia.
  - intros (H1 & H2 & H3 & H4 & H5).
    assert (St : forall s, length (stamp_str s) = 17) by reflexivity.
    assert (OP : forall o, In o (parse_outputs cwd cache r t ++ prep_outputs cwd cache r t) ->
      fits limit (parent (abs_parts cwd o)) = true /\ fits limit (abs_parts cwd o) = true /\ fits limit (abs_parts cwd (temp_name o)) = true).
    { intros o I. assert (J : exists b : bool, In o (if b then parse_outputs cwd cache r t else prep_outputs cwd cache r t))
        by (apply in_app_or in I; destruct I as [I|I]; [exists true|exists false]; exact I).
      destruct J as [b J]. destruct (outputs_spec cwd cache r t W S b o J) as (f & p & n & If & X & Vp & Vn & E & E' & _). cbv zeta in E, E'.
      destruct (H5 f If) as (F1 & F2 & _). destruct (names_split limit f p n X Vp Vn) as [Eb Hs]. apply Hs in F1; [|lia]. rewrite Eb in F2.
      assert (B : fits limit (abs_parts cwd (if b then parsed_at cache r else prep_at cache r)) = true /\ length (if b then parsed_suffix else prep_suffix) <= 7).
      { destruct b.
        - rewrite EP, fits_snoc2. change (length (lit "parsed_datasets")) with 15. change (length parsed_suffix) with 7. repeat split; try assumption; lia.
        - rewrite EQ, fits_snoc. change (length prep_suffix) with 5. repeat split; try assumption; lia. }
      unfold parent. rewrite E, E'. rewrite (app_assoc _ p [n ++ _]), removelast_last. rewrite !fits_app, !andb_true_iff, !fits_one, !app_length.
      change (length not_finished) with 5. repeat split; try tauto; destruct b; cbn in *; lia. }
    intros o N.
    destruct N as [p I| |f c I|p c I|o I|o c I|o I| |p s I|p s I|B|s c B I D|c B|B|c]; cbn [paths_of forallb]; rewrite ?andb_true_r.
    + destruct I as [<-|[<-|[<-|[<-|[<-|[]]]]]]; rewrite ?EP, ?EQ, ?EL, ?ES, ?EB, ?fits_snoc2, ?fits_snoc;
        cbn [length lit]; repeat split; try assumption; cbn; lia.
    + rewrite EF, fits_snoc2. repeat split; try assumption; cbn; lia.
    + assert (Vf : valid_name f /\ length f <= 8).
      { destruct I as [<-|[<-|[]]]; (split; [apply valid_long; [intros Hi; vm_compute in Hi; intuition discriminate|vm_compute; lia]|vm_compute; lia]). }
      destruct Vf as [Vf Lf]. rewrite parts_join1 by exact Vf. rewrite EF, fits_snoc, fits_snoc2. repeat split; try assumption; cbn; lia.
    + destruct I as [<-|[<-|[<-|[]]]]; rewrite ?MF, ?MP, ?MQ, ?fits_snoc2, ?fits_snoc, !app_length;
        change (length (lit ".")) with 1; change (length (lit ".lastmodif")) with 10; repeat split; try assumption; cbn; lia.
    + apply OP. exact I.
    + apply OP. exact I.
    + apply andb_true_iff. split; apply OP; exact I.
    + rewrite ED, fits_snoc. split; [exact H1|cbn; lia].
    + apply andb_true_iff. destruct I as [<-|[<-|[]]].
      * rewrite EP, N1, ED, fits_snoc2, <- app_assoc. cbn [app]. rewrite fits_snoc2, !app_length, St. repeat split; try assumption; cbn; lia.
      * rewrite EQ, N0, ED, fits_snoc, <- app_assoc. cbn [app]. rewrite fits_snoc2, !app_length, St. repeat split; try assumption; cbn; lia.
    + apply andb_true_iff. destruct I as [<-|[<-|[]]].
      * rewrite MP, N1, ED, fits_snoc2, <- app_assoc. cbn [app]. rewrite fits_snoc2. rewrite !app_length, St. repeat split; try assumption; cbn; rewrite ?app_length; cbn; lia.
      * rewrite MQ, N0, ED, fits_snoc, <- app_assoc. cbn [app]. rewrite fits_snoc2. rewrite !app_length, St. repeat split; try assumption; cbn; rewrite ?app_length; cbn; lia.
    + unfold parts_folder. rewrite EV, fits_snoc, fits_snoc2, !app_length. repeat split; try assumption; try (change (length (lit "_-_")) with 3; lia); cbn; lia.
    + unfold parts_folder. rewrite EV, !fits_snoc, fits_snoc2, !app_length. repeat split; try assumption; try (change (length (lit "_-_")) with 3; lia); try (cbn; lia).
      destruct (outputs_spec cwd cache r t W S false (sv_dest s) I) as (f & p & n & If & X & Vp & Vn & _ & _ & Eb).
      destruct (H5 f If) as (_ & _ & F). specialize (F B). rewrite (proj1 (names_split limit f p n X Vp Vn)) in F.
      unfold part_name. rewrite Eb, !app_length. change (length (lit "_-_")) with 3. change prep_suffix with (lit ".prep"). lia.
    + rewrite EV, fits_snoc, fits_snoc2, !app_length. repeat split; try assumption; try (change (length (lit "_-_")) with 3; lia); cbn; lia.
    + unfold parts_folder. rewrite EV, fits_snoc, fits_snoc2, !app_length. repeat split; try assumption; try (change (length (lit "_-_")) with 3; lia); cbn; lia.
    + rewrite EZ, fits_snoc2. repeat split; try assumption; cbn; lia.
Qed.
Print Assumptions C112_exact.

(** Then a run does on such a file system what it does on one without a limit, whatever it does in whatever order. *)
Theorem C112_fits : forall cwd cache config r t digits limit os fs,
  plain_names r -> wf t -> (is_dir t = false -> valid_name (basename (r_path r))) -> room limit digits cwd cache config r t ->
  Forall (fun to => named_op cwd cache config r t digits (snd to)) os ->
  perform_all_within limit os fs = Some (perform_all os fs).
Proof.
  intros cwd cache config r t digits limit os fs P W S R F.
  pose proof (proj2 (C112_exact cwd cache config r t digits limit P W S) R) as H. unfold perform_all. revert fs.
  induction F as [|[s o] os N F IH]; intros fs; [reflexivity|]. cbn [perform_all_within fold_left fst snd] in *. unfold perform_within.
  rewrite (H o N). apply IH.
Qed.
Print Assumptions C112_fits.

(** On the usual file systems, with a limit of 255 bytes and at most 20 characters of time: it is enough that the name of the directory with
    the results has at most 217 bytes, and every file a name of at most 56 bytes, or at most 224 ordinary characters, or at most 243
    bytes when no special tokens are collected. *)
Theorem C112_usual : forall cwd cache config r t,
  fits 255 (abs_parts cwd cache) = true -> fits 255 (abs_parts cwd config) = true -> fits 255 (abs_parts cwd (output_of cache r)) = true ->
  length (prep_basename r) <= 217 ->
  (forall f, In f (scan_files (r_path r) t (r_exts r)) -> fits 255 (split_on slash f) = true /\
     (length (basename f) <= 56 \/ (length (basename f) <= 224 /\ Forall plain_char (basename f))
      \/ (length (basename f) <= 243 /\ is_base_bpe_config (r_config r) = false))) ->
  room 255 20 cwd cache config r t.
Proof.
  intros cwd cache config r t H1 H2 H3 H4 H5. repeat (split; [assumption || lia|]). intros f I. destruct (H5 f I) as [F C].
  split; [exact F|]. split; [lia|]. intros B. set (n := basename f) in *.
  assert (E : length (brepr (n ++ lit ".prep")) = 8 + list_sum (map (width (bquote (n ++ lit ".prep"))) n)).
  { rewrite brepr_length. rewrite map_app, list_sum_app. rewrite (sum_map_const _ 1 (lit ".prep")).
    - change (length (lit ".prep")) with 5. lia.
    - eapply Forall_impl with (P := plain_char); [|repeat constructor; vm_compute; intuition discriminate].
      intros c H. apply width_plain; [exact H|]. unfold bquote. destruct (_ && _)%bool; auto. }
  rewrite E. destruct C as [C|[[C P]|[_ C]]]; [| |congruence].
  - pose proof (sum_map_bounds (width (bquote (n ++ lit ".prep"))) 1 4 n (width_bounds _)). lia.
  - rewrite (sum_map_const _ 1); [lia|]. eapply Forall_impl; [|exact P]. intros c H. apply width_plain; [exact H|].
    unfold bquote. destruct (_ && _)%bool; auto.
Qed.
Print Assumptions C112_usual.

(** ** A name that is good for the dataset may not be good for the results *)
Lemma within_none limit a s o b fs : forallb (fits limit) (paths_of o) = false -> perform_all_within limit (a ++ (s, o) :: b) fs = None.
Proof.
  intros H. revert fs. induction a as [|x a IH]; intros fs; cbn [app perform_all_within fst snd].
  - unfold perform_within. rewrite H. reflexivity.
  - destruct (perform_within limit (fst x) (snd x) fs); [apply IH|reflexivity].
Qed.

(** One file with a name of 244 to 255 bytes anywhere in the dataset: the run cannot get past writing its result. *)
Theorem C112_long_refuted : forall cwd cache config r t f,
  plain_names r -> wf t -> (is_dir t = false -> valid_name (basename (r_path r))) ->
  In f (scan_files (r_path r) t (r_exts r)) -> 243 < length (basename f) ->
  exists o, In o (parse_outputs cwd cache r t) /\
    (forall digits c, named_op cwd cache config r t digits (WriteFile (abs_parts cwd (temp_name o)) c)) /\
    forall a s c b fs, perform_all_within 255 (a ++ (s, WriteFile (abs_parts cwd (temp_name o)) c) :: b) fs = None.
Proof.
  intros cwd cache config r t f P W S I L. destruct (outputs_exist cwd cache r t 255 W S f I) as ((o & p & n & Io & X & Vp & Vn & E) & _).
  exists o. split; [exact Io|]. split; [intros digits c; apply nm_output, in_or_app; left; exact Io|]. intros a s c b fs. apply within_none.
  cbn [paths_of forallb]. rewrite andb_true_r, E. apply not_true_is_false. intros H. rewrite fits_app, andb_true_iff, fits_snoc, !app_length in H.
  destruct (names_split 255 f p n X Vp Vn) as [Eb _]. rewrite Eb in L. change (length parsed_suffix) with 7 in H. change (length not_finished) with 5 in H. lia.
Qed.
Print Assumptions C112_long_refuted.

(** Where special tokens are collected (learning bpe codes), much shorter names are too long, when they have letters that are not ASCII:
    with times of 18 characters, from 57 bytes on. *)
Theorem C112_letters_refuted : forall cwd cache config r t f x y,
  plain_names r -> wf t -> (is_dir t = false -> valid_name (basename (r_path r))) -> is_base_bpe_config (r_config r) = true ->
  In f (scan_files (r_path r) t (r_exts r)) -> basename f = x ++ y -> Forall (fun c => 128 <= c)%N x -> Forall plain_char y ->
  226 < 4 * length x + length y ->
  exists o, In o (prep_outputs cwd cache r t) /\
    forall s, sv_dest s = o -> 18 <= length (sv_time s) ->
    (forall c, named_op cwd cache config r t (length (sv_time s)) (WriteFile (parts_folder cwd config r ++ [part_name s]) c)) /\
    forall a m c b fs, perform_all_within 255 (a ++ (m, WriteFile (parts_folder cwd config r ++ [part_name s]) c) :: b) fs = None.
Proof.
  intros cwd cache config r t f x y P W S B I E Fx Fy L. destruct (outputs_exist cwd cache r t 255 W S f I) as (_ & (o & Io & Eo)).
  exists o. split; [exact Io|]. intros s Es T. split; [intros c; apply nm_part; [exact B|rewrite Es; exact Io|apply le_n]|].
  intros a m c b fs. apply within_none. cbn [paths_of forallb]. rewrite andb_true_r. apply not_true_is_false. intros H.
  rewrite fits_snoc in H. destruct H as [_ H]. destruct (C112_width s) as (_ & _ & K). rewrite (K x (y ++ lit ".prep")) in H.
  - rewrite app_length in H. change (length (lit ".prep")) with 5 in H. lia.
  - rewrite Es, Eo, E, <- app_assoc. reflexivity.
  - exact Fx.
  - apply Forall_app. split; [exact Fy|]. repeat constructor; vm_compute; intuition discriminate.
Qed.
Print Assumptions C112_letters_refuted.

(** The extensions asked for are part of the name of each directory: with many of them nothing can be preprocessed, whatever the dataset. *)
Theorem C112_extensions_refuted : forall cwd cache config r t es digits,
  plain_names r -> r_exts r = Some es -> 237 < list_sum (map (fun e => S (length e)) es) ->
  named_op cwd cache config r t digits (MakeDirs (abs_parts cwd (parsed_at cache r))) /\
  forall a m b fs, perform_all_within 255 (a ++ (m, MakeDirs (abs_parts cwd (parsed_at cache r))) :: b) fs = None.
Proof.
  intros cwd cache config r t es digits P E L. split; [apply nm_create; left; reflexivity|]. intros a m b fs. apply within_none.
  cbn [paths_of forallb]. rewrite andb_true_r. apply not_true_is_false. intros H. rewrite (parsed_parts cwd cache r P), fits_snoc2 in H.
  destruct H as (_ & _ & H).
  assert (J : forall l : list str, l <> [] -> S (length (join (lit "_") l)) = list_sum (map (fun e => S (length e)) l)).
  { induction l as [|x [|z l] IH]; intros N; [congruence|cbn; lia|]. rewrite join_cons by discriminate. rewrite !app_length. cbn [map list_sum fold_right] in *.
    specialize (IH ltac:(discriminate)). change (length (lit "_")) with 1. unfold list_sum in *. cbn [fold_right] in *. lia. }
  unfold dataset_dir_name in H. rewrite E in H. destruct es as [|e es]; [cbn in L; lia|]. rewrite !app_length in H.
  specialize (J (e :: es) ltac:(discriminate)). change (length (stamp_str (r_stamp r))) with 17 in H. change (length (lit "_")) with 1 in H. lia.
Qed.
Print Assumptions C112_extensions_refuted.

(** ** Examples *)
Lemma ex_ops_named cwd r t : Forall (named_op cwd (lit "/c") (lit "/u") r t 20) (ex_ops cwd r t).
Proof.
  unfold ex_ops, M_Place.parts. repeat (apply Forall_app; split).
  - cbn [map]. repeat apply Forall_cons; try apply Forall_nil; try (apply nm_create; cbn [In]; tauto). apply nm_list_folder.
  - cbn [map]. repeat apply Forall_cons; try apply Forall_nil; apply nm_list; cbn [In]; tauto.
  - apply Forall_cons; [|apply Forall_nil]. apply nm_ready. cbn [In]. tauto.
  - apply Forall_flat_map, Forall_forall. intros o H.
    repeat apply Forall_cons; try apply Forall_nil; [apply nm_output_dir|apply nm_output|apply nm_output_done]; apply in_or_app; left; exact H.
  - apply Forall_cons; [|apply Forall_nil]. apply nm_ready. cbn [In]. tauto.
  - apply Forall_flat_map, Forall_forall. intros o H.
    repeat apply Forall_cons; try apply Forall_nil; [apply nm_output_dir|apply nm_output|apply nm_output_done]; apply in_or_app; right; exact H.
  - apply Forall_cons; [|apply Forall_nil]. apply nm_ready. cbn [In]. tauto.
Qed.
(** a usual run fits: what it leaves behind is what it leaves without a limit *)
Example C112_example :
  let r := ex_place "proj" (Some [lit "py"]) "/home" 7 in
  plain_names r /\ room 255 20 [lit "home"] (lit "/c") (lit "/u") r ex_src /\
  Forall (fun to => named_op [lit "home"] (lit "/c") (lit "/u") r ex_src 20 (snd to)) (at_nine (ex_ops [lit "home"] r ex_src)) /\
  option_map (shape_at [lit "home"; prep_basename r]) (perform_all_within 255 (at_nine (ex_ops [lit "home"] r ex_src)) ex_fs)
  = Some (Some (Dir false 9 [(lit "a.py.prep", File 9)])) /\
  perform_all_within 40 (at_nine (ex_ops [lit "home"] r ex_src)) ex_fs = None.
Proof.
  split; [apply C95_example|]. split.
  { apply C112_usual; [vm_compute; reflexivity|vm_compute; reflexivity|vm_compute; reflexivity|apply Nat.leb_le; vm_compute; reflexivity|].
    intros f I. vm_compute in I. destruct I as [<-|[]]. split; [vm_compute; reflexivity|]. left. apply Nat.leb_le. vm_compute. reflexivity. }
  split; [|split; vm_compute; reflexivity].
  apply Forall_map. cbn [snd]. apply ex_ops_named.
Qed.

Definition ex_one (n : str) : node := Dir false 5 [(n, File 7)].
Lemma ex_one_wf n : valid_name n -> wf (ex_one n).
Proof. intros V. constructor; [repeat constructor; intros []|]. intros m u [E|[]]. injection E as <- <-. split; [exact V|constructor]. Qed.
(** names that are good in a dataset, and not good for its results: 244 letters; thirty e with an accent and an extension, 63 bytes *)
Definition ex_letters : str := List.concat (repeat [195; 169]%N 30) ++ lit ".py".
Definition ex_base : run :=
  {| r_path := lit "proj"; r_stamp := civil 7; r_exts := None;
     r_config := combine prep_params (map (fun c => [c]) (lit "U0EFsu"));
     r_custom := None; r_output := None |}.
Example C112_bad_example :
  (let n := repeat 97%N 244 in valid_name n /\ length n <= 255 /\
     scan_files (lit "proj") (ex_one n) None = [lit "./" ++ n] /\ 243 < length (basename (lit "./" ++ n))) /\
  (valid_name ex_letters /\ length ex_letters = 63 /\ is_base_bpe_config (r_config ex_base) = true /\ plain_names ex_base /\
     scan_files (lit "proj") (ex_one ex_letters) None = [lit "./" ++ ex_letters] /\
     226 < 4 * length (List.concat (repeat [195; 169]%N 30)) + length (lit ".py")) /\
  237 < list_sum (map (fun e => S (length e)) (map (fun i => lit "ex" ++ dec (N.of_nat i)) (seq 10 50))).
Proof.
  split; [|split].
  - cbv zeta. split; [apply valid_long; [intros H; apply repeat_spec in H; discriminate|rewrite repeat_length; lia]|].
    split; [rewrite repeat_length; lia|]. split; [vm_compute; reflexivity|]. apply Nat.ltb_lt. vm_compute. reflexivity.
  - split; [apply valid_long; [intros H; vm_compute in H; intuition discriminate|apply Nat.ltb_lt; vm_compute; reflexivity]|].
    split; [vm_compute; reflexivity|]. split; [vm_compute; reflexivity|]. split.
    + split; [vm_compute; auto 10|]. split; [vm_compute; reflexivity|]. split; [constructor|exact I].
    + split; [vm_compute; reflexivity|apply Nat.ltb_lt; vm_compute; reflexivity].
  - apply Nat.ltb_lt. vm_compute. reflexivity.
Qed.
