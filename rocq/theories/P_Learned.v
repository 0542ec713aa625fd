(** * C75: learned bpe codes can be used by their ids *)
From Verif Require Import M_Base L_Base M_Literal L_Literal S_Bpe L_Bpe M_Merge L_Merge P_Merge M_BpeEncode L_BpeEncode
  M_Learn P_Queue L_Learn P_Learn M_Vocab L_Vocab P_Vocab M_PrepConfig M_Registry P_Registry M_Pipeline M_BpeRun P_BpeRun
  M_Tokens M_Repr M_Api M_Learned.
From Coq Require Import Lia Permutation.

Definition no_sep (d : str) : Prop := contains (lit "_-_") (d ++ lit "_") = false.

(** ** Names of directories *)
Lemma app_end_inj (a b x y : str) : length x = length y -> a ++ x = b ++ y -> a = b /\ x = y.
Proof.
  intros Hl H. assert (Ha : length a = length b).
  { apply (f_equal (@length N)) in H. rewrite !app_length in H. lia. }
  revert b Ha H. induction a as [|c a IH]; intros [|c' b] Ha H; try discriminate Ha; [auto|].
  cbn [app] in H. injection H as -> H. destruct (IH b) as [-> ->]; auto.
Qed.

Lemma base_config_length c : length (base_config c) = 6.
Proof. unfold base_config. destruct (eqb (bc_unicode c) (lit "no")); reflexivity. Qed.

Lemma vocab_dir_inj d c d' c' : vocab_dir_name d c = vocab_dir_name d' c' -> d = d' /\ base_config c = base_config c'.
Proof.
  unfold vocab_dir_name. intros H. apply app_end_inj in H.
  - destruct H as [-> H]. split; [reflexivity|]. apply app_inv_head in H. exact H.
  - rewrite !app_length, !base_config_length. reflexivity.
Qed.

Lemma bpe_dir_inj d c d' c' : bc_valid c = true -> bc_valid c' = true -> no_sep d -> no_sep d' ->
  bpe_dir_name d c = bpe_dir_name d' c' -> d = d' /\ base_config c = base_config c'.
Proof.
  intros Hc Hc' Hd Hd' E. destruct (C37_directory d c Hc Hd) as [H1 H2]. destruct (C37_directory d' c' Hc' Hd') as [H3 H4].
  rewrite E in H1, H2. split; [congruence|]. rewrite H2 in H4. injection H4 as _ _ Hu. unfold base_config. rewrite Hu. reflexivity.
Qed.

(** ** Learning always finds something to merge *)
Lemma some_merges c l v : corpus_ok c -> words c <> [] -> greedy (characters c) l v ->
  Forall (fun wf => length (fst wf) = 1) v -> l <> [].
Proof.
  intros Hc Hw G Hv ->. inversion G; subst v. clear G.
  unfold characters in Hv. rewrite Forall_map in Hv. destruct (words c) as [|kv ws] eqn:Ew; [contradiction|].
  inversion Hv as [|? ? H1 _]; subst. cbn [fst] in H1.
  assert (Hin : In kv (words c)) by (rewrite Ew; left; reflexivity).
  apply filter_In in Hin as [Hin _]. destruct Hc as (_ & Hc & _). rewrite Forall_forall in Hc.
  destruct (Hc _ Hin) as (K1 & K2 & _). destruct kv as [k z]. cbn [fst] in *.
  rewrite (initial_split_units _ K1 K2), app_length, map_length in H1.
  destruct k; [contradiction|]. cbn in H1. lia.
Qed.

Lemma ml_from_firstn n i l : firstn n (ml_from i l) = ml_from i (firstn n l).
Proof.
  revert i l. induction n as [|n IH]; intros i l; [reflexivity|]. destruct l as [|[p f] l]; [reflexivity|].
  cbn [ml_from firstn]. rewrite IH. reflexivity.
Qed.

Lemma ml_of_firstn n l : firstn n (ml_of l) = ml_of (firstn n l).
Proof. unfold ml_of. rewrite ml_from_firstn, firstn_map. reflexivity. Qed.

Lemma read_first n l : NoDup (map fst l) ->
  Forall (fun pn : pair * Z => good_sym (fst (fst pn)) /\ good_sym (snd (fst pn))) l -> 0 < n ->
  read_merges (dump_merges (ml_of l)) (Some n) = Ok (ml_of (firstn n l)).
Proof.
  intros Hn Hg Hp. rewrite <- ml_of_firstn. apply C23_prefix; [apply merges_back; assumption| |exact Hp].
  unfold ml_of at 1. rewrite ml_from_length, map_length. unfold ml_of. rewrite dump_ml_from, lines_of_dump, map_length; [rewrite map_length; reflexivity|].
  rewrite Forall_map. eapply Forall_impl; [|exact Hg]. intros [p z] [H1 H2]. repeat split; try apply H1; try apply H2. discriminate.
Qed.

Section Learned.
  Variable py_int : str -> option Z.
  Hypothesis py_int_dec : forall k, py_int (dec k) = Some (Z.of_N k).
  Variable maxsize : Z.
  Variable strip : str -> str.
  (** str.strip *)
  Variable is_blank : N -> bool.
  Hypothesis strip_clean : forall s, s <> [] -> is_blank (hd 0%N s) = false -> is_blank (last s 0%N) = false -> strip s = s.
  Hypothesis ascii_clean : forall c, (48 <= c < 128)%N -> is_blank c = false.
  Variable number_of : str -> str -> option str.
  Variable source : str -> str -> dict str Z * str.

  Notation learn_bpe := (learn_bpe py_int maxsize strip number_of source).
  Notation disk_of := (disk_of py_int maxsize strip).

  Definition corpus_for (d : str) (c : bpe_config) (nb : list str) : corpus :=
    {| all_vocab := fst (source d (base_config c)); nonbpe := nb |}.

  Definition good_id (i : str) : Prop := strip i = i /\ i <> [] /\ no_char newline i.

  (** the id base read as a pattern: it matches itself with a number, and its first group is a number *)
  Definition plain_base (base : str) : Prop :=
    self_matching number_of base /\
    forall full ds, number_of base full = Some ds -> ds <> [] /\ forallb is_digit ds = true.

  (** a command that does what it should: the configuration is supported, at least one merge is asked for, the corpus has words
      to split; an id given by the user is not that of another dataset *)
  Definition good_cmd (w : world) (k : learn_cmd) : Prop :=
    bc_valid (k_conf k) = true /\ supported (k_conf k) = true /\ no_sep (k_dir k) /\
    1 <= k_n k /\ (Z.of_nat (k_n k) < maxsize)%Z /\
    (exists nb, load_vocab_set (snd (source (k_dir k) (base_config (k_conf k)))) = Ok nb /\
                corpus_ok (corpus_for (k_dir k) (k_conf k) nb) /\ words (corpus_for (k_dir k) (k_conf k) nb) <> []) /\
    match k_id k with
    | Some (c :: i) => good_id (c :: i) /\
                       forall name r, dget (w_bpe w) name = Some r -> r_id r = Some (c :: i) ->
                                      name = bpe_dir_name (k_dir k) (k_conf k)
    | _ => k_base k <> [] /\ no_char newline (k_base k) /\ is_blank (hd 0%N (k_base k)) = false /\
           is_blank (last (k_base k) 0%N) = false /\ plain_base (id_base (k_base k) (to_suffix (k_conf k)))
    end.

  (** all that happens: datasets are preprocessed, which makes directories, codes are learned, and commands for datasets that
      have codes already are killed while they learn more (for the others see C75_killed_refuted) *)
  Inductive history : world -> list learn_cmd -> Prop :=
  | history_start : history empty_world []
  | history_touch w ks name : history w ks -> history (touch w name) ks
  | history_learn w ks k r w' : history w ks -> good_cmd w k -> learn_bpe w k = (r, w') -> history w' (ks ++ [k])
  | history_killed w ks k r : history w ks -> dget (w_bpe w) (bpe_dir_name (k_dir k) (k_conf k)) = Some r -> r_id r <> None ->
      history (learn_killed py_int maxsize strip number_of w k) ks.

  (** ** Invariant *)
  Definition good_dir (w : world) (name : str) (r : rdir) : Prop :=
    (r_id r = None /\ r_lists r = []) \/
    exists d c i nb, name = bpe_dir_name d c /\ bc_valid c = true /\ no_sep d /\ r_id r = Some i /\ good_id i /\
      load_vocab_set (snd (source d (base_config c))) = Ok nb /\ corpus_ok (corpus_for d c nb) /\
      good_state (corpus_for d c nb) (r_lists r) /\
      dget (w_vocab w) (vocab_dir_name d c) = Some (source d (base_config c)) /\
      (exists k, In k (dkeys (r_lists r)) /\ 0 < k) /\ (forall k, In k (dkeys (r_lists r)) -> (Z.of_nat k < maxsize)%Z).

  Record good_world (w : world) : Prop := {
    gw_nodup : NoDup (dkeys (w_bpe w));
    gw_dir : forall name r, dget (w_bpe w) name = Some r -> good_dir w name r;
    gw_ids : forall n1 r1 n2 r2 i, dget (w_bpe w) n1 = Some r1 -> dget (w_bpe w) n2 = Some r2 ->
                                   r_id r1 = Some i -> r_id r2 = Some i -> n1 = n2;
    gw_vocab : forall v x, dget (w_vocab w) v = Some x -> exists d c, v = vocab_dir_name d c /\ x = source d (base_config c)
  }.

  Lemma touch_get w name n r : dget (w_bpe (touch w name)) n = Some r ->
    dget (w_bpe w) n = Some r \/ (n = name /\ dget (w_bpe w) name = None /\ r = {| r_id := None; r_lists := [] |}).
  Proof.
    unfold touch, dmem. destruct (dget (w_bpe w) name) eqn:E; [auto|]. cbn [set_dir w_bpe].
    destruct (eqb_spec (name : str) n) as [->|Hne]; [rewrite dget_dset_eq; intros [= <-]; auto|].
    rewrite dget_dset_neq by exact Hne. auto.
  Qed.

  Lemma touch_vocab w name : w_vocab (touch w name) = w_vocab w.
  Proof. unfold touch. destruct (dmem (w_bpe w) name); reflexivity. Qed.

  Lemma touch_keeps w name n r : dget (w_bpe w) n = Some r -> dget (w_bpe (touch w name)) n = Some r.
  Proof.
    intros H. unfold touch, dmem. destruct (dget (w_bpe w) name) eqn:E; [exact H|]. cbn [set_dir w_bpe].
    rewrite dget_dset_neq; [exact H|]. intros ->. congruence.
  Qed.

  Lemma touch_good w name : good_world w -> good_world (touch w name).
  Proof.
    intros [G1 G2 G3 G4]. constructor.
    - unfold touch. destruct (dmem (w_bpe w) name); [exact G1|]. apply dset_nodup, G1.
    - intros n r H. apply touch_get in H. unfold good_dir. rewrite touch_vocab. destruct H as [H|(-> & _ & ->)]; [exact (G2 _ _ H)|left; split; reflexivity].
    - intros n1 r1 n2 r2 i H1 H2 I1 I2. apply touch_get in H1, H2.
      destruct H1 as [H1|(_ & _ & ->)]; [|discriminate I1]. destruct H2 as [H2|(_ & _ & ->)]; [|discriminate I2].
      exact (G3 _ _ _ _ _ H1 H2 I1 I2).
    - rewrite touch_vocab. exact G4.
  Qed.

  Lemma touch_there w name : exists r, dget (w_bpe (touch w name)) name = Some r.
  Proof.
    unfold touch, dmem. destruct (dget (w_bpe w) name) as [r|] eqn:E; [eauto|]. cbn [set_dir w_bpe]. rewrite dget_dset_eq. eauto.
  Qed.

  (** *** New ids *)
  Lemma existing_all w name r i : good_world w -> dget (w_bpe w) name = Some r -> r_id r = Some i ->
    In i (existing_ids py_int maxsize strip (listing w)).
  Proof.
    intros G Hr Hi. unfold existing_ids. apply in_flat_map. exists (r_id r, subdirs r). split.
    - unfold listing. apply in_map_iff. exists r. split; [reflexivity|]. unfold dvals. apply in_map_iff. exists (name, r).
      split; [reflexivity|]. apply dget_in, Hr.
    - destruct (gw_dir _ G _ _ Hr) as [[H _]|(d & c & i' & nb & _ & _ & _ & H & (Hs & Hne & _) & _ & _ & _ & _ & (k & Hk & Hpos) & Hmax)]; [congruence|].
      assert (i' = i) by congruence. subst i'. unfold codes_id. cbn [fst snd]. rewrite Hi. cbn [option_map]. rewrite Hs.
      pose proof (C35_max py_int (subdirs r) maxsize) as M.
      assert (L : learned py_int (subdirs r) (Z.of_nat k)) by (apply learned_iff; [exact py_int_dec|]; exists k; auto).
      destruct (get_max_merges py_int (subdirs r) maxsize) as [m|].
      + destruct M as (_ & M & _). destruct (eqb_spec (i : str) []) as [E|_]; [contradiction|].
        destruct (Z.eqb_spec m 0); [lia|]. left. reflexivity.
      + specialize (M _ L ltac:(lia)). specialize (Hmax _ Hk). lia.
  Qed.

  Lemma create_total base suffix dirs : plain_base (id_base base suffix) ->
    exists i, create_new_id py_int maxsize strip number_of base suffix dirs = Ok i /\
              (i = id_base base suffix \/ exists n, i = id_base base suffix ++ lit "_" ++ dec n).
  Proof.
    intros [_ Hp]. unfold create_new_id. destruct (mem _ _); [|eauto].
    assert (exists ns, mapM (fun d => extract_number number_of d (id_base base suffix)) (existing_ids py_int maxsize strip dirs) = Ok ns) as [ns ->].
    { induction (existing_ids py_int maxsize strip dirs) as [|x l [ns IH]]; [eexists; reflexivity|]. cbn [mapM].
      unfold extract_number at 1. destruct (number_of (id_base base suffix) x) as [ds|] eqn:E.
      - destruct (Hp _ _ E) as [H1 H2]. rewrite H2. destruct (eqb_spec (ds : str) []) as [E'|_]; [contradiction|]. cbn [negb andb].
        assert (exists n, parse_digits 0 ds = Some n) as [n ->].
        { clear -H2. generalize 0%N. induction ds as [|c ds IH]; intros a; [eexists; reflexivity|]. cbn [forallb] in H2.
          apply andb_true_iff in H2. destruct H2 as [H1 H2]. cbn [parse_digits]. rewrite H1. apply IH, H2. }
        cbn [bind]. rewrite IH. eexists. reflexivity.
      - cbn [bind]. rewrite IH. eexists. reflexivity. }
    cbn [bind]. eexists. split; [reflexivity|]. right. eexists. reflexivity.
  Qed.

  Lemma suffix_supported c : bc_valid c = true -> supported c = true -> to_suffix c = [] \/ to_suffix c = lit "nounicode".
  Proof.
    destruct c as [ca we ba un]. intros H. apply bc_valid_cases in H. cbn in H.
    destruct H as (-> & _ & [-> |[-> | ->]]); destruct we; cbn; try discriminate; auto.
  Qed.

  Lemma dec_clean n : dec n <> [] /\ Forall (fun c => (48 <= c < 128)%N) (dec n).
  Proof.
    split; [apply dec_nonempty|]. eapply Forall_impl; [|apply dec_digits]. intros c Hc. unfold is_digit in Hc.
    apply andb_true_iff in Hc. destruct Hc as [H1 H2]. apply N.leb_le in H1, H2. lia.
  Qed.

  Lemma good_app s t : s <> [] -> no_char newline s -> is_blank (hd 0%N s) = false -> is_blank (last s 0%N) = false ->
    Forall (fun c => (48 <= c < 128)%N) t -> good_id (s ++ t).
  Proof.
    intros Hs Hn H1 H2 Ht. split; [|split].
    - apply strip_clean; [destruct s; [contradiction|discriminate]|destruct s; [contradiction|exact H1]|].
      destruct t as [|c t]; [rewrite app_nil_r; exact H2|]. apply ascii_clean.
      assert (Hin : In (last (s ++ c :: t) 0%N) (c :: t)).
      { clear. induction s as [|x s IH]; [apply last_in; discriminate|]. cbn [app]. destruct (s ++ c :: t) eqn:E; [destruct s; discriminate|].
        exact IH. }
      rewrite Forall_forall in Ht. exact (Ht _ Hin).
    - destruct s; [contradiction|discriminate].
    - intros Hin. apply in_app_or in Hin. destruct Hin as [Hin|Hin]; [exact (Hn Hin)|]. rewrite Forall_forall in Ht.
      specialize (Ht _ Hin). unfold newline in Ht. lia.
  Qed.

  (** the id a good command gives to its dataset *)
  Lemma new_id w k : good_world w -> good_cmd w k ->
    (forall r, dget (w_bpe w) (bpe_dir_name (k_dir k) (k_conf k)) = Some r -> r_id r = None) ->
    exists i, create_new_id_from py_int maxsize strip number_of (k_base k) (to_suffix (k_conf k)) (listing w) (k_id k) = Ok i /\
      good_id i /\ (forall name r, dget (w_bpe w) name = Some r -> r_id r <> Some i) /\
      (k_id k = None \/ k_id k = Some [] \/ k_id k = Some i).
  Proof.
    intros G (Hv & Hsu & _ & _ & _ & _ & Hid) Hnew.
    assert (Hauto : k_base k <> [] /\ no_char newline (k_base k) /\ is_blank (hd 0%N (k_base k)) = false /\
           is_blank (last (k_base k) 0%N) = false /\ plain_base (id_base (k_base k) (to_suffix (k_conf k))) ->
      exists i, create_new_id py_int maxsize strip number_of (k_base k) (to_suffix (k_conf k)) (listing w) = Ok i /\
        good_id i /\ (forall name r, dget (w_bpe w) name = Some r -> r_id r <> Some i)).
    { intros (H1 & H2 & H3 & H4 & H5). destruct (create_total (k_base k) (to_suffix (k_conf k)) (listing w) H5) as (i & Hi & Hsh).
      exists i. split; [exact Hi|]. split.
      - assert (Eb : exists t, id_base (k_base k) (to_suffix (k_conf k)) = k_base k ++ t /\ Forall (fun c => (48 <= c < 128)%N) t).
        { unfold id_base. destruct (suffix_supported _ Hv Hsu) as [-> | ->].
          - exists []. rewrite app_nil_r. split; [reflexivity|constructor].
          - exists (lit "_nounicode"). split; [reflexivity|]. apply Forall_forall. intros c Hc. cbn in Hc.
            repeat (destruct Hc as [<-|Hc]; [lia|]). destruct Hc. }
        destruct Eb as (t & Eb & Ht). rewrite Eb in Hsh. destruct Hsh as [->|(n & ->)].
        + apply good_app; assumption.
        + rewrite <- app_assoc. apply good_app; try assumption. apply Forall_app. split; [exact Ht|].
          apply Forall_app. split; [|apply dec_clean]. cbn. apply Forall_cons; [lia|apply Forall_nil].
      - intros name r Hr E. apply (C36_new_id py_int maxsize strip number_of _ _ _ _ (proj1 H5) Hi).
        eapply existing_all; eassumption. }
    unfold create_new_id_from. destruct (k_id k) as [[|c i]|].
    - destruct (Hauto Hid) as (i & Hi & H1 & H2). exists i. cbn [eqb]. repeat split; auto; apply H1.
    - destruct Hid as [Hg Hf]. exists (c :: i). split; [reflexivity|]. split; [exact Hg|]. split; [|auto].
      intros name r Hr E. specialize (Hf _ _ Hr E). subst name. specialize (Hnew _ Hr). congruence.
    - destruct (Hauto Hid) as (i & Hi & H1 & H2). exists i. repeat split; auto; apply H1.
  Qed.

  (** *** One command *)
  (** directory [name] of [w] is replaced *)
  Lemma put_good w1 w' name rd d c :
    good_world w1 -> NoDup (dkeys (w_bpe w')) ->
    (forall n, dget (w_bpe w') n = if eqb n name then Some rd else dget (w_bpe w1) n) ->
    (forall v x, dget (w_vocab w1) v = Some x -> dget (w_vocab w') v = Some x) ->
    (forall v x, dget (w_vocab w') v = Some x ->
                 dget (w_vocab w1) v = Some x \/ (v = vocab_dir_name d c /\ x = source d (base_config c))) ->
    good_dir w' name rd ->
    (forall n r i, dget (w_bpe w1) n = Some r -> r_id r = Some i -> r_id rd = Some i -> n = name) ->
    good_world w'.
  Proof.
    intros [G1 G2 G3 G4] Hnd Hget Hv1 Hv2 Hdir Hid. constructor; [exact Hnd| | |].
    - intros n r H. rewrite Hget in H. destruct (eqb_spec (n : str) name) as [->|Hne]; [injection H as <-; exact Hdir|].
      destruct (G2 _ _ H) as [K|(d1 & c1 & i & nb & K1 & K2 & K3 & K4 & K5 & K6 & K7 & K8 & K9 & K10 & K11)]; [left; exact K|].
      right. exists d1, c1, i, nb. repeat (split; [assumption|]). split; [apply Hv1, K9|]. split; assumption.
    - intros n1 r1 n2 r2 i H1 H2 I1 I2. rewrite Hget in H1, H2.
      destruct (eqb_spec (n1 : str) name) as [->|N1]; destruct (eqb_spec (n2 : str) name) as [->|N2].
      + reflexivity.
      + injection H1 as <-. symmetry. exact (Hid _ _ _ H2 I2 I1).
      + injection H2 as <-. exact (Hid _ _ _ H1 I1 I2).
      + exact (G3 _ _ _ _ _ H1 H2 I1 I2).
    - intros v x H. destruct (Hv2 _ _ H) as [K|[-> ->]]; [exact (G4 _ _ K)|eauto].
  Qed.

  (** what is in a world after command [k] *)
  Definition has_codes (w : world) (k : learn_cmd) : Prop :=
    exists rd i nb l v,
      dget (w_bpe w) (bpe_dir_name (k_dir k) (k_conf k)) = Some rd /\ r_id rd = Some i /\
      load_vocab_set (snd (source (k_dir k) (base_config (k_conf k)))) = Ok nb /\
      greedy (characters (corpus_for (k_dir k) (k_conf k) nb)) l v /\
      (length l < k_n k -> Forall (fun wf => length (fst wf) = 1) v) /\
      In (length l) (dkeys (r_lists rd)) /\ (Z.of_nat (k_n k) < maxsize)%Z /\ length l <= k_n k /\
      bc_valid (k_conf k) = true /\ no_sep (k_dir k).

  (** nothing learned is lost *)
  Definition keeps (w w' : world) : Prop :=
    forall n rd i, dget (w_bpe w) n = Some rd -> r_id rd = Some i ->
    exists rd', dget (w_bpe w') n = Some rd' /\ r_id rd' = Some i /\
                forall m d, dget (r_lists rd) m = Some d -> dget (r_lists rd') m = Some d.

  Lemma keeps_touch w name : keeps w (touch w name).
  Proof. intros n rd i H1 H2. exists rd. split; [apply touch_keeps, H1|]. auto. Qed.

  Lemma keeps_codes w w' k : keeps w w' -> has_codes w k -> has_codes w' k.
  Proof.
    intros K (rd & i & nb & l & v & H1 & H2 & H3 & H4 & H5 & H6 & H7).
    destruct (K _ _ _ H1 H2) as (rd' & K1 & K2 & K3). exists rd', i, nb, l, v. repeat (split; [assumption|]).
    split; [|exact H7]. apply dkeys_in_dget in H6. destruct H6 as [d H6]. eapply dget_some_key, K3, H6.
  Qed.

  Lemma good_cmd_touch w name k : good_cmd w k -> good_cmd (touch w name) k.
  Proof.
    intros (H1 & H2 & H3 & H4 & H5 & H6 & H7). repeat (split; [assumption|]). destruct (k_id k) as [[|c i]|]; [exact H7| |exact H7].
    destruct H7 as [H7 H8]. split; [exact H7|]. intros n r Hr Hi. apply touch_get in Hr.
    destruct Hr as [Hr|(_ & _ & ->)]; [exact (H8 _ _ Hr Hi)|discriminate Hi].
  Qed.

  (** the id of the dataset of a command: the one it has, or the new one *)
  Definition id_of_cmd (w : world) (k : learn_cmd) (i : str) : Prop :=
    let name := bpe_dir_name (k_dir k) (k_conf k) in
    match dget (w_bpe w) name with
    | Some {| r_id := Some j |} => i = j
    | _ => match k_id k with
           | Some (c :: j) => i = c :: j
           | _ => forall n r, dget (w_bpe w) n = Some r -> r_id r <> Some i
           end
    end.

  Lemma step w k r w' : good_world w -> good_cmd w k -> learn_bpe w k = (r, w') ->
    r = Ok tt /\ good_world w' /\ has_codes w' k /\ keeps w w' /\
    exists rd i, dget (w_bpe w') (bpe_dir_name (k_dir k) (k_conf k)) = Some rd /\ r_id rd = Some i /\ id_of_cmd w k i.
  Proof.
    intros G C. set (name := bpe_dir_name (k_dir k) (k_conf k)). set (w1 := touch w name).
    pose proof (touch_good _ name G) as G1. pose proof (good_cmd_touch _ name _ C) as C1. fold w1 in G1, C1.
    destruct C as (Hv & Hsu & Hsep & Hn1 & Hmax & (nb & Hload & Hcorp & Hwords) & _).
    set (cp := corpus_for (k_dir k) (k_conf k) nb) in *.
    destruct (touch_there w name) as [r1 Hr1]. fold w1 in Hr1.
    (* the id *)
    assert (I : exists i, good_id i /\
      match codes_id strip (r_id r1, subdirs r1) with
      | Some (_ :: _) => Ok (r_id r1)
      | _ => i <- create_new_id_from py_int maxsize strip number_of (k_base k) (to_suffix (k_conf k)) (listing w1) (k_id k) ;;
             Ok (Some i)
      end = Ok (Some i) /\
      (forall n r i', dget (w_bpe w1) n = Some r -> r_id r = Some i' -> Some i = Some i' -> n = name) /\
      (forall j, r_id r1 = Some j -> j = i) /\ id_of_cmd w k i).
    { destruct (gw_dir _ G1 _ _ Hr1) as [[H1 H2]|(d & c & i & nb' & _ & _ & _ & Hi & Hg & _)].
      - assert (Hno : forall rr, dget (w_bpe w1) (bpe_dir_name (k_dir k) (k_conf k)) = Some rr -> r_id rr = None).
        { intros rr Hrr. fold name in Hrr. congruence. }
        destruct (new_id _ _ G1 C1 Hno) as (i & E & Hg & Hfresh & Hsame). exists i. split; [exact Hg|].
        unfold codes_id. cbn [fst]. rewrite H1. cbn [option_map]. rewrite E. cbn [bind]. split; [reflexivity|].
        split; [intros n rr i' Hn Hi' [= <-]; destruct (Hfresh _ _ Hn Hi')|]. split; [congruence|].
        unfold id_of_cmd. fold name.
        assert (Hf2 : match k_id k with Some (c :: j) => i = c :: j
                      | _ => forall n rr, dget (w_bpe w) n = Some rr -> r_id rr <> Some i end).
        { assert (Hf : forall n rr, dget (w_bpe w) n = Some rr -> r_id rr <> Some i).
          { intros n rr Hn. apply (Hfresh n rr). apply touch_keeps, Hn. }
          destruct Hsame as [->|[->|Hs]]; [exact Hf|exact Hf|]. rewrite Hs. destruct i; [exact Hf|reflexivity]. }
        destruct (dget (w_bpe w) name) as [[[j|] ls]|] eqn:Ew; [|exact Hf2|exact Hf2].
        apply (touch_keeps _ name) in Ew. fold w1 in Ew. rewrite Hr1 in Ew. injection Ew as ->. discriminate H1.
      - exists i. split; [exact Hg|]. unfold codes_id. cbn [fst]. rewrite Hi. cbn [option_map]. destruct Hg as (Hs & Hne & _).
        rewrite Hs. destruct i as [|c0 i]; [contradiction|]. split; [reflexivity|].
        split; [intros n rr i' Hn Hi' [= <-]; exact (gw_ids _ G1 _ _ _ _ _ Hn Hr1 Hi' Hi)|]. split; [congruence|].
        unfold id_of_cmd. fold name. destruct (dget (w_bpe w) name) as [rw|] eqn:Ew.
        + apply (touch_keeps _ name) in Ew. fold w1 in Ew. rewrite Hr1 in Ew. injection Ew as <-. destruct r1 as [ri rl]. cbn [r_id] in Hi.
          rewrite Hi. reflexivity.
        + exfalso. apply touch_get in Hr1. destruct Hr1 as [Hr1|(_ & _ & ->)]; [congruence|discriminate Hi]. }
    destruct I as (i & Hgood & Eid & Huniq & Hold & Hofcmd).
    (* the lists *)
    assert (Hst : good_state cp (r_lists r1) /\ (forall x, In x (dkeys (r_lists r1)) -> (Z.of_nat x < maxsize)%Z) /\
                  (r_lists r1 = [] \/ dget (w_vocab w1) (vocab_dir_name (k_dir k) (k_conf k)) = Some (source (k_dir k) (base_config (k_conf k))))).
    { destruct (gw_dir _ G1 _ _ Hr1) as [[H1 H2]|(d & c & i' & nb' & Hname & K2 & K3 & K4 & K5 & K6 & K7 & K8 & K9 & K10 & K11)].
      - rewrite H2. split; [split; [constructor|intros ? ? []]|]. split; [intros x []|auto].
      - unfold name in Hname. destruct (bpe_dir_inj _ _ _ _ Hv K2 Hsep K3 Hname) as [<- Hb]. unfold cp, corpus_for. rewrite Hb.
        assert (nb' = nb) by congruence. subst nb'. split; [exact K8|]. split; [exact K11|]. right.
        unfold vocab_dir_name in *. rewrite Hb. exact K9. }
    destruct Hst as (Hst & Hbound & Hvoc).
    destruct (learn_good py_int py_int_dec cp _ (k_n k) Hcorp Hst) as (l & v & Gl & Hl1 & Hl2 & Hl3 & Hl4 & El).
    assert (Hlen : 0 < length l).
    { destruct (Nat.eq_dec (length l) 0) as [E0|]; [|lia]. exfalso. apply (some_merges cp l v Hcorp Hwords Gl); [apply Hl2; lia|].
      destruct l; [reflexivity|discriminate]. }
    set (st' := if dmem (r_lists r1) (length l) then r_lists r1 else dset (r_lists r1) (length l) (complete (results (split_words cp v) (ml_of l)))).
    assert (Hst' : good_state cp st').
    { pose proof (run_good py_int py_int_dec cp _ (k_n k) Hcorp Hst) as R. unfold run in R. rewrite El in R. unfold st'.
      destruct (dmem (r_lists r1) (length l)); exact R. }
    assert (Hin' : In (length l) (dkeys st')).
    { unfold st'. destruct (dmem (r_lists r1) (length l)) eqn:Em.
      - unfold dmem in Em. destruct (dget (r_lists r1) (length l)) eqn:Eg; [|discriminate]. eapply dget_some_key, Eg.
      - eapply dget_some_key, dget_dset_eq. }
    assert (Hkeys' : forall x, In x (dkeys st') -> In x (dkeys (r_lists r1)) \/ x = length l).
    { unfold st'. destruct (dmem (r_lists r1) (length l)) eqn:Em; [auto|]. intros x Hx. rewrite dkeys_dset, Em in Hx.
      apply in_app_or in Hx. destruct Hx as [Hx|[<-|[]]]; auto. }
    assert (Hkeep' : forall m dd, dget (r_lists r1) m = Some dd -> dget st' m = Some dd).
    { intros m dd Hm. unfold st'. destruct (dmem (r_lists r1) (length l)) eqn:Em; [exact Hm|]. rewrite dget_dset_neq; [exact Hm|].
      intros E. subst m. unfold dmem in Em. rewrite Hm in Em. discriminate. }
    set (vname := vocab_dir_name (k_dir k) (k_conf k)) in *.
    unfold M_Learned.learn_bpe. fold name. fold w1. rewrite Hr1, Eid, Hsu. cbn [negb]. fold vname.
    set (w2 := set_dir w1 name {| r_id := Some i; r_lists := r_lists r1 |}).
    set (w3 := match most_merges py_int (r_lists r1) (k_n k) with Some _ => w2 | None => _ end).
    assert (B3 : w_bpe w3 = w_bpe w2).
    { unfold w3. destruct (most_merges _ _ _); [reflexivity|]. destruct (dmem (w_vocab w2) vname); reflexivity. }
    assert (V3 : dget (w_vocab w3) vname = Some (source (k_dir k) (base_config (k_conf k)))).
    { unfold w3. pose proof (most_merges_spec py_int py_int_dec (r_lists r1) (k_n k)) as M.
      destruct (most_merges py_int (r_lists r1) (k_n k)) as [mm|].
      - destruct M as (M & _). destruct Hvoc as [E|E]; [rewrite E in M; destruct M|exact E].
      - destruct (dmem (w_vocab w2) vname) eqn:Em.
        + unfold dmem in Em. change (w_vocab w2) with (w_vocab w1) in *. destruct (dget (w_vocab w1) vname) as [x|] eqn:Ex; [|discriminate].
          destruct (gw_vocab _ G1 _ _ Ex) as (d & c & E1 & ->). unfold vname in E1. apply vocab_dir_inj in E1. destruct E1 as [-> ->]. reflexivity.
        + cbn [w_vocab]. apply dget_dset_eq. }
    assert (V1 : forall u x, dget (w_vocab w1) u = Some x -> dget (w_vocab w3) u = Some x).
    { intros u x Hu. unfold w3. destruct (most_merges _ _ _); [exact Hu|]. destruct (dmem (w_vocab w2) vname) eqn:Em; [exact Hu|].
      cbn [w_vocab]. rewrite dget_dset_neq; [exact Hu|]. intros E. subst u. unfold dmem in Em. change (w_vocab w2) with (w_vocab w1) in Em.
      rewrite Hu in Em. discriminate. }
    assert (V2 : forall u x, dget (w_vocab w3) u = Some x ->
               dget (w_vocab w1) u = Some x \/ (u = vocab_dir_name (k_dir k) (k_conf k) /\ x = source (k_dir k) (base_config (k_conf k)))).
    { intros u x. unfold w3. destruct (most_merges _ _ _); [auto|]. destruct (dmem (w_vocab w2) vname) eqn:Em; [auto|].
      cbn [w_vocab]. destruct (eqb_spec (vname : str) u) as [<-|Hne]; [rewrite dget_dset_eq; intros [= <-]; auto|].
      rewrite dget_dset_neq by exact Hne. auto. }
    rewrite V3. destruct (source (k_dir k) (base_config (k_conf k))) as [vocab file] eqn:Es. cbn [snd] in Hload. rewrite Hload. cbn [bind].
    assert (Ecp : {| all_vocab := vocab; nonbpe := nb |} = cp) by (unfold cp, corpus_for; rewrite Es; reflexivity).
    rewrite Ecp, El.
    set (rd := {| r_id := Some i; r_lists := st' |}).
    assert (Hfin : exists wf, (forall n, dget (w_bpe wf) n = if eqb n name then Some rd else dget (w_bpe w1) n) /\
      w_vocab wf = w_vocab w3 /\ NoDup (dkeys (w_bpe wf)) /\
      (match (if dmem (r_lists r1) (length l) then None else Some (length l, results (split_words cp v) (ml_of l))) with
       | None => (Ok tt, w3)
       | Some (m, files) => (Ok tt, set_dir w3 name {| r_id := Some i; r_lists := dset (r_lists r1) m (complete files) |})
       end) = (Ok tt, wf)).
    { unfold rd, st'. destruct (dmem (r_lists r1) (length l)).
      - exists w3. rewrite B3. repeat split; [|apply dset_nodup, G1]. intros n. cbn [w2 set_dir w_bpe]. apply dget_dset.
      - eexists. split; [|split; [|split; [|reflexivity]]].
        + intros n. cbn [set_dir w_bpe]. rewrite dget_dset, B3. cbn [w2 set_dir w_bpe]. rewrite dget_dset.
          destruct (eqb n name); reflexivity.
        + reflexivity.
        + cbn [set_dir w_bpe]. apply dset_nodup. rewrite B3. apply dset_nodup, G1. }
    destruct Hfin as (wf & F1 & F2 & F3 & F4).
    intros Hrun. assert (Er : (r, w') = (Ok tt, wf)).
    { rewrite <- F4, <- Hrun. destruct (dmem (r_lists r1) (length l)); reflexivity. }
    injection Er as -> ->. clear Hrun F4.
    assert (Hname : dget (w_bpe wf) name = Some rd) by (rewrite F1, eqb_refl; reflexivity).
    split; [reflexivity|]. split; [|split; [|split]].
    - apply (put_good w1 wf name rd (k_dir k) (k_conf k)).
      + exact G1.
      + exact F3.
      + exact F1.
      + rewrite F2. exact V1.
      + rewrite F2, Es. exact V2.
      + right. exists (k_dir k), (k_conf k), i, nb. rewrite F2, Es. fold vname. cbn [rd r_id r_lists snd].
        repeat (split; [solve [auto]|]). split; [exists (length l); auto|].
        intros x Hx. destruct (Hkeys' _ Hx) as [Hx'| ->]; [exact (Hbound _ Hx')|lia].
      + intros n rr i' Hn Hi' E. exact (Huniq _ _ _ Hn Hi' E).
    - exists rd, i, nb, l, v. fold name. rewrite Es. repeat (split; [solve [auto]|]). auto.
    - intros n rd0 i0 Hn0 Hi0. apply (touch_keeps _ name) in Hn0. fold w1 in Hn0.
      destruct (eqb_spec (n : str) name) as [->|Hne].
      + exists rd. split; [exact Hname|]. rewrite Hr1 in Hn0. injection Hn0 as <-. cbn [rd r_id r_lists].
        rewrite (Hold _ Hi0). auto.
      + exists rd0. rewrite F1. destruct (eqb_spec (n : str) name); [contradiction|]. auto.
    - exists rd, i. auto.
  Qed.

  Lemma dset_same {B} (m : dict str B) key v : dget m key = Some v -> dset m key v = m.
  Proof.
    induction m as [|[k x] m IH]; cbn [dget dset]; [discriminate|]. destruct (eqb key k); intros H; [injection H as ->; reflexivity|].
    rewrite (IH H). reflexivity.
  Qed.

  Lemma killed_same w k r : good_world w -> dget (w_bpe w) (bpe_dir_name (k_dir k) (k_conf k)) = Some r -> r_id r <> None ->
    learn_killed py_int maxsize strip number_of w k = w.
  Proof.
    intros G Hr Hi. unfold learn_killed, touch, dmem. rewrite Hr, Hr.
    destruct (gw_dir _ G _ _ Hr) as [[H _]|(d & c & i & nb & _ & _ & _ & H & (Hs & Hne & _) & _)]; [contradiction|].
    unfold codes_id. cbn [fst]. rewrite H. cbn [option_map]. rewrite Hs. destruct i as [|x i]; [contradiction|]. rewrite <- H.
    unfold set_dir. destruct r as [ri rl]. cbn [r_id r_lists]. rewrite (dset_same _ _ _ Hr). destruct w; reflexivity.
  Qed.

  Lemma history_good w ks : history w ks -> good_world w /\ forall k, In k ks -> has_codes w k.
  Proof.
    induction 1 as [|w ks name _ [IH1 IH2]|w ks k r w' _ [IH1 IH2] C E|w ks k r _ [IH1 IH2] Hr Hi]; [| | |rewrite (killed_same _ _ _ IH1 Hr Hi); auto].
    - split; [|intros ? []]. constructor; [constructor| | |]; cbn; discriminate.
    - split; [apply touch_good, IH1|]. intros k Hk. eapply keeps_codes; [apply keeps_touch|apply IH2, Hk].
    - destruct (step _ _ _ _ IH1 C E) as (_ & S1 & S2 & S3 & _). split; [exact S1|]. intros k' Hk'. apply in_app_or in Hk'.
      destruct Hk' as [Hk'|[<-|[]]]; [eapply keeps_codes; [exact S3|apply IH2, Hk']|exact S2].
  Qed.

  (** ** Using the codes *)
  (** preprocessing with id [id] uses the merges [ml] and a cache of the words [nb] (which does not help them, see
      C75_kept_refuted) *)
  Definition uses (dk : disk) (id : str) (ml : merge_list) (nb : list str) : Prop :=
    exists cache, (forall word, dget cache word = if mem word nb then Some [word] else None) /\
    forall parse repr g c ts,
      c_id c = Some id -> is_bpe (c_config c) = true -> parse (c_text c) (c_ext c) = Ok ts -> g = None \/ c_force c = true ->
      preprocess parse repr dk g c =
      repr (c_config c) (remove_trailing_newline ts ++ (if c_eof c then [NonProc NpSpecialToken ph_ect] else []))
           (Some {| ob_cache := Some cache; ob_merges := Some ml |}).

  Definition refused (dk : disk) (id : str) : Prop :=
    forall parse repr g c ts,
      c_id c = Some id -> is_bpe (c_config c) = true -> parse (c_text c) (c_ext c) = Ok ts ->
      preprocess parse repr dk g c = (Err ValueError, g).

  Lemma dash_not_predefined name n : is_predefined_id (name ++ dash :: dec n) = false.
  Proof.
    unfold is_predefined_id. destruct (mem _ _) eqn:E; [|reflexivity]. apply mem_in in E.
    assert (H : forall x, In x predefined_bpe_codes -> ~ In dash x).
    { intros x Hx. cbn in Hx. unfold dash. repeat (destruct Hx as [<-|Hx]; [cbn; intuition discriminate|]). destruct Hx. }
    exfalso. apply (H _ E). apply in_or_app. right. left. reflexivity.
  Qed.

  Lemma cache_of (nb : list str) (c0 : dict str (list str)) (word : str) :
    dget (fold_left (fun c s => dset c s [s]) nb c0) word = if mem word nb then Some [word] else dget c0 word.
  Proof.
    revert c0. induction nb as [|x nb IH]; intros c0; [reflexivity|]. cbn [fold_left mem existsb]. rewrite IH. fold (mem word nb).
    destruct (mem word nb); [rewrite orb_true_r; reflexivity|]. rewrite orb_false_r, dget_dset.
    destruct (eqb_spec (word : str) x) as [->|]; reflexivity.
  Qed.

  Lemma find_codes w names name rd i : good_world w -> Permutation names (dkeys (w_bpe w)) ->
    dget (w_bpe w) name = Some rd -> r_id rd = Some i -> dataset_bpe_dir strip w names i = Ok (name, rd).
  Proof.
    intros G P Hr Hi. unfold dataset_bpe_dir.
    assert (Hid : forall n, has_id strip w i n = true <-> n = name).
    { intros n. unfold has_id. split.
      - destruct (dget (w_bpe w) n) as [r|] eqn:En; [|discriminate]. unfold codes_id. cbn [fst].
        destruct (r_id r) as [j|] eqn:Ej; [|discriminate]. cbn [option_map].
        destruct (gw_dir _ G _ _ En) as [[K _]|(d & c & j' & nb & _ & _ & _ & K & (K1 & K2 & _) & _)]; [congruence|].
        assert (j' = j) by congruence. subst j'. rewrite K1. intros H. apply andb_true_iff in H. destruct H as [_ H].
        destruct (eqb_spec (j : str) i) as [->|]; [|discriminate]. exact (gw_ids _ G _ _ _ _ _ En Hr Ej Hi).
      - intros ->. rewrite Hr. unfold codes_id. cbn [fst]. rewrite Hi. cbn [option_map].
        destruct (gw_dir _ G _ _ Hr) as [[K _]|(d & c & j' & nb & _ & _ & _ & K & (K1 & K2 & _) & _)]; [congruence|].
        assert (j' = i) by congruence. subst j'. rewrite K1, eqb_refl, andb_true_r.
        destruct (eqb_spec (i : str) []); [contradiction|reflexivity]. }
    destruct (find (has_id strip w i) names) as [n|] eqn:F.
    - apply find_some in F. destruct F as [_ F]. apply Hid in F. subst n. rewrite Hr. reflexivity.
    - exfalso. assert (F' : has_id strip w i name = false).
      { apply (find_none _ _ F). eapply Permutation_in; [apply Permutation_sym, P|eapply dget_some_key, Hr]. }
      rewrite (proj2 (Hid name) eq_refl) in F'. discriminate.
  Qed.

  (** Every command learns: after any history of preprocessing and learning, a good command succeeds, does not change the id
      of any dataset that has one, and keeps all lists of merges.  Its dataset has an id then: the one it had; otherwise that
      of --id; otherwise one that no other dataset has. *)
  Theorem C75_learn w ks k r w' : history w ks -> good_cmd w k -> learn_bpe w k = (r, w') ->
    r = Ok tt /\ keeps w w' /\
    exists rd i, dget (w_bpe w') (bpe_dir_name (k_dir k) (k_conf k)) = Some rd /\ r_id rd = Some i /\ id_of_cmd w k i.
  Proof.
    intros H C E. destruct (history_good _ _ H) as [G _]. destruct (step _ _ _ _ G C E) as (S1 & _ & _ & S2 & S3). auto.
  Qed.

  (** The codes learned by each command of a history can be used by the id of the dataset and any number of merges up to
      the one asked for, whatever was learned and preprocessed before and afterwards and in whatever order the directories are
      listed.  Exactly that many merges are used, as learned from the words of this dataset with this configuration,
      and the words put into the cache are those of this dataset that are not to be split; unless all words of the dataset have become one symbol
      with fewer merges: then the id is refused. *)
  Theorem C75_usable w ks k names packaged : history w ks -> In k ks -> Permutation names (dkeys (w_bpe w)) ->
    exists rd i nb,
      dget (w_bpe w) (bpe_dir_name (k_dir k) (k_conf k)) = Some rd /\ r_id rd = Some i /\
      load_vocab_set (snd (source (k_dir k) (base_config (k_conf k)))) = Ok nb /\
      forall m, 1 <= m <= k_n k ->
        (exists l v, greedy (characters (corpus_for (k_dir k) (k_conf k) nb)) l v /\ length l = m /\
                     uses (disk_of packaged w names) (i ++ dash :: dec (N.of_nat m)) (ml_of l) nb)
        \/ (exists l v, greedy (characters (corpus_for (k_dir k) (k_conf k) nb)) l v /\ length l < m /\
                        Forall (fun wf => length (fst wf) = 1) v /\
                        refused (disk_of packaged w names) (i ++ dash :: dec (N.of_nat m))).
  Proof.
    intros H Hk P. destruct (history_good _ _ H) as [G Hc]. specialize (Hc _ Hk).
    destruct Hc as (rd & i & nb & l & v & H1 & H2 & H3 & H4 & H5 & H6 & H7 & H8 & Hv & Hsep).
    exists rd, i, nb. split; [exact H1|]. split; [exact H2|]. split; [exact H3|]. intros m Hm.
    pose proof (find_codes _ _ _ _ _ G P H1 H2) as F.
    destruct (gw_dir _ G _ _ H1) as [[K _]|(d & c & i' & nb' & K1 & K2 & K3 & K4 & K5 & K6 & K7 & [K8n K8] & K9 & K10 & K11)]; [congruence|].
    assert (i' = i) by congruence. subst i'.
    destruct (bpe_dir_inj _ _ _ _ Hv K2 Hsep K3 K1) as [<- Hb].
    assert (nb' = nb) by congruence. subst nb'.
    assert (Ec : corpus_for (k_dir k) c nb = corpus_for (k_dir k) (k_conf k) nb) by (unfold corpus_for; rewrite Hb; reflexivity).
    rewrite Ec in *.
    assert (Eid : parse_merge_list_id (i ++ dash :: dec (N.of_nat m)) = Ok (i, N.of_nat m)).
    { pose proof (C34_roundtrip i (N.of_nat m) [] (proj2 (proj2 K5)) ltac:(lia) (or_introl eq_refl)) as R.
      rewrite app_nil_r in R. exact R. }
    assert (Hne : exists x y, i ++ dash :: dec (N.of_nat m) = x :: y) by (destruct i; eexists; eexists; reflexivity).
    pose proof (C35_config py_int maxsize (subdirs rd) (Z.of_N (N.of_nat m)) ltac:(lia)) as CF.
    destruct (config_dir py_int maxsize (subdirs rd) (Z.of_N (N.of_nat m))) as [mm|e] eqn:Ecf.
    - left. destruct CF as (CF1 & CF2 & _). apply (learned_iff _ py_int_dec) in CF1. destruct CF1 as (kk & Hkk & ->).
      apply dkeys_in_dget in Hkk. destruct Hkk as [dd Hdd]. destruct (K8 _ _ (dget_in _ _ _ Hdd)) as (l' & v' & Gl & Hl & ->).
      destruct (greedy_words _ _ _ K7 Gl) as (_ & _ & _ & P1 & P2).
      assert (Gm : exists v1, greedy (characters (corpus_for (k_dir k) (k_conf k) nb)) (firstn m l') v1).
      { pose proof Gl as Gl'. rewrite <- (firstn_skipn m l') in Gl'. apply greedy_prefix in Gl'. destruct Gl' as (v1 & Gl' & _). eauto. }
      destruct Gm as [v1 Gm]. exists (firstn m l'), v1. split; [exact Gm|]. split; [rewrite firstn_length; lia|].
      exists (fold_left (fun c s => dset c s [s]) nb []). split; [intros word; rewrite cache_of; reflexivity|].
      intros parse repr g cl ts Hid Hbpe Hparse Hg. unfold preprocess. rewrite Hparse, Hbpe, Hid.
      destruct Hne as (x & y & Ex). rewrite Ex. cbn match. rewrite <- Ex, dash_not_predefined.
      unfold from_id. rewrite Eid. cbn [bind fst snd disk_of dk_find]. rewrite F. cbn [bind snd]. rewrite Ecf. cbn [bind].
      assert (Ei : init_bpe_data (disk_of packaged w names) g (c_config cl) (Some (i, N.of_nat m)) (c_force cl)
                   = (Ok tt, Some {| ob_cache := Some (fold_left (fun c s => dset c s [s]) nb []); ob_merges := Some (ml_of (firstn m l')) |})).
      { assert (Er : forall X : res unit * globals, match g, c_force cl with Some o, false => (Ok tt, Some o) | _, _ => X end = X).
        { intros X. destruct Hg as [-> | ->]; [reflexivity|destruct g; reflexivity]. }
        unfold init_bpe_data. rewrite Er. cbn [disk_of dk_codes dk_nonbpe]. rewrite F. cbn [bind snd]. rewrite Ecf. cbn [bind].
        rewrite Nat2Z.id, Hdd. cbn [complete results f_merges c_merges open_file bind].
        rewrite (read_first _ _ P2 P1) by lia. rewrite Nat2N.id.
        unfold base_vocab_dir. rewrite F. cbn [bind fst]. destruct (C37_directory _ _ Hv Hsep) as [D1 D2]. rewrite D1, D2. cbn [bind].
        match goal with |- context [vocab_dir_name (k_dir k) ?cc] =>
          assert (Ev : vocab_dir_name (k_dir k) cc = vocab_dir_name (k_dir k) c)
            by (unfold vocab_dir_name; rewrite <- Hb; reflexivity) end.
        rewrite Ev, K9. rewrite <- Hb. destruct (source (k_dir k) (base_config (k_conf k))) as [voc file]. cbn [bind snd] in *.
        rewrite H3. reflexivity. }
      rewrite Ei. destruct (c_eof cl); [reflexivity|rewrite app_nil_r; reflexivity].
    - right. destruct CF as [-> CF]. exists l, v. split; [exact H4|].
      assert (Hlt : length l < m).
      { specialize (CF (Z.of_nat (length l))). 
        assert (learned py_int (subdirs rd) (Z.of_nat (length l))) by (apply (learned_iff _ py_int_dec); eauto).
        specialize (CF H0 ltac:(lia)). lia. }
      split; [exact Hlt|]. split; [apply H5; lia|].
      intros parse repr g cl ts Hid Hbpe Hparse. unfold preprocess. rewrite Hparse, Hbpe, Hid.
      destruct Hne as (x & y & Ex). rewrite Ex. cbn match. rewrite <- Ex, dash_not_predefined.
      unfold from_id. rewrite Eid. cbn [bind fst snd disk_of dk_find]. rewrite F. cbn [bind snd]. rewrite Ecf. reflexivity.
  Qed.
End Learned.
Print Assumptions C75_learn.
Print Assumptions C75_usable.

(** ** Examples *)
Definition ex_int (s : str) : option Z := if negb (eqb s []) && forallb is_digit s then option_map Z.of_N (parse_digits 0 s) else None.
Lemma ex_int_dec k : ex_int (dec k) = Some (Z.of_N k).
Proof.
  unfold ex_int. destruct (eqb_spec (dec k : str) []) as [E|_]; [destruct (dec_nonempty k E)|]. cbn [negb andb].
  assert (H : forallb is_digit (dec k) = true) by (apply forallb_forall, Forall_forall, dec_digits). rewrite H, parse_dec. reflexivity.
Qed.
Definition ex_max : Z := 1000%Z.
Definition ex_strip (s : str) : str := s.
Definition ex_blank (c : N) : bool := false.

(** one dataset has the words ab and abc, every other one the words xy, and xyz which is not split *)
Definition ex_source (d : str) (conf : str) : dict str Z * str :=
  if eqb d (lit "A") then ([(lit "ab", 3%Z); (lit "abc", 2%Z)], []) else ([(lit "xy", 5%Z); (lit "xyz", 1%Z)], write_lines [to_literal_str (lit "xyz")]).

Definition ex_conf : bpe_config := {| bc_case := lit "yes"; bc_word_end := false; bc_base := lit "code"; bc_unicode := lit "yes" |}.
Definition ex_cmd (d base : string) (i : option str) (n : nat) : learn_cmd :=
  {| k_dir := lit d; k_base := lit base; k_conf := ex_conf; k_id := i; k_n := n |}.

Definition ex_learn := learn_bpe ex_int ex_max ex_strip literal_number ex_source.
Definition ex_killed := learn_killed ex_int ex_max ex_strip literal_number.
Definition ex_all (ks : list learn_cmd) (w : world) : world := fold_left (fun w k => snd (ex_learn w k)) ks w.

Definition no_package : disk :=
  {| dk_cache := fun _ _ => None; dk_merges := fun _ _ => None; dk_find := fun _ _ => Err ValueError;
     dk_codes := fun _ _ => None; dk_nonbpe := fun _ => Err FileNotFoundError |}.

(** the bpe data in use after preprocessing with an id: pairs in the order of merging, and the words kept *)
Definition ex_call (id : string) : call :=
  {| c_text := []; c_ext := None; c_config := [(SPLIT, lit "9")]; c_id := Some (lit id); c_force := true; c_eof := false |}.
Definition data_used (w : world) (names : list str) (id : string) : option (list (str * str) * list str) :=
  match preprocess (fun _ _ => Ok []) (fun _ _ g => (Ok ([], meta0), g))
          (disk_of ex_int ex_max ex_strip no_package w names) None (ex_call id) with
  | (Ok _, Some {| ob_cache := Some c; ob_merges := Some ml |}) => Some (dkeys ml, dkeys c)
  | _ => None
  end.

Definition ex_a := ex_cmd "A" "proj" None 2.
Definition ex_b := ex_cmd "B" "proj" None 4.
Definition ex_a' := ex_cmd "A" "proj" (Some (lit "mine")) 3.
Definition ex_world : world := ex_all [ex_a; ex_b; ex_a'] (touch empty_world (lit "C")).

Lemma literal_plain base : plain_base literal_number base.
Proof.
  split; [apply literal_self|]. intros full ds. unfold literal_number. destruct (last_sep underscore full) as [[x y]|]; [|discriminate].
  destruct (eqb x base && negb (eqb y []) && forallb is_digit y) eqn:E; [|discriminate]. intros [= <-].
  apply andb_true_iff in E. destruct E as [E1 E2]. apply andb_true_iff in E1. destruct E1 as [_ E1]. split; [|exact E2].
  intros ->. discriminate E1.
Qed.

Lemma ex_good w d base n : (d = "A" \/ d = "B")%string -> base = "proj"%string -> 1 <= n <= 4 ->
  good_cmd ex_max ex_strip ex_blank literal_number ex_source w (ex_cmd d base None n).
Proof.
  intros Hd -> Hn. unfold good_cmd. change (k_n (ex_cmd d "proj" None n)) with n. change (k_conf (ex_cmd d "proj" None n)) with ex_conf.
  change (k_dir (ex_cmd d "proj" None n)) with (lit d). cbn [k_id ex_cmd]. split; [reflexivity|]. split; [reflexivity|].
  split; [destruct Hd as [-> | ->]; reflexivity|]. split; [lia|]. split; [unfold ex_max; lia|]. split.
  - destruct Hd as [-> | ->]; [exists []|exists [lit "xyz"]]; (split; [vm_compute; reflexivity|]); (split; [|discriminate]);
      (split; [|split]).
    + repeat constructor; cbn; intuition congruence.
    + cbn. repeat apply Forall_cons; [..|apply Forall_nil]; (split; [discriminate|split; [intros Hi; repeat (destruct Hi as [Hi|Hi]; [discriminate|]); exact Hi|split;
        [unfold valid_str; cbn; repeat apply Forall_cons; [..|apply Forall_nil]; lia|reflexivity]]]).
    + cbn [corpus_for nonbpe]. apply Forall_nil.
    + repeat constructor; cbn; intuition congruence.
    + cbn. repeat apply Forall_cons; [..|apply Forall_nil]; (split; [discriminate|split; [intros Hi; repeat (destruct Hi as [Hi|Hi]; [discriminate|]); exact Hi|split;
        [unfold valid_str; cbn; repeat apply Forall_cons; [..|apply Forall_nil]; lia|reflexivity]]]).
    + cbn [corpus_for nonbpe]. apply Forall_cons; [|apply Forall_nil]; intros Hi; repeat (destruct Hi as [Hi|Hi]; [discriminate|]); exact Hi.
  - split; [discriminate|]. split; [intros Hi; repeat (destruct Hi as [Hi|Hi]; [discriminate|]); exact Hi|]. split; [reflexivity|]. split; [reflexivity|]. apply literal_plain.
Qed.

Lemma ex_good_mine w n : 1 <= n <= 4 -> (forall name r, dget (w_bpe w) name = Some r -> r_id r <> Some (lit "mine")) ->
  good_cmd ex_max ex_strip ex_blank literal_number ex_source w (ex_cmd "A" "proj" (Some (lit "mine")) n).
Proof.
  intros Hn Hid. destruct (ex_good w "A" "proj" n (or_introl eq_refl) eq_refl Hn) as (H1 & H2 & H3 & H4 & H5 & H6 & _).
  repeat (split; [assumption|]). cbn [ex_cmd k_id lit]. split.
  - split; [reflexivity|]. split; [discriminate|]. intros Hi. repeat (destruct Hi as [Hi|Hi]; [discriminate|]). exact Hi.
  - intros name r H E. destruct (Hid _ _ H E).
Qed.

(** a directory made by preprocessing, two datasets of the same name; more merges are learned later, and the new id is ignored *)
Example C75_example :
  history ex_int ex_max ex_strip ex_blank literal_number ex_source ex_world [ex_a; ex_b; ex_a'] /\
  Permutation [lit "B"; lit "C"; lit "A"] (dkeys (w_bpe ex_world)) /\
  map (fun nr => (fst nr, r_id (snd nr), dkeys (r_lists (snd nr)))) (w_bpe ex_world)
  = [(lit "C", None, []); (lit "A", Some (lit "proj"), [2; 3]); (lit "B", Some (lit "proj_1"), [2])] /\
  data_used ex_world [lit "B"; lit "C"; lit "A"] "proj-2" = Some ([(lit "a", lit "b"); (lit "ab", lit "@")], []) /\
  data_used ex_world [lit "B"; lit "C"; lit "A"] "proj_1-1" = Some ([(lit "x", lit "y")], [lit "xyz"]) /\
  data_used ex_world [lit "B"; lit "C"; lit "A"] "proj_1-4" = None.
Proof.
  split; [|split; [|repeat split; vm_compute; reflexivity]].
  - pose (h := history ex_int ex_max ex_strip ex_blank literal_number ex_source).
    assert (H0 : h (touch empty_world (lit "C")) []) by (apply history_touch, history_start).
    assert (H1 : h (ex_all [ex_a] (touch empty_world (lit "C"))) [ex_a]).
    { refine (history_learn _ _ _ _ _ _ _ [] ex_a (Ok tt) _ H0 _ _); [apply ex_good; auto; lia|vm_compute; reflexivity]. }
    assert (H2 : h (ex_all [ex_a; ex_b] (touch empty_world (lit "C"))) [ex_a; ex_b]).
    { refine (history_learn _ _ _ _ _ _ _ [ex_a] ex_b (Ok tt) _ H1 _ _); [apply ex_good; auto; lia|vm_compute; reflexivity]. }
    assert (H3 : h (ex_killed (ex_all [ex_a; ex_b] (touch empty_world (lit "C"))) ex_a') [ex_a; ex_b]).
    { eapply (history_killed _ _ _ _ _ _ _ [ex_a; ex_b] ex_a' _ H2); [vm_compute; reflexivity|discriminate]. }
    change (h (ex_all [ex_a'] (ex_killed (ex_all [ex_a; ex_b] (touch empty_world (lit "C"))) ex_a')) ([ex_a; ex_b] ++ [ex_a'])) in |- * ||
    replace ex_world with (ex_all [ex_a'] (ex_killed (ex_all [ex_a; ex_b] (touch empty_world (lit "C"))) ex_a')) by (vm_compute; reflexivity).
    refine (history_learn _ _ _ _ _ _ _ [ex_a; ex_b] ex_a' (Ok tt) _ H3 _ _); [|vm_compute; reflexivity].
    replace (ex_killed (ex_all [ex_a; ex_b] (touch empty_world (lit "C"))) ex_a') with (ex_all [ex_a; ex_b] (touch empty_world (lit "C"))) by (vm_compute; reflexivity).
    apply ex_good_mine; [lia|]. intros name r H E. apply dget_in in H.
    assert (Hf : Forall (fun nr => r_id (snd nr) <> Some (lit "mine")) (w_bpe (ex_all [ex_a; ex_b] (touch empty_world (lit "C"))))).
    { vm_compute. repeat constructor; discriminate. }
    rewrite Forall_forall in Hf. exact (Hf _ H E).
  - change (dkeys (w_bpe ex_world)) with (map fst (w_bpe ex_world)).
    assert (E : map fst (w_bpe ex_world) = [lit "C"; lit "A"; lit "B"]) by (vm_compute; reflexivity). rewrite E.
    apply (Permutation_app_comm [lit "B"] [lit "C"; lit "A"]).
Qed.

(** finding: an id given with --id is not checked.  If it is that of another dataset, it depends on the order of the directories
    whose merges are used *)
Theorem C75_id_taken_refuted :
  exists k1 k2 w names names' id,
    fst (ex_learn empty_world k1) = Ok tt /\ ex_learn (snd (ex_learn empty_world k1)) k2 = (Ok tt, w) /\
    k_dir k1 <> k_dir k2 /\ Permutation names (dkeys (w_bpe w)) /\ Permutation names' (dkeys (w_bpe w)) /\
    data_used w names id = Some ([(lit "a", lit "b")], []) /\ data_used w names' id = Some ([(lit "x", lit "y")], [lit "xyz"]).
Proof.
  exists (ex_cmd "A" "proj" (Some (lit "x")) 2), (ex_cmd "B" "proj" (Some (lit "x")) 2), (ex_all [ex_cmd "A" "proj" (Some (lit "x")) 2; ex_cmd "B" "proj" (Some (lit "x")) 2] empty_world),
    [lit "A"; lit "B"], [lit "B"; lit "A"], "x-1"%string.
  split; [vm_compute; reflexivity|]. split; [vm_compute; reflexivity|]. split; [discriminate|].
  split; [vm_compute; apply Permutation_refl|]. split; [vm_compute; apply perm_swap|].
  split; vm_compute; reflexivity.
Qed.
Print Assumptions C75_id_taken_refuted.

(** finding: the id of a dataset whose learning was interrupted is not known to be taken.  Another dataset of the same name gets
    the same one, and when learning is done again there are two *)
Theorem C75_killed_refuted :
  exists k1 k2 w names names' id,
    k_id k1 = None /\ k_id k2 = None /\ k_dir k1 <> k_dir k2 /\
    ex_learn (snd (ex_learn (ex_killed empty_world k1) k2)) k1 = (Ok tt, w) /\
    Permutation names (dkeys (w_bpe w)) /\ Permutation names' (dkeys (w_bpe w)) /\
    data_used w names id = Some ([(lit "a", lit "b")], []) /\ data_used w names' id = Some ([(lit "x", lit "y")], [lit "xyz"]).
Proof.
  exists (ex_cmd "A" "proj" None 2), (ex_cmd "B" "proj" None 2),
    (ex_all [ex_cmd "B" "proj" None 2; ex_cmd "A" "proj" None 2] (ex_killed empty_world (ex_cmd "A" "proj" None 2))),
    [lit "A"; lit "B"], [lit "B"; lit "A"], "proj-1"%string.
  split; [reflexivity|]. split; [reflexivity|]. split; [discriminate|]. split; [vm_compute; reflexivity|].
  split; [vm_compute; apply Permutation_refl|]. split; [vm_compute; apply perm_swap|].
  split; vm_compute; reflexivity.
Qed.
Print Assumptions C75_killed_refuted.

(** finding: after the same, an id asked for with --id is ignored although nothing was learned *)
Theorem C75_id_refuted :
  exists k1 k2 w, k_id k2 = Some (lit "mine") /\ k_dir k1 = k_dir k2 /\
    ex_learn (ex_killed empty_world k1) k2 = (Ok tt, w) /\ data_used w (dkeys (w_bpe w)) "mine-1" = None /\
    data_used w (dkeys (w_bpe w)) "proj-1" <> None.
Proof.
  exists (ex_cmd "A" "proj" None 2), (ex_cmd "A" "proj" (Some (lit "mine")) 2),
    (ex_all [ex_cmd "A" "proj" (Some (lit "mine")) 2] (ex_killed empty_world (ex_cmd "A" "proj" None 2))).
  repeat split; vm_compute; try reflexivity. discriminate.
Qed.
Print Assumptions C75_id_refuted.
