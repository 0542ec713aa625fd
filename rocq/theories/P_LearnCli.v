(** * C89: the options of learn-bpe *)
From Coq Require Import List NArith ZArith Bool String Lia Permutation.
From Verif Require Import M_Base L_Base M_Literal L_Literal S_Bpe L_Bpe M_Merge L_Merge P_Merge M_BpeEncode L_BpeEncode
  M_Learn P_Queue L_Learn P_Learn M_Vocab L_Vocab P_Vocab M_PrepConfig M_Registry P_Registry M_Pipeline M_BpeRun P_BpeRun
  M_Tokens M_Repr M_Api M_Dataset M_Learned P_Learned M_LearnCli P_PrepConfig.
Import ListNotations.
Local Open Scope list_scope.

Section LearnCli.
  Variable py_int : str -> option Z.
  Variable maxsize : Z.
  Variable strip : str -> str.
  Variable number_of : str -> str -> option str.
  Variable source : str -> str -> dict str Z * str.
  Notation handle := (handle_learnbpe py_int maxsize strip number_of source).

  Definition with_java (a : learn_args) : learn_args :=
    {| l_n := l_n a; l_path := l_path a; l_ext := Some (lit "java"); l_id := l_id a; l_no_unicode := l_no_unicode a;
       l_bytes := l_bytes a; l_word_end := l_word_end a; l_legacy := false |}.

  (** no extension is asked for, or only java *)
  Definition java_only (e : option str) : Prop :=
    match e with None => True | Some s => s = [] \/ Forall (eq (lit "java")) (split_on bar s) end.

  Lemma insert_single x l : insert_unique x l = [lit "java"] -> x = lit "java" /\ (l = [] \/ l = [lit "java"]).
  Proof.
    destruct l as [|y l]; cbn [insert_unique].
    - intros [= ->]. auto.
    - destruct (eqb_spec x y) as [->|Hn].
      + intros H. injection H as -> ->. auto.
      + destruct (str_leb x y); [intros H; discriminate H|]. intros H. injection H as -> H. exfalso.
        destruct l as [|z l]; cbn [insert_unique] in H; [discriminate|]. destruct (eqb x z); [discriminate|]. destruct (str_leb x z); discriminate.
  Qed.
  Lemma sorted_single l : sorted_set l = [lit "java"] <-> l <> [] /\ Forall (eq (lit "java")) l.
  Proof.
    induction l as [|x l IH]; [split; [discriminate|intros [H _]; congruence]|]. unfold sorted_set in *. cbn [fold_right]. split.
    - intros H. apply insert_single in H. destruct H as [-> H]. split; [discriminate|]. constructor; [reflexivity|].
      destruct H as [H|H]; [|apply IH, H]. destruct l as [|y l]; [constructor|]. exfalso. cbn [fold_right] in H.
      destruct (fold_right insert_unique [] l) as [|z r]; cbn [insert_unique] in H; [discriminate|].
      destruct (eqb y z); [discriminate|]. destruct (str_leb y z); discriminate.
    - intros [_ H]. inversion H as [|? ? Hx Hl]; subst. destruct l as [|y l]; [reflexivity|].
      destruct IH as [_ IH]. rewrite IH by (split; [discriminate|exact Hl]). cbn [insert_unique]. rewrite eqb_refl. reflexivity.
  Qed.

  Lemma refused_iff a : l_legacy a = true -> (legacy_refused a = false <-> java_only (l_ext a)).
  Proof.
    intros L. unfold legacy_refused, java_only. rewrite L. cbn [andb]. unfold extension_list. destruct (l_ext a) as [e|]; [|tauto].
    unfold normalize_extension_string. destruct (eqb_spec e []) as [->|He]; [tauto|].
    pose proof (sorted_single (split_on bar e)) as Hs. pose proof (split_on_nonempty bar e) as Hn.
    destruct (sorted_set (split_on bar e)) as [|x l] eqn:Es.
    - exfalso. destruct (split_on bar e) as [|y r]; [contradiction|]. unfold sorted_set in Es. cbn [fold_right] in Es.
      destruct (fold_right insert_unique [] r) as [|z k]; cbn [insert_unique] in Es; [discriminate|].
      destruct (eqb y z); [discriminate|]. destruct (str_leb y z); discriminate.
    - destruct (eqb_spec (x :: l) [lit "java"]) as [E|E]; cbn [negb].
      + split; [intros _; right; apply Hs, E|reflexivity].
      + split; [discriminate|]. intros [H|H]; [contradiction|]. exfalso. apply E, Hs. auto.
  Qed.

  (** C89: --legacy does the same as --ext java (and there is no other parser), or, if other files are asked for, nothing. *)
  Theorem C89_legacy : forall t w a, l_legacy a = true ->
    (java_only (l_ext a) -> handle t w a = handle t w (with_java a)) /\
    (~ java_only (l_ext a) -> handle t w a = (Ok tt, w)).
  Proof.
    intros t w a L. pose proof (refused_iff a L) as R. unfold handle_learnbpe. split; intros H.
    - apply R in H. rewrite H. cbn [legacy_refused with_java l_legacy andb].
      assert (C : forall k k', k_dir k = k_dir k' -> k_base k = k_base k' -> k_id k = k_id k' -> k_n k = k_n k' ->
                to_suffix (k_conf k) = to_suffix (k_conf k') -> base_config (k_conf k) = base_config (k_conf k') ->
                supported (k_conf k) = supported (k_conf k') ->
                learn_bpe py_int maxsize strip number_of source w k = learn_bpe py_int maxsize strip number_of source w k').
      { intros k k' H1 H2 H3 H4 H5 H6 H7. unfold learn_bpe, bpe_dir_name, vocab_dir_name. rewrite H1, H2, H3, H4, H5, H6, H7. reflexivity. }
      apply C; try reflexivity. unfold command_of. cbn [k_dir]. unfold dataset_dir_name, dataset_of, extensions_of. cbn. rewrite L. reflexivity.
    - destruct (legacy_refused a); [reflexivity|]. exfalso. apply H, R. reflexivity.
  Qed.

  (** the lists of merges and the vocabularies are the same, and ids that were there *)
  Definition nothing_learned (w w' : world) : Prop :=
    w_vocab w' = w_vocab w /\
    (forall name r, dget (w_bpe w) name = Some r ->
       exists r', dget (w_bpe w') name = Some r' /\ r_lists r' = r_lists r /\
                  forall c i, codes_id strip (r_id r, subdirs r) = Some (c :: i) -> r_id r' = r_id r) /\
    (forall name r', dget (w_bpe w') name = Some r' -> dget (w_bpe w) name = None -> r_lists r' = []).

  (** C89: --bytes and --word-end are never carried out: an exception is raised, nothing is learned. *)
  Theorem C89_unsupported : forall t w a, l_word_end a = true \/ (l_bytes a = true /\ l_no_unicode a = false) -> legacy_refused a = false ->
    exists e w', handle t w a = (Err e, w') /\ nothing_learned w w'.
  Proof.
    intros t w a U L. unfold handle_learnbpe. rewrite L. unfold learn_bpe.
    assert (S : supported (k_conf (command_of t a)) = false).
    { cbn [command_of k_conf]. unfold supported, create_bpe_config_from_args. cbn [bc_unicode bc_word_end bc_case].
      destruct U as [-> | [-> ->]]; [rewrite andb_false_r|]; reflexivity. }
    set (k := command_of t a) in *. set (name := bpe_dir_name (k_dir k) (k_conf k)).
    assert (T : dget (w_bpe (touch w name)) name = match dget (w_bpe w) name with Some r => Some r | None => Some {| r_id := None; r_lists := [] |} end
                /\ w_vocab (touch w name) = w_vocab w /\ forall n, n <> name -> dget (w_bpe (touch w name)) n = dget (w_bpe w) n).
    { unfold touch, dmem. destruct (dget (w_bpe w) name) as [r|] eqn:Er.
      - auto.
      - unfold set_dir. cbn [w_bpe w_vocab]. split; [apply dget_dset_eq|]. split; [reflexivity|]. intros n Hn. apply dget_dset_neq. congruence. }
    destruct T as (T1 & T2 & T3).
    assert (K : exists r, dget (w_bpe (touch w name)) name = Some r /\
              (forall r0, dget (w_bpe w) name = Some r0 -> r = r0) /\ (dget (w_bpe w) name = None -> r_lists r = [])).
    { rewrite T1. destruct (dget (w_bpe w) name) as [r|]; eexists; (split; [reflexivity|]); split; intros; congruence || reflexivity. }
    destruct K as (r & Er & K1 & K2). rewrite Er.
    assert (N : forall r', r_lists r' = r_lists r ->
              (forall c i, codes_id strip (r_id r, subdirs r) = Some (c :: i) -> r_id r' = r_id r) ->
              nothing_learned w (set_dir (touch w name) name r')).
    { intros r' Hl Hi. split; [exact T2|]. unfold set_dir. cbn [w_bpe]. split.
      - intros n r0 H0. destruct (str_dec n name) as [->|Hn].
        + specialize (K1 _ H0). subst r0. exists r'. rewrite dget_dset_eq. auto.
        + exists r0. rewrite dget_dset_neq, T3 by congruence. auto.
      - intros n r1 H1 H0. destruct (str_dec n name) as [->|Hn].
        + rewrite dget_dset_eq in H1. injection H1 as <-. rewrite Hl. auto.
        + rewrite dget_dset_neq, T3 in H1 by congruence. congruence. }
    assert (N0 : nothing_learned w (touch w name)).
    { split; [exact T2|]. split.
      - intros n r0 H0. destruct (str_dec n name) as [->|Hn].
        + specialize (K1 _ H0). subst r0. exists r. rewrite Er. auto.
        + exists r0. rewrite T3 by exact Hn. auto.
      - intros n r1 H1 H0. destruct (str_dec n name) as [->|Hn]; [rewrite Er in H1; injection H1 as <-; auto|].
        rewrite T3 in H1 by exact Hn. congruence. }
    destruct (codes_id strip (r_id r, subdirs r)) as [[|c i]|] eqn:Ec.
    3:{ destruct (create_new_id_from _ _ _ _ _ _ _ _) as [i|e]; cbn [bind]; rewrite ?S; cbn [negb]; do 2 eexists; (split; [reflexivity|]).
        - apply N; [reflexivity|]. congruence.
        - exact N0. }
    - destruct (create_new_id_from _ _ _ _ _ _ _ _) as [i|e]; cbn [bind]; rewrite ?S; cbn [negb]; do 2 eexists; (split; [reflexivity|]).
      + apply N; [reflexivity|]. congruence.
      + exact N0.
    - rewrite S. cbn [negb]. do 2 eexists. split; [reflexivity|]. apply N; reflexivity.
  Qed.
End LearnCli.
Print Assumptions C89_legacy.
Print Assumptions C89_unsupported.

(** ** What is learned *)
Section Learns.
  Variable py_int : str -> option Z.
  Hypothesis py_int_dec : forall k, py_int (dec k) = Some (Z.of_N k).
  Variable maxsize : Z.
  Variable strip : str -> str.
  Variable is_blank : N -> bool.
  Hypothesis strip_clean : forall s, s <> [] -> is_blank (hd 0%N s) = false -> is_blank (last s 0%N) = false -> strip s = s.
  Hypothesis ascii_clean : forall c, (48 <= c < 128)%N -> is_blank c = false.
  Variable number_of : str -> str -> option str.
  Variable source : str -> str -> dict str Z * str.

  (** the files that are read: those of the dataset with the given time of modification and with these extensions *)
  Definition dataset_name (t : stamp) (a : learn_args) : str :=
    basename (l_path a) ++ lit "_" ++ stamp_str t
    ++ (if l_legacy a then lit "_java"
        else match l_ext a with
             | Some (c :: e) => lit "_" ++ join (lit "_") (sorted_set (split_on bar (c :: e)))
             | _ => []
             end).
  Definition the_command (t : stamp) (a : learn_args) : learn_cmd :=
    {| k_dir := dataset_name t a; k_base := basename (l_path a);
       k_conf := {| bc_case := lit "yes"; bc_word_end := false; bc_base := if l_legacy a then lit "java" else lit "code";
                    bc_unicode := if l_no_unicode a then lit "no" else lit "yes" |};
       k_id := l_id a; k_n := l_n a |}.

  Lemma sorted_set_cons x l : exists y r, sorted_set (x :: l) = y :: r.
  Proof.
    unfold sorted_set. cbn [fold_right]. destruct (fold_right insert_unique [] l) as [|z r]; cbn [insert_unique]; [eauto|].
    destruct (eqb x z); [eauto|]. destruct (str_leb x z); eauto.
  Qed.
  Lemma command_is t a : l_word_end a = false -> l_no_unicode a = true \/ l_bytes a = false -> command_of t a = the_command t a.
  Proof.
    intros W B. unfold command_of, the_command.
    assert (C : create_bpe_config_from_args a = {| bc_case := lit "yes"; bc_word_end := false; bc_base := if l_legacy a then lit "java" else lit "code";
                    bc_unicode := if l_no_unicode a then lit "no" else lit "yes" |}).
    { unfold create_bpe_config_from_args. rewrite W. destruct B as [-> | ->]; destruct (l_legacy a), (l_no_unicode a); reflexivity. }
    rewrite C. f_equal. unfold dataset_dir_name, dataset_of, dataset_name, extensions_of. cbn [r_path r_stamp r_exts].
    f_equal. f_equal. f_equal. destruct (l_legacy a); [reflexivity|]. unfold extension_list. destruct (l_ext a) as [[|c e]|]; [reflexivity| |reflexivity].
    unfold normalize_extension_string. destruct (eqb_spec (c :: e) []) as [H|_]; [discriminate|].
    destruct (split_on bar (c :: e)) as [|x l] eqn:E; [destruct (split_on_nonempty bar (c :: e) E)|].
    destruct (sorted_set_cons x l) as (y & r & ->). reflexivity.
  Qed.

  (** C89: without --bytes and --word-end, and if --legacy is not refused, codes are learned for the files with the given extensions
      only (java with --legacy), from the words with non-ascii characters replaced just if --no-unicode is given, and can be used by the
      id (the one given with --id if there was none) and any number up to <n-merges>. *)
  Theorem C89_learns : forall t w ks a r w' names packaged,
    history py_int maxsize strip is_blank number_of source w ks ->
    l_word_end a = false -> l_no_unicode a = true \/ l_bytes a = false -> (l_legacy a = true -> java_only (l_ext a)) ->
    good_cmd maxsize strip is_blank number_of source w (the_command t a) ->
    handle_learnbpe py_int maxsize strip number_of source t w a = (r, w') -> Permutation names (dkeys (w_bpe w')) ->
    let dir := dataset_name t a ++ (if l_no_unicode a then lit "_-_nounicode" else []) in
    let conf := (if l_no_unicode a then lit "U" else lit "u") ++ lit "0EFsu" in
    r = Ok tt /\
    exists rd i nb,
      dget (w_bpe w') dir = Some rd /\ r_id rd = Some i /\
      (forall c j, l_id a = Some (c :: j) -> dget (w_bpe w) dir = None -> i = c :: j) /\
      load_vocab_set (snd (source (dataset_name t a) conf)) = Ok nb /\
      forall m, 1 <= m <= l_n a ->
        (exists l v, greedy (characters {| all_vocab := fst (source (dataset_name t a) conf); nonbpe := nb |}) l v /\ length l = m /\
                     uses (disk_of py_int maxsize strip packaged w' names) (i ++ dash :: dec (N.of_nat m)) (ml_of l) nb)
        \/ (exists l v, greedy (characters {| all_vocab := fst (source (dataset_name t a) conf); nonbpe := nb |}) l v /\ length l < m /\
                        Forall (fun wf => length (fst wf) = 1) v /\
                        refused (disk_of py_int maxsize strip packaged w' names) (i ++ dash :: dec (N.of_nat m))).
  Proof.
    intros t w ks a r w' names packaged H W B L G E P dir conf. unfold handle_learnbpe in E.
    assert (R : legacy_refused a = false).
    { destruct (l_legacy a) eqn:El; [apply refused_iff; auto|]. unfold legacy_refused. rewrite El. reflexivity. }
    rewrite R, (command_is t a W B) in E. set (k := the_command t a) in *.
    assert (Ed : bpe_dir_name (k_dir k) (k_conf k) = dir).
    { unfold dir, k, the_command, bpe_dir_name, to_suffix. cbn [k_dir k_conf bc_case bc_word_end bc_unicode].
      destruct (l_no_unicode a); cbn; rewrite ?app_nil_r; reflexivity. }
    assert (Ec : base_config (k_conf k) = conf).
    { unfold conf, k, the_command, base_config. cbn [k_conf bc_unicode]. destruct (l_no_unicode a); reflexivity. }
    destruct (C75_learn py_int py_int_dec maxsize strip is_blank strip_clean ascii_clean number_of source w ks k r w' H G E) as (-> & _ & rd0 & i0 & D0 & I0 & J0).
    split; [reflexivity|].
    destruct (C75_usable py_int py_int_dec maxsize strip is_blank strip_clean ascii_clean number_of source w' (ks ++ [k]) k names packaged) as (rd & i & nb & D & I & V & U).
    - eapply history_learn; eassumption.
    - apply in_or_app. right. left. reflexivity.
    - exact P.
    - rewrite Ed in *. rewrite Ec in *. exists rd, i, nb. split; [exact D|]. split; [exact I|]. split; [|split; [exact V|]].
      + intros c j Hj Hn. rewrite D in D0. injection D0 as <-. rewrite I in I0. injection I0 as <-.
        unfold id_of_cmd in J0. rewrite Ed, Hn in J0. change (k_id k) with (l_id a) in J0. rewrite Hj in J0. exact J0.
      + unfold corpus_for in U. rewrite Ec in U. exact U.
  Qed.
End Learns.
Print Assumptions C89_learns.

(** ** Examples *)
Definition ex_args (p : string) (e : option string) (i : option string) (u b we lg : bool) : learn_args :=
  {| l_n := 2; l_path := lit p; l_ext := option_map lit e; l_id := option_map lit i; l_no_unicode := u; l_bytes := b; l_word_end := we; l_legacy := lg |}.
Definition ex_source' (d : str) (conf : str) : dict str Z * str := ([(lit "ab", 3%Z); (lit "abc", 2%Z)], []).
Definition ex_handle := handle_learnbpe ex_int ex_max ex_strip literal_number ex_source' {| st_y := 20%N; st_mo := 1%N; st_d := 2%N; st_h := 3%N; st_mi := 4%N; st_s := 5%N |}.
Definition dirs (w : world) := map (fun nr => (fst nr, r_id (snd nr), dkeys (r_lists (snd nr)))) (w_bpe w).

Definition ex_d (s : string) : str := lit "proj_20-01-02T03-04-05" ++ lit s.

(** the first command on a machine, with two extensions, an id, and --no-unicode: the hypotheses hold, and the codes are there *)
Definition ex_stamp : stamp := {| st_y := 20%N; st_mo := 1%N; st_d := 2%N; st_h := 3%N; st_mi := 4%N; st_s := 5%N |}.
Example C89_learns_example :
  let a := ex_args "/d/proj" (Some "py|java"%string) (Some "mine"%string) true false false false in
  history ex_int ex_max ex_strip ex_blank literal_number ex_source' empty_world [] /\
  good_cmd ex_max ex_strip ex_blank literal_number ex_source' empty_world (the_command ex_stamp a) /\
  dataset_name ex_stamp a = ex_d "_java_py" /\
  dirs (snd (ex_handle empty_world a)) = [(ex_d "_java_py_-_nounicode", Some (lit "mine"), [2])] /\
  data_used (snd (ex_handle empty_world a)) [ex_d "_java_py_-_nounicode"] "mine-1" = Some ([(lit "a", lit "b")], []) /\
  data_used (snd (ex_handle empty_world a)) [ex_d "_java_py_-_nounicode"] "mine-3" = None.
Proof.
  split; [apply history_start|]. split; [|repeat split; vm_compute; reflexivity].
  unfold good_cmd. split; [reflexivity|]. split; [reflexivity|]. split; [vm_compute; reflexivity|]. split; [cbn; lia|].
  split; [vm_compute; reflexivity|]. split.
  - exists []. split; [vm_compute; reflexivity|]. split; [|discriminate]. split; [|split].
    + repeat constructor; cbn; intuition congruence.
    + cbn. repeat apply Forall_cons; [..|apply Forall_nil]; (split; [discriminate|split; [intros Hi; repeat (destruct Hi as [Hi|Hi]; [discriminate|]); exact Hi|split;
        [unfold valid_str; cbn; repeat apply Forall_cons; [..|apply Forall_nil]; lia|reflexivity]]]).
    + cbn [corpus_for nonbpe]. apply Forall_nil.
  - cbn [the_command k_id l_id ex_args option_map lit]. split.
    + split; [reflexivity|]. split; [discriminate|]. intros Hi. repeat (destruct Hi as [Hi|Hi]; [discriminate|]). exact Hi.
    + discriminate.
Qed.

(** --legacy without --ext, with only java, with something else *)
Example C89_legacy_example :
  java_only (Some (lit "java|java")) /\ ~ java_only (Some (lit "java|py")) /\
  dirs (snd (ex_handle empty_world (ex_args "/d/proj" None None false false false true))) = [(ex_d "_java", Some (lit "proj"), [2])] /\
  ex_handle empty_world (ex_args "/d/proj" (Some "java|java"%string) None false false false true)
  = ex_handle empty_world (ex_args "/d/proj" (Some "java"%string) None false false false false) /\
  ex_handle empty_world (ex_args "/d/proj" (Some "java|py"%string) None false false false true) = (Ok tt, empty_world).
Proof.
  split; [right; repeat constructor|]. split.
  - intros [H|H]; [discriminate|]. vm_compute in H. inversion H as [|? ? _ H']; subst. inversion H' as [|? ? H'' _]. discriminate.
  - repeat split; vm_compute; reflexivity.
Qed.

Example C89_unsupported_example :
  let a := ex_args "/d/proj" None None false false true false in
  legacy_refused a = false /\ fst (ex_handle empty_world a) = Err ValueError /\
  dirs (snd (ex_handle empty_world a)) = [(ex_d "_-_we", Some (lit "proj_we"), [])].
Proof. repeat split; vm_compute; reflexivity. Qed.

(** --no-unicode: another directory, so other merges; --bytes is then without effect *)
Example C89_no_unicode_example :
  ex_handle empty_world (ex_args "/d/proj" None None true true false false) = ex_handle empty_world (ex_args "/d/proj" None None true false false false) /\
  dirs (snd (ex_handle (snd (ex_handle empty_world (ex_args "/d/proj" None None true false false false))) (ex_args "/d/proj" None None false false false false)))
  = [(ex_d "_-_nounicode", Some (lit "proj_nounicode"), [2]); (ex_d "", Some (lit "proj"), [2])].
Proof. split; vm_compute; reflexivity. Qed.

(** finding: a refused command leaves its id behind.  If the user then leaves out the option that was refused and asks for the same id,
    merges are learned, but it depends on the order of the directories whether they are found *)
Theorem C89_refused_id_refuted :
  exists a1 a2 w names names',
    l_id a1 = l_id a2 /\ fst (ex_handle empty_world a1) = Err ValueError /\
    ex_handle (snd (ex_handle empty_world a1)) a2 = (Ok tt, w) /\
    Permutation names (dkeys (w_bpe w)) /\ Permutation names' (dkeys (w_bpe w)) /\
    data_used w names "x-1" = Some ([(lit "a", lit "b")], []) /\ data_used w names' "x-1" = None.
Proof.
  exists (ex_args "/d/proj" None (Some "x"%string) false true false false), (ex_args "/d/proj" None (Some "x"%string) false false false false),
    (snd (ex_handle (snd (ex_handle empty_world (ex_args "/d/proj" None (Some "x"%string) false true false false))) (ex_args "/d/proj" None (Some "x"%string) false false false false))).
  eexists. eexists. split; [reflexivity|]. split; [vm_compute; reflexivity|]. split; [vm_compute; reflexivity|].
  split; [eapply Permutation_sym, Permutation_rev|]. split; [apply Permutation_refl|].
  split; vm_compute; reflexivity.
Qed.
Print Assumptions C89_refused_id_refuted.

(** ** The configuration for learning (C62) *)
(** The words that are not to be split are collected for the configurations that learning uses, and for no others:
    C62_there holds for learning. *)
Theorem C62_learning :
  (forall c, exists d, from_encoded_string (base_config c) = Ok d /\ is_base_bpe_config d = true) /\
  (forall d d', mk_prep_config d = Ok d' -> is_base_bpe_config d' = true -> exists c, config_str d' = base_config c).
Proof.
  split.
  - intros c. unfold base_config. destruct (eqb (bc_unicode c) (lit "no")); eexists; split; reflexivity.
  - intros d d' H B. destruct (config_str_of _ _ H) as (en & com & st & sp & tabs & ca & E1 & E2 & E3 & E4 & E5 & E6 & V & ->).
    apply mk_ok in H. destruct H as [_ ->].
    unfold is_base_bpe_config, param_in, param in B. rewrite E2, E3, E4, E5, E6 in B.
    apply andb_true_iff in B. destruct B as [B B5]. apply andb_true_iff in B. destruct B as [B B4].
    apply andb_true_iff in B. destruct B as [B B3]. apply andb_true_iff in B. destruct B as [B1 B2].
    apply mem_chars in B1, B2, B3, B4, B5.
    destruct B1 as [<-|[]], B2 as [<-|[]], B3 as [<-|[]], B4 as [<-|[]], B5 as [<-|[]].
    destruct V as (en' & com' & st' & sp' & tabs' & ca' & Ev & Hen & _). injection Ev as <- _ _ _ _ _.
    destruct Hen as [<-|[<-|[]]].
    + exists {| bc_case := lit "yes"; bc_word_end := false; bc_base := lit "all"; bc_unicode := lit "yes" |}. reflexivity.
    + exists {| bc_case := lit "yes"; bc_word_end := false; bc_base := lit "all"; bc_unicode := lit "no" |}. reflexivity.
Qed.
Print Assumptions C62_learning.
Example C62_learning_example :
  exists d, from_encoded_string (lit "U0EFsu") = Ok d /\ is_base_bpe_config d = true
    /\ exists d', from_encoded_string (lit "UcEFsu") = Ok d' /\ is_base_bpe_config d' = false.
Proof. eexists. split; [reflexivity|]. split; [reflexivity|]. eexists. split; reflexivity. Qed.
