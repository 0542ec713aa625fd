(** C75 once more: what --id does, for all directories, commands and vocabularies. *)
From Coq Require Import List NArith Bool Permutation Lia.
From Verif Require Import M_Base L_Base M_Literal M_PrepConfig M_Registry P_Registry M_Tokens M_Repr M_Pipeline M_BpeRun M_Api M_Learned P_Learned.
Import ListNotations.
Local Open Scope list_scope.

Section Taken.
  Variable py_int : str -> option Z.
  Variable maxsize : Z.
  Variable strip : str -> str.
  Variable number_of : str -> str -> option str.
  Variable source : str -> str -> dict str Z * str.
  Notation learn_bpe := (learn_bpe py_int maxsize strip number_of source).

  (** the id a command writes for a directory with the id file [old] *)
  Definition writes (k : learn_cmd) (old : option str) (id : option str) : Prop :=
    (exists c i, option_map strip old = Some (c :: i) /\ id = old) \/
    (option_map strip old = None \/ option_map strip old = Some []) /\ exists i, k_id k = Some i /\ i <> [] /\ id = Some i.

  Lemma learn_ids w k old id : let name := bpe_dir_name (k_dir k) (k_conf k) in
    match dget (w_bpe w) name with Some r => r_id r | None => None end = old -> writes k old id ->
    let w' := snd (learn_bpe w k) in
    (exists rd, dget (w_bpe w') name = Some rd /\ r_id rd = id) /\ forall name', name' <> name -> dget (w_bpe w') name' = dget (w_bpe w) name'.
  Proof.
    intros name Hold Hw w'. unfold w', M_Learned.learn_bpe. fold name.
    assert (T : exists r, dget (w_bpe (touch w name)) name = Some r /\ r_id r = old).
    { unfold touch. unfold dmem. destruct (dget (w_bpe w) name) as [r|] eqn:D; [exists r; split; [exact D|exact Hold]|].
      eexists. split; [cbn [set_dir w_bpe]; apply dget_dset_eq|]. exact Hold. }
    assert (O : forall name', name' <> name -> dget (w_bpe (touch w name)) name' = dget (w_bpe w) name').
    { intros n Hn. unfold touch. destruct (dmem (w_bpe w) name); [reflexivity|]. cbn [set_dir w_bpe]. apply dget_dset_neq. congruence. }
    destruct T as (r & Dr & Er). rewrite Dr.
    assert (I : match codes_id strip (r_id r, subdirs r) with
                | Some (_ :: _) => Ok (r_id r)
                | _ => i <- create_new_id_from py_int maxsize strip number_of (k_base k) (to_suffix (k_conf k)) (listing (touch w name)) (k_id k) ;; Ok (Some i)
                end = Ok id).
    { unfold codes_id. cbn [fst]. rewrite Er. destruct Hw as [(c & i & E & ->)|[E (i & Ek & Hi & ->)]].
      - rewrite E. reflexivity.
      - assert (N : forall b s l, create_new_id_from py_int maxsize strip number_of b s l (k_id k) = Ok i).
        { intros b s l. unfold create_new_id_from. rewrite Ek. destruct i; [congruence|reflexivity]. }
        rewrite N. destruct E as [E|E]; rewrite E; reflexivity. }
    rewrite I. clear I.
    set (w2 := set_dir (touch w name) name {| r_id := id; r_lists := r_lists r |}).
    assert (G2 : (exists rd, dget (w_bpe w2) name = Some rd /\ r_id rd = id) /\ forall name', name' <> name -> dget (w_bpe w2) name' = dget (w_bpe w) name').
    { split; [eexists; split; [unfold w2; cbn [set_dir w_bpe]; apply dget_dset_eq|reflexivity]|].
      intros n Hn. unfold w2. cbn [set_dir w_bpe]. rewrite dget_dset_neq by congruence. apply O, Hn. }
    destruct (negb (supported (k_conf k))); [exact G2|].
    set (vname := vocab_dir_name (k_dir k) (k_conf k)).
    set (w3 := match most_merges py_int (r_lists r) (k_n k) with
               | Some _ => w2
               | None => if dmem (w_vocab w2) vname then w2
                         else {| w_bpe := w_bpe w2; w_vocab := dset (w_vocab w2) vname (source (k_dir k) (base_config (k_conf k))) |}
               end).
    assert (G3 : w_bpe w3 = w_bpe w2).
    { unfold w3. destruct (most_merges py_int (r_lists r) (k_n k)); [reflexivity|]. destruct (dmem (w_vocab w2) vname); reflexivity. }
    match goal with |- context [match ?x with Ok _ => _ | Err e => (Err e, w3) end] => destruct x as [[[m files]|]|e] end; cbn [snd]; [|rewrite G3; exact G2|rewrite G3; exact G2].
    split; [eexists; split; [cbn [set_dir w_bpe]; apply dget_dset_eq|reflexivity]|].
    intros n Hn. cbn [set_dir w_bpe]. rewrite dget_dset_neq by congruence. rewrite G3. apply G2, Hn.
  Qed.

  (** finding: --id is not checked.  Whatever was learned before, and whatever comes of this command: if the id given belongs to another dataset, then
      afterwards it leads to that one or to this one, depending on which the file system lists first *)
  Theorem C75_every_taken_id_refuted : forall w k name' rd' (i : str),
    let name := bpe_dir_name (k_dir k) (k_conf k) in
    i <> [] -> strip i = i -> k_id k = Some i ->
    match dget (w_bpe w) name with Some r => r_id r | None => None end = None ->
    name' <> name -> dget (w_bpe w) name' = Some rd' -> codes_id strip (r_id rd', subdirs rd') = Some i ->
    let w' := snd (learn_bpe w k) in
    exists rd, dget (w_bpe w') name = Some rd /\
      forall rest, dataset_bpe_dir strip w' (name :: rest) i = Ok (name, rd) /\ dataset_bpe_dir strip w' (name' :: rest) i = Ok (name', rd').
  Proof.
    intros w k name' rd' i name Hi Hs Hk Hnone Hne Hd Hid w'.
    destruct (learn_ids w k None (Some i) Hnone) as [(rd & Drd & Erd) O].
    { right. split; [left; reflexivity|]. exists i. auto. }
    fold name in Drd, O. fold w' in Drd, O. exists rd. split; [exact Drd|]. intros rest.
    assert (Z : forall n r, dget (w_bpe w') n = Some r -> codes_id strip (r_id r, subdirs r) = Some i -> dataset_bpe_dir strip w' (n :: rest) i = Ok (n, r)).
    { intros n r D C. assert (T : has_id strip w' i n = true).
      { unfold has_id. rewrite D, C, eqb_refl, andb_true_r. destruct i; [congruence|reflexivity]. }
      unfold dataset_bpe_dir. cbn [find]. rewrite T, D. reflexivity. }
    split.
    - apply Z; [exact Drd|]. unfold codes_id. cbn [fst]. rewrite Erd. cbn [option_map]. rewrite Hs. reflexivity.
    - apply Z; [rewrite O by exact Hne; exact Hd|exact Hid].
  Qed.

  (** finding: --id has no effect on a dataset that has an id already, even if it has it only from a command that was killed or refused; every
      command leaves it as it is, and the id given is not one of this dataset *)
  Theorem C75_every_id_ignored_refuted : forall w k r (i j : str),
    let name := bpe_dir_name (k_dir k) (k_conf k) in
    dget (w_bpe w) name = Some r -> i <> [] -> codes_id strip (r_id r, subdirs r) = Some i -> k_id k = Some j -> j <> i ->
    let w' := snd (learn_bpe w k) in
    (exists rd, dget (w_bpe w') name = Some rd /\ r_id rd = r_id r) /\ has_id strip w' i name = true /\ has_id strip w' j name = false.
  Proof.
    intros w k r i j name Hr Hi Hid Hk Hj w'. unfold codes_id in Hid. cbn [fst] in Hid.
    destruct (learn_ids w k (r_id r) (r_id r)) as [(rd & Drd & Erd) _].
    { fold name. rewrite Hr. reflexivity. }
    { left. destruct i as [|c i]; [congruence|]. exists c, i. auto. }
    fold name in Drd. fold w' in Drd. split; [exists rd; auto|]. unfold has_id. rewrite Drd. unfold codes_id. cbn [fst]. rewrite Erd, Hid.
    split; [rewrite eqb_refl, andb_true_r; destruct i; [congruence|reflexivity]|].
    apply not_true_is_false. intros H. apply andb_true_iff in H. destruct H as [_ H]. apply Hj. revert H. destruct (eqb_spec i j) as [->|]; [reflexivity|discriminate].
  Qed.
End Taken.
Print Assumptions C75_every_taken_id_refuted.
Print Assumptions C75_every_id_ignored_refuted.

Example C75_every_taken_id_ex :
  let w := snd (ex_learn empty_world (ex_cmd "A" "proj" (Some (lit "x")) 2)) in
  let w' := snd (ex_learn w (ex_cmd "B" "proj" (Some (lit "x")) 2)) in
  option_map r_id (dget (w_bpe w) (lit "A")) = Some (Some (lit "x")) /\ dget (w_bpe w) (lit "B") = None /\
  option_map r_id (dget (w_bpe w') (lit "A")) = Some (Some (lit "x")) /\ option_map r_id (dget (w_bpe w') (lit "B")) = Some (Some (lit "x")) /\
  option_map r_id (dget (w_bpe (snd (ex_learn w (ex_cmd "A" "proj" (Some (lit "y")) 3)))) (lit "A")) = Some (Some (lit "x")).
Proof. cbv zeta. repeat split; vm_compute; reflexivity. Qed.
