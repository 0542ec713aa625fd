(** C77 once more: ids of codes whose vocabulary was never made, as learning was killed or refused. *)
From Coq Require Import List NArith Bool Permutation Lia.
From Verif Require Import M_Base L_Base M_Literal M_PrepConfig M_Registry P_Registry M_Tokens M_Repr M_Api M_Learned P_Learned.
Import ListNotations.
Local Open Scope list_scope.

(** Whatever else was learned: if the only directory with an id has no vocabulary, then asking for any of its vocabularies or for a list of
    merges of it is an error, for every number of merges; no empty or other vocabulary is given. *)
Theorem C77_no_vocabulary : forall py_int maxsize strip w names d c rd i,
  bc_valid c = true -> contains (lit "_-_") (d ++ lit "_") = false ->
  In (bpe_dir_name d c) names -> dget (w_bpe w) (bpe_dir_name d c) = Some rd ->
  i <> [] -> codes_id strip (r_id rd, subdirs rd) = Some i ->
  (forall name rd', In name names -> dget (w_bpe w) name = Some rd' -> codes_id strip (r_id rd', subdirs rd') = Some i -> name = bpe_dir_name d c) ->
  dget (w_vocab w) (vocab_dir_name d c) = None ->
  vl_all strip w names i = Err FileNotFoundError /\ vl_nonbpe strip w names i = Err FileNotFoundError /\
  vl_base strip w names i = Err FileNotFoundError /\
  dk_nonbpe (disk_of py_int maxsize strip no_package w names) i = Err FileNotFoundError /\
  (r_lists rd = [] -> forall n, vl_bpe strip w names i n = Err ValueError /\ exists e, load_bpe_merges py_int maxsize strip w names i n = Err e).
Proof.
  intros py_int maxsize strip w names d c rd i Hc Hd Hin Hrd Hi Hid Honly Hv.
  assert (F : dataset_bpe_dir strip w names i = Ok (bpe_dir_name d c, rd)).
  { unfold dataset_bpe_dir. destruct (find (has_id strip w i) names) as [n|] eqn:Ef.
    - apply find_some in Ef. destruct Ef as [Hn Hh]. assert (n = bpe_dir_name d c) as ->; [|rewrite Hrd; reflexivity].
      unfold has_id in Hh. destruct (dget (w_bpe w) n) as [r|] eqn:En; [|discriminate].
      destruct (codes_id strip (r_id r, subdirs r)) as [j|] eqn:Ej; [|discriminate].
      apply andb_true_iff in Hh. destruct Hh as [_ Hh]. revert Hh. destruct (eqb_spec j i) as [->|]; [intros _|discriminate]. exact (Honly n r Hn En Ej).
    - apply (find_none _ _) with (x := bpe_dir_name d c) in Ef; [|exact Hin]. unfold has_id in Ef. rewrite Hrd, Hid, eqb_refl in Ef.
      revert Ef. clear -Hi. destruct i as [|a i]; [congruence|cbn; discriminate]. }
  assert (B : base_vocab_dir strip w names i = Ok (vocab_dir_name d c)).
  { unfold base_vocab_dir. rewrite F. cbn [bind fst]. destruct (C37_directory d c Hc Hd) as [-> ->]. reflexivity. }
  assert (A : vl_all strip w names i = Err FileNotFoundError) by (unfold vl_all; rewrite B; cbn [bind]; rewrite Hv; reflexivity).
  split; [exact A|]. split; [unfold vl_nonbpe; rewrite B; cbn [bind]; rewrite Hv; reflexivity|].
  split; [unfold vl_base; rewrite A; reflexivity|]. split; [cbn [disk_of dk_nonbpe]; rewrite B; cbn [bind]; rewrite Hv; reflexivity|].
  intros Hl n. split; [unfold vl_bpe, vl_bpe_dir; rewrite F; cbn [bind snd]; rewrite Hl; reflexivity|].
  unfold load_bpe_merges. rewrite F. cbn [bind snd]. rewrite Hl. cbn [dget].
  destruct (config_dir py_int maxsize (subdirs rd) (Z.of_nat n)) as [m|e]; cbn [bind]; [|eauto]. eexists. reflexivity.
Qed.
Print Assumptions C77_no_vocabulary.

(** learning is killed in an empty world *)
Example C77_no_vocabulary_example :
  let w := ex_killed empty_world (ex_cmd "A" "proj" (Some (lit "x")) 3) in
  dkeys (w_bpe w) = [lit "A"] /\ option_map r_id (dget (w_bpe w) (lit "A")) = Some (Some (lit "x")) /\ w_vocab w = [] /\
  vl_nonbpe ex_strip w [lit "A"] (lit "x") = Err FileNotFoundError.
Proof. cbv zeta. split; [vm_compute; reflexivity|]. split; [vm_compute; reflexivity|]. split; vm_compute; reflexivity. Qed.
