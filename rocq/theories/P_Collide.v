(** C41, C69: for which inputs the refutations of P_Dataset.v and P_Split.v occur. *)
From Coq Require Import List NArith ZArith Lia.
From Verif Require Import M_Base L_Base M_Tokens M_Literal L_Literal M_Repr M_Merge M_BpeEncode M_PrepConfig P_PrepConfig
  L_Repr P_Repr L_Word P_ReprOptions L_Merge P_ReprStrings M_Dataset P_Dataset P_Split.
Import ListNotations.

(** Finding: datasets at any two places share all their directories and files if they have the same last name, the same time stamp
    and extensions that look the same when put together with underscores. *)
Theorem C41_shared_refuted : forall r r',
  basename (r_path r) = basename (r_path r') -> r_stamp r = r_stamp r' -> (listed (r_exts r) = [] <-> listed (r_exts r') = []) ->
  join (lit "_") (listed (r_exts r)) = join (lit "_") (listed (r_exts r')) ->
  r_config r = r_config r' -> r_custom r = r_custom r' -> r_output r = r_output r' ->
  forall dir sizes, parsed_path dir r = parsed_path dir r' /\ prep_path dir r = prep_path dir r' /\ vocab_path dir r = vocab_path dir r' /\
    corpus_size_path sizes dir r = corpus_size_path sizes dir r'.
Proof.
  intros r r' Hb Hs He Hj Hc Hm Ho dir sizes.
  assert (D : dataset_dir_name r = dataset_dir_name r').
  { unfold dataset_dir_name. rewrite Hb, Hs. do 3 f_equal. unfold listed in He, Hj.
    destruct (r_exts r) as [[|e es]|], (r_exts r') as [[|e' es']|]; try reflexivity;
      try (exfalso; first [discriminate (proj1 He eq_refl)|discriminate (proj2 He eq_refl)]). rewrite Hj. reflexivity. }
  assert (S : get_prep_suffix r = get_prep_suffix r') by (unfold get_prep_suffix; rewrite Hc, Hm; reflexivity).
  unfold corpus_size_path, parsed_path, prep_path, prep_basename, vocab_path. rewrite D, S, Ho. repeat split.
Qed.
Print Assumptions C41_shared_refuted.

(** the files with extension a_b, and those with extension a or b *)
Example C41_shared_example : let r x p := run_ex p x None in
  normalize_extension_string (lit "a_b") = Some [lit "a_b"] /\ normalize_extension_string (lit "a|b") = Some [lit "a"; lit "b"] /\
  forall dir, parsed_path dir (r (Some [lit "a_b"]) (lit "/u/x")) = parsed_path dir (r (Some [lit "a"; lit "b"]) (lit "/v/w/x")).
Proof.
  cbn zeta. split; [reflexivity|]. split; [reflexivity|]. intros dir.
  assert (L : listed (r_exts (run_ex (lit "/u/x") (Some [lit "a_b"]) None)) = [] <-> listed (r_exts (run_ex (lit "/v/w/x") (Some [lit "a"; lit "b"]) None)) = [])
    by (split; discriminate).
  exact (proj1 (C41_shared_refuted (run_ex (lit "/u/x") (Some [lit "a_b"]) None) (run_ex (lit "/v/w/x") (Some [lit "a"; lit "b"]) None)
    eq_refl eq_refl L eq_refl eq_refl eq_refl eq_refl dir [])).
Qed.

(** Finding: every string over the limit, for all configurations that split words without bpe, becomes one token that the marks show as two. *)
Theorem C69_too_long_refuted : forall E o d b l n mx,
  mk_prep_config d = Ok d -> is_bpe d = false -> param d SPLIT <> lit "F" -> param d STR = create_str_value false mx ->
  (2 <= mx < 62)%Z \/ mx = maxsize -> (mx < n)%Z ->
  exists out m, to_repr E o d b [StringLiteral l n] = Ok (out, m) /\ length (slices (wb m) out) = 1%nat /\ length (regroup None out) = 2%nat.
Proof.
  intros E o d b l n mx Hd Hb HF Hp Hmx Hn. pose proof (C08_too_long E o d b l n mx Hd Hp Hmx Hn) as H.
  assert (F : param_in d SPLIT "F" = false).
  { unfold param_in. destruct (mem (param d SPLIT) (chars_of "F")) eqn:M; [|reflexivity]. apply mem_in in M. destruct M as [M|[]]. symmetry in M. contradiction. }
  rewrite F in H. unfold end_mark in H. rewrite Hb in H. do 2 eexists. split; [exact H|]. split; vm_compute; reflexivity.
Qed.
Print Assumptions C69_too_long_refuted.
Example C69_too_long_example : let d := combine prep_params (chars_of "uc21su") in
  mk_prep_config d = Ok d /\ is_bpe d = false /\ param d SPLIT <> lit "F" /\ param d STR = create_str_value false 2.
Proof. repeat split; try reflexivity. discriminate. Qed.
