(** * C74: append_eof adds one token and changes nothing else *)
From Coq Require Import List NArith Bool String Lia.
From Verif Require Import M_Base L_Base M_Tokens M_Repr M_PrepConfig P_PrepConfig L_Repr P_Repr P_ReprOptions M_Merge M_BpeEncode
  M_Registry M_Pipeline M_Api P_Api M_Files P_Files.
Import ListNotations.
Local Open Scope list_scope.

Definition set_eof (c : call) (eof : bool) : call :=
  {| c_text := c_text c; c_ext := c_ext c; c_config := c_config c; c_id := c_id c; c_force := c_force c; c_eof := eof |}.

(** a call represents the parsed tokens by a function that does not depend on append_eof; the bpe data in it does not
    depend on it either *)
Lemma call_repr E o parse dk g c l : parse (c_text c) (c_ext c) = Ok l ->
  exists (k : list token -> res (list str * meta)) (g' : globals),
    ((exists e, k = fun _ => Err e) \/ (exists b, k = to_repr E o (c_config c) b)) /\
    forall eof, preprocess parse (plain_repr E o) dk g (set_eof c eof)
                = (k (remove_trailing_newline l ++ if eof then [NonProc NpSpecialToken ph_ect] else []), g').
Proof.
  intros Hp. unfold preprocess, set_eof. cbn [c_text c_ext c_config c_id c_force c_eof]. rewrite Hp.
  assert (Hlast : forall eof : bool, (if eof then remove_trailing_newline l ++ [NonProc NpSpecialToken ph_ect] else remove_trailing_newline l)
            = remove_trailing_newline l ++ if eof then [NonProc NpSpecialToken ph_ect] else []).
  { intros []; [reflexivity|]. rewrite app_nil_r. reflexivity. }
  assert (Hplain : forall g1, exists k : list token -> res (list str * meta),
    ((exists e, k = fun _ => Err e) \/ (exists b, k = to_repr E o (c_config c) b)) /\
    forall l0, plain_repr E o (c_config c) l0 g1 = (k l0, g1)).
  { intros g1. unfold plain_repr. destruct g1 as [[[c1|] [ml|]]|]; try (destruct (is_bpe (c_config c)));
      try (eexists; split; [left; eexists; reflexivity|reflexivity]);
      eexists; (split; [right; eexists; reflexivity|reflexivity]). }
  assert (Herr : forall e (g1 : globals), exists (k : list token -> res (list str * meta)) (g' : globals),
    ((exists e, k = fun _ => Err e) \/ (exists b, k = to_repr E o (c_config c) b)) /\
    forall eof : bool, (Err e, g1) = (k (remove_trailing_newline l ++ if eof then [NonProc NpSpecialToken ph_ect] else []), g')).
  { intros e g1. exists (fun _ => Err e), g1. split; [left; eexists; reflexivity|reflexivity]. }
  assert (Hfinal : forall g1, exists (k : list token -> res (list str * meta)) (g' : globals),
    ((exists e, k = fun _ => Err e) \/ (exists b, k = to_repr E o (c_config c) b)) /\
    forall eof : bool, plain_repr E o (c_config c)
       (if eof then remove_trailing_newline l ++ [NonProc NpSpecialToken ph_ect] else remove_trailing_newline l) g1
       = (k (remove_trailing_newline l ++ if eof then [NonProc NpSpecialToken ph_ect] else []), g')).
  { intros g1. destruct (Hplain g1) as (k & Hk & Hg). exists k, g1. split; [exact Hk|]. intros eof. rewrite Hg, Hlast. reflexivity. }
  destruct (is_bpe (c_config c)); [|apply Hfinal].
  destruct (c_id c) as [[|x id]|]; [apply Herr| |apply Herr].
  destruct (if is_predefined_id (x :: id) then _ else _) as [custom|e]; [|apply Herr].
  destruct (init_bpe_data _ _ _ _ _) as [[[]|e] g2]; [apply Hfinal|apply Herr].
Qed.

Theorem C74_eof : forall E o parse dk g c out m,
  mk_prep_config (c_config c) = Ok (c_config c) ->
  fst (preprocess parse (plain_repr E o) dk g (set_eof c false)) = Ok (out, m) ->
  fst (preprocess parse (plain_repr E o) dk g (set_eof c true)) =
  Ok (out ++ [lit "<EOF>" ++ token_end (c_config c)],
      {| nonproc := nonproc m ++ [lit "<EOF>"]; wb := removelast (wb m) ++ [List.length out; S (List.length out)];
         types := types m ++ [CSpecialToken] |}).
Proof.
  intros E o parse dk g c out m Hd H.
  assert (exists l, parse (c_text c) (c_ext c) = Ok l) as [l Hl].
  { destruct (parse (c_text c) (c_ext c)) as [l|e] eqn:Hp; [eauto|]. unfold preprocess, set_eof in H. cbn [c_text c_ext] in H.
    rewrite Hp in H. discriminate H. }
  destruct (call_repr E o parse dk g c l Hl) as (k & g' & Hk & Hc). rewrite (Hc true). rewrite (Hc false), app_nil_r in H. cbn [fst] in *.
  destruct Hk as [(e & ->)|(b & ->)]; [discriminate|].
  rewrite (C04_compositional _ _ _ _ _ _ _ _ _ _ H (special_repr E o (c_config c) b ph_ect Hd)).
  cbn [nonproc wb types map]. rewrite Nat.add_0_r, Nat.add_1_r. reflexivity.
Qed.
Print Assumptions C74_eof.

(** It does not change whether the call succeeds, nor the state it leaves behind. *)
Theorem C74_fails : forall E o parse dk g c,
  mk_prep_config (c_config c) = Ok (c_config c) ->
  snd (preprocess parse (plain_repr E o) dk g (set_eof c true)) = snd (preprocess parse (plain_repr E o) dk g (set_eof c false)) /\
  ((exists r, fst (preprocess parse (plain_repr E o) dk g (set_eof c true)) = Ok r) <->
   (exists r, fst (preprocess parse (plain_repr E o) dk g (set_eof c false)) = Ok r)).
Proof.
  intros E o parse dk g c Hd. destruct (parse (c_text c) (c_ext c)) as [l|e] eqn:Hp.
  2:{ unfold preprocess, set_eof. cbn [c_text c_ext]. rewrite Hp. split; reflexivity. }
  destruct (call_repr E o parse dk g c l Hp) as (k & g' & Hk & Hc). rewrite (Hc true), (Hc false), app_nil_r. cbn [fst snd].
  split; [reflexivity|]. destruct Hk as [(e & ->)|(b & ->)]; [reflexivity|]. split.
  - intros [r Hr]. destruct (C04_splits _ _ _ _ _ _ _ Hr) as (ra & _ & Ha & _). eauto.
  - intros [[oa ma] Ha]. eexists. exact (C04_compositional _ _ _ _ _ _ _ _ _ _ Ha (special_repr E o (c_config c) b ph_ect Hd)).
Qed.
Print Assumptions C74_fails.

Example C74_example :
  tokens_of (preprocess parse_ex (plain_repr ascii_case no_splitters) disk_ex None (set_eof (call_ex "abc" "a-1" true) false))
  <> Err AssertionError /\
  exists out m, fst (preprocess parse_ex (plain_repr ascii_case no_splitters) disk_ex None (set_eof (call_ex "abc" "a-1" true) false)) = Ok (out, m) /\
  tokens_of (preprocess parse_ex (plain_repr ascii_case no_splitters) disk_ex None (set_eof (call_ex "abc" "a-1" true) true))
  = Ok (out ++ [lit "<EOF></t>"]) /\ out <> [].
Proof.
  split; [vm_compute; discriminate|]. do 2 eexists. split; [vm_compute; reflexivity|]. split; [vm_compute; reflexivity|discriminate].
Qed.
