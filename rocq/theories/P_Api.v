(** * C59: preprocessing a text does not depend on earlier calls *)
From Coq Require Import List NArith ZArith Bool String.
From Verif Require Import M_Base M_Tokens M_Literal M_Repr M_Merge M_BpeEncode M_PrepConfig M_Registry M_Pipeline
  L_Base P_Repr M_Api.
Import ListNotations.
Local Open Scope list_scope.

(** what is demanded of the function that turns tokens into strings: configurations without bpe do not look at
    bpe data.  This holds of to_repr: *)
Definition no_bpe_no_data (repr : params -> list token -> globals -> res (list str * meta) * globals) : Prop :=
  forall d l g g', is_bpe d = false -> fst (repr d l g) = fst (repr d l g').

Lemma to_repr_no_bpe E o d b l : is_bpe d = false -> to_repr E o d b l = to_repr E o d None l.
Proof. intros H. unfold to_repr, get_repr_config. rewrite H. reflexivity. Qed.

Lemma plain_repr_no_bpe E o : no_bpe_no_data (plain_repr E o).
Proof.
  intros d l g g' H.
  assert (G : forall g, fst (plain_repr E o d l g) = to_repr E o d None l).
  { intros g0. unfold plain_repr. cbn [fst]. destruct g0 as [[[c|] [ml|]]|]; try (rewrite H); try reflexivity.
    apply to_repr_no_bpe. exact H. }
  rewrite !G. reflexivity.
Qed.

(** With force_reinit_bpe_data=True, the default, the result is a function of the call and the disk. *)
Theorem C59_history parse repr dk c g h h' : no_bpe_no_data repr -> c_force c = true ->
  fst (preprocess parse repr dk (after parse repr dk g h) c) = fst (preprocess parse repr dk (after parse repr dk g h') c).
Proof.
  intros Hr Hf. generalize (after parse repr dk g h) (after parse repr dk g h'). clear g h h'. intros g g'.
  unfold preprocess. destruct (parse (c_text c) (c_ext c)) as [l|e]; [|reflexivity].
  destruct (is_bpe (c_config c)) eqn:Hb; [|apply Hr; exact Hb].
  destruct (c_id c) as [[|x id]|]; [reflexivity| |reflexivity].
  destruct (if is_predefined_id (x :: id) then _ else _) as [custom|e]; [|reflexivity].
  assert (G : forall g1, init_bpe_data dk g1 (c_config c) custom (c_force c) = init_bpe_data dk None (c_config c) custom true).
  { intros g1. rewrite Hf. unfold init_bpe_data. destruct g1; reflexivity. }
  rewrite (G g), (G g'). reflexivity.
Qed.

(** Configurations without bpe do not depend on the history whatever the option. *)
Theorem C59_no_bpe parse repr dk c g h h' : no_bpe_no_data repr -> is_bpe (c_config c) = false ->
  fst (preprocess parse repr dk (after parse repr dk g h) c) = fst (preprocess parse repr dk (after parse repr dk g h') c).
Proof.
  intros Hr Hb. unfold preprocess. destruct (parse (c_text c) (c_ext c)) as [l|e]; [|reflexivity].
  rewrite Hb. apply Hr. exact Hb.
Qed.

(** The documented loop: the first call loads the codes, the following calls, for the same codes, have
    force_reinit_bpe_data=False.  As long as no call changed the lists of the cache, every call gives what it gives
    with the default. *)
Theorem C59_loop parse repr dk c0 g cs c :
  (forall d l g1, snd (repr d l g1) = g1) ->
  c_force c0 = true -> (exists r, fst (preprocess parse repr dk g c0) = Ok r) ->
  Forall (fun c => is_bpe (c_config c) = false \/ c_id c = c_id c0 /\ c_config c = c_config c0) (c :: cs) ->
  is_bpe (c_config c0) = true ->
  no_bpe_no_data repr ->
  Forall (fun c => c_force c = false) (c :: cs) ->
  fst (preprocess parse repr dk (after parse repr dk g (c0 :: cs)) c)
  = fst (preprocess parse repr dk None
           {| c_text := c_text c; c_ext := c_ext c; c_config := c_config c; c_id := c_id c; c_force := true; c_eof := c_eof c |}).
Proof.
  intros Hs Hf0 [r Hr] Hc Hb0 Hn Hf.
  (* the state after the first call *)
  destruct (c_id c0) as [[|x id]|] eqn:Eid.
  { exfalso. unfold preprocess in Hr. destruct (parse _ _); [|discriminate Hr]. rewrite Hb0, Eid in Hr. discriminate Hr. }
  2:{ exfalso. unfold preprocess in Hr. destruct (parse _ _); [|discriminate Hr]. rewrite Hb0, Eid in Hr. discriminate Hr. }
  pose (custom := if is_predefined_id (x :: id) then Ok None else bind (from_id dk (x :: id)) (fun i => Ok (Some i))).
  assert (S0 : exists cu o, custom = Ok cu /\ init_bpe_data dk None (c_config c0) cu true = (Ok tt, Some o)
                            /\ snd (preprocess parse repr dk g c0) = Some o).
  { unfold preprocess in Hr |- *. destruct (parse (c_text c0) (c_ext c0)) as [l|e]; [|discriminate Hr].
    rewrite Hb0, Eid in Hr |- *. fold custom in Hr |- *. destruct custom as [cu|e]; [|discriminate Hr].
    rewrite Hf0 in Hr |- *.
    assert (G : init_bpe_data dk g (c_config c0) cu true = init_bpe_data dk None (c_config c0) cu true) by (destruct g; reflexivity).
    rewrite G in Hr |- *. destruct (init_bpe_data dk None (c_config c0) cu true) as [[[]|e] g'] eqn:E; [|discriminate Hr].
    assert (exists o, g' = Some o) as [o ->].
    { unfold init_bpe_data in E. destruct cu as [[name n]|].
      - destruct (bind _ _) as [ml|e]; [|discriminate E]. destruct (bind _ _) as [nb|e]; [|discriminate E].
        injection E as <-. eexists. reflexivity.
      - destruct (dget _ _) as [dir|]; [|discriminate E]. destruct (match dk_cache _ _ _ with Some _ => _ | None => _ end) as [ca|e]; [|discriminate E].
        destruct (bind _ _) as [ml|e]; [|discriminate E]. injection E as <-. eexists. reflexivity. }
    exists cu, o. split; [reflexivity|]. split; [exact E|]. apply Hs. }
  destruct S0 as (cu & o & Ecu & Ei & Es).
  (* no call of the loop changes it *)
  assert (St : forall c1, c_force c1 = false -> snd (preprocess parse repr dk (Some o) c1) = Some o).
  { intros c1 F. unfold preprocess. destruct (parse _ _); [|reflexivity]. destruct (is_bpe (c_config c1)); [|apply Hs].
    destruct (c_id c1) as [[|y id1]|]; [reflexivity| |reflexivity].
    destruct (if is_predefined_id (y :: id1) then _ else _); [|reflexivity]. rewrite F. cbn [init_bpe_data]. apply Hs. }
  assert (Sa : after parse repr dk g (c0 :: cs) = Some o).
  { cbn [after]. rewrite Es. inversion Hf as [|? ? _ Hf']; subst. clear -Hf' St.
    induction cs as [|c1 cs IH]; [reflexivity|]. inversion Hf' as [|? ? F1 F2]; subst. cbn [after]. rewrite St by exact F1. apply IH. exact F2. }
  rewrite Sa. inversion Hf as [|? ? F _]; subst. inversion Hc as [|? ? C _]; subst.
  unfold preprocess. cbn [c_text c_ext c_config c_id c_force c_eof]. destruct (parse _ _) as [l|e]; [|reflexivity].
  destruct (is_bpe (c_config c)) eqn:Eb.
  - destruct C as [C|[C1 C2]]; [congruence|]. rewrite C1. fold custom. rewrite Ecu, F.
    change (init_bpe_data dk (Some o) (c_config c) cu false) with (@Ok unit tt, Some o). rewrite C2, Ei. reflexivity.
  - apply Hn. exact Eb.
Qed.

(** ** A concrete disk: codes a-1 with the merge of a and b, codes c-1 with the merge of b and c *)
Definition disk_ex : disk := {|
  dk_cache := fun _ _ => None;
  dk_merges := fun _ _ => Some [];
  dk_find := fun _ _ => Ok tt;
  dk_codes := fun name _ => if eqb name (lit "a") then Some (lit "a b 5") else if eqb name (lit "c") then Some (lit "b c 5") else None;
  dk_nonbpe := fun _ => Ok []
|}.
Definition parse_ex (text : str) (ext : option str) : res (list token) :=
  bind (word_from ascii_case text) (fun w => Ok [SplitContainer [w]; NewLine]).
Definition config_ex : params :=
  [(EN_ONLY, lit "u"); (COM, lit "c"); (STR, lit "1"); (SPLIT, lit "9"); (TABS_NEWLINES, lit "s"); (CASE, lit "u")].
Definition call_ex (text id : string) (force : bool) : call :=
  {| c_text := lit text; c_ext := None; c_config := config_ex; c_id := Some (lit id); c_force := force; c_eof := false |}.
Definition preprocess_ex := preprocess parse_ex (plain_repr ascii_case no_splitters) disk_ex.
Definition after_ex := after parse_ex (plain_repr ascii_case no_splitters) disk_ex.
Definition tokens_of (r : res (list str * meta) * globals) : res (list str) := bind (fst r) (fun x => Ok (fst x)).

Example C59_history_ex :
  no_bpe_no_data (plain_repr ascii_case no_splitters) /\ mk_prep_config config_ex = Ok config_ex /\
  tokens_of (preprocess_ex None (call_ex "abc" "a-1" true)) = Ok [lit "ab"; lit "c"; lit "</t>"] /\
  tokens_of (preprocess_ex (after_ex None [call_ex "abc" "c-1" true; call_ex "x" "a-1" true]) (call_ex "abc" "c-1" true))
  = Ok [lit "a"; lit "bc"; lit "</t>"] /\
  (* a loop with the same codes *)
  tokens_of (preprocess_ex (after_ex None [call_ex "abc" "a-1" true; call_ex "x" "a-1" false]) (call_ex "abc" "a-1" false))
  = Ok [lit "ab"; lit "c"; lit "</t>"].
Proof. split; [apply plain_repr_no_bpe|]. vm_compute. auto. Qed.

(** C39: the merges that are used for a text are those of the source the configuration and the id stand for: the packaged ones of
    that size and case, or those that were learned under the id. *)
Theorem C39_source_used parse repr dk g c l : c_force c = true -> parse (c_text c) (c_ext c) = Ok l ->
  let tokens := remove_trailing_newline l ++ (if c_eof c then [NonProc NpSpecialToken (lit "<EOF>")] else []) in
  match bpe_source_for (c_config c) (c_id c) with
  | Err e => fst (preprocess parse repr dk g c) = Err e
  | Ok None => preprocess parse repr dk g c = repr (c_config c) tokens g
  | Ok (Some (SrcPackaged case_dir dir)) =>
      ((case_dir = lit "case") <-> (param (c_config c) CASE = lit "u")) /\
      forall f ml words, dk_merges dk case_dir dir = Some f -> read_merges f None = Ok ml ->
      (dk_cache dk case_dir dir = None /\ words = [] \/ exists f', dk_cache dk case_dir dir = Some f' /\ read_bpe_cache f' = Ok words) ->
      preprocess parse repr dk g c = repr (c_config c) tokens (Some {| ob_cache := Some words; ob_merges := Some ml |})
  | Ok (Some (SrcCustom id)) => forall name n f ml file nb,
      parse_merge_list_id id = Ok (name, n) -> dk_find dk name n = Ok tt ->
      dk_codes dk name n = Some f -> read_merges f (Some (N.to_nat n)) = Ok ml -> dk_nonbpe dk name = Ok file -> load_vocab_set file = Ok nb ->
      preprocess parse repr dk g c
      = repr (c_config c) tokens (Some {| ob_cache := Some (fold_left (fun c s => dset c s [s]) nb []); ob_merges := Some ml |})
  end.
Proof.
  intros Hf Hl. cbv zeta.
  assert (Ht : remove_trailing_newline l ++ (if c_eof c then [NonProc NpSpecialToken (lit "<EOF>")] else [])
               = (if c_eof c then remove_trailing_newline l ++ [NonProc NpSpecialToken ph_ect] else remove_trailing_newline l)).
  { destruct (c_eof c); [reflexivity|apply app_nil_r]. }
  rewrite Ht. clear Ht.
  assert (Er : forall X : res unit * globals, match g, true with Some o, false => (Ok tt, Some o) | _, _ => X end = X) by (intros X; destruct g; reflexivity).
  unfold preprocess, bpe_source_for. rewrite Hl, Hf. destruct (is_bpe (c_config c)); [|reflexivity].
  destruct (c_id c) as [[|x id]|]; [reflexivity| |reflexivity].
  destruct (is_predefined_id (x :: id)).
  - unfold init_bpe_data. rewrite Er. destruct (dget bpe_n_merges_dict (param (c_config c) SPLIT)) as [dir|]; [|reflexivity]. split.
    + unfold param_in. destruct (mem (param (c_config c) CASE) (chars_of "u")) eqn:Hm.
      * split; [|reflexivity]. intros _. apply mem_in in Hm. destruct Hm as [Hm|[]]. symmetry. exact Hm.
      * split; [discriminate|]. intros Hx. rewrite Hx in Hm. discriminate Hm.
    + intros f ml words H1 H2 H3.
      assert (Hc : match dk_cache dk (if param_in (c_config c) CASE "u" then lit "case" else lit "nocase") dir with
                   | Some f0 => read_bpe_cache f0 | None => Ok [] end = Ok words).
      { destruct H3 as [[-> ->]|(f' & -> & H3)]; [reflexivity|exact H3]. }
      rewrite Hc, H1. cbn [open_file bind]. rewrite H2. reflexivity.
  - intros name n f ml file nb H1 H2 H3 H4 H5 H6. unfold from_id. rewrite H1. cbn [bind fst snd]. rewrite H2. cbn [bind].
    unfold init_bpe_data. rewrite Er, H3. cbn [open_file bind]. rewrite H4, H5. cbn [bind]. rewrite H6. reflexivity.
Qed.
Print Assumptions C39_source_used.

Example C39_source_used_ex :
  bpe_source_for (combine prep_params (chars_of "uc15su")) (Some (lit "1k")) = Ok (Some (SrcPackaged (lit "case") (lit "1k"))) /\
  bpe_source_for (combine prep_params (chars_of "uc15sl")) (Some (lit "1k")) = Ok (Some (SrcPackaged (lit "nocase") (lit "1k"))) /\
  bpe_source_for config_ex (Some (lit "a-1")) = Ok (Some (SrcCustom (lit "a-1"))) /\
  dk_codes disk_ex (lit "a") 1 = Some (lit "a b 5") /\
  tokens_of (preprocess_ex None (call_ex "abc" "a-1" true)) = Ok [lit "ab"; lit "c"; lit "</t>"].
Proof. vm_compute. auto. Qed.

(** Without reinitialization other codes are ignored (as the documentation says). *)
Theorem C59_other_codes_refuted : exists parse repr dk h c,
  no_bpe_no_data repr /\ (forall d l g, snd (repr d l g) = g) /\
  fst (preprocess parse repr dk (after parse repr dk None h) c) <> fst (preprocess parse repr dk None c).
Proof.
  exists parse_ex, (plain_repr ascii_case no_splitters), disk_ex, [call_ex "abc" "a-1" true], (call_ex "abc" "c-1" false).
  split; [apply plain_repr_no_bpe|]. split; [reflexivity|]. vm_compute. discriminate.
Qed.

(** A call that fails while the codes are read leaves an unusable object behind: the following call without
    reinitialization fails although it would succeed on its own. *)
Theorem C59_failed_call_refuted : exists parse repr dk h c r,
  no_bpe_no_data repr /\ (forall d l g, snd (repr d l g) = g) /\
  fst (preprocess parse repr dk None c) = Ok r /\
  fst (preprocess parse repr dk (after parse repr dk None h) c) = Err TypeError.
Proof.
  exists parse_ex, (plain_repr ascii_case no_splitters), disk_ex, [call_ex "abc" "x-1" true], (call_ex "abc" "a-1" false).
  eexists. split; [apply plain_repr_no_bpe|]. split; [reflexivity|]. split; vm_compute; reflexivity.
Qed.

Definition api_theorems := (C59_history, C59_no_bpe, C59_loop, C59_other_codes_refuted, C59_failed_call_refuted).
Print Assumptions api_theorems.
