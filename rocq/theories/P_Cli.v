(** * C73: a preprocessing command does what the API function of the same name does *)
From Verif Require Import M_Base L_Base M_PrepConfig P_PrepConfig M_Cli.

(** the value of -L, the default if it is not given *)
Definition limit (o : options) (mx : Z) : Prop :=
  (o_max o = None /\ mx = maxsize) \/ (exists s, o_max o = Some s /\ parse_int s = Ok mx).

Definition usable (c : command) : Prop := match c with CmdBpe id => id <> [] | _ => True end.

Section Api.
  Variables (W C : Type).
  Variable prep : str -> params -> option str -> option str -> bool -> bool -> bool -> W -> outcome (list str) * W.
  Variable prepc : option str -> params -> option str -> option str -> option str -> bool -> bool -> W -> outcome C * W.

  (** the call a user would write instead of the command *)
  Definition text_function (c : command) (o : options) (mx : Z) (text : str) : W -> outcome (list str) * W :=
    match c with
    | CmdNosplit fs => text_nosplit prep text (o_ext o) (o_no_spaces o) (o_no_unicode o) (o_no_com o) (o_no_str o) fs mx
    | CmdChars => text_chars prep text (o_ext o) (o_no_spaces o) (o_no_unicode o) (o_no_com o) (o_no_str o) mx
    | CmdBasic n r s nc =>
        text_basic prep text (o_ext o) n r s (o_no_spaces o) (o_no_unicode o) nc (o_no_com o) (o_no_str o) mx
    | CmdBpe id => text_bpe prep text id (o_ext o) (o_no_spaces o) (o_no_unicode o) (o_no_com o) (o_no_str o) mx
    end.
  Definition corpus_function (c : command) (o : options) (mx : Z) (path : str) (out : option str) : W -> outcome C * W :=
    match c with
    | CmdNosplit fs => corpus_nosplit prepc path (o_ext o) (o_no_spaces o) (o_no_unicode o) (o_no_com o) (o_no_str o) fs mx
                         out (o_calc_vocab o)
    | CmdChars => corpus_chars prepc path (o_ext o) (o_no_spaces o) (o_no_unicode o) (o_no_com o) (o_no_str o) mx
                         out (o_calc_vocab o)
    | CmdBasic n r s nc =>
        corpus_basic prepc path (o_ext o) n r s (o_no_spaces o) (o_no_unicode o) nc (o_no_com o) (o_no_str o) mx
                         out (o_calc_vocab o)
    | CmdBpe id => corpus_bpe prepc path id (o_ext o) (o_no_spaces o) (o_no_unicode o) (o_no_com o) (o_no_str o) mx
                         out (o_calc_vocab o)
    end.
End Api.
Arguments text_function {W}. Arguments corpus_function {W C}.

Definition seen_text (r : outcome (list str)) : effect :=
  match r with Returned l => Printed l | InvalidId => Logged | Raised e => Uncaught e end.
Definition seen_corpus {C} (r : outcome C) : effect :=
  match r with Returned _ => Finished | InvalidId => Logged | Raised e => Uncaught e end.

Lemma parsed_common c o :
  get_option (parsed c o) "--path" = match o_target o with OnPath p _ => AStr p | OnText _ => ANone end /\
  get_option (parsed c o) "--output-path" = match o_target o with OnPath _ out => opt_arg out | OnText _ => ANone end /\
  get_option (parsed c o) "<text>" = match o_target o with OnPath _ _ => ANone | OnText t => AStr t end /\
  get_option (parsed c o) "--ext" = opt_arg (o_ext o) /\
  get_option (parsed c o) "--no-spaces" = ABool (o_no_spaces o) /\
  get_option (parsed c o) "--no-unicode" = ABool (o_no_unicode o) /\
  get_option (parsed c o) "--no-com" = ABool (o_no_com o) /\
  get_option (parsed c o) "--no-str" = ABool (o_no_str o) /\
  get_option (parsed c o) "--max-str-length" = opt_arg (o_max o) /\
  get_option (parsed c o) "--calc-vocab" = ABool (o_calc_vocab o).
Proof. destruct c; repeat split. Qed.

Lemma passed_opt o : passed (opt_arg o) = o.
Proof. destruct o; reflexivity. Qed.

Definition codes_for (c : command) : option str :=
  match c with CmdBpe id => Some id | CmdChars => Some (lit "0") | _ => None end.
Definition config_for (c : command) (o : options) (mx : Z) : res params :=
  match c with
  | CmdNosplit fs => nosplit_config (o_no_spaces o) (o_no_unicode o) (o_no_com o) (o_no_str o) fs mx
  | CmdChars => chars_config (o_no_spaces o) (o_no_unicode o) (o_no_com o) (o_no_str o) mx
  | CmdBasic n r s nc => basic_config n r s (o_no_spaces o) (o_no_unicode o) nc (o_no_com o) (o_no_str o) mx
  | CmdBpe id => bpe_api_config id (o_no_spaces o) (o_no_unicode o) (o_no_com o) (o_no_str o) mx
  end.

Lemma parsed_config c o mx : limit o mx -> usable c ->
  create_prep_config_from_args (parsed c o) = config_for c o mx /\ cli_bpe_codes_id (parsed c o) = codes_for c.
Proof.
  intros Hl Hu. destruct (parsed_common c o) as (_ & _ & _ & _ & H1 & H2 & H3 & H4 & H5 & _).
  assert (Hm : cli_max (parsed c o) mx).
  { destruct Hl as [[E ->]|(s & E & Hs)]; [left|right; exists s]; rewrite H5, E; auto. }
  destruct c as [fs| |n r s nc|id].
  - rewrite (C39_cli_nosplit _ mx Hm eq_refl eq_refl). split; [|reflexivity].
    unfold is_option_true. rewrite H1, H2, H3, H4. reflexivity.
  - rewrite (C39_cli_chars _ mx Hm eq_refl eq_refl eq_refl). split; [|reflexivity].
    unfold is_option_true. rewrite H1, H2, H3, H4. reflexivity.
  - rewrite (C39_cli_basic _ mx Hm eq_refl eq_refl eq_refl). split; [|reflexivity].
    unfold is_option_true. rewrite H1, H2, H3, H4. reflexivity.
  - assert (Hid : (exists c t, get_option (parsed (CmdBpe id) o) "<bpe-codes-id>" = AStr (c :: t) /\ id = c :: t /\
                ~ In id (map lit ["1k"; "5k"; "10k"]%string) /\
                is_option_true (parsed (CmdBpe id) o) "1k" = false /\ is_option_true (parsed (CmdBpe id) o) "5k" = false /\
                is_option_true (parsed (CmdBpe id) o) "10k" = false)
     \/ (truthy (get_option (parsed (CmdBpe id) o) "<bpe-codes-id>") = false /\
         exists x, In x ["1k"; "5k"; "10k"]%string /\ id = lit x /\
         forall x', In x' ["1k"; "5k"; "10k"]%string -> is_option_true (parsed (CmdBpe id) o) x' = true <-> x' = x)).
    { change (is_option_true (parsed (CmdBpe id) o) "1k") with (eqb id (lit "1k")).
      change (is_option_true (parsed (CmdBpe id) o) "5k") with (eqb id (lit "5k")).
      change (is_option_true (parsed (CmdBpe id) o) "10k") with (eqb id (lit "10k")).
      change (get_option (parsed (CmdBpe id) o) "<bpe-codes-id>")
        with (if mem id (map lit user_predefined_bpe_codes) then ANone else AStr id).
      assert (Hx : forall x x', In x' ["1k"; "5k"; "10k"]%string -> In x ["1k"; "5k"; "10k"]%string -> id = lit x ->
                 is_option_true (parsed (CmdBpe id) o) x' = true <-> x' = x).
      { intros x x' Hx' Hx ->. cbn in Hx, Hx'.
        destruct Hx as [<-|[<-|[<-|[]]]]; destruct Hx' as [<-|[<-|[<-|[]]]]; vm_compute; split; congruence. }
      destruct (mem id (map lit user_predefined_bpe_codes)) eqn:Em.
      - right. split; [reflexivity|]. apply mem_in in Em. apply in_map_iff in Em. destruct Em as (x & Ex & Hin). exists x.
        split; [exact Hin|]. split; [symmetry; exact Ex|]. intros x' Hx'. apply Hx; auto.
      - left. apply mem_not_in in Em. destruct id as [|a id]; [contradiction|]. exists a, id.
        split; [reflexivity|]. split; [reflexivity|]. split; [exact Em|]. cbn [map user_predefined_bpe_codes In] in Em.
        split; [|split]; apply eqb_neq; intros Hx'; apply Em; rewrite Hx'; auto. }
    destruct (C39_cli_bpe _ mx id Hm eq_refl eq_refl eq_refl eq_refl eq_refl Hid) as [-> ->].
    split; [|reflexivity]. unfold is_option_true. rewrite H1, H2, H3, H4. reflexivity.
Qed.

Theorem C73_text : forall W C prep prepc c o mx text (w : W),
  o_target o = OnText text -> text <> [] -> limit o mx -> usable c ->
  @handle_splitting W C prep prepc (parsed c o) w =
  let (r, w') := text_function prep c o mx text w in (seen_text r, w').
Proof.
  intros W C prep prepc c o mx text w Ht Hne Hl Hu. unfold handle_splitting.
  destruct (parsed_config c o mx Hl Hu) as [-> ->].
  destruct (parsed_common c o) as (_ & _ & Htx & He & _).
  unfold is_option_true. rewrite Htx, He, Ht, passed_opt. cbn [truthy passed].
  destruct text as [|x text]; [contradiction|].
  destruct c as [fs| |n r s nc|id]; cbn [text_function config_for codes_for];
    unfold text_nosplit, text_chars, text_basic, text_bpe, with_config.
  - destruct (nosplit_config _ _ _ _ _ _) as [d|e]; [|reflexivity]. destruct (prep _ _ _ _ _ _ _ _) as [[]]; reflexivity.
  - destruct (chars_config _ _ _ _ _) as [d|e]; [|reflexivity]. destruct (prep _ _ _ _ _ _ _ _) as [[]]; reflexivity.
  - replace (basic_config (n || r || s) (r || s) s (o_no_spaces o) (o_no_unicode o) nc (o_no_com o) (o_no_str o) mx)
      with (basic_config n r s (o_no_spaces o) (o_no_unicode o) nc (o_no_com o) (o_no_str o) mx)
      by (destruct n, r, s; reflexivity).
    destruct (basic_config _ _ _ _ _ _ _ _ _) as [d|e]; [|reflexivity]. destruct (prep _ _ _ _ _ _ _ _) as [[]]; reflexivity.
  - destruct (bpe_api_config _ _ _ _ _ _) as [d|e]; [|reflexivity]. destruct (prep _ _ _ _ _ _ _ _) as [[]]; reflexivity.
Qed.
Print Assumptions C73_text.

Theorem C73_corpus : forall W C prep prepc c o mx path out (w : W),
  o_target o = OnPath path out -> limit o mx -> usable c ->
  @handle_splitting W C prep prepc (parsed c o) w =
  let (r, w') := corpus_function prepc c o mx path out w in (seen_corpus r, w').
Proof.
  intros W C prep prepc c o mx path out w Ht Hl Hu. unfold handle_splitting.
  destruct (parsed_config c o mx Hl Hu) as [-> ->].
  destruct (parsed_common c o) as (Hp & Ho & Htx & He & _ & _ & _ & _ & _ & Hc).
  unfold is_option_true. rewrite Htx, He, Hp, Ho, Hc, Ht, !passed_opt. cbn [truthy passed].
  destruct c as [fs| |n r s nc|id]; cbn [corpus_function config_for codes_for];
    unfold corpus_nosplit, corpus_chars, corpus_basic, corpus_bpe, with_config.
  - destruct (nosplit_config _ _ _ _ _ _) as [d|e]; [|reflexivity]. destruct (prepc _ _ _ _ _ _ _ _) as [[]]; reflexivity.
  - destruct (chars_config _ _ _ _ _) as [d|e]; [|reflexivity]. destruct (prepc _ _ _ _ _ _ _ _) as [[]]; reflexivity.
  - replace (basic_config (n || s || r) (r || s) s (o_no_spaces o) (o_no_unicode o) nc (o_no_com o) (o_no_str o) mx)
      with (basic_config n r s (o_no_spaces o) (o_no_unicode o) nc (o_no_com o) (o_no_str o) mx)
      by (destruct n, r, s; reflexivity).
    destruct (basic_config _ _ _ _ _ _ _ _ _) as [d|e]; [|reflexivity]. destruct (prepc _ _ _ _ _ _ _ _) as [[]]; reflexivity.
  - destruct (bpe_api_config _ _ _ _ _ _) as [d|e]; [|reflexivity]. destruct (prepc _ _ _ _ _ _ _ _) as [[]]; reflexivity.
Qed.
Print Assumptions C73_corpus.

(** An empty text counts as no text: the command preprocesses a corpus, at the path None. *)
Theorem C73_empty_text_refuted : forall W C prep prepc c o mx d (w : W),
  o_target o = OnText [] -> limit o mx -> usable c -> config_for c o mx = Ok d ->
  @handle_splitting W C prep prepc (parsed c o) w =
  let (r, w') := prepc None d (codes_for c) (o_ext o) None (o_calc_vocab o) false w in (seen_corpus r, w').
Proof.
  intros W C prep prepc c o mx d w Ht Hl Hu Hd. unfold handle_splitting.
  destruct (parsed_config c o mx Hl Hu) as [-> ->]. rewrite Hd.
  destruct (parsed_common c o) as (Hp & Ho & Htx & He & _ & _ & _ & _ & _ & Hc).
  unfold is_option_true. rewrite Htx, He, Hp, Ho, Hc, Ht, !passed_opt. cbn [truthy passed].
  destruct (prepc _ _ _ _ _ _ _ _) as [[]]; reflexivity.
Qed.
Print Assumptions C73_empty_text_refuted.

(** A limit that is not a number ends the command before anything is done. *)
Theorem C73_limit : forall W C prep prepc c o s e (w : W),
  o_max o = Some s -> parse_int s = Err e ->
  @handle_splitting W C prep prepc (parsed c o) w = (Uncaught e, w).
Proof.
  intros W C prep prepc c o s e w Hm Hs. unfold handle_splitting, create_prep_config_from_args.
  destruct (parsed_common c o) as (_ & _ & _ & _ & _ & _ & _ & _ & H5 & _). rewrite H5, Hm. cbn [opt_arg bind].
  rewrite Hs. reflexivity.
Qed.
Print Assumptions C73_limit.

Definition options_ex (t : target) (mx : option string) : options :=
  {| o_target := t; o_ext := Some (lit "java"); o_no_spaces := true; o_no_unicode := false; o_no_com := true;
     o_no_str := false; o_max := option_map lit mx; o_calc_vocab := true; o_verbose := false |}.
Example C73_example : forall W C prep prepc (w : W),
  limit (options_ex (OnText (lit "int x")) (Some "14"%string)) 14 /\
  limit (options_ex (OnPath (lit "src") None) None) maxsize /\
  @handle_splitting W C prep prepc (parsed (CmdBpe (lit "5k")) (options_ex (OnText (lit "int x")) (Some "14"%string))) w =
    (let (r, w') := prep (lit "int x") (combine prep_params (map lit ["u"; "0"; "E"; "4"; "0"; "u"]%string))
                         (Some (lit "5k")) (Some (lit "java")) false true false w in (seen_text r, w')) /\
  @handle_splitting W C prep prepc (parsed (CmdBasic false true true true) (options_ex (OnPath (lit "src") None) None)) w =
    (let (r, w') := prepc (Some (lit "src")) (combine prep_params (map lit ["u"; "0"; "1"; "s"; "0"; "l"]%string))
                         None (Some (lit "java")) None true false w in (seen_corpus r, w')) /\
  handle_splitting prep prepc (parsed CmdChars (options_ex (OnText (lit "int x")) (Some "1x"%string))) w = (Uncaught ValueError, w).
Proof.
  intros W C prep prepc w. split; [right; exists (lit "14"); split; reflexivity|]. split; [left; split; reflexivity|].
  split; [|split].
  - rewrite (C73_text W C prep prepc _ _ 14 (lit "int x")); [reflexivity..|discriminate| |discriminate]. right. exists (lit "14"). split; reflexivity.
  - rewrite (C73_corpus W C prep prepc _ _ maxsize (lit "src") None); [reflexivity..| |exact I]. left. split; reflexivity.
  - apply (C73_limit W C prep prepc _ _ (lit "1x")); reflexivity.
Qed.
