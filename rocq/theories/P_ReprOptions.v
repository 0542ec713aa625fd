(** C03 (no_unicode), C06 - C09, C61: preprocessing never fails, and what the options do. *)
From Verif Require Import M_Base L_Base M_Tokens M_Repr L_Repr M_Literal M_Merge L_Merge M_BpeEncode S_Bpe L_Bpe
  L_BpeEncode P_Merge P_Bpe M_PrepConfig P_PrepConfig P_Repr L_Word.
From Coq Require Import Arith.

(** ** Valid configurations give a representation configuration *)
Lemma index_of_some c l : In c l -> exists i, index_of c l = Some i.
Proof.
  induction l as [|x l IH]; intros H; [destruct H|]. cbn [index_of].
  destruct (eqb_spec c x) as [->|Hn]; [eauto|]. destruct H as [<-|H]; [congruence|].
  destruct (IH H) as (i & ->). cbn. eauto.
Qed.
Lemma index_of_zero c x l : index_of c (x :: l) = Some 0 -> c = x.
Proof.
  cbn [index_of]. destruct (eqb_spec c x) as [->|Hn]; [reflexivity|].
  destruct (index_of c l); discriminate.
Qed.

Lemma valid_repr_config o d b :
  mk_prep_config d = Ok d ->
  exists rc, get_repr_config o d b = Ok rc /\
    (max_str_length rc = None -> in_types rc CStringLiteral = true) /\
    (is_bpe d = false -> in_types rc CSplitContainer = true -> exists f, word_splitter rc = Some (fun s => Ok (f s))) /\
    (is_bpe d = false -> forall v, exists ws, number_splitter rc v = Ok ws) /\
    in_types rc CWord = in_types rc CSplitContainer.
Proof.
  intros H. apply mk_ok in H. destruct H as [H _]. apply check_ok in H.
  destruct H as (_ & en & com & st & sp & tabs & ca & E1 & E2 & E3 & E4 & E5 & E6 & V).
  destruct V as (? & ? & ? & ? & ? & ? & Es & _ & _ & M3 & M4 & _ & _). injection Es as <- <- <- <- <- <-.
  assert (Hs : param d SPLIT = [sp]) by (unfold param; rewrite E4; reflexivity).
  assert (Ht : param d STR = [st]) by (unfold param; rewrite E3; reflexivity).
  unfold get_repr_config.
  assert (Hml : exists ml, get_max_str_length (param d STR) = Ok ml /\ (ml = None -> param d STR = lit "0")).
  { rewrite Ht. unfold get_max_str_length.
    destruct (index_of_some [st] possible_str_values) as (i & Hi).
    { apply mem_in, mem_str_values. eauto. }
    rewrite Hi. destruct i as [|[|i]]; eexists; (split; [reflexivity|]); try discriminate.
    intros _. apply index_of_zero in Hi. exact Hi. }
  destruct Hml as (ml & -> & Hml).
  assert (Hst : param d STR = lit "0" -> mem CStringLiteral (get_types_to_be_repr d) = true).
  { intros Hp. rewrite types_in. unfold param_in. rewrite Hp. reflexivity. }
  assert (Hw : mem CWord (get_types_to_be_repr d) = mem CSplitContainer (get_types_to_be_repr d))
    by (rewrite !types_in; reflexivity).
  assert (Hsc : mem CSplitContainer (get_types_to_be_repr d) = param_in d SPLIT "123456789s")
    by (rewrite types_in; reflexivity).
  unfold in_types.
  unfold get_number_splitter, get_word_splitter, is_bpe, param_in in *. rewrite Hs in *.
  unfold one_of in M4. cbn in M4.
  repeat (destruct M4 as [<-|M4];
    [eexists; split; [reflexivity|]; cbn [max_str_length types_to_be_repr word_splitter number_splitter];
     split; [intros Hn; apply Hst, Hml, Hn|];
     split; [intros Hb Hc; first [discriminate Hb | rewrite Hsc in Hc; discriminate Hc | eexists; reflexivity]|];
     split; [intros Hb v; first [discriminate Hb | eexists; reflexivity]|];
     exact Hw|]).
  destruct M4.
Qed.

(** * C61: preprocessing parsed tokens never raises *)
(** words made only of non-ascii characters are not empty *)
Definition words_nonempty (E : pycase) (l : list token) : Prop :=
  forall k, In (NonEng k) (all_tokens l) -> split_str E k <> [].

Lemma replace_loop_nonempty ph ong w :
  ph <> [] -> (ong = true \/ w <> []) -> replace_non_ascii_loop ph ong w <> [].
Proof.
  intros Hph. revert ong; induction w as [|c w IH]; intros ong Hor; cbn [replace_non_ascii_loop].
  - destruct Hor as [->|H]; [exact Hph|congruence].
  - destruct (is_ascii_char c).
    + intros E. apply app_eq_nil in E. destruct E; discriminate.
    + apply IH. left. reflexivity.
Qed.

Lemma mapM_total {A B} (f : A -> res B) l : (forall x, In x l -> exists y, f x = Ok y) -> exists r, mapM f l = Ok r.
Proof.
  induction l as [|a l IH]; intros H; [eexists; reflexivity|].
  destruct (H a (or_introl eq_refl)) as (y & Hy). destruct IH as (r & Hr); [intros; apply H; right; assumption|].
  exists (y :: r). cbn [mapM]. rewrite Hy. cbn [bind]. rewrite Hr. reflexivity.
Qed.

Lemma string_text_total E cfg t : exists s, string_text E cfg t = Ok s.
Proof.
  unfold string_text. destruct (in_types cfg CNonEng); [|eauto].
  destruct (mapM_total (fun p => replace_non_ascii_seqs p ph_non_ascii_seq) (split_on 160 (tok_str E t))) as (r & ->).
  - intros x _. unfold replace_non_ascii_seqs. cbn. eauto.
  - cbn [bind]. eauto.
Qed.

Section Total.
  Variables (E : pycase) (cfg : repr_config).
  Variable ok_text : str -> Prop.
  Hypothesis Hmax : max_str_length cfg = None -> in_types cfg CStringLiteral = true.
  Hypothesis Hcw : in_types cfg CWord = in_types cfg CSplitContainer.
  Hypothesis Hnum : forall v, ok_text v -> exists ws, number_splitter cfg v = Ok ws.
  Hypothesis Hbpe : bpe cfg = true -> forall s, ok_text s -> exists ws, split_word cfg s = Ok ws.
  Hypothesis Hnbpe : bpe cfg = false -> in_types cfg CSplitContainer = true -> forall s, exists ws, split_word cfg s = Ok ws.
  Hypothesis Hsub : bpe cfg = true -> in_types cfg CSplitContainer = true.
  (** the texts given to the splitter in bpe mode *)
  Hypothesis Hstring : forall t s, is_text t = true -> ok_text (tok_str E t) -> string_text E cfg t = Ok s -> ok_text s.
  Hypothesis Hnoneng : bpe cfg = true -> in_types cfg CNonEng = true ->
    forall l, split_str E l <> [] -> ok_text (split_str E l) ->
    exists s w, replace_non_ascii_seqs (split_str E l) ph_non_ascii_seq = Ok s /\ word_from E s = Ok w /\
                ok_text (split_str E [w]).

  Lemma torepr_subs_total : bpe cfg = false -> in_types cfg CSplitContainer = true ->
    forall l, exists r, torepr_subs E cfg l = Ok r.
  Proof.
    intros Hb Hsc. induction l as [|s l (r & Hr)]; [eexists; reflexivity|]. cbn [torepr_subs].
    assert (Hs : exists x, torepr_sub E cfg s = Ok x).
    { destruct s as [|w c]; cbn [torepr_sub]; [eauto|]. rewrite Hcw, Hsc.
      destruct (should_lowercase cfg).
      - destruct (Hnbpe Hb Hsc w) as (ws & ->). cbn. eauto.
      - apply Hnbpe; assumption. }
    destruct Hs as (x & ->). cbn [bind]. rewrite Hr. cbn. eauto.
  Qed.

  Lemma segs_split_total l : (bpe cfg = true -> ok_text (split_str E l)) -> exists r, segs_split E cfg l = Ok r.
  Proof.
    pose proof torepr_subs_total as Hts.
    intros Hl. unfold segs_split. destruct (in_types cfg CSplitContainer) eqn:Hsc.
    - destruct (bpe cfg) eqn:Hb.
      + destruct (Hbpe eq_refl (split_str E l) (Hl eq_refl)) as (ws & ->). cbn. eauto.
      + destruct (Hts eq_refl eq_refl l) as (ws & ->). cbn. eauto.
    - destruct (mapM_total (fun s => r <- torepr_sub E cfg s ;; match r with [] => Err IndexError | x :: _ => Ok x end) l)
        as (r & ->).
      + intros s _. destruct s as [|w c]; cbn [torepr_sub]; [cbn; eauto|]. rewrite Hcw. cbn. eauto.
      + cbn. eauto.
  Qed.

  Lemma segs_total t :
    (forall u, In u (subterms t) -> is_text u = true -> ok_text (tok_str E u)) ->
    (forall k, In (NonEng k) (subterms t) -> split_str E k <> []) ->
    exists r, segs E cfg t = Ok r.
  Proof.
    pose proof segs_split_total as Hss.
    assert (Hlist : forall keep l,
      Forall (fun t => (forall u, In u (subterms t) -> is_text u = true -> ok_text (tok_str E u)) ->
                       (forall k, In (NonEng k) (subterms t) -> split_str E k <> []) ->
                       exists r, segs E cfg t = Ok r) l ->
      (forall u, In u (List.concat (map subterms l)) -> is_text u = true -> ok_text (tok_str E u)) ->
      (forall k, In (NonEng k) (List.concat (map subterms l)) -> split_str E k <> []) ->
      exists r, segs_list_with keep (segs E cfg) l = Ok r).
    { intros keep l Hf. induction Hf as [|x l Hx Hf IH]; intros H1 H2; cbn [segs_list_with]; [eauto|].
      cbn [map List.concat] in H1, H2.
      destruct IH as (r & Hr).
      - intros u Hu. apply H1. apply in_or_app. right. exact Hu.
      - intros k Hk. apply H2. apply in_or_app. right. exact Hk.
      - destruct (keep x); [|eauto].
        destruct Hx as (rx & ->).
        + intros u Hu. apply H1. apply in_or_app. left. exact Hu.
        + intros k Hk. apply H2. apply in_or_app. left. exact Hk.
        + cbn [bind]. fold (segs_list_with keep (segs E cfg)). rewrite Hr. cbn. eauto. }
    induction t using token_nested_ind; intros H1 H2; cbn [segs]; eauto.
    - destruct (in_types cfg CNewLine); eauto.
    - destruct (in_types cfg CTab); eauto.
    - destruct (in_types cfg CNumber); [|eauto].
      destruct (Hnum v) as (ws & ->); [apply (H1 (Number v)); [left|]; reflexivity|]. cbn. eauto.
    - apply Hss. intros _. apply (H1 (SplitContainer l)); [left|]; reflexivity.
    - assert (Hl : ok_text (split_str E l)) by (apply (H1 (NonEng l)); [left|]; reflexivity).
      destruct (in_types cfg CNonEng) eqn:Hin; [|apply Hss; intros _; exact Hl].
      destruct (bpe cfg) eqn:Hb; [|eauto].
      destruct (Hnoneng eq_refl eq_refl l) as (s & w & -> & Hw & Ht).
      + apply H2. left. reflexivity.
      + exact Hl.
      + cbn [bind]. rewrite Hw. cbn [bind]. apply Hss. intros _. exact Ht.
    - destruct (in_types cfg COneLineComment); [eauto|].
      destruct (Hlist (fun _ => true) l H) as (r & ->).
      + intros u Hu. apply H1. right. exact Hu.
      + intros k Hk. apply H2. right. exact Hk.
      + cbn. eauto.
    - destruct (in_types cfg CMultilineComment); [eauto|].
      destruct (Hlist (fun _ => true) l H) as (r & ->).
      + intros u Hu. apply H1. right. exact Hu.
      + intros k Hk. apply H2. right. exact Hk.
      + cbn. eauto.
    - destruct (in_types cfg CStringLiteral) eqn:Hst; [eauto|].
      destruct (max_str_length cfg) as [mx|] eqn:Hmx; [|discriminate (Hmax eq_refl)].
      destruct (mx <? n)%Z; [eauto|].
      destruct (string_text_total E cfg (StringLiteral l n)) as (s & Hs).
      destruct (bpe cfg) eqn:Hb; [|destruct (full_strings cfg)].
      + rewrite Hs. cbn [bind].
        destruct (Hbpe eq_refl s) as (ws & ->).
        * apply (Hstring (StringLiteral l n) s eq_refl); [|exact Hs].
          apply (H1 (StringLiteral l n)); [left|]; reflexivity.
        * cbn. eauto.
      + rewrite Hs. cbn. eauto.
      + destruct (Hlist (fun u => negb (is_space_in_string u)) l H) as (r & ->).
        * intros u Hu. apply H1. right. exact Hu.
        * intros k Hk. apply H2. right. exact Hk.
        * cbn. eauto.
  Qed.

  Lemma segs_list_total l :
    (forall u, In u (all_tokens l) -> is_text u = true -> ok_text (tok_str E u)) ->
    (forall k, In (NonEng k) (all_tokens l) -> split_str E k <> []) ->
    exists r, segs_list E cfg l = Ok r.
  Proof.
    unfold segs_list, all_tokens.
    induction l as [|x l IH]; intros H1 H2; cbn [segs_list_with]; [eauto|]. cbn [map List.concat] in H1, H2.
    destruct (segs_total x) as (rx & ->).
    + intros u Hu. apply H1. apply in_or_app. left. exact Hu.
    + intros k Hk. apply H2. apply in_or_app. left. exact Hk.
    + destruct IH as (r & Hr).
      * intros u Hu. apply H1. apply in_or_app. right. exact Hu.
      * intros k Hk. apply H2. apply in_or_app. right. exact Hk.
      * cbn [bind]. fold (segs_list_with (fun _ => true) (segs E cfg)). rewrite Hr. cbn. eauto.
  Qed.
End Total.

Theorem C61_never_raises :
  forall E o d b l,
  mk_prep_config d = Ok d -> py_ascii E ->
  (is_bpe d = true -> exists bd merges, b = Some bd /\ usable bd merges) ->
  spaceless E l -> words_nonempty E l ->
  exists out m, to_repr E o d b l = Ok (out, m).
Proof.
  intros E o d b l Hd HE Hb Hsp Hne.
  destruct (valid_repr_config o d b Hd) as (rc & Hrc & Hmax & Hws & Hns & Hcw).
  assert (Hss : exists ss, segs_list E rc l = Ok ss).
  { destruct (is_bpe d) eqn:Hbd.
    - destruct (Hb eq_refl) as (bd & merges & -> & Hu).
      destruct (repr_config_bpe _ _ _ _ Hrc Hbd) as (E1 & E2 & E3 & E4 & E5 & E6 & E7).
      assert (Hcall : forall s, ~ In 32%N s -> exists ws, bpe_call (Some bd) s = Ok ws).
      { intros s Hs. destruct Hu as (U1 & U2 & U3).
        destruct (C16_subwords_concatenate bd merges s U1 U2 U3 Hs) as (ws & Hw & _). exists ws. exact Hw. }
      apply (segs_list_total E rc (fun s => ~ In 32%N s)); try assumption.
      + rewrite E1. exact Hcall.
      + intros _ s. unfold split_word. rewrite E2. apply Hcall.
      + rewrite E3. discriminate.
      + intros _. exact E5.
      + intros t s Ht Hs Hst Hin.
        destruct (string_text_chars _ _ _ _ _ Hst Hin) as [[_ H0]|[_ [?|[?|[H0 _]]]]]; try discriminate; exact (Hs H0).
      + intros _ _ k Hk Hks. unfold replace_non_ascii_seqs. cbn [length ph_non_ascii_seq Nat.eqb].
        destruct (word_from_plain E (replace_non_ascii_loop ph_non_ascii_seq false (split_str E k)) HE)
          as (w & Hw & _).
        * apply (replace_non_ascii_plain (split_str E k)). reflexivity.
        * apply replace_loop_nonempty; [discriminate|right; exact Hk].
        * do 2 eexists. split; [reflexivity|]. split; [exact Hw|].
          unfold split_str. cbn [map List.concat]. rewrite app_nil_r. intros Hin.
          assert (Hf : Forall (fun c => c <> 32%N) (subtoken_str E w)).
          { eapply (word_from_chars E _ _ w HE case_not_space); [| |exact Hw].
            - apply (replace_non_ascii_plain (split_str E k)). reflexivity.
            - apply Forall_forall. intros c Hc ->.
              exact (replace_non_ascii_no_space (split_str E k) _ eq_refl Hks Hc). }
          rewrite Forall_forall in Hf. exact (Hf _ Hin eq_refl).
    - pose proof (repr_config_not_bpe _ _ _ _ Hrc Hbd) as Hf.
      apply (segs_list_total E rc (fun _ => True)); auto; try (rewrite Hf; discriminate).
      intros _ Hsc s. destruct (Hws eq_refl Hsc) as (f & Ef). unfold split_word. rewrite Ef. eauto. }
  destruct Hss as (ss & Hss).
  unfold to_repr. rewrite Hrc. cbn [bind]. unfold to_repr_cfg. rewrite to_repr_list_segs, Hss. cbn [flat_res bind].
  destruct (is_bpe d) eqn:Hbd; [|do 2 eexists; reflexivity].
  rewrite insert_flat; [do 2 eexists; reflexivity|].
  eapply segs_list_nonempty; [eapply repr_config_word_nonempty, Hrc| |exact Hss].
  intros v ws _ Hw. eapply repr_config_nonempty; [exact Hrc|exact Hw|]. left. exact Hbd.
Qed.
Print Assumptions C61_never_raises.

Example C61_example :
  let l := [SplitContainer [Word (lit "my") CapNone; Underscore; Word (lit "class") CapFirstLetter];
            NonEng [Word (lit "caf" ++ [233%N]) CapUndefined]; Number (lit "42"); NewLine;
            StringLiteral [NonProc NpNonCodeChar (lit """"); SplitContainer [Word (lit "a") CapNone]; SpaceInString 2;
                           NonProc NpNonCodeChar (lit """")] 5;
            OneLineComment [NonProc NpNonCodeChar (lit "#"); Tab]] in
  let b := {| bd_merges := ml_from 0 [((lit "m", lit "y"), Some 1%Z)]; bd_cache := [] |} in
  spaceless ascii_case l /\ words_nonempty ascii_case l /\
  fst (match to_repr ascii_case no_splitters (combine prep_params (chars_of "Uc19su")) (Some b) l with Ok r => r | _ => ([], meta0) end)
  = map lit ["my"; "_"; "C"; "l"; "a"; "s"; "s"; "</t>"; "c"; "a"; "f"]%string ++ [[247%N]] ++
    map lit ["</t>"; "4"; "2"; "</t>"]%string ++ [lit (String "010" "</t>"); lit """"; lit "a"; [160%N]; [160%N]] ++
    map lit [""""; "</t>"; "#</t>"]%string ++ [lit (String "009" "</t>"); lit "<EOL></t>"].
Proof.
  cbv zeta. split; [|split].
  - intros t Ht Hx. vm_compute in Ht.
    repeat (destruct Ht as [<-|Ht]; [first [discriminate Hx | vm_compute; intuition discriminate]|]). destruct Ht.
  - intros k Hk. vm_compute in Hk.
    repeat (destruct Hk as [Hk|Hk]; [first [discriminate Hk | injection Hk as <-; discriminate]|]). destruct Hk.
  - vm_compute. reflexivity.
Qed.

(** * C03 with no_unicode: words with non-ascii characters *)
(** a word that starts with an upper case letter and has lower case letters keeps no other upper case letter *)
Definition loses_case (s : str) : Prop :=
  match s with
  | [] => False
  | c :: rest => ascii_upper_ch c = true /\ existsb ascii_lower_ch s = true /\ existsb ascii_upper_ch rest = true
  end.

Lemma case_kept_id s : ~ loses_case s -> case_kept s = s.
Proof.
  destruct s as [|c rest]; [reflexivity|]. unfold loses_case, case_kept. intros Hn.
  destruct (ascii_upper_ch c); [|reflexivity]. destruct (existsb ascii_lower_ch (c :: rest)); [|reflexivity].
  destruct (existsb ascii_upper_ch rest) eqn:Hu; [exfalso; apply Hn; auto|]. cbn [andb]. f_equal.
  rewrite <- (map_id rest) at 2. apply map_ext_in. intros a Ha. apply to_lower_id.
  destruct (ascii_upper_ch a) eqn:Ea; [|reflexivity].
  assert (existsb ascii_upper_ch rest = true) by (apply existsb_exists; eauto). congruence.
Qed.

Lemma case_kept_neq s : loses_case s -> case_kept s <> s.
Proof.
  destruct s as [|c rest]; [intros []|]. unfold loses_case, case_kept. intros (H1 & H2 & H3). rewrite H1, H2. cbn [andb].
  intros E. injection E as E. apply existsb_exists in H3. destruct H3 as (a & Ha & Hu).
  rewrite <- E in Ha. apply in_map_iff in Ha. destruct Ha as (b & <- & _). rewrite to_lower_not_upper in Hu. discriminate.
Qed.

(** the subwords of such a word join to the word with each non-ascii run replaced, exactly when no case is lost *)
Theorem C03_no_unicode_words :
  forall E o d b merges k s out m,
  mk_prep_config d = Ok d -> py_ascii E -> usable b merges -> is_bpe d = true -> param d EN_ONLY = lit "U" ->
  split_str E k <> [] -> ~ In 32%N (split_str E k) ->
  replace_non_ascii_seqs (split_str E k) ph_non_ascii_seq = Ok s ->
  to_repr E o d (Some b) [NonEng k] = Ok (out, m) ->
  wb m = [0; length out] /\ (List.concat out = s ++ lit "</t>" <-> ~ loses_case s).
Proof.
  intros E o d b merges k s out m Hd HE Hu Hb Hen Hne Hsp Hs H.
  destruct (to_repr_segs _ _ _ _ _ _ _ H) as (rc & ss & Hrc & Hss & -> & _ & Hbo & _).
  destruct (Hbo Hb) as [Hnn ->].
  destruct (repr_config_bpe _ _ _ _ Hrc Hb) as (E1 & E2 & E3 & E4 & E5 & E6 & E7).
  assert (Hin : in_types rc CNonEng = true).
  { unfold in_types. rewrite (repr_config_types _ _ _ _ Hrc), types_in. unfold param_in. rewrite Hen. reflexivity. }
  unfold segs_list in Hss. cbn [segs_list_with segs] in Hss. rewrite Hin, E3 in Hss. cbn [is_some] in Hss.
  rewrite Hs in Hss. cbn [bind] in Hss.
  pose proof (replace_non_ascii_plain _ _ Hs) as Hpl.
  assert (Hsn : s <> []).
  { unfold replace_non_ascii_seqs in Hs. cbn [length ph_non_ascii_seq Nat.eqb] in Hs. injection Hs as <-.
    apply replace_loop_nonempty; [discriminate|right; exact Hne]. }
  destruct (word_from_plain E s HE Hpl Hsn) as (w & Hw & Hk). rewrite Hw in Hss. cbn [bind] in Hss.
  unfold segs_split in Hss. rewrite E5, E3 in Hss. cbn [is_some] in Hss. unfold split_word in Hss. rewrite E2 in Hss.
  cbn [bpe_call] in Hss.
  assert (Hst : split_str E [w] = case_kept s).
  { unfold split_str. cbn [map List.concat]. rewrite app_nil_r. exact Hk. }
  rewrite Hst in Hss.
  assert (Hks : ~ In 32%N (case_kept s)).
  { rewrite <- Hk. intros Hin'.
    assert (Hf : Forall (fun c => c <> 32%N) (subtoken_str E w)).
    { eapply (word_from_chars E _ _ w HE case_not_space); [exact Hpl| |exact Hw].
      apply Forall_forall. intros c Hc ->. exact (replace_non_ascii_no_space _ _ Hs Hsp Hc). }
    rewrite Forall_forall in Hf. exact (Hf _ Hin' eq_refl). }
  destruct Hu as (U1 & U2 & U3).
  destruct (C16_subwords_concatenate b merges (case_kept s) U1 U2 U3 Hks) as (ws & Hws & Hc & Hwn & _).
  rewrite Hws in Hss. cbn [bind app] in Hss. injection Hss as <-. unfold flat, one_seg; cbn [map List.concat app snd wb s_toks bounds].
  rewrite !app_nil_r, mark_length, concat_mark, Hc by exact Hwn. split; [reflexivity|]. split.
  - intros Ea Hl. apply app_inv_tail in Ea. exact (case_kept_neq _ Hl Ea).
  - intros Hl. rewrite case_kept_id by exact Hl. reflexivity.
Qed.
Print Assumptions C03_no_unicode_words.

Example C03_no_unicode_example :
  let d := combine prep_params (chars_of "Uc18su") in let b := {| bd_merges := ml_empty; bd_cache := [] |} in
  let k := [Word (lit "class") CapNone; Word [233%N] CapUndefined] in
  exists out m, to_repr ascii_case no_splitters d (Some b) [NonEng k] = Ok (out, m) /\
  List.concat out = lit "class" ++ [247%N] ++ lit "</t>".
Proof.
  intros d b k.
  assert (H : exists r, to_repr ascii_case no_splitters d (Some b) [NonEng k] = Ok r) by (eexists; vm_compute; reflexivity).
  destruct H as ([out m] & H). exists out, m. split; [exact H|].
  change (lit "class" ++ [247%N] ++ lit "</t>") with ((lit "class" ++ [247%N]) ++ lit "</t>").
  apply (C03_no_unicode_words ascii_case no_splitters d b [] k (lit "class" ++ [247%N]) out m); try reflexivity; try exact H.
  - exact ascii_case_py_ascii.
  - split; [constructor|]. split; [constructor|]. discriminate.
  - discriminate.
  - vm_compute. intros X. repeat (destruct X as [X|X]; [discriminate|]). exact X.
  - vm_compute. intros (X & _). discriminate X.
Qed.

(** MyClassé is split into the characters of Myclass and the placeholder *)
Theorem C03_no_unicode_refuted :
  exists d k out m,
  mk_prep_config d = Ok d /\ param d EN_ONLY = lit "U" /\
  split_str ascii_case k = lit "MyClass" ++ [233%N] /\
  to_repr ascii_case no_splitters d (Some {| bd_merges := ml_empty; bd_cache := [] |}) [NonEng k] = Ok (out, m) /\
  List.concat out = lit "Myclass" ++ [247%N] ++ lit "</t>".
Proof.
  exists (combine prep_params (chars_of "Uc18su")),
    [Word (lit "my") CapFirstLetter; Word (lit "class") CapFirstLetter; Word [233%N] CapUndefined].
  do 2 eexists. repeat split; vm_compute; reflexivity.
Qed.
Print Assumptions C03_no_unicode_refuted.

(** ** Configurations that differ in one parameter *)
Definition set_types (rc : repr_config) (ts : list cls) : repr_config :=
  {| types_to_be_repr := ts; bpe := bpe rc; should_lowercase := should_lowercase rc;
     number_splitter := number_splitter rc; word_splitter := word_splitter rc;
     full_strings := full_strings rc; max_str_length := max_str_length rc |}.

Lemma param_in_dset d p v q s : q <> p -> param_in (dset d p v) q s = param_in d q s.
Proof. intros H. unfold param_in. rewrite param_dset. destruct (eqb_spec q p); [congruence|reflexivity]. Qed.

Lemma repr_config_dset o d p v b :
  p <> SPLIT -> p <> CASE -> p <> STR ->
  get_repr_config o (dset d p v) b =
  (rc <- get_repr_config o d b ;; Ok (set_types rc (get_types_to_be_repr (dset d p v)))).
Proof.
  intros H1 H2 H3. unfold get_repr_config, get_number_splitter, get_word_splitter, is_bpe.
  rewrite !param_in_dset by congruence. rewrite param_dset. destruct (eqb_spec STR p); [congruence|].
  destruct (if param_in d SPLIT "0F1" then _ else _); cbn [bind]; [|reflexivity].
  destruct (if param_in d SPLIT "456789" then Ok _ else _); cbn [bind]; [|reflexivity].
  destruct (get_max_str_length _); reflexivity.
Qed.

Lemma is_bpe_dset d p v : p <> SPLIT -> is_bpe (dset d p v) = is_bpe d.
Proof. intros H. unfold is_bpe. apply param_in_dset. congruence. Qed.

Lemma to_repr_cfg_segs E rc1 rc2 bp l1 l2 :
  segs_list E rc1 l1 = segs_list E rc2 l2 -> to_repr_cfg E rc1 bp l1 = to_repr_cfg E rc2 bp l2.
Proof. intros H. unfold to_repr_cfg. rewrite !to_repr_list_segs, H. reflexivity. Qed.

(** two configurations that treat the given tokens alike *)
Lemma segs_ext E c1 c2 t :
  bpe c1 = bpe c2 -> should_lowercase c1 = should_lowercase c2 ->
  number_splitter c1 = number_splitter c2 -> word_splitter c1 = word_splitter c2 -> full_strings c1 = full_strings c2 ->
  in_types c1 CSplitContainer = in_types c2 CSplitContainer -> in_types c1 CWord = in_types c2 CWord ->
  in_types c1 CNonEng = in_types c2 CNonEng ->
  (forall u, In u (subterms t) -> in_types c1 (class_of u) = in_types c2 (class_of u)) ->
  (forall l n, In (StringLiteral l n) (subterms t) ->
     match max_str_length c1, max_str_length c2 with
     | Some a, Some b => (a <? n)%Z = (b <? n)%Z
     | None, None => True
     | _, _ => False
     end) ->
  segs E c1 t = segs E c2 t.
Proof.
  intros Hb Hlc Hns Hws Hfs Hsc Hcw Hne.
  assert (Hsub : forall s, torepr_sub E c1 s = torepr_sub E c2 s).
  { intros s. destruct s; cbn [torepr_sub]; [reflexivity|]. unfold split_word. rewrite Hlc, Hcw, Hws. reflexivity. }
  assert (Hsubs : forall l, torepr_subs E c1 l = torepr_subs E c2 l).
  { induction l as [|s l IH]; [reflexivity|]. cbn [torepr_subs]. rewrite Hsub, IH. reflexivity. }
  assert (Hheads : forall l,
    mapM (fun s => r <- torepr_sub E c1 s ;; match r with [] => Err IndexError | x :: _ => Ok x end) l =
    mapM (fun s => r <- torepr_sub E c2 s ;; match r with [] => Err IndexError | x :: _ => Ok x end) l).
  { induction l as [|s l IH]; [reflexivity|]. cbn [mapM]. rewrite Hsub, IH. reflexivity. }
  assert (Hsplit : forall l, segs_split E c1 l = segs_split E c2 l).
  { intros l. unfold segs_split, split_word. rewrite Hsc, Hb, Hws, Hsubs, Hheads. reflexivity. }
  assert (Hlist : forall keep l,
    Forall (fun t =>
      (forall u, In u (subterms t) -> in_types c1 (class_of u) = in_types c2 (class_of u)) ->
      (forall l n, In (StringLiteral l n) (subterms t) ->
         match max_str_length c1, max_str_length c2 with
         | Some a, Some b => (a <? n)%Z = (b <? n)%Z | None, None => True | _, _ => False end) ->
      segs E c1 t = segs E c2 t) l ->
    (forall u, In u (List.concat (map subterms l)) -> in_types c1 (class_of u) = in_types c2 (class_of u)) ->
    (forall k n, In (StringLiteral k n) (List.concat (map subterms l)) ->
       match max_str_length c1, max_str_length c2 with
       | Some a, Some b => (a <? n)%Z = (b <? n)%Z | None, None => True | _, _ => False end) ->
    segs_list_with keep (segs E c1) l = segs_list_with keep (segs E c2) l).
  { intros keep l Hf. induction Hf as [|x l Hx Hf IH]; intros H1 H2; cbn [segs_list_with]; [reflexivity|].
    cbn [map List.concat] in H1, H2. fold (segs_list_with keep (segs E c1)). fold (segs_list_with keep (segs E c2)).
    rewrite IH, Hx; [reflexivity|..].
    - intros u Hu. apply H1. apply in_or_app. left. exact Hu.
    - intros k n Hk. apply (H2 k). apply in_or_app. left. exact Hk.
    - intros u Hu. apply H1. apply in_or_app. right. exact Hu.
    - intros k n Hk. apply (H2 k). apply in_or_app. right. exact Hk. }
  induction t using token_nested_ind; intros H1 H2; cbn [segs]; try reflexivity.
  - rewrite (H1 NewLine (or_introl eq_refl) : in_types c1 CNewLine = in_types c2 CNewLine). reflexivity.
  - rewrite (H1 Tab (or_introl eq_refl) : in_types c1 CTab = in_types c2 CTab). reflexivity.
  - rewrite (H1 (Number v) (or_introl eq_refl) : in_types c1 CNumber = in_types c2 CNumber), Hns, Hb. reflexivity.
  - apply Hsplit.
  - rewrite Hne, Hb. destruct (in_types c2 CNonEng); [|apply Hsplit]. destruct (bpe c2); [|reflexivity].
    destruct (replace_non_ascii_seqs _ _); cbn [bind]; [|reflexivity].
    destruct (word_from _ _); cbn [bind]; [apply Hsplit|reflexivity].
  - rewrite (H1 (OneLineComment l) (or_introl eq_refl) : in_types c1 COneLineComment = in_types c2 COneLineComment).
    rewrite (Hlist _ l H); [reflexivity| |].
    + intros u Hu. apply H1. right. exact Hu.
    + intros k n Hk. apply (H2 k). right. exact Hk.
  - rewrite (H1 (MultilineComment l) (or_introl eq_refl) : in_types c1 CMultilineComment = in_types c2 CMultilineComment).
    rewrite (Hlist _ l H); [reflexivity| |].
    + intros u Hu. apply H1. right. exact Hu.
    + intros k n Hk. apply (H2 k). right. exact Hk.
  - rewrite (H1 (StringLiteral l n) (or_introl eq_refl) : in_types c1 CStringLiteral = in_types c2 CStringLiteral).
    specialize (H2 l n (or_introl eq_refl)) as H3.
    destruct (in_types c2 CStringLiteral); [reflexivity|].
    assert (Est : string_text E c1 (StringLiteral l n) = string_text E c2 (StringLiteral l n)).
    { unfold string_text. rewrite Hne. reflexivity. }
    rewrite (Hlist _ l H).
    2:{ intros u Hu. apply H1. right. exact Hu. }
    2:{ intros k n' Hk. apply (H2 k). right. exact Hk. }
    rewrite Est, Hb, Hfs. unfold split_word. rewrite Hws.
    destruct (max_str_length c1), (max_str_length c2); try contradiction; [|reflexivity]. rewrite H3. reflexivity.
Qed.

Lemma segs_list_ext E c1 c2 l :
  bpe c1 = bpe c2 -> should_lowercase c1 = should_lowercase c2 ->
  number_splitter c1 = number_splitter c2 -> word_splitter c1 = word_splitter c2 -> full_strings c1 = full_strings c2 ->
  in_types c1 CSplitContainer = in_types c2 CSplitContainer -> in_types c1 CWord = in_types c2 CWord ->
  in_types c1 CNonEng = in_types c2 CNonEng ->
  (forall u, In u (all_tokens l) -> in_types c1 (class_of u) = in_types c2 (class_of u)) ->
  (forall k n, In (StringLiteral k n) (all_tokens l) ->
     match max_str_length c1, max_str_length c2 with
     | Some a, Some b => (a <? n)%Z = (b <? n)%Z
     | None, None => True
     | _, _ => False
     end) ->
  segs_list E c1 l = segs_list E c2 l.
Proof.
  intros A1 A2 A3 A4 A5 A6 A7 A8 H1 H2. unfold segs_list.
  induction l as [|x l IH]; [reflexivity|]. cbn [segs_list_with]. unfold all_tokens in *. cbn [map List.concat] in *.
  fold (segs_list_with (fun _ => true) (segs E c1)). fold (segs_list_with (fun _ => true) (segs E c2)).
  rewrite IH, (segs_ext E c1 c2 x); auto.
  - intros u Hu. apply H1. apply in_or_app. left. exact Hu.
  - intros k n Hk. apply (H2 k). apply in_or_app. left. exact Hk.
  - intros u Hu. apply H1. apply in_or_app. right. exact Hu.
  - intros k n Hk. apply (H2 k). apply in_or_app. right. exact Hk.
Qed.

(** * C06 *)
Definition is_space_token (t : token) : bool := match t with NewLine | Tab => true | _ => false end.

(** removing newlines and tabs, also inside comments and, if [into_strings], inside string literals *)
Fixpoint drop_in (into_strings : bool) (t : token) : token :=
  let drop := fix drop (l : list token) : list token :=
    match l with
    | [] => []
    | x :: r => if is_space_token x then drop r else drop_in into_strings x :: drop r
    end in
  match t with
  | OneLineComment l => OneLineComment (drop l)
  | MultilineComment l => MultilineComment (drop l)
  | StringLiteral l n => if into_strings then StringLiteral (drop l) n else t
  | _ => t
  end.
Fixpoint drop_spaces (into_strings : bool) (l : list token) : list token :=
  match l with
  | [] => []
  | x :: r => if is_space_token x then drop_spaces into_strings r else drop_in into_strings x :: drop_spaces into_strings r
  end.

Lemma drop_in_olc b l : drop_in b (OneLineComment l) = OneLineComment (drop_spaces b l).
Proof. cbn [drop_in]. f_equal. induction l as [|x l IH]; [reflexivity|]. cbn. rewrite IH. reflexivity. Qed.
Lemma drop_in_mlc b l : drop_in b (MultilineComment l) = MultilineComment (drop_spaces b l).
Proof. cbn [drop_in]. f_equal. induction l as [|x l IH]; [reflexivity|]. cbn. rewrite IH. reflexivity. Qed.
Lemma drop_in_str b l n : drop_in b (StringLiteral l n) = StringLiteral (if b then drop_spaces b l else l) n.
Proof.
  cbn [drop_in]. destruct b; [|reflexivity]. f_equal. induction l as [|x l IH]; [reflexivity|]. cbn. rewrite IH. reflexivity.
Qed.
Lemma drop_in_space b t : is_space_in_string (drop_in b t) = is_space_in_string t.
Proof. destruct t; cbn; try reflexivity. destruct b; reflexivity. Qed.

Section NoSpaces.
  Variables (E : pycase) (c1 c2 : repr_config) (into : bool).
  Hypothesis Hb : bpe c1 = bpe c2.
  Hypothesis Hlc : should_lowercase c1 = should_lowercase c2.
  Hypothesis Hns : number_splitter c1 = number_splitter c2.
  Hypothesis Hws : word_splitter c1 = word_splitter c2.
  Hypothesis Hfs : full_strings c1 = full_strings c2.
  Hypothesis Hmx : max_str_length c1 = max_str_length c2.
  Hypothesis Hty : forall c, c <> CNewLine -> c <> CTab -> in_types c1 c = in_types c2 c.
  Hypothesis Hnl : in_types c1 CNewLine = true.
  Hypothesis Htab : in_types c1 CTab = true.
  Hypothesis Hinto : into = negb (bpe c1) && negb (full_strings c1).

  Lemma segs_drop t :
    segs E c1 t = if is_space_token t then Ok [] else segs E c2 (drop_in into t).
  Proof.
    assert (Hlist : forall keep l,
      Forall (fun t => segs E c1 t = if is_space_token t then Ok [] else segs E c2 (drop_in into t)) l ->
      (forall t, keep (drop_in into t) = keep t) ->
      segs_list_with keep (segs E c1) l = segs_list_with keep (segs E c2) (drop_spaces into l)).
    { intros keep l Hf Hk. induction Hf as [|x l Hx Hf IH]; [reflexivity|]. cbn [segs_list_with drop_spaces].
      fold (segs_list_with keep (segs E c1)). rewrite IH, Hx. destruct (is_space_token x); cbn [bind app].
      - destruct (keep x); [|reflexivity].
        destruct (segs_list_with keep (segs E c2) (drop_spaces into l)); reflexivity.
      - cbn [segs_list_with]. rewrite Hk. reflexivity. }
    assert (Hother : forall u, (forall v, In v (subterms u) -> is_space_token v = false) ->
      (forall l, subterms u <> [StringLiteral l 0] -> True) -> segs E c1 u = segs E c2 u).
    { intros u Hu _. apply segs_ext; try assumption; try (apply Hty; discriminate).
      - intros v Hv. apply Hty; intros Ec; specialize (Hu v Hv); destruct v as [| | | | | |n s| | | | |]; try discriminate; destruct n; discriminate.
      - intros l n _. rewrite Hmx. destruct (max_str_length c2); auto. }
    induction t using token_nested_ind; cbn [is_space_token].
    - cbn [segs]. rewrite Hnl. reflexivity.
    - cbn [segs]. rewrite Htab. reflexivity.
    - reflexivity.
    - apply Hother; auto. intros u [<-|[]]. reflexivity.
    - reflexivity.
    - reflexivity.
    - reflexivity.
    - apply Hother; auto. intros u [<-|[]]. reflexivity.
    - apply Hother; auto. intros u [<-|[]]. reflexivity.
    - rewrite drop_in_olc. cbn [segs]. rewrite (Hty COneLineComment), (Hlist _ l H) by (try discriminate; reflexivity).
      reflexivity.
    - rewrite drop_in_mlc. cbn [segs]. rewrite (Hty CMultilineComment), (Hlist _ l H) by (try discriminate; reflexivity).
      reflexivity.
    - rewrite drop_in_str. cbn [segs]. rewrite (Hty CStringLiteral), Hmx by discriminate.
      destruct (in_types c2 CStringLiteral); [reflexivity|]. destruct (max_str_length c2) as [mx|]; [|reflexivity].
      rewrite <- Hfs, <- Hb. destruct (mx <? n)%Z; [reflexivity|].
      assert (Est : forall k, string_text E c1 (StringLiteral k n) = string_text E c2 (StringLiteral k n)).
      { intros k. unfold string_text. rewrite (Hty CNonEng) by discriminate. reflexivity. }
      rewrite Est. unfold split_word. rewrite Hws. rewrite Hinto.
      destruct (bpe c1) eqn:Eb; cbn [negb andb]; [reflexivity|].
      destruct (full_strings c1) eqn:Ef; cbn [negb andb]; [reflexivity|].
      rewrite (Hlist _ l H) by (intros; rewrite drop_in_space; reflexivity).
      rewrite Hinto. reflexivity.
  Qed.

  Lemma segs_list_drop l : segs_list E c1 l = segs_list E c2 (drop_spaces into l).
  Proof.
    unfold segs_list. induction l as [|x l IH]; [reflexivity|]. cbn [segs_list_with drop_spaces].
    fold (segs_list_with (fun _ => true) (segs E c1)). rewrite IH, segs_drop.
    destruct (is_space_token x); cbn [bind app segs_list_with].
    - destruct (segs_list_with (fun _ => true) (segs E c2) (drop_spaces into l)); reflexivity.
    - reflexivity.
  Qed.
End NoSpaces.

(** strings are represented token by token unless they are kept whole or split into subwords *)
Definition splits_strings (d : params) : bool := negb (is_bpe d) && negb (param_in d SPLIT "F").

Lemma types_dset d p v c (q : prep_param) :
  q <> p ->
  match c with
  | CSplitContainer | CWord | CNumber => q = SPLIT
  | COneLineComment | CMultilineComment => q = COM
  | CStringLiteral => q = STR
  | CNonEng => q = EN_ONLY
  | CNewLine | CTab => q = TABS_NEWLINES
  | _ => True
  end ->
  mem c (get_types_to_be_repr (dset d p v)) = mem c (get_types_to_be_repr d).
Proof. intros Hq Hc. rewrite !types_in. destruct c; try reflexivity; subst q; apply param_in_dset; exact Hq. Qed.

Theorem C06_no_spaces :
  forall E o d b l,
  (is_bpe d = true -> b <> None) ->
  to_repr E o (dset d TABS_NEWLINES (lit "0")) b l =
  to_repr E o (dset d TABS_NEWLINES (lit "s")) b (drop_spaces (splits_strings d) l).
Proof.
  intros E o d b l Hb. unfold to_repr. rewrite !repr_config_dset by discriminate.
  destruct (get_repr_config o d b) as [rc|e] eqn:Hrc; cbn [bind]; [|reflexivity].
  rewrite !is_bpe_dset by discriminate. apply to_repr_cfg_segs. apply segs_list_drop; try reflexivity.
  - intros c H1 H2. unfold in_types, set_types; cbn [types_to_be_repr]. rewrite !types_in.
    destruct c; try congruence; try reflexivity; rewrite !param_in_dset by discriminate; reflexivity.
  - unfold in_types, set_types; cbn [types_to_be_repr]. rewrite types_in. unfold param_in. rewrite param_dset. reflexivity.
  - unfold in_types, set_types; cbn [types_to_be_repr]. rewrite types_in. unfold param_in. rewrite param_dset. reflexivity.
  - unfold splits_strings, set_types; cbn [bpe full_strings]. destruct (is_bpe d) eqn:Hd.
    + destruct (repr_config_bpe _ _ _ _ Hrc Hd) as (_ & _ & Eb & _). rewrite Eb.
      destruct b; [reflexivity|]. exfalso. apply (Hb eq_refl). reflexivity.
    + rewrite (repr_config_not_bpe _ _ _ _ Hrc Hd). cbn [negb andb]. f_equal.
      unfold get_repr_config in Hrc.
      apply bind_ok in Hrc. destruct Hrc as (ns & _ & H). apply bind_ok in H. destruct H as (ws & _ & H).
      apply bind_ok in H. destruct H as (ml & _ & [= <-]). reflexivity.
Qed.
Print Assumptions C06_no_spaces.

(** without the option each of them is exactly one token *)
Theorem C06_spaces_kept :
  forall E o d b, mk_prep_config d = Ok d -> param d TABS_NEWLINES = lit "s" ->
  to_repr E o d b [NewLine] =
    Ok ([if is_bpe d then [10%N] ++ lit "</t>" else [10%N]], {| nonproc := [[10%N]]; wb := [0; 1]; types := [CNewLine] |}) /\
  to_repr E o d b [Tab] =
    Ok ([if is_bpe d then [9%N] ++ lit "</t>" else [9%N]], {| nonproc := [[9%N]]; wb := [0; 1]; types := [CTab] |}).
Proof.
  intros E o d b Hd Ht. destruct (valid_repr_config o d b Hd) as (rc & Hrc & _).
  unfold to_repr. rewrite Hrc. cbn [bind]. unfold to_repr_cfg. rewrite !to_repr_list_segs.
  unfold segs_list. cbn [segs_list_with segs]. unfold in_types. rewrite (repr_config_types _ _ _ _ Hrc), !types_in.
  unfold param_in. rewrite Ht. split; destruct (is_bpe d); reflexivity.
Qed.
Print Assumptions C06_spaces_kept.

Example C06_example :
  let d := combine prep_params (chars_of "uc11su") in
  let l := [Tab; OneLineComment [NewLine; Number (lit "1")]; StringLiteral [Tab; Number (lit "7"); SpaceInString 1] 4; NewLine] in
  match to_repr ascii_case no_splitters (dset d TABS_NEWLINES (lit "0")) None l with Ok r => fst r | Err _ => [] end
  = [lit "1"; lit "<EOL>"; lit "7"] /\
  drop_spaces (splits_strings d) l = [OneLineComment [Number (lit "1")]; StringLiteral [Number (lit "7"); SpaceInString 1] 4].
Proof. split; reflexivity. Qed.

(** * C07 *)
Definition is_comment (t : token) : bool :=
  match t with OneLineComment _ | MultilineComment _ => true | _ => false end.
(** equal up to the contents of comments *)
Definition same_but_comments (t u : token) : Prop :=
  t = u \/ (is_comment t = true /\ class_of u = class_of t).

Theorem C07_placeholder :
  forall E o d b t, mk_prep_config d = Ok d -> param d COM = lit "0" -> is_comment t = true ->
  to_repr E o d b [t] =
    Ok ([if is_bpe d then lit "<comment></t>" else lit "<comment>"], {| nonproc := []; wb := [0; 1]; types := [class_of t] |}).
Proof.
  intros E o d b t Hd Hc Ht. destruct (valid_repr_config o d b Hd) as (rc & Hrc & _).
  unfold to_repr. rewrite Hrc. cbn [bind]. unfold to_repr_cfg. rewrite !to_repr_list_segs.
  unfold segs_list. cbn [segs_list_with].
  destruct t; try discriminate Ht; cbn [segs class_of]; unfold in_types; rewrite (repr_config_types _ _ _ _ Hrc), types_in;
    unfold param_in; rewrite Hc; destruct (is_bpe d); reflexivity.
Qed.
Print Assumptions C07_placeholder.

Theorem C07_contents_irrelevant :
  forall E o d b l l', param d COM = lit "0" -> Forall2 same_but_comments l l' ->
  to_repr E o d b l = to_repr E o d b l'.
Proof.
  intros E o d b l l' Hc Hf. unfold to_repr. destruct (get_repr_config o d b) as [rc|e] eqn:Hrc; cbn [bind]; [|reflexivity].
  apply to_repr_cfg_segs. unfold segs_list. induction Hf as [|x y l l' Hxy Hf IH]; [reflexivity|]. cbn [segs_list_with].
  fold (segs_list_with (fun _ => true) (segs E rc)). rewrite IH.
  assert (Ex : segs E rc x = segs E rc y); [|rewrite Ex; reflexivity].
  destruct Hxy as [->|[Hx Hy]]; [reflexivity|].
  destruct x; try discriminate Hx; destruct y; try discriminate Hy; try (destruct c; discriminate Hy); cbn [segs]; unfold in_types;
    rewrite (repr_config_types _ _ _ _ Hrc), types_in; unfold param_in; rewrite Hc; reflexivity.
Qed.
Print Assumptions C07_contents_irrelevant.

(** the option changes nothing else *)
Theorem C07_others_unchanged :
  forall E o d b l v v', (forall t, In t (all_tokens l) -> is_comment t = false) ->
  to_repr E o (dset d COM v) b l = to_repr E o (dset d COM v') b l.
Proof.
  intros E o d b l v v' Hn. unfold to_repr. rewrite !repr_config_dset by discriminate.
  destruct (get_repr_config o d b) as [rc|e] eqn:Hrc; cbn [bind]; [|reflexivity].
  rewrite !is_bpe_dset by discriminate. apply to_repr_cfg_segs.
  apply segs_list_ext; try reflexivity; unfold in_types, set_types; cbn [types_to_be_repr max_str_length];
    try (rewrite !types_in, !param_in_dset by discriminate; reflexivity).
  - intros u Hu. specialize (Hn u Hu). rewrite !types_in.
    destruct u as [| | | | | |c s| | | | |]; try discriminate Hn; cbn [class_of];
      try (destruct c); cbn [np_class]; rewrite ?param_in_dset by discriminate; reflexivity.
  - intros k n _. destruct (max_str_length rc); auto.
Qed.
Print Assumptions C07_others_unchanged.

(** with comments kept, a comment is represented by its words, a one-line comment is closed by <EOL>, and the
    type of all its tokens is the type of the comment *)
Theorem C07_comments_kept :
  forall E o d b l out m, param d COM = lit "c" ->
  to_repr E o d b l = Ok (out, m) ->
  to_repr E o d b [OneLineComment l] =
    Ok (out ++ [if is_bpe d then lit "<EOL></t>" else lit "<EOL>"],
        {| nonproc := nonproc m; wb := wb m ++ [S (length out)];
           types := repeat COneLineComment (S (length (types m))) |}) /\
  to_repr E o d b [MultilineComment l] =
    Ok (out, {| nonproc := nonproc m; wb := wb m; types := repeat CMultilineComment (length (types m)) |}).
Proof.
  intros E o d b l out m Hc H.
  destruct (to_repr_segs _ _ _ _ _ _ _ H) as (rc & ss & Hrc & Hss & -> & Ho & Hb & _).
  unfold to_repr. rewrite Hrc. cbn [bind]. unfold to_repr_cfg. rewrite !to_repr_list_segs.
  unfold segs_list in *. cbn [segs_list_with segs]. unfold in_types. rewrite (repr_config_types _ _ _ _ Hrc), !types_in.
  unfold param_in. rewrite Hc. change (mem (lit "c") (chars_of "0")) with false. cbn iota.
  rewrite Hss. cbn [bind app flat_res]. rewrite app_nil_r.
  assert (Hlen : length out = length (List.concat (map s_toks ss))).
  { destruct (is_bpe d).
    - destruct (Hb eq_refl) as [Hne ->]. clear -Hne. induction Hne as [|s ss Hs Hne IH]; [reflexivity|].
      simpl. rewrite !app_length, mark_length, IH by exact Hs. reflexivity.
    - rewrite Ho; reflexivity. }
  assert (Hm1 : snd (flat (map (retype COneLineComment) ss ++ one_seg COneLineComment [ph_olc_end] [])) =
    {| nonproc := nonproc (snd (flat ss)); wb := wb (snd (flat ss)) ++ [S (length out)];
       types := repeat COneLineComment (S (length (types (snd (flat ss))))) |}).
  { unfold flat; cbn [snd nonproc wb types]. rewrite !map_app, !map_map, concat_app. cbn [retype s_toks s_np s_cls one_seg map List.concat].
    rewrite !app_nil_r. f_equal.
    - rewrite bounds_app. cbn [bounds length Nat.add]. rewrite Hlen.
      change (fun x => s_toks x) with s_toks.
      transitivity ((removelast (bounds 0 (map s_toks ss)) ++ [last (bounds 0 (map s_toks ss)) 0]) ++
                    [S (length (List.concat (map s_toks ss)))]);
        [|rewrite <- (app_removelast_last 0 (bounds_nonempty 0 (map s_toks ss))); reflexivity].
      rewrite bounds_last, <- app_assoc.
      cbn [app Nat.add]. rewrite Nat.add_1_r. reflexivity.
    - rewrite map_length. clear. induction ss as [|s ss IH]; [reflexivity|]. simpl. f_equal. exact IH. }
  assert (Hm2 : snd (flat (map (retype CMultilineComment) ss)) =
    {| nonproc := nonproc (snd (flat ss)); wb := wb (snd (flat ss));
       types := repeat CMultilineComment (length (types (snd (flat ss)))) |}).
  { unfold flat; cbn [snd nonproc wb types]. rewrite !map_map. cbn [retype s_toks s_np s_cls]. f_equal.
    rewrite map_length. clear. induction ss as [|s ss IH]; [reflexivity|]. simpl. f_equal. exact IH. }
  assert (Hx : forall c, map s_toks (map (retype c) ss) = map s_toks ss) by (intros; rewrite map_map; reflexivity).
  assert (Hx2 : forall c, map (fun s => mark (s_toks s)) (map (retype c) ss) = map (fun s => mark (s_toks s)) ss)
    by (intros; rewrite map_map; reflexivity).
  destruct (is_bpe d).
  - destruct (Hb eq_refl) as [Hne ->]. split.
    + rewrite insert_flat.
      * cbn [bind]. rewrite Hm1, map_app, concat_app, Hx2. reflexivity.
      * apply Forall_app. split; [apply (proj2 (Forall_map (retype COneLineComment) (fun s => s_toks s <> []) ss)); exact Hne|repeat constructor; discriminate].
    + rewrite app_nil_r, insert_flat;
        [|apply (proj2 (Forall_map (retype CMultilineComment) (fun s => s_toks s <> []) ss)); exact Hne]. cbn [bind]. rewrite Hm2, Hx2. reflexivity.
  - rewrite Ho in * by reflexivity. split.
    + rewrite <- Hm1, (surjective_pairing (flat (map (retype COneLineComment) ss ++ _))).
      do 2 f_equal. unfold flat; cbn [fst]. rewrite map_app, concat_app, Hx. reflexivity.
    + rewrite app_nil_r, <- Hm2, (surjective_pairing (flat (map (retype CMultilineComment) ss))).
      do 2 f_equal. unfold flat; cbn [fst]. rewrite Hx. reflexivity.
Qed.
Print Assumptions C07_comments_kept.

Example C07_example :
  let d := combine prep_params (chars_of "u011su") in
  let l c := [Number (lit "1"); OneLineComment [Number c]; NewLine] in
  Forall2 same_but_comments (l (lit "5")) (l (lit "6")) /\
  match to_repr ascii_case no_splitters d None (l (lit "5")) with Ok r => fst r | Err _ => [] end
  = [lit "1"; lit "<comment>"; [10%N]].
Proof.
  split; [|reflexivity].
  apply Forall2_cons; [left; reflexivity|]. apply Forall2_cons; [right; split; reflexivity|].
  apply Forall2_cons; [left; reflexivity|apply Forall2_nil].
Qed.
