(** C08, C09: string literals and non-ascii text in preprocessed output. *)
From Verif Require Import M_Base L_Base M_Tokens M_Repr M_Merge M_BpeEncode S_Bpe L_BpeEncode P_Bpe M_PrepConfig P_PrepConfig
     L_Repr P_Repr L_Word P_ReprOptions.
From Coq Require Import Arith.

(** * C08 *)
Definition is_string (t : token) : bool := match t with StringLiteral _ _ => true | _ => false end.

Definition end_mark (d : params) (s : str) : str := if is_bpe d then s ++ lit "</t>" else s.

Theorem C08_no_str :
  forall E o d b l n, mk_prep_config d = Ok d -> param d STR = create_str_value true 0 ->
  to_repr E o d b [StringLiteral l n] =
    Ok ([end_mark d (lit "<str-literal>")], {| nonproc := []; wb := [0; 1]; types := [CStringLiteral] |}).
Proof.
  intros E o d b l n Hd Hc. destruct (valid_repr_config o d b Hd) as (rc & Hrc & _).
  unfold to_repr. rewrite Hrc. cbn [bind]. unfold to_repr_cfg. rewrite !to_repr_list_segs.
  unfold segs_list. cbn [segs_list_with segs]. unfold in_types. rewrite (repr_config_types _ _ _ _ Hrc), types_in.
  unfold param_in, end_mark. rewrite Hc. destruct (is_bpe d); reflexivity.
Qed.
Print Assumptions C08_no_str.

Lemma repr_config_fields o d b rc :
  get_repr_config o d b = Ok rc ->
  full_strings rc = param_in d SPLIT "F" /\ get_max_str_length (param d STR) = Ok (max_str_length rc).
Proof.
  unfold get_repr_config. intros H.
  apply bind_ok in H. destruct H as (ns & _ & H). apply bind_ok in H. destruct H as (ws & _ & H).
  apply bind_ok in H. destruct H as (ml & Hml & [= <-]). cbn. auto.
Qed.

Lemma str_value_not_0 mx :
  (2 <= mx < 62)%Z \/ mx = maxsize -> mem (create_str_value false mx) (chars_of "0") = false.
Proof.
  intros H. change (chars_of "0") with [lit "0"].
  destruct (mem (create_str_value false mx) [lit "0"]) eqn:Em; [|reflexivity].
  apply mem_in in Em. destruct Em as [Em|[]]. exfalso.
  pose proof (C40_limit_kept mx H) as X. rewrite <- Em in X. vm_compute in X. discriminate.
Qed.

(** a literal longer than the limit shows only its quotes; a literal within the limit is kept *)
Theorem C08_too_long :
  forall E o d b l n mx, mk_prep_config d = Ok d -> param d STR = create_str_value false mx ->
  (2 <= mx < 62)%Z \/ mx = maxsize -> (mx < n)%Z ->
  to_repr E o d b [StringLiteral l n] =
    if param_in d SPLIT "F"
    then Ok ([[34%N; 34%N]], {| nonproc := []; wb := [0; 1]; types := [CStringLiteral] |})
    else Ok ([[34%N]; end_mark d [34%N]], {| nonproc := [[34%N]]; wb := [0; 2]; types := [CStringLiteral] |}).
Proof.
  intros E o d b l n mx Hd Hc Hmx Hn. destruct (valid_repr_config o d b Hd) as (rc & Hrc & _).
  destruct (repr_config_fields _ _ _ _ Hrc) as [Hf Hm].
  rewrite Hc, C40_limit_kept in Hm by exact Hmx. injection Hm as Hm.
  unfold to_repr. rewrite Hrc. cbn [bind]. unfold to_repr_cfg. rewrite !to_repr_list_segs.
  unfold segs_list. cbn [segs_list_with segs]. unfold in_types. rewrite (repr_config_types _ _ _ _ Hrc), types_in, <- Hm.
  assert (Hs : param_in d STR "0" = false).
  { unfold param_in. rewrite Hc. apply str_value_not_0, Hmx. }
  rewrite Hs. destruct (Z.ltb_spec mx n); [|lia]. rewrite Hf.
  assert (Hb : param_in d SPLIT "F" = true -> is_bpe d = false).
  { unfold is_bpe, param_in. intros HF. apply mem_in in HF. destruct HF as [<-|[]]. reflexivity. }
  unfold end_mark. destruct (param_in d SPLIT "F").
  - rewrite Hb by reflexivity. reflexivity.
  - destruct (is_bpe d); reflexivity.
Qed.
Print Assumptions C08_too_long.

Lemma repr_config_str o d v b rc rc' :
  get_repr_config o d b = Ok rc -> get_repr_config o (dset d STR v) b = Ok rc' ->
  bpe rc = bpe rc' /\ should_lowercase rc = should_lowercase rc' /\ number_splitter rc = number_splitter rc' /\
  word_splitter rc = word_splitter rc' /\ full_strings rc = full_strings rc' /\
  (forall c, c <> CStringLiteral -> in_types rc c = in_types rc' c).
Proof.
  intros H H'. pose proof (repr_config_types _ _ _ _ H) as T. pose proof (repr_config_types _ _ _ _ H') as T'.
  unfold get_repr_config in H, H'.
  unfold get_number_splitter, get_word_splitter, is_bpe in H, H'. rewrite !param_in_dset in H' by discriminate.
  apply bind_ok in H. destruct H as (ns & Hns & H). apply bind_ok in H. destruct H as (ws & Hws & H).
  apply bind_ok in H. destruct H as (ml & Hml & [= <-]).
  rewrite Hns in H'. cbn [bind] in H'. rewrite Hws in H'. cbn [bind] in H'.
  apply bind_ok in H'. destruct H' as (ml' & Hml' & [= <-]). repeat split.
  intros c Hc. unfold in_types. rewrite T, T', !types_in.
  destruct c; try congruence; try reflexivity; rewrite param_in_dset by discriminate; reflexivity.
Qed.

Lemma dset_valid d v :
  mk_prep_config d = Ok d -> In v possible_str_values -> mk_prep_config (dset d STR v) = Ok (dset d STR v).
Proof.
  intros H Hv. unfold mk_prep_config in *. apply bind_ok in H. destruct H as ([] & H & _).
  assert (Hc : check_invariants (dset d STR v) = Ok tt); [|rewrite Hc; reflexivity].
  unfold check_invariants in *. destruct (Nat.eqb (length d) 6) eqn:El; [|discriminate]. cbn [negb] in H.
  assert (Hlen : length (dset d STR v) = length d).
  { apply bind_ok in H. destruct H as ([] & H & _). cbn [check_values prep_params] in H.
    destruct (dget d EN_ONLY); [|discriminate]. destruct (mem _ _); [|discriminate].
    destruct (dget d COM); [|discriminate]. destruct (mem _ _); [|discriminate].
    destruct (dget d STR) eqn:Es; [|discriminate]. clear -Es. induction d as [|[k w] d IH]; [discriminate|].
    simpl in *. destruct (eqb_spec STR k); [reflexivity|]. simpl. f_equal. apply IH, Es. }
  rewrite Hlen, El. cbn [negb]. rewrite !param_in_dset by discriminate.
  apply bind_ok in H. destruct H as ([] & Hcv & H).
  assert (Hcv' : check_values (dset d STR v) prep_params = Ok tt).
  { cbn [check_values prep_params] in *. rewrite !dget_dset.
    destruct (eqb_spec EN_ONLY STR); [discriminate|]. destruct (eqb_spec COM STR); [discriminate|].
    destruct (eqb_spec STR STR); [|congruence]. destruct (eqb_spec SPLIT STR); [discriminate|].
    destruct (eqb_spec TABS_NEWLINES STR); [discriminate|]. destruct (eqb_spec CASE STR); [discriminate|].
    destruct (dget d EN_ONLY); [|discriminate]. destruct (mem s _); [|discriminate].
    destruct (dget d COM); [|discriminate]. destruct (mem s0 _); [|discriminate].
    destruct (dget d STR); [|discriminate]. destruct (mem s1 _); [|discriminate].
    cbn [possible_param_values].
    assert (Hm : mem v possible_str_values = true) by (apply mem_in; exact Hv). rewrite Hm. exact Hcv. }
  rewrite Hcv'. exact H.
Qed.

Lemma str_value_possible mx : In (create_str_value false mx) possible_str_values.
Proof.
  unfold create_str_value. destruct (_ && _)%bool; [vm_compute; auto|].
  destruct ((2 <=? mx)%Z && (mx <? Z.of_nat (length possible_str_values))%Z) eqn:E; [|vm_compute; auto].
  apply andb_true_iff in E. destruct E as [E1 E2]. apply Z.leb_le in E1. apply Z.ltb_lt in E2.
  apply nth_In. lia.
Qed.

(** with no literal longer than the limit the output is the same as without a limit *)
Theorem C08_within_limit :
  forall E o d b l mx, mk_prep_config d = Ok d -> (2 <= mx < 62)%Z \/ mx = maxsize ->
  (forall k n, In (StringLiteral k n) (all_tokens l) -> (n <= mx)%Z) ->
  to_repr E o (dset d STR (create_str_value false mx)) b l = to_repr E o (dset d STR (create_str_value false maxsize)) b l.
Proof.
  intros E o d b l mx Hd Hmx Hl.
  pose proof (dset_valid d _ Hd (str_value_possible mx)) as H1.
  pose proof (dset_valid d _ Hd (str_value_possible maxsize)) as H2.
  destruct (valid_repr_config o _ b Hd) as (rc & Hrc & _).
  destruct (valid_repr_config o _ b H1) as (rc1 & Hrc1 & _). destruct (valid_repr_config o _ b H2) as (rc2 & Hrc2 & _).
  unfold to_repr. rewrite Hrc1, Hrc2. cbn [bind]. rewrite !is_bpe_dset by discriminate. apply to_repr_cfg_segs.
  destruct (repr_config_str _ _ _ _ _ _ Hrc Hrc1) as (A1 & A2 & A3 & A4 & A5 & A6).
  destruct (repr_config_str _ _ _ _ _ _ Hrc Hrc2) as (B1 & B2 & B3 & B4 & B5 & B6).
  assert (Hmax : forall m, (2 <= m < 62)%Z \/ m = maxsize -> forall r,
            get_repr_config o (dset d STR (create_str_value false m)) b = Ok r ->
            max_str_length r = Some m /\ in_types r CStringLiteral = false).
  { intros m Hm r Hr. destruct (repr_config_fields _ _ _ _ Hr) as [_ Hf]. rewrite param_dset in Hf.
    destruct (eqb_spec STR STR); [|congruence]. rewrite C40_limit_kept in Hf by exact Hm. injection Hf as Hf.
    split; [congruence|]. unfold in_types. rewrite (repr_config_types _ _ _ _ Hr), types_in.
    unfold param_in. rewrite param_dset.
    destruct (eqb_spec STR STR); [apply str_value_not_0, Hm|congruence]. }
  destruct (Hmax mx Hmx rc1 Hrc1) as [M1 T1]. destruct (Hmax maxsize (or_intror eq_refl) rc2 Hrc2) as [M2 T2].
  apply segs_list_ext; try congruence.
  - rewrite <- A6, <- B6 by discriminate. reflexivity.
  - rewrite <- A6, <- B6 by discriminate. reflexivity.
  - rewrite <- A6, <- B6 by discriminate. reflexivity.
  - intros u Hu. destruct (eqb_spec (class_of u) CStringLiteral) as [->|Hne]; [congruence|].
    rewrite <- A6, <- B6 by exact Hne. reflexivity.
  - intros k n Hk. rewrite M1, M2. specialize (Hl k n Hk).
    assert (mx <= maxsize)%Z by (unfold maxsize in *; lia).
    destruct (Z.ltb_spec mx n), (Z.ltb_spec maxsize n); try reflexivity; lia.
Qed.
Print Assumptions C08_within_limit.

(** tokens outside string literals do not depend on the option *)
Theorem C08_others_unchanged :
  forall E o d b l ns ns' mx mx', mk_prep_config d = Ok d ->
  (forall t, In t (all_tokens l) -> is_string t = false) ->
  to_repr E o (dset d STR (create_str_value ns mx)) b l = to_repr E o (dset d STR (create_str_value ns' mx')) b l.
Proof.
  intros E o d b l ns ns' mx mx' Hd Hl.
  assert (Hp : forall b m, In (create_str_value b m) possible_str_values).
  { intros [] m; [vm_compute; auto|apply str_value_possible]. }
  pose proof (dset_valid d _ Hd (Hp ns mx)) as H1.
  pose proof (dset_valid d _ Hd (Hp ns' mx')) as H2.
  destruct (valid_repr_config o _ b Hd) as (rc & Hrc & _).
  destruct (valid_repr_config o _ b H1) as (rc1 & Hrc1 & _). destruct (valid_repr_config o _ b H2) as (rc2 & Hrc2 & _).
  unfold to_repr. rewrite Hrc1, Hrc2. cbn [bind]. rewrite !is_bpe_dset by discriminate. apply to_repr_cfg_segs.
  destruct (repr_config_str _ _ _ _ _ _ Hrc Hrc1) as (A1 & A2 & A3 & A4 & A5 & A6).
  destruct (repr_config_str _ _ _ _ _ _ Hrc Hrc2) as (B1 & B2 & B3 & B4 & B5 & B6).
  apply segs_list_ext; try congruence.
  - rewrite <- A6, <- B6 by discriminate. reflexivity.
  - rewrite <- A6, <- B6 by discriminate. reflexivity.
  - rewrite <- A6, <- B6 by discriminate. reflexivity.
  - intros u Hu. specialize (Hl u Hu). rewrite <- A6, <- B6; [reflexivity|..];
      destruct u as [| | | | | |c s| | | | |]; try discriminate; try discriminate Hl; destruct c; discriminate.
  - intros k n Hk. specialize (Hl _ Hk). discriminate.
Qed.
Print Assumptions C08_others_unchanged.

Example C08_example :
  let l := [StringLiteral [NonProc NpNonCodeChar [34%N]; SplitContainer [Word (lit "ab") CapNone]; NonProc NpNonCodeChar [34%N]] 4] in
  let run mx := match nosplit_config false false false false false mx with
                | Ok d => match to_repr ascii_case no_splitters d None l with Ok r => fst r | Err _ => [] end
                | Err _ => [] end in
  run 4%Z = [[34%N]; lit "ab"; [34%N]] /\ run 3%Z = [[34%N]; [34%N]].
Proof. split; reflexivity. Qed.

(** * C09 *)
(** ascii, the division sign (placeholder for a non-ascii sequence) or the non-breaking space *)
Definition shown (c : N) : Prop := (c < 128)%N \/ c = 247%N \/ c = 160%N.
Definition ascii (s : str) : Prop := Forall (fun c => (c < 128)%N) s.

(** Python's case functions and the external splitters map ascii text to ascii text *)
Definition splitters_ascii (o : splitters) : Prop :=
  (forall s, ascii s -> Forall ascii (ronin_split o s)) /\ (forall s, ascii s -> ascii (stem o s)).

(** what the parser calls english: every piece of text outside NonEng is ascii *)
Definition marked (E : pycase) (l : list token) : Prop :=
  forall t, In t (all_tokens l) ->
  match t with
  | Number v => ascii v
  | NonProc _ s => ascii s
  | SplitContainer k => forall w c, In (Word w c) k -> ascii w /\ ascii (with_preserved_case E w c)
  | _ => True
  end.

Lemma ascii_shown s : ascii s -> Forall shown s.
Proof. apply Forall_impl. intros c Hc. left. exact Hc. Qed.
Lemma ascii_lit s : is_ascii s = true -> Forall shown s.
Proof.
  intros H. apply Forall_forall. intros c Hc. left. unfold is_ascii in H. rewrite forallb_forall in H.
  apply N.ltb_lt. apply H, Hc.
Qed.

Section Shown.
  Variables (E : pycase) (cfg : repr_config).
  Hypothesis HE : py_ascii E.
  Hypothesis Hne : in_types cfg CNonEng = true.
  Hypothesis Hbsc : bpe cfg = true -> in_types cfg CSplitContainer = true.
  Definition splittable (s : str) : Prop := if bpe cfg then Forall shown s /\ ~ In 32%N s else ascii s.
  Hypothesis Hns : forall v ws, splittable v -> number_splitter cfg v = Ok ws -> Forall (Forall shown) ws.
  Hypothesis Hws : forall v ws, splittable v -> split_word cfg v = Ok ws -> Forall (Forall shown) ws.

  Lemma concat_shown (l : list str) : Forall (Forall shown) l -> Forall shown (List.concat l).
  Proof. induction 1; [constructor|]. cbn [List.concat]. apply Forall_app. split; assumption. Qed.

  Lemma sub_shown s r :
    bpe cfg = false ->
    (forall w c, s = Word w c -> ascii w /\ ascii (with_preserved_case E w c)) ->
    torepr_sub E cfg s = Ok r -> Forall (Forall shown) r.
  Proof.
    intros Hb Hs. destruct s as [|w c]; cbn [torepr_sub].
    - intros [= <-]. constructor; [apply ascii_lit; reflexivity|constructor].
    - destruct (Hs w c eq_refl) as [H1 H2]. destruct (in_types cfg CWord).
      + destruct (should_lowercase cfg).
        * rewrite bind_ok. intros (r' & Hr & [= <-]).
          assert (Forall (Forall shown) r') by (eapply Hws; [unfold splittable; rewrite Hb; exact H1|exact Hr]).
          destruct c; cbn [with_capitalization_prefixes]; try assumption; constructor; try assumption;
            apply ascii_lit; reflexivity.
        * intros Hr. eapply Hws; [unfold splittable; rewrite Hb; exact H2|exact Hr].
      + intros [= <-]. constructor; [apply ascii_shown, H2|constructor].
  Qed.

  Lemma split_shown k r :
    (bpe cfg = true -> Forall shown (split_str E k) /\ ~ In 32%N (split_str E k)) ->
    (bpe cfg = false -> forall w c, In (Word w c) k -> ascii w /\ ascii (with_preserved_case E w c)) ->
    segs_split E cfg k = Ok r -> Forall (fun s => Forall (Forall shown) (s_toks s)) r.
  Proof.
    intros Hk1 Hk2. unfold segs_split. destruct (in_types cfg CSplitContainer) eqn:Hsc.
    - destruct (bpe cfg) eqn:Hb.
      + rewrite bind_ok. intros (ws & Hw & [= <-]). constructor; [|constructor]. cbn [s_toks].
        eapply Hws; [unfold splittable; rewrite Hb; apply Hk1; reflexivity|exact Hw].
      + rewrite bind_ok. intros (ws & Hw & [= <-]). constructor; [|constructor]. cbn [s_toks].
        assert (Hf : Forall (Forall shown) ws).
        { specialize (Hk2 eq_refl). clear -Hws Hw Hk2 Hb. revert ws Hw.
          induction k as [|s k IH]; intros ws; cbn [torepr_subs]; [intros [= <-]; constructor|].
          rewrite bind_ok. intros (r & Hr & H). apply bind_ok in H. destruct H as (rs & Hrs & [= <-]).
          apply Forall_app. split; [|apply IH; [|exact Hrs]; intros w c Hin; apply Hk2; right; exact Hin].
          eapply sub_shown; [exact Hb| |exact Hr]. intros w c ->. apply Hk2. left. reflexivity. }
        assert (Hl : Forall shown (lit "<w>") /\ Forall shown (lit "</w>")) by (split; apply ascii_lit; reflexivity).
        unfold wrap_in_word_boundaries_if_necessary.
        assert (Hwr : Forall (Forall shown) ([ph_word_start] ++ ws ++ [ph_word_end])).
        { constructor; [apply Hl|]. apply Forall_app. split; [exact Hf|]. constructor; [apply Hl|constructor]. }
        destruct ws as [|a [|b [|c ws]]]; try exact Hwr; try exact Hf. destruct (_ || _)%bool; assumption.
    - rewrite bind_ok. intros (hs & Hh & [= <-]). constructor; [|constructor]. cbn [s_toks].
      constructor; [|constructor]. apply concat_shown. apply Forall_forall. intros x Hx.
      destruct (mapM_in _ _ _ _ Hh Hx) as (s & Hs & Hf). apply bind_ok in Hf. destruct Hf as (r' & Hr & Hx').
      destruct r' as [|y r']; [discriminate|]. injection Hx' as ->.
      assert (Hb : bpe cfg = false) by (destruct (bpe cfg); [discriminate (Hbsc eq_refl)|reflexivity]).
      assert (Hf : Forall (Forall shown) (x :: r')); [|inversion Hf; assumption].
      eapply sub_shown; [exact Hb| |exact Hr]. intros w c ->. apply (Hk2 Hb). exact Hs.
  Qed.

  Lemma text_shown k n s : string_text E cfg (StringLiteral k n) = Ok s -> Forall shown s.
  Proof.
    intros Hs. apply Forall_forall. intros y Hy. unfold shown.
    destruct (string_text_chars _ _ _ _ _ Hs Hy) as [[H0 _]|[_ [?|[?|[_ H0]]]]]; try congruence; auto.
  Qed.

  Lemma segs_shown t r :
    (forall u, In u (subterms t) -> is_text u = true -> ~ In 32%N (tok_str E u)) ->
    (forall u, In u (subterms t) ->
       match u with
       | Number v => ascii v | NonProc _ s => ascii s
       | SplitContainer k => forall w c, In (Word w c) k -> ascii w /\ ascii (with_preserved_case E w c)
       | _ => True end) ->
    segs E cfg t = Ok r -> Forall (fun s => Forall (Forall shown) (s_toks s)) r.
  Proof.
    pose proof split_shown as Hsplit. pose proof text_shown as Htext.
    assert (Hone : forall c x np, is_ascii x = true -> Forall (fun s => Forall (Forall shown) (s_toks s)) (one_seg c [x] np)).
    { intros c x np Hx. constructor; [|constructor]. constructor; [apply ascii_lit, Hx|constructor]. }
    assert (Hlist : forall keep l r,
      Forall (fun t => forall r,
        (forall u, In u (subterms t) -> is_text u = true -> ~ In 32%N (tok_str E u)) ->
        (forall u, In u (subterms t) ->
           match u with
           | Number v => ascii v | NonProc _ s => ascii s
           | SplitContainer k => forall w c, In (Word w c) k -> ascii w /\ ascii (with_preserved_case E w c)
           | _ => True end) ->
        segs E cfg t = Ok r -> Forall (fun s => Forall (Forall shown) (s_toks s)) r) l ->
      (forall u, In u (List.concat (map subterms l)) -> is_text u = true -> ~ In 32%N (tok_str E u)) ->
      (forall u, In u (List.concat (map subterms l)) ->
         match u with
         | Number v => ascii v | NonProc _ s => ascii s
         | SplitContainer k => forall w c, In (Word w c) k -> ascii w /\ ascii (with_preserved_case E w c)
         | _ => True end) ->
      segs_list_with keep (segs E cfg) l = Ok r -> Forall (fun s => Forall (Forall shown) (s_toks s)) r).
    { intros keep l r' Hf Hsp Hm Hr. eapply segs_list_with_forall; [|exact Hr].
      apply Forall_forall. intros x Hx s Hs. rewrite Forall_forall in Hf.
      assert (Hsub : forall u, In u (subterms x) -> In u (List.concat (map subterms l))).
      { intros u Hu. apply in_concat. exists (subterms x). split; [apply in_map, Hx|exact Hu]. }
      apply (Hf x Hx); [| |exact Hs].
      - intros u Hu. apply Hsp, Hsub, Hu.
      - intros u Hu. apply Hm, Hsub, Hu. }
    revert r. induction t using token_nested_ind; intros r Hsp Hm; cbn [segs].
    - destruct (in_types cfg CNewLine); intros [= <-]; [constructor|apply Hone; reflexivity].
    - destruct (in_types cfg CTab); intros [= <-]; [constructor|apply Hone; reflexivity].
    - intros [= <-]. constructor; [|constructor]. constructor; [|constructor]. apply concat_shown.
      apply Forall_forall. intros x Hx. apply repeat_spec in Hx. subst x.
      constructor; [right; right; reflexivity|constructor].
    - pose proof (Hm (Number v) (or_introl eq_refl)) as Hv. cbn iota in Hv.
      pose proof (Hsp (Number v) (or_introl eq_refl) eq_refl) as Hs. change (tok_str E (Number v)) with v in Hs.
      destruct (in_types cfg CNumber).
      + rewrite bind_ok. intros (ws & Hw & [= <-]). constructor; [|constructor]. cbn [s_toks].
        assert (Hf : Forall (Forall shown) ws).
        { eapply Hns; [|exact Hw]. unfold splittable. destruct (bpe cfg); [split; [apply ascii_shown, Hv|exact Hs]|exact Hv]. }
        destruct (_ && _)%bool; [|exact Hf].
        constructor; [apply ascii_lit; reflexivity|]. apply Forall_app. split; [exact Hf|].
        constructor; [apply ascii_lit; reflexivity|constructor].
      + intros [= <-]. constructor; [|constructor]. constructor; [apply ascii_shown, Hv|constructor].
    - intros [= <-]. apply Hone. reflexivity.
    - intros [= <-]. apply Hone. reflexivity.
    - intros [= <-]. constructor; [|constructor]. constructor; [|constructor].
      apply ascii_shown. exact (Hm (NonProc c t) (or_introl eq_refl)).
    - pose proof (Hm (SplitContainer l) (or_introl eq_refl)) as Hk. cbn iota in Hk.
      pose proof (Hsp (SplitContainer l) (or_introl eq_refl) eq_refl) as Hs.
      change (tok_str E (SplitContainer l)) with (split_str E l) in Hs.
      intros Hr. eapply Hsplit; [| |exact Hr].
      + intros _. split; [|exact Hs]. unfold split_str. apply concat_shown. apply Forall_map.
        apply Forall_forall. intros [|w c] Hin; [apply ascii_lit; reflexivity|].
        cbn [subtoken_str]. apply ascii_shown. apply (Hk w c Hin).
      + intros _. exact Hk.
    - pose proof (Hsp (NonEng l) (or_introl eq_refl) eq_refl) as Hs.
      change (tok_str E (NonEng l)) with (split_str E l) in Hs.
      rewrite Hne. destruct (bpe cfg) eqn:Hb; [|intros [= <-]; apply Hone; reflexivity].
      rewrite bind_ok. intros (s & Hr1 & H). apply bind_ok in H. destruct H as (w & Hw & H).
      assert (Hst : split_str E [w] = subtoken_str E w).
      { unfold split_str. cbn [map List.concat]. apply app_nil_r. }
      eapply Hsplit; [|discriminate|exact H]. intros _. rewrite Hst. split.
      + eapply Forall_impl; [|eapply (word_from_chars E plain s w HE); try eapply replace_non_ascii_plain, Hr1; [|exact Hw]].
        * intros c [Hc|Hc]; unfold shown; auto.
        * intros c. unfold plain, ascii_to_lower, ascii_to_upper, ascii_upper_ch, ascii_lower_ch. intros Hc.
          destruct (N.leb_spec 65 c), (N.leb_spec c 90), (N.leb_spec 97 c), (N.leb_spec c 122); cbn [andb]; lia.
      + intros Hin.
        assert (Hf : Forall (fun c => c <> 32%N) (subtoken_str E w)).
        { apply (word_from_chars E _ s w HE case_not_space); [eapply replace_non_ascii_plain, Hr1| |exact Hw].
          apply Forall_forall. intros c Hc ->. exact (replace_non_ascii_no_space _ _ Hr1 Hs Hc). }
        rewrite Forall_forall in Hf. exact (Hf _ Hin eq_refl).
    - destruct (in_types cfg COneLineComment); [intros [= <-]; apply Hone; reflexivity|].
      rewrite bind_ok. intros (rs & Hrs & [= <-]).
      apply Forall_app. split; [|apply Hone; reflexivity]. apply Forall_map. cbn [retype s_toks].
      eapply Hlist; [exact H| | |exact Hrs]; intros u Hu; [apply Hsp|apply Hm]; right; exact Hu.
    - destruct (in_types cfg CMultilineComment); [intros [= <-]; apply Hone; reflexivity|].
      rewrite bind_ok. intros (rs & Hrs & [= <-]). apply Forall_map. cbn [retype s_toks].
      eapply Hlist; [exact H| | |exact Hrs]; intros u Hu; [apply Hsp|apply Hm]; right; exact Hu.
    - destruct (in_types cfg CStringLiteral); [intros [= <-]; apply Hone; reflexivity|].
      destruct (max_str_length cfg) as [mx|]; [|discriminate].
      destruct (mx <? n)%Z.
      { intros [= <-]. destruct (full_strings cfg); [apply Hone; reflexivity|].
        constructor; [|constructor]. constructor; [apply ascii_lit; reflexivity|].
        constructor; [apply ascii_lit; reflexivity|constructor]. }
      destruct (bpe cfg) eqn:Hb.
      { rewrite bind_ok. intros (s & Hs & H'). apply bind_ok in H'. destruct H' as (w & Hw & [= <-]).
        constructor; [|constructor]. cbn [s_toks]. eapply Hws; [|exact Hw]. unfold splittable. rewrite Hb.
        split; [eapply Htext, Hs|]. intros Hin.
        destruct (string_text_chars _ _ _ _ _ Hs Hin) as [[_ H0]|[_ [?|[?|[H0 _]]]]]; try discriminate;
          apply (Hsp (StringLiteral l n)) in H0; auto; left; reflexivity. }
      destruct (full_strings cfg).
      { rewrite bind_ok. intros (s & Hs & [= <-]). constructor; [|constructor]. cbn [s_toks].
        constructor; [eapply Htext, Hs|constructor]. }
      rewrite bind_ok. intros (rs & Hrs & [= <-]). apply Forall_map. cbn [retype s_toks].
      eapply Hlist; [exact H| | |exact Hrs]; intros u Hu; [apply Hsp|apply Hm]; right; exact Hu.
  Qed.
End Shown.

Lemma mark_shown g : Forall (Forall shown) g -> Forall (Forall shown) (mark g).
Proof.
  intros Hg. unfold mark. apply Forall_app. split.
  - apply Forall_forall. intros x Hx. rewrite Forall_forall in Hg. apply Hg.
    destruct g as [|y g]; [destruct Hx|].
    rewrite (app_removelast_last [] (l := y :: g)) by discriminate. apply in_or_app. left. exact Hx.
  - constructor; [|constructor]. apply Forall_app. split; [|apply ascii_lit; reflexivity].
    destruct g as [|y g]; [constructor|]. rewrite Forall_forall in Hg. apply Hg.
    rewrite (app_removelast_last [] (l := y :: g)) at 2 by discriminate. apply in_or_app. right. left. reflexivity.
Qed.

Theorem C09_no_unicode :
  forall E o d b l out m,
  mk_prep_config d = Ok d -> py_ascii E -> splitters_ascii o ->
  (is_bpe d = true -> exists bd merges, b = Some bd /\ usable bd merges) ->
  param d EN_ONLY = lit "U" -> spaceless E l -> marked E l ->
  to_repr E o d b l = Ok (out, m) ->
  Forall (Forall shown) out.
Proof.
  intros E o d b l out m Hd HE [Ho1 Ho2] Hb Hen Hsp Hm Hto.
  destruct (to_repr_segs _ _ _ _ _ _ _ Hto) as (rc & ss & Hrc & Hss & -> & Hnb & Hbo & _).
  assert (Hne : in_types rc CNonEng = true).
  { unfold in_types. rewrite (repr_config_types _ _ _ _ Hrc), types_in. unfold param_in. rewrite Hen. reflexivity. }
  assert (Hf : Forall (fun s => Forall (Forall shown) (s_toks s)) ss).
  { eapply segs_list_with_forall; [|exact Hss].
    apply Forall_forall. intros t Ht r Hr.
    assert (Hsub : forall u, In u (subterms t) -> In u (all_tokens l)).
    { intros u Hu. apply in_concat. exists (subterms t). split; [apply in_map, Ht|exact Hu]. }
    refine (segs_shown E rc HE Hne _ _ _ t r _ _ Hr).
    - destruct (is_bpe d) eqn:Hbd.
      + intros _. destruct (Hb eq_refl) as (bd & merges & -> & _).
        destruct (repr_config_bpe _ _ _ _ Hrc Hbd) as (E1 & E2 & E3 & E4 & E5 & E6 & E7). exact E5.
      + rewrite (repr_config_not_bpe _ _ _ _ Hrc Hbd). discriminate.
    - intros v ws Hv Hw. unfold splittable in Hv. destruct (is_bpe d) eqn:Hbd.
      + destruct (Hb eq_refl) as (bd & merges & -> & (U1 & U2 & U3)).
        destruct (repr_config_bpe _ _ _ _ Hrc Hbd) as (E1 & E2 & E3 & E4 & E5 & E6 & E7). rewrite E3 in Hv. cbn [is_some] in Hv.
        rewrite E1 in Hw. cbn [bpe_call] in Hw.
        destruct (C16_subwords_concatenate bd merges v U1 U2 U3 (proj2 Hv)) as (ws' & Hw' & Hc & _).
        rewrite Hw in Hw'. injection Hw' as <-. apply Forall_forall. intros x Hx. apply Forall_forall. intros c Hcx.
        destruct Hv as [Hv _]. rewrite Forall_forall in Hv. apply Hv. unfold str in *. rewrite <- Hc.
        apply in_concat. exists x. auto.
      + rewrite (repr_config_not_bpe _ _ _ _ Hrc Hbd) in Hv.
        assert (Hx : ws = [v] \/ ws = map (fun c => [c]) v).
        { clear -Hrc Hbd Hw. unfold get_repr_config in Hrc. rewrite Hbd in Hrc. unfold get_number_splitter in Hrc.
          unfold is_bpe in Hbd. rewrite Hbd in Hrc.
          destruct (param_in d SPLIT "0F1").
          - cbn [bind] in Hrc. apply bind_ok in Hrc. destruct Hrc as (? & _ & Hrc). apply bind_ok in Hrc.
            destruct Hrc as (? & _ & [= <-]). cbn [number_splitter] in Hw. injection Hw as <-. auto.
          - destruct (param_in d SPLIT "23s"); [|discriminate]. cbn [bind] in Hrc.
            apply bind_ok in Hrc. destruct Hrc as (? & _ & Hrc). apply bind_ok in Hrc.
            destruct Hrc as (? & _ & [= <-]). cbn [number_splitter] in Hw. injection Hw as <-. auto. }
        destruct Hx as [->| ->]; [constructor; [apply ascii_shown, Hv|constructor]|].
        apply Forall_map. eapply Forall_impl; [|apply ascii_shown, Hv]. intros c Hc. constructor; [exact Hc|constructor].
    - intros v ws Hv Hw. unfold splittable in Hv. destruct (is_bpe d) eqn:Hbd.
      + destruct (Hb eq_refl) as (bd & merges & -> & (U1 & U2 & U3)).
        destruct (repr_config_bpe _ _ _ _ Hrc Hbd) as (E1 & E2 & E3 & E4 & E5 & E6 & E7). rewrite E3 in Hv. cbn [is_some] in Hv.
        unfold split_word in Hw. rewrite E2 in Hw. cbn [bpe_call] in Hw.
        destruct (C16_subwords_concatenate bd merges v U1 U2 U3 (proj2 Hv)) as (ws' & Hw' & Hc & _).
        rewrite Hw in Hw'. injection Hw' as <-. apply Forall_forall. intros x Hx. apply Forall_forall. intros c Hcx.
        destruct Hv as [Hv _]. rewrite Forall_forall in Hv. apply Hv. unfold str in *. rewrite <- Hc.
        apply in_concat. exists x. auto.
      + rewrite (repr_config_not_bpe _ _ _ _ Hrc Hbd) in Hv.
        assert (Hx : ws = [v] \/ ws = ronin_split o v \/ ws = map (stem o) (ronin_split o v)).
        { clear -Hrc Hbd Hw. unfold get_repr_config in Hrc. rewrite Hbd in Hrc. unfold get_word_splitter in Hrc.
          unfold is_bpe in Hbd. rewrite Hbd in Hrc.
          apply bind_ok in Hrc. destruct Hrc as (? & _ & Hrc).
          apply bind_ok in Hrc. destruct Hrc as (wsp & Hwsp & Hrc). apply bind_ok in Hrc.
          destruct Hrc as (? & _ & [= <-]). unfold split_word in Hw. cbn [word_splitter] in Hw.
          destruct (param_in d SPLIT "12"); [injection Hwsp as <-; injection Hw as <-; auto|].
          destruct (param_in d SPLIT "3"); [injection Hwsp as <-; injection Hw as <-; auto|].
          destruct (param_in d SPLIT "s"); [injection Hwsp as <-; injection Hw as <-; auto|].
          destruct (param_in d SPLIT "0F"); [injection Hwsp as <-; discriminate|discriminate]. }
        destruct Hx as [->|[->| ->]].
        * constructor; [apply ascii_shown, Hv|constructor].
        * eapply Forall_impl; [|apply Ho1, Hv]. intros x. apply ascii_shown.
        * apply Forall_map. eapply Forall_impl; [|apply Ho1, Hv]. intros x Hx. apply ascii_shown, Ho2, Hx.
    - intros u Hu. apply Hsp, Hsub, Hu.
    - intros u Hu. apply Hm, Hsub, Hu. }
  destruct (is_bpe d) eqn:Hbd.
  - destruct (Hbo eq_refl) as [_ ->]. clear -Hf. induction Hf as [|s ss Hs Hf IH]; [constructor|].
    cbn [map List.concat]. apply Forall_app. split; [apply mark_shown, Hs|exact IH].
  - rewrite Hnb by reflexivity. clear -Hf. induction Hf as [|s ss Hs Hf IH]; [constructor|].
    cbn [map List.concat]. apply Forall_app. split; [exact Hs|exact IH].
Qed.
Print Assumptions C09_no_unicode.

(** a single character that is not part of a word is kept also if it is not ascii *)
Theorem C09_refuted :
  exists d l out m, mk_prep_config d = Ok d /\ param d EN_ONLY = lit "U" /\
  to_repr ascii_case no_splitters d None l = Ok (out, m) /\ ~ Forall (Forall shown) out.
Proof.
  exists (combine prep_params (chars_of "Uc11su")), [NonProc NpNonCodeChar [8220%N]]. do 2 eexists.
  split; [reflexivity|]. split; [reflexivity|]. split; [reflexivity|].
  intros H. inversion H as [|x l' H1 H2]; subst. inversion H1 as [|c r H3 H4]; subst.
  destruct H3 as [H3|[H3|H3]]; try discriminate.
Qed.
Print Assumptions C09_refuted.

Example C09_example :
  let l := [NonEng [Word (lit "caf" ++ [233%N]) CapUndefined]; Number (lit "42");
            StringLiteral [NonProc NpNonCodeChar [34%N]; NonEng [Word [233%N] CapUndefined]; NonProc NpNonCodeChar [34%N]] 3] in
  marked ascii_case l /\
  match to_repr ascii_case no_splitters (combine prep_params (chars_of "Uc1Fsu")) None l with Ok r => fst r | Err _ => [] end
  = [lit "<non-en>"; lit "42"; [34%N; 247%N; 34%N]].
Proof.
  cbv zeta. split; [|reflexivity]. intros t Ht. vm_compute in Ht.
  repeat (destruct Ht as [<-|Ht]; [first [exact I | repeat constructor]|]). destruct Ht.
Qed.
