(** C104: with bpe the vocabulary is closed: characters, one subtoken for each merge, and the tokens that are not split. *)
From Verif Require Import M_Base L_Base M_Tokens M_Repr L_Repr M_Literal M_Merge L_Merge M_BpeEncode S_Bpe L_Bpe
  L_BpeEncode P_Merge P_Bpe M_PrepConfig P_Repr.
From Verif Require Import M_Regex M_Parse P_Parse P_ParseRepr P_Coarse.
From Coq Require Import Arith Lia.

(** how the joined text of a merge is written in the output.  In merges an at sign is written twice, and a single one is the end
    of the word: so their number is odd at the end of a word *)
Definition at_signs (s : str) : nat := length (filter (N.eqb at_ch) s).
Definition shown (s : str) : str :=
  if Nat.odd (at_signs s) then replace [at_ch; at_ch] at_str (removelast s) ++ ph_compound_word_end
  else replace [at_ch; at_ch] at_str s.

(** a character, the result of a merge, or the mere end of a word *)
Definition piece (merges : list pair) (x : str) : Prop :=
  (exists c, x = [c]) \/ (exists p, In p merges /\ x = shown (fst p ++ snd p)) \/ x = ph_compound_word_end.

(** tokens that are not split: a mark for what is hidden, or one of two numbers *)
Definition special (x : str) : Prop :=
  In x (map (fun y => y ++ ph_compound_word_end) [lit "0"; lit "1"; ph_comment; ph_string_literal; ph_olc_end]).

(** ** Words *)
Lemma merge_pair_symbols p s x : In x (merge_pair p s) -> In x s \/ x = fst p ++ snd p.
Proof.
  revert x. induction s as [|a|a b t IH1 IH2] using list_ind2; intros x; [intros []|auto|].
  rewrite merge_pair_cons2. destruct (is_pair p a b) eqn:E.
  - apply is_pair_eq in E. subst p. intros [<-|H]; [auto|]. destruct (IH1 _ H); [left; right; right; assumption|auto].
  - intros [<-|H]; [left; left; reflexivity|]. destruct (IH2 _ H); [left; right; assumption|auto].
Qed.

Lemma steps_symbols m s r : bpe_steps m s r -> forall x, In x r -> In x s \/ exists p, In p m /\ x = fst p ++ snd p.
Proof.
  induction 1 as [s|s s' s'' (i & p & Hi & _ & _ & ->) _ IH]; intros x Hx; [auto|].
  destruct (IH x Hx) as [H|H]; [|auto]. destruct (merge_pair_symbols _ _ _ H) as [H1|H1]; [auto|].
  right. exists p. split; [eapply nth_error_In, Hi|exact H1].
Qed.

Lemma at_signs_app a b : at_signs (a ++ b) = at_signs a + at_signs b.
Proof. unfold at_signs. rewrite filter_app, app_length. reflexivity. Qed.
Lemma at_signs_units u : Nat.odd (at_signs (List.concat (map unit_of u))) = false.
Proof.
  induction u as [|c u IH]; [reflexivity|]. cbn [map List.concat]. rewrite at_signs_app, Nat.odd_add, IH, xorb_false_r.
  unfold unit_of, at_signs. destruct (N.eqb_spec c at_ch) as [->|H]; [reflexivity|]. cbn [filter].
  destruct (N.eqb_spec at_ch c); [congruence|reflexivity].
Qed.

Lemma shown_inner u : shown (List.concat (map unit_of u)) = u.
Proof. unfold shown. rewrite at_signs_units. apply replace_double. Qed.
Lemma shown_last u : shown (List.concat (map unit_of u) ++ at_str) = u ++ ph_compound_word_end.
Proof.
  unfold shown. rewrite at_signs_app, Nat.odd_add, at_signs_units. change (Nat.odd (at_signs at_str)) with true. cbn [xorb].
  unfold at_str at 2. rewrite removelast_last, replace_double. reflexivity.
Qed.

Lemma shown_unit c : shown (unit_of c) = [c].
Proof. rewrite <- (shown_inner [c]). cbn [map List.concat]. rewrite app_nil_r. reflexivity. Qed.

Lemma unescaped_shown gs w ws : List.concat gs = map unit_of w ++ [at_str] -> Forall (fun g => g <> []) gs ->
  unescape (map (@List.concat N) gs) = Ok ws -> mark ws = map shown (map (@List.concat N) gs).
Proof.
  intros Ec Hne U. destruct (last_group _ _ _ Ec Hne) as (gs1 & g & -> & E1).
  assert (Ew : exists vs, gs1 ++ [g] = map (map unit_of) vs /\ List.concat vs = w).
  { apply map_concat_inv. rewrite concat_app. simpl. rewrite app_nil_r. exact E1. }
  destruct Ew as (vs & Eg & _). destruct vs as [|v vs _] using rev_ind; [destruct gs1; discriminate|].
  rewrite map_app in Eg. cbn [map] in Eg. apply app_inj_tail in Eg. destruct Eg as [-> ->].
  rewrite !map_app in *. cbn [map] in *. rewrite concat_app in *. change (List.concat [at_str]) with [at_ch] in *.
  rewrite unescape_snoc in U. injection U as <-. unfold mark. rewrite map_app. cbn [map]. rewrite removelast_last, last_last. f_equal.
  - rewrite !map_map. apply map_ext. intros a. rewrite shown_inner. apply replace_double.
  - rewrite replace_double. f_equal. symmetry. apply shown_last.
Qed.

Theorem C104_word b l w ws : usable b l -> ~ In 32%N w -> get_bpe_subwords b w = Ok ws ->
  Forall (piece (map fst l)) (mark ws).
Proof.
  intros (Hb & Hnd & Hf) Hw Hg.
  assert (exists r, bpe_result (map fst l) (map unit_of w ++ [at_str]) r /\ unescape r = Ok ws) as (r & [Hr _] & U).
  { unfold get_bpe_subwords in Hg. destruct (dget (bd_cache b) (escape w true)) as [parts|] eqn:Ec.
    - exists parts. split; [apply (Hf w parts Ec)|exact Hg].
    - destruct (encode_word_spec l w Hnd Hw) as (r & Er & Hr). exists r. split; [exact Hr|].
      rewrite (built_ml_from _ _ Hb Hnd), Er in Hg. exact Hg. }
  pose proof (steps_symbols _ _ _ Hr) as S. destruct (bpe_result_groups _ _ _ Hr) as (gs & -> & E2 & E3).
  rewrite (unescaped_shown gs w ws E2 E3 U). apply Forall_map, Forall_forall. intros x Hx.
  destruct (S x Hx) as [H|(p & Hp & ->)]; [|right; left; eauto]. apply in_app_or in H. destruct H as [H|[<-|[]]].
  - apply in_map_iff in H. destruct H as (c & <- & _). left. exists c. apply shown_unit.
  - right. right. apply (shown_last []).
Qed.
Print Assumptions C104_word.

(** ** Outputs *)
Definition closed_seg (merges : list pair) (s : seg) : Prop :=
  Forall (fun x => piece merges x \/ special x \/ exists y, In y (s_np s) /\ x = y ++ ph_compound_word_end) (mark (s_toks s)).

(** spaces in strings are inside of strings *)
Fixpoint no_loose_space (t : token) : bool :=
  match t with
  | SpaceInString _ => false
  | OneLineComment l | MultilineComment l => forallb no_loose_space l
  | _ => true
  end.

Lemma segs_closed E rc b (l : list (pair * option Z)) t r :
  py_ascii E -> (forall w ws, ~ In 32%N w -> get_bpe_subwords b w = Ok ws -> Forall (piece (map fst l)) (mark ws)) ->
  bpe rc = true -> in_types rc CSplitContainer = true -> in_types rc CNumber = true -> full_strings rc = false ->
  number_splitter rc = bpe_call (Some b) -> word_splitter rc = Some (bpe_call (Some b)) ->
  (forall u, In u (subterms t) -> is_text u = true -> ~ In 32%N (tok_str E u)) -> no_loose_space t = true ->
  segs E rc t = Ok r -> Forall (closed_seg (map fst l)) r.
Proof.
  intros HE HJ Hb Hsc Hnum Hfs Hns Hws.
  assert (Hone : forall c ws np, Forall (piece (map fst l)) (mark ws) -> Forall (closed_seg (map fst l)) (one_seg c ws np)).
  { intros c ws np H. constructor; [|constructor]. unfold closed_seg. cbn [s_toks]. eapply Forall_impl; [|exact H]. auto. }
  assert (Hspec : forall c x np, special (x ++ ph_compound_word_end) -> Forall (closed_seg (map fst l)) (one_seg c [x] np)).
  { intros c x np H. constructor; [|constructor]. unfold closed_seg, mark. cbn [s_toks removelast last app]. auto. }
  assert (Hnp : forall c x, Forall (closed_seg (map fst l)) (one_seg c [x] [x])).
  { intros c x. constructor; [|constructor]. unfold closed_seg, mark. cbn [s_toks removelast last app s_np].
    constructor; [|constructor]. right. right. exists x. split; [left; reflexivity|reflexivity]. }
  assert (Hre : forall c rs, Forall (closed_seg (map fst l)) rs -> Forall (closed_seg (map fst l)) (map (retype c) rs)).
  { intros c rs H. apply Forall_map. exact H. }
  assert (Hsplit : forall k r, ~ In 32%N (split_str E k) -> segs_split E rc k = Ok r -> Forall (closed_seg (map fst l)) r).
  { intros k r' Hl. unfold segs_split. rewrite Hsc, Hb, bind_ok. intros (ws & Hw & [= <-]).
    unfold split_word in *. rewrite Hws in Hw. apply Hone, (HJ _ _ Hl Hw). }
  assert (Hlist : forall k r,
    Forall (fun t => forall r, (forall u, In u (subterms t) -> is_text u = true -> ~ In 32%N (tok_str E u)) ->
                     no_loose_space t = true -> segs E rc t = Ok r -> Forall (closed_seg (map fst l)) r) k ->
    (forall u, In u (List.concat (map subterms k)) -> is_text u = true -> ~ In 32%N (tok_str E u)) ->
    forallb no_loose_space k = true ->
    segs_list_with (fun _ => true) (segs E rc) k = Ok r -> Forall (closed_seg (map fst l)) r).
  { intros k r' Hf. revert r'. induction Hf as [|x k Hx Hf IH]; intros r' Hsp Hls; cbn [segs_list_with].
    - intros [= <-]. constructor.
    - rewrite bind_ok. intros (rx & Hrx & H). apply bind_ok in H. destruct H as (rs & Hrs & [= <-]).
      cbn [map List.concat] in Hsp. cbn [forallb] in Hls. apply andb_true_iff in Hls. destruct Hls as [L1 L2].
      apply Forall_app. split; [apply (Hx rx)|apply (IH rs)]; try assumption; intros u Hu; apply Hsp, in_or_app; auto. }
  revert r. induction t using token_nested_ind; intros r Hsp Hls; cbn [segs].
  - destruct (in_types rc CNewLine); intros [= <-]; [constructor|apply Hnp].
  - destruct (in_types rc CTab); intros [= <-]; [constructor|apply Hnp].
  - discriminate.
  - rewrite Hnum, bind_ok. intros (ws & Hw & [= <-]). rewrite Hns in Hw. rewrite Hb, andb_false_r.
    apply Hone. apply (HJ v); [|exact Hw]. apply (Hsp (Number v)); [left; reflexivity|reflexivity].
  - intros [= <-]. apply Hspec. right. left. reflexivity.
  - intros [= <-]. apply Hspec. left. reflexivity.
  - intros [= <-]. apply Hnp.
  - apply Hsplit. apply (Hsp (SplitContainer l0)); [left; reflexivity|reflexivity].
  - assert (Hl : ~ In 32%N (split_str E l0)) by (apply (Hsp (NonEng l0)); [left; reflexivity|reflexivity]).
    destruct (in_types rc CNonEng); [|apply Hsplit; exact Hl]. rewrite Hb.
    rewrite bind_ok. intros (s & Hs & H). apply bind_ok in H. destruct H as (w & Hw & H).
    apply (Hsplit [w]) in H; [exact H|].
    unfold split_str. cbn [map List.concat]. rewrite app_nil_r. intros Hin.
    assert (Hf : Forall (fun c => c <> 32%N) (subtoken_str E w)).
    { apply (word_from_chars E _ s w HE case_not_space); [eapply replace_non_ascii_plain, Hs| |exact Hw].
      apply Forall_forall. intros c Hc ->. exact (replace_non_ascii_no_space _ _ Hs Hl Hc). }
    rewrite Forall_forall in Hf. exact (Hf _ Hin eq_refl).
  - destruct (in_types rc COneLineComment); [intros [= <-]; apply Hspec; do 2 right; left; reflexivity|].
    rewrite bind_ok. intros (rs & Hrs & [= <-]). apply Forall_app. split; [|apply Hspec; do 4 right; left; reflexivity].
    apply Hre, (Hlist l0 rs H); [|exact Hls|exact Hrs]. intros u Hu. apply Hsp. right. exact Hu.
  - destruct (in_types rc CMultilineComment); [intros [= <-]; apply Hspec; do 2 right; left; reflexivity|].
    rewrite bind_ok. intros (rs & Hrs & [= <-]).
    apply Hre, (Hlist l0 rs H); [|exact Hls|exact Hrs]. intros u Hu. apply Hsp. right. exact Hu.
  - destruct (in_types rc CStringLiteral); [intros [= <-]; apply Hspec; do 3 right; left; reflexivity|].
    destruct (max_str_length rc) as [mx|]; [|discriminate]. rewrite Hfs, Hb.
    destruct (mx <? n)%Z.
    { intros [= <-]. constructor; [|constructor]. unfold closed_seg, mark. cbn [s_toks removelast last app s_np].
      constructor; [left; left; exists 34%N; reflexivity|]. constructor; [|constructor].
      right. right. exists s_quote. split; [left; reflexivity|reflexivity]. }
    rewrite bind_ok. intros (s & Hs & H'). apply bind_ok in H'. destruct H' as (w & Hw & [= <-]).
    unfold split_word in *. rewrite Hws in Hw. apply Hone. apply (HJ s); [|exact Hw].
    intros Hin. destruct (string_text_chars _ _ _ _ _ Hs Hin) as [[_ H0]|[_ [?|[?|[H0 _]]]]]; try discriminate;
        apply (Hsp (StringLiteral l0 n)) in H0; auto; left; reflexivity.
Qed.

Lemma output_closed E o d b l tokens out m :
  py_ascii E -> usable b l -> is_bpe d = true -> spaceless E tokens -> forallb no_loose_space tokens = true ->
  to_repr E o d (Some b) tokens = Ok (out, m) ->
  Forall (fun x => piece (map fst l) x \/ special x \/ exists y, In y (nonproc m) /\ x = y ++ ph_compound_word_end) out.
Proof.
  intros HE Hu Hd Hsp Hls H.
  destruct (to_repr_segs _ _ _ _ _ _ _ H) as (rc & ss & Hrc & Hss & -> & _ & Hbo & _).
  destruct (Hbo Hd) as [Hne ->].
  destruct (repr_config_bpe _ _ _ _ Hrc Hd) as (Hns & Hws & Hb & Hfs & Hsc & _ & Hnum).
  assert (HC : Forall (closed_seg (map fst l)) ss).
  { clear Hne Hbo H. unfold segs_list in Hss. unfold spaceless, all_tokens in Hsp.
    revert ss Hss. induction tokens as [|x tokens IH]; intros ss; cbn [segs_list_with].
    - intros [= <-]. constructor.
    - rewrite bind_ok. intros (rx & Hrx & H). apply bind_ok in H. destruct H as (rs & Hrs & [= <-]).
      cbn [map List.concat] in Hsp. cbn [forallb] in Hls. apply andb_true_iff in Hls. destruct Hls as [L1 L2]. apply Forall_app. split.
      + apply (segs_closed E rc b l x rx); try assumption.
        * intros w ws Hw Hg. exact (C104_word b l w ws Hu Hw Hg).
        * intros u Hu'. apply Hsp, in_or_app. left. exact Hu'.
      + apply (IH); try assumption. intros u Hu'. apply Hsp, in_or_app. right. exact Hu'. }
  unfold flat. cbn [snd nonproc]. apply Forall_forall. intros x Hx. apply in_concat in Hx. destruct Hx as (y & Hy & Hx).
  apply in_map_iff in Hy. destruct Hy as (s & <- & Hs). rewrite Forall_forall in HC. specialize (HC _ Hs).
  unfold closed_seg in HC. rewrite Forall_forall in HC. destruct (HC _ Hx) as [K|[K|(y & K & K1)]]; [auto|auto|].
  right. right. exists y. split; [|exact K1]. apply in_concat. exists (s_np s). split; [apply in_map, Hs|exact K].
Qed.

(** ** The parser puts no space marks outside of strings *)
Section Parser.
  Variables (E : pycase) (K : charclass).
  Lemma parsed_no_loose w t : to_parsed_token E K w = Ok t -> no_loose_space t = true.
  Proof.
    unfold to_parsed_token. destruct (eqb w s_nl); [intros [= <-]; reflexivity|]. destruct (eqb w s_tab); [intros [= <-]; reflexivity|].
    destruct (is_number w). { intros [= <-]. unfold mk_number. repeat match goal with |- context [if ?c then _ else _] => destruct c end; reflexivity. }
    destruct (fullmatch _ w); [|intros [= <-]; reflexivity]. unfold split_identifier. rewrite bind_ok. intros (subs & _ & [= <-]).
    destruct (is_non_eng w); reflexivity.
  Qed.
  Lemma words_no_loose s l : split_into_words E K s = Ok l -> forallb no_loose_space l = true.
  Proof.
    unfold split_into_words. generalize (finditer (words_re K) s) as ms. intros ms. revert l.
    induction ms as [|x ms IH]; intros l; cbn [mapM]; [intros [= <-]; reflexivity|].
    rewrite bind_ok. intros (t & Ht & H). apply bind_ok in H. destruct H as (ts & Hts & [= <-]). cbn [forallb]. rewrite (IH _ Hts), andb_true_r.
    destruct (eqb x four_spaces); [injection Ht as <-; reflexivity|eapply parsed_no_loose, Ht].
  Qed.
  Lemma convert_no_loose t v l : convert E K t v = Ok l -> forallb no_loose_space l = true.
  Proof.
    unfold convert. destruct (eqb v s_nl); [intros [= <-]; reflexivity|]. destruct (eqb v s_tab); [intros [= <-]; reflexivity|].
    destruct (blank K v). { generalize (length v / 4) as k. intros k [= <-]. induction k; [reflexivity|assumption]. }
    destruct (_ || _)%bool. { intros [= <-]. unfold operator_token. repeat match goal with |- context [if ?c then _ else _] => destruct c end; reflexivity. }
    destruct (type_in t _). { intros [= <-]. unfold number_token, mk_number. repeat match goal with |- context [if ?c then _ else _] => destruct c end; reflexivity. }
    destruct (type_in t _); [apply words_no_loose|]. destruct (_ || _)%bool; [apply words_no_loose|].
    destruct (type_in t _); [intros [= <-]; reflexivity|].
    destruct (type_in t _). { rewrite bind_ok. intros (k & _ & [= <-]). reflexivity. }
    destruct (type_is t _). { rewrite bind_ok. intros (k & Hk & [= <-]). cbn [forallb no_loose_space]. rewrite (words_no_loose _ _ Hk). reflexivity. }
    destruct (type_in t _); [|apply words_no_loose].
    rewrite bind_ok. intros (k & Hk & [= <-]). cbn [forallb no_loose_space]. rewrite (words_no_loose _ _ Hk). reflexivity.
  Qed.
  Lemma text_no_loose lexed l : convert_text E K lexed = Ok l -> forallb no_loose_space l = true.
  Proof.
    revert l. induction lexed as [|[t v] rest IH]; intros l; cbn [convert_text]; [intros [= <-]; reflexivity|].
    rewrite bind_ok. intros (a & Ha & H). apply bind_ok in H. destruct H as (r & Hr & [= <-]).
    rewrite forallb_app, (convert_no_loose _ _ _ Ha), (IH _ Hr). reflexivity.
  Qed.
End Parser.

(** From the tokens of the lexer: whatever the text, each token of the output is a character, the result of one of the merges, the mere
    end of a word, a mark for what is hidden, 0, 1, or one of the tokens that are listed as not processed. *)
Theorem C104_output : forall E K o d b l lexed tokens out m,
  py_ascii E -> py_text E -> ascii_classes K -> lexer_ok lexed -> usable b l -> is_bpe d = true ->
  convert_text E K lexed = Ok tokens -> to_repr E o d (Some b) tokens = Ok (out, m) ->
  Forall (fun x => piece (map fst l) x \/ special x \/ exists y, In y (nonproc m) /\ x = y ++ ph_compound_word_end) out.
Proof.
  intros E K o d b l lexed tokens out m HE HT HK HL Hu Hd Hl H.
  destruct (C61_parser_output E K lexed tokens HK HT HL Hl) as (Hs & _ & _).
  exact (output_closed E o d b l tokens out m HE Hu Hd Hs (text_no_loose E K lexed tokens Hl) H).
Qed.
Print Assumptions C104_output.

(** So the number of different tokens in the outputs of any number of texts, preprocessed with the same merges and any
    options, has a bound that does not depend on the texts: of those longer than a character there are at most one more than merges, apart from
    the marks for what is hidden, 0, 1, and the tokens listed as not processed. *)
Definition comes_from (E : pycase) (K : charclass) (o : splitters) (b : bpe_data) (x : str) : Prop :=
  exists d lexed tokens out m, is_bpe d = true /\ lexer_ok lexed /\ convert_text E K lexed = Ok tokens /\
    to_repr E o d (Some b) tokens = Ok (out, m) /\ In x out /\ length x <> 1 /\ ~ special x /\
    (forall y, In y (nonproc m) -> x <> y ++ ph_compound_word_end).

Theorem C104_size : forall E K o b l xs,
  py_ascii E -> py_text E -> ascii_classes K -> usable b l ->
  NoDup xs -> Forall (comes_from E K o b) xs -> length xs <= S (length l).
Proof.
  intros E K o b l xs HE HT HK Hu Hnd Hx.
  replace (S (length l)) with (length (ph_compound_word_end :: map (fun p => shown (fst p ++ snd p)) (map fst l))).
  2:{ cbn [length]. rewrite !map_length. reflexivity. }
  apply NoDup_incl_length; [exact Hnd|]. intros x H. rewrite Forall_forall in Hx.
  destruct (Hx x H) as (d & lexed & tokens & out & m & Hd & HL & Hc & Hr & Hi & Hlen & Hs & Hn).
  pose proof (C104_output E K o d b l lexed tokens out m HE HT HK HL Hu Hd Hc Hr) as HO.
  rewrite Forall_forall in HO. destruct (HO x Hi) as [[(c & ->)|[(p & Hp & ->)| ->]]|[K1|(y & Hy & ->)]].
  - destruct (Hlen eq_refl).
  - right. apply in_map_iff. exists p. auto.
  - left. reflexivity.
  - contradiction.
  - destruct (Hn y Hy eq_refl).
Qed.
Print Assumptions C104_size.

(** With the first n merges of a file (that lists no pair twice): at most n + 1. *)
Theorem C104_file : forall E K o content ml n mn xs,
  py_ascii E -> py_text E -> ascii_classes K ->
  read_merges content None = Ok ml -> length ml = length (file_lines content) -> 0 < n -> read_merges content (Some n) = Ok mn ->
  NoDup xs -> Forall (comes_from E K o {| bd_merges := mn; bd_cache := [] |}) xs -> length xs <= S n.
Proof.
  intros E K o content ml n mn xs HE HT HK Hr Hl Hp Hn Hnd Hx.
  assert (Z : exists l, NoDup (map fst l) /\ ml = ml_from 0 l).
  { unfold read_merges in Hr. destruct (read_loop_appends _ _ _ _ Hr) as (es & He & Ha).
    pose proof (mapM_length _ _ _ He) as HL.
    destruct (appends_len ml_empty (entry_ops 0 es) ml (NoDup_nil _) Ha) as [_ Hd].
    rewrite entry_ops_length in Hd. cbn [length ml_empty dkeys map app] in Hd. specialize (Hd ltac:(simpl; lia)).
    pose proof (appends_nodup [] (entry_ops 0 es) ml Hd Ha) as ->. eexists. split; [|reflexivity].
    cbn [app]. rewrite map_map. exact Hd. }
  destruct Z as (l & Hl2 & ->). rewrite (C23_prefix _ _ n Hr Hl) in Hn by lia. rewrite ml_from_firstn in Hn. injection Hn as <-.
  assert (U : usable {| bd_merges := ml_from 0 (firstn n l); bd_cache := [] |} (firstn n l)).
  { assert (Nj : NoDup (map fst (firstn n l))) by (rewrite <- firstn_map; apply NoDup_firstn; exact Hl2).
    split; [apply built_from; exact Nj|]. split; [exact Nj|]. intros x parts Hy. discriminate. }
  pose proof (C104_size E K o _ _ xs HE HT HK U Hnd Hx) as R. rewrite firstn_length in R. lia.
Qed.
Print Assumptions C104_file.

(** The bound is reached: three merges, and four such tokens in the output for ab abc x *)
Definition ex_closed : list (pair * option Z) :=
  [((lit "a", lit "b"), Some 3%Z); ((lit "ab", lit "@"), Some 2%Z); ((lit "c", lit "@"), Some 1%Z)].
Definition ex_closed_data : bpe_data := {| bd_merges := ml_from 0 ex_closed; bd_cache := [] |}.
Definition ex_closed_lexed : list (token_type * str) :=
  [(["Name"]%string, lit "ab"); (["Text"]%string, lit " "); (["Name"]%string, lit "abc"); (["Operator"]%string, lit "=");
   (["Name"]%string, lit "x"); (["Literal"; "Number"]%string, lit "1")].

Example C104_ex :
  let xs := [lit "ab"; lit "ab</t>"; lit "c</t>"; lit "</t>"] in
  usable ex_closed_data ex_closed /\ NoDup xs /\ Forall (comes_from ascii_case ascii_K no_splitters ex_closed_data) xs /\
  length xs = S (length ex_closed) /\
  (exists tokens m, convert_text ascii_case ascii_K ex_closed_lexed = Ok tokens /\
     to_repr ascii_case no_splitters ex_config (Some ex_closed_data) tokens
     = Ok ([lit "ab</t>"; lit "ab"; lit "c</t>"; lit "=</t>"; lit "x"; lit "</t>"; lit "1</t>"], m)).
Proof.
  cbv zeta.
  assert (R : exists tokens m, convert_text ascii_case ascii_K ex_closed_lexed = Ok tokens /\
     to_repr ascii_case no_splitters ex_config (Some ex_closed_data) tokens
     = Ok ([lit "ab</t>"; lit "ab"; lit "c</t>"; lit "=</t>"; lit "x"; lit "</t>"; lit "1</t>"], m) /\ nonproc m = [lit "="]).
  { do 2 eexists. split; [vm_compute; reflexivity|]. split; [vm_compute; reflexivity|]. vm_compute. reflexivity. }
  destruct R as (tokens & m & R1 & R2 & R3).
  assert (Nd : NoDup (map fst ex_closed)) by (repeat constructor; cbn; intuition discriminate).
  split. { split; [apply built_from; exact Nd|]. split; [exact Nd|]. intros x parts Hy. discriminate. }
  split; [repeat constructor; cbn; intuition discriminate|]. split; [|split; [reflexivity|eauto]].
  assert (L : lexer_ok ex_closed_lexed) by (repeat constructor; cbn; try discriminate; intuition discriminate).
  assert (Hx : forall x, In x [lit "ab"; lit "ab</t>"; lit "c</t>"; lit "</t>"] -> length x <> 1 -> ~ special x ->
    x <> lit "=</t>" -> In x [lit "ab</t>"; lit "ab"; lit "c</t>"; lit "=</t>"; lit "x"; lit "</t>"; lit "1</t>"] ->
    comes_from ascii_case ascii_K no_splitters ex_closed_data x).
  { intros x _ H1 H2 H3 H4. exists ex_config, ex_closed_lexed, tokens. eexists. exists m. split; [reflexivity|]. split; [exact L|].
    split; [exact R1|]. split; [exact R2|]. split; [exact H4|]. split; [exact H1|]. split; [exact H2|].
    intros y Hy. rewrite R3 in Hy. destruct Hy as [<-|[]]. exact H3. }
  repeat constructor; apply Hx; try (cbn; intuition discriminate); try discriminate; cbn; intuition discriminate.
Qed.
