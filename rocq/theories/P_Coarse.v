(** C96: more merges only join subtokens. *)
From Verif Require Import M_Base L_Base M_Tokens M_Repr L_Repr M_Literal M_Merge L_Merge M_BpeEncode S_Bpe L_Bpe
  L_BpeEncode M_Learn P_Queue L_Learn P_Learn P_Merge P_Bpe M_PrepConfig P_Repr.
From Verif Require Import M_Regex M_Parse P_Parse P_ParseRepr.
From Coq Require Import Arith Lia.

(** [b] is [a] with neighbours joined: [a] is cut into groups that are not empty, and each group is one part of [b] *)
Definition joined (a b : list str) : Prop :=
  exists gs, List.concat gs = a /\ map (@List.concat N) gs = b /\ Forall (fun g => g <> []) gs.

Lemma joined_refl a : joined a a.
Proof.
  exists (map (fun x => [x]) a). split; [apply singleton_groups|]. split.
  - rewrite map_map. rewrite <- (map_id a) at 2. apply map_ext. intros x. apply app_nil_r.
  - apply Forall_map, Forall_forall. discriminate.
Qed.
Lemma joined_app a b a' b' : joined a b -> joined a' b' -> joined (a ++ a') (b ++ b').
Proof.
  intros (g & <- & <- & H) (g' & <- & <- & H'). exists (g ++ g'). rewrite concat_app, map_app, Forall_app. auto.
Qed.
Lemma joined_length a b : joined a b -> length b <= length a.
Proof.
  intros (gs & <- & <- & H). induction H as [|g gs Hg H IH]; [apply le_n|]. cbn [List.concat map length].
  rewrite app_length. destruct g; [congruence|]. cbn [length]. lia.
Qed.
Lemma joined_concat a b : joined a b -> List.concat b = List.concat a.
Proof.
  intros (gs & <- & <- & _). induction gs as [|g gs IH]; [reflexivity|]. cbn [List.concat map]. rewrite concat_app, IH. reflexivity.
Qed.
Lemma joined_nil a b : joined a b -> a <> [] -> b <> [].
Proof. intros (gs & <- & <- & H) Na. destruct gs; [contradiction|discriminate]. Qed.

(** ** Textbook encoding with a longer list of merges *)
Lemma bpe_step_longer m x s s' : bpe_step m s s' -> bpe_step (m ++ x) s s'.
Proof.
  intros (i & p & Hi & Ha & Hm & ->). pose proof (proj1 (nth_error_Some m i) ltac:(congruence)) as L.
  exists i, p. repeat split; try assumption.
  - rewrite nth_error_app1 by exact L. exact Hi.
  - intros j q Hj Hq. apply (Hm j q Hj). rewrite nth_error_app1 in Hq by lia. exact Hq.
Qed.
Lemma bpe_steps_longer m x s r : bpe_steps m s r -> bpe_steps (m ++ x) s r.
Proof. induction 1; [constructor|]. econstructor; [apply bpe_step_longer; eassumption|assumption]. Qed.
Lemma bpe_steps_trans m a b c : bpe_steps m a b -> bpe_steps m b c -> bpe_steps m a c.
Proof. induction 1; [auto|]. intros. econstructor; eauto. Qed.

Lemma bpe_result_longer (l' : list (pair * option Z)) m x s r r' : NoDup (map fst l') -> map fst l' = m ++ x ->
  bpe_result m s r -> bpe_result (m ++ x) s r' -> bpe_steps (m ++ x) r r'.
Proof.
  intros Hnd El [Sr _] Hr'. destruct (encode_loop_spec l' (length r) r Hnd (le_n _)) as (r2 & _ & S2 & N2).
  rewrite El in S2, N2. apply (bpe_steps_longer m x) in Sr.
  rewrite (bpe_result_det _ _ r' r2 Hr'); [exact S2|]. split; [|exact N2]. eapply bpe_steps_trans; eassumption.
Qed.

(** ** Back from symbols to parts of the word *)
Lemma unescape_units_groups us u :
  unescape (map (@List.concat N) (map (map unit_of) us ++ [map unit_of u ++ [at_str]])) = Ok (us ++ [u]).
Proof.
  rewrite map_app. cbn [map]. rewrite concat_app. change (List.concat [at_str]) with [at_ch].
  rewrite unescape_snoc. f_equal. rewrite map_app. cbn [map]. rewrite replace_double. f_equal. rewrite !map_map.
  rewrite <- (map_id us) at 2. apply map_ext. intros a. apply replace_double.
Qed.
Lemma groups_units gs w : List.concat gs = map unit_of w ++ [at_str] -> Forall (fun g => g <> []) gs ->
  exists us u, gs = map (map unit_of) us ++ [map unit_of u ++ [at_str]].
Proof.
  intros E Hne. destruct (last_group _ _ _ E Hne) as (gs1 & g & -> & E1).
  assert (Ew : exists ws, gs1 ++ [g] = map (map unit_of) ws /\ List.concat ws = w).
  { apply map_concat_inv. rewrite concat_app. simpl. rewrite app_nil_r. exact E1. }
  destruct Ew as (ws & Eg & _). destruct ws as [|u us _] using rev_ind; [destruct gs1; discriminate|].
  rewrite map_app in Eg. cbn [map] in Eg. apply app_inj_tail in Eg. destruct Eg as [-> ->]. eauto.
Qed.

Lemma concat2_app (x y : list (list sym)) :
  List.concat (List.concat (x ++ y)) = List.concat (List.concat x) ++ List.concat (List.concat y).
Proof. rewrite !concat_app. reflexivity. Qed.

Lemma unescape_joined m w r r' ws ws' :
  bpe_steps m (map unit_of w ++ [at_str]) r -> (exists m', bpe_steps m' r r') ->
  unescape r = Ok ws -> unescape r' = Ok ws' -> joined ws ws'.
Proof.
  intros Sr (m' & Sr') U U'. destruct (bpe_result_groups _ _ _ Sr) as (gs & -> & E2 & E3).
  destruct (groups_units gs w E2 E3) as (us & u & ->). rewrite unescape_units_groups in U. injection U as <-.
  destruct (bpe_steps_groups (fun X : list (list sym) => List.concat (List.concat X))
              concat2_app m' _ r'
              (map (fun g => [g]) (map (map unit_of) us ++ [map unit_of u ++ [at_str]])) Sr') as (GS & <- & F2 & F3).
  - rewrite map_map. apply map_ext. intros g. cbn [List.concat]. rewrite app_nil_r. reflexivity.
  - apply Forall_map, Forall_forall. discriminate.
  - rewrite singleton_groups in F2. destruct (last_group _ _ _ F2 F3) as (G1 & g & -> & F4).
    assert (Ew : exists W, G1 ++ [g] = map (map (map unit_of)) W /\ List.concat W = us).
    { apply map_concat_inv. rewrite concat_app. cbn [List.concat]. rewrite app_nil_r. exact F4. }
    destruct Ew as (W & EW & <-). destruct W as [|w1 W1 _] using rev_ind; [destruct G1; discriminate|].
    rewrite map_app in EW. cbn [map] in EW. apply app_inj_tail in EW. destruct EW as [-> ->].
    exists (W1 ++ [w1 ++ [u]]).
    assert (Q : ws' = map (@List.concat N) W1 ++ [List.concat w1 ++ u]).
    { rewrite <- (map_map (@List.concat (list N)) (@List.concat N)) in U'.
      assert (Z : map (@List.concat (list N)) (map (map (map unit_of)) W1 ++ [map (map unit_of) w1 ++ [map unit_of u ++ [at_str]]])
                  = map (map unit_of) (map (@List.concat N) W1) ++ [map unit_of (List.concat w1 ++ u) ++ [at_str]]).
      { rewrite map_app. cbn [map]. rewrite concat_app. cbn [List.concat]. rewrite app_nil_r. f_equal.
        - rewrite !map_map. apply map_ext. intros a. rewrite concat_map. reflexivity.
        - rewrite map_app, concat_map, app_assoc. reflexivity. }
      unfold sym, str in *. rewrite Z in U'. pose proof (unescape_units_groups (map (@List.concat N) W1) (List.concat w1 ++ u)) as V.
      unfold sym, str in *. rewrite V in U'. injection U' as <-. reflexivity. }
    rewrite Q. split; [rewrite !concat_app; cbn [List.concat]; rewrite !app_nil_r, app_assoc; reflexivity|]. split.
    + rewrite map_app. cbn [map]. rewrite concat_app. cbn [List.concat]. rewrite app_nil_r. reflexivity.
    + apply Forall_app in F3. destruct F3 as [F3 _]. rewrite Forall_map in F3. apply Forall_app. split.
      * eapply Forall_impl; [|exact F3]. intros a Ha ->. apply Ha. reflexivity.
      * constructor; [destruct w1; discriminate|constructor].
Qed.

(** Every part of a word for a list of merges is a part of it for a list that begins with the same merges, or is joined with
    its neighbours in it. *)
Theorem C96_word : forall b b' l l' more w,
  usable b l -> usable b' l' -> map fst l' = map fst l ++ more -> ~ In 32%N w ->
  exists ws ws', get_bpe_subwords b w = Ok ws /\ get_bpe_subwords b' w = Ok ws' /\ joined ws ws'.
Proof.
  intros b b' l l' more w (Hb & Hnd & Hf) (Hb' & Hnd' & Hf') El Hw.
  destruct (C16_subwords_concatenate b l w Hb Hnd Hf Hw) as (ws & G & _).
  destruct (C16_subwords_concatenate b' l' w Hb' Hnd' Hf' Hw) as (ws' & G' & _).
  assert (R : forall b l ws, built l (bd_merges b) -> NoDup (map fst l) -> faithful b l -> get_bpe_subwords b w = Ok ws ->
    exists r, bpe_result (map fst l) (map unit_of w ++ [at_str]) r /\ unescape r = Ok ws).
  { clear -Hw. intros b l ws Hb Hnd Hf Hg.
    unfold get_bpe_subwords in Hg. destruct (dget (bd_cache b) (escape w true)) as [parts|] eqn:Ec.
    - exists parts. split; [apply (Hf w parts Ec)|exact Hg].
    - destruct (encode_word_spec l w Hnd Hw) as (r & Er & Hr).
      rewrite (built_ml_from _ _ Hb Hnd), Er in Hg. exists r. auto. }
  destruct (R b l ws Hb Hnd Hf G) as (r & Rr & U). destruct (R b' l' ws' Hb' Hnd' Hf' G') as (r' & Rr' & U').
  exists ws, ws'. split; [exact G|]. split; [exact G'|].
  apply (unescape_joined (map fst l) w r r'); [apply Rr| |exact U|exact U'].
  exists (map fst l ++ more). rewrite El in Rr'. exact (bpe_result_longer l' _ _ _ r r' Hnd' El Rr Rr').
Qed.
Print Assumptions C96_word.

(** ** Whole outputs *)
Definition joined_seg (s s' : seg) : Prop :=
  s_cls s = s_cls s' /\ s_np s = s_np s' /\ joined (s_toks s) (s_toks s').

Lemma joined_seg_refl l : Forall2 joined_seg l l.
Proof. induction l; constructor; [|assumption]. repeat split. apply joined_refl. Qed.
Lemma joined_seg_retype c a b : Forall2 joined_seg a b -> Forall2 joined_seg (map (retype c) a) (map (retype c) b).
Proof. induction 1 as [|x y a b (_ & H1 & H2) _ IH]; constructor; [repeat split; assumption|exact IH]. Qed.

Lemma segs_joined E rc rc' b b' t r :
  py_ascii E ->
  (forall w ws, ~ In 32%N w -> get_bpe_subwords b w = Ok ws -> exists ws', get_bpe_subwords b' w = Ok ws' /\ joined ws ws') ->
  bpe rc = true -> in_types rc CSplitContainer = true ->
  number_splitter rc = bpe_call (Some b) -> word_splitter rc = Some (bpe_call (Some b)) ->
  bpe rc' = true ->
  number_splitter rc' = bpe_call (Some b') -> word_splitter rc' = Some (bpe_call (Some b')) ->
  max_str_length rc' = max_str_length rc -> full_strings rc' = full_strings rc ->
  (forall c, in_types rc' c = in_types rc c) ->
  (forall u, In u (subterms t) -> is_text u = true -> ~ In 32%N (tok_str E u)) ->
  segs E rc t = Ok r ->
  exists r', segs E rc' t = Ok r' /\ Forall2 joined_seg r r'.
Proof.
  intros HE HJ Hb Hsc Hns Hws Hb' Hns' Hws' Hmx Hfs Hty.
  assert (Hone : forall c x y np, joined x y -> Forall2 joined_seg (one_seg c x np) (one_seg c y np)).
  { intros. repeat constructor. assumption. }
  assert (Hsplit : forall l r, ~ In 32%N (split_str E l) -> segs_split E rc l = Ok r ->
    exists r', segs_split E rc' l = Ok r' /\ Forall2 joined_seg r r').
  { intros l r' Hl. unfold segs_split. rewrite Hty, Hsc, Hb, Hb', bind_ok. intros (ws & Hw & [= <-]).
    unfold split_word in *. rewrite Hws in Hw. rewrite Hws'. destruct (HJ _ _ Hl Hw) as (ws' & Hw' & J).
    cbn [bpe_call]. rewrite Hw'. cbn [bind]. eexists. split; [reflexivity|]. apply Hone, J. }
  assert (Hlist : forall l r,
    Forall (fun t => forall r, (forall u, In u (subterms t) -> is_text u = true -> ~ In 32%N (tok_str E u)) ->
                     segs E rc t = Ok r -> exists r', segs E rc' t = Ok r' /\ Forall2 joined_seg r r') l ->
    (forall u, In u (List.concat (map subterms l)) -> is_text u = true -> ~ In 32%N (tok_str E u)) ->
    segs_list_with (fun _ => true) (segs E rc) l = Ok r ->
    exists r', segs_list_with (fun _ => true) (segs E rc') l = Ok r' /\ Forall2 joined_seg r r').
  { intros l r' Hf. revert r'. induction Hf as [|x l Hx Hf IH]; intros r' Hsp; cbn [segs_list_with].
    - intros [= <-]. exists []. split; [reflexivity|constructor].
    - rewrite bind_ok. intros (rx & Hrx & H). apply bind_ok in H. destruct H as (rs & Hrs & [= <-]).
      cbn [map List.concat] in Hsp.
      destruct (Hx rx) as (rxF & -> & H1); [|exact Hrx|].
      + intros u Hu. apply Hsp. apply in_or_app. left. exact Hu.
      + destruct (IH rs) as (rsF & HrsF & H2); [|exact Hrs|].
        * intros u Hu. apply Hsp. apply in_or_app. right. exact Hu.
        * cbn [bind]. fold (segs_list_with (fun _ => true) (segs E rc')). rewrite HrsF. cbn [bind].
          eexists. split; [reflexivity|]. apply Forall2_app; assumption. }
  revert r. induction t using token_nested_ind; intros r Hsp; cbn [segs]; rewrite ?Hty.
  - destruct (in_types rc CNewLine); intros [= <-]; eexists; (split; [reflexivity|]); apply joined_seg_refl.
  - destruct (in_types rc CTab); intros [= <-]; eexists; (split; [reflexivity|]); apply joined_seg_refl.
  - intros [= <-]. eexists; (split; [reflexivity|]). apply joined_seg_refl.
  - destruct (in_types rc CNumber); [|intros [= <-]; eexists; (split; [reflexivity|]); apply joined_seg_refl].
    rewrite bind_ok. intros (ws & Hw & [= <-]). rewrite Hns in Hw. rewrite Hns'.
    destruct (HJ v ws) as (ws' & Hw' & J); [apply (Hsp (Number v)); [left; reflexivity|reflexivity]|exact Hw|].
    cbn [bpe_call]. rewrite Hw'. cbn [bind]. eexists; (split; [reflexivity|]).
    rewrite Hb, Hb', !andb_false_r. apply Hone, J.
  - intros [= <-]. eexists; (split; [reflexivity|]). apply joined_seg_refl.
  - intros [= <-]. eexists; (split; [reflexivity|]). apply joined_seg_refl.
  - intros [= <-]. eexists; (split; [reflexivity|]). apply joined_seg_refl.
  - apply Hsplit. apply (Hsp (SplitContainer l)); [left; reflexivity|reflexivity].
  - assert (Hl : ~ In 32%N (split_str E l)) by (apply (Hsp (NonEng l)); [left; reflexivity|reflexivity]).
    destruct (in_types rc CNonEng); [|apply Hsplit; exact Hl]. rewrite Hb, Hb'.
    rewrite bind_ok. intros (s & Hs & H). apply bind_ok in H. destruct H as (w & Hw & H).
    rewrite Hs. cbn [bind]. rewrite Hw. cbn [bind]. apply (Hsplit [w]) in H; [exact H|].
    unfold split_str. cbn [map List.concat]. rewrite app_nil_r. intros Hin.
    assert (Hf : Forall (fun c => c <> 32%N) (subtoken_str E w)).
    { apply (word_from_chars E _ s w HE case_not_space); [eapply replace_non_ascii_plain, Hs| |exact Hw].
      apply Forall_forall. intros c Hc ->. exact (replace_non_ascii_no_space _ _ Hs Hl Hc). }
    rewrite Forall_forall in Hf. exact (Hf _ Hin eq_refl).
  - destruct (in_types rc COneLineComment); [intros [= <-]; eexists; (split; [reflexivity|]); apply joined_seg_refl|].
    rewrite bind_ok. intros (rs & Hrs & [= <-]).
    destruct (Hlist l rs H) as (rF & -> & H2); [|exact Hrs|].
    + intros u Hu. apply Hsp. right. exact Hu.
    + cbn [bind]. eexists; (split; [reflexivity|]). apply Forall2_app; [apply joined_seg_retype, H2|apply joined_seg_refl].
  - destruct (in_types rc CMultilineComment); [intros [= <-]; eexists; (split; [reflexivity|]); apply joined_seg_refl|].
    rewrite bind_ok. intros (rs & Hrs & [= <-]).
    destruct (Hlist l rs H) as (rF & -> & H2); [|exact Hrs|].
    + intros u Hu. apply Hsp. right. exact Hu.
    + cbn [bind]. eexists; (split; [reflexivity|]). apply joined_seg_retype, H2.
  - destruct (in_types rc CStringLiteral); [intros [= <-]; eexists; (split; [reflexivity|]); apply joined_seg_refl|].
    rewrite Hmx. destruct (max_str_length rc) as [mx|]; [|discriminate]. rewrite Hfs, Hb, Hb'.
    destruct (mx <? n)%Z; [intros [= <-]; eexists; (split; [reflexivity|]); apply joined_seg_refl|].
    assert (Est : string_text E rc' (StringLiteral l n) = string_text E rc (StringLiteral l n)).
    { unfold string_text. rewrite Hty. reflexivity. }
    rewrite Est. rewrite bind_ok. intros (s & Hs & H'). apply bind_ok in H'. destruct H' as (w & Hw & [= <-]).
    rewrite Hs. cbn [bind]. unfold split_word in *. rewrite Hws in Hw. rewrite Hws'.
    destruct (HJ s w) as (ws' & Hw' & J); [|exact Hw|].
    + intros Hin. destruct (string_text_chars _ _ _ _ _ Hs Hin) as [[_ H0]|[_ [?|[?|[H0 _]]]]]; try discriminate;
        apply (Hsp (StringLiteral l n)) in H0; auto; left; reflexivity.
    + cbn [bpe_call]. rewrite Hw'. cbn [bind]. eexists; (split; [reflexivity|]). apply Hone, J.
Qed.

Lemma joined_mark a b : a <> [] -> joined a b -> joined (mark a) (mark b).
Proof.
  intros Na (gs & <- & <- & H). destruct gs as [|g gs _] using rev_ind; [exfalso; apply Na; reflexivity|].
  apply Forall_app in H. destruct H as [H Hg]. inversion Hg as [|? ? Ng _]; subst.
  destruct g as [|x g _] using rev_ind; [congruence|].
  exists (gs ++ [g ++ [x ++ ph_compound_word_end]]). unfold mark.
  rewrite !map_app. cbn [map]. rewrite !removelast_last, !last_last. repeat split.
  - rewrite !concat_app. cbn [List.concat]. rewrite !app_nil_r, !app_assoc, removelast_last, last_last. reflexivity.
  - rewrite !concat_app. cbn [List.concat]. rewrite !app_nil_r, app_assoc. reflexivity.
  - apply Forall_app. split; [exact H|]. constructor; [destruct g; discriminate|constructor].
Qed.

Lemma rc_same o d d' b b' rc : get_repr_config o d (Some b) = Ok rc -> is_bpe d = true -> is_bpe d' = true ->
  (forall q, q <> SPLIT -> param d' q = param d q) ->
  exists rc', get_repr_config o d' (Some b') = Ok rc' /\ max_str_length rc' = max_str_length rc
    /\ (forall c, in_types rc' c = in_types rc c).
Proof.
  intros H Hd Hd' Hq. unfold get_repr_config in *. rewrite Hd in H. rewrite Hd'.
  apply bind_ok in H. destruct H as (ns & Hns & H). apply bind_ok in H. destruct H as (ws & Hws & H).
  apply bind_ok in H. destruct H as (ml & Hml & [= <-]).
  assert (S : forall d, is_bpe d = true -> mem (param d SPLIT) (chars_of "0F1") = false /\ mem (param d SPLIT) (chars_of "23s") = false
     /\ param_in d SPLIT "123456789s" = true /\ param_in d SPLIT "23456789s" = true).
  { clear. intros d Hb. unfold is_bpe, param_in in *. apply mem_in in Hb. cbn [In chars_of map lit] in Hb.
    repeat (destruct Hb as [<-|Hb]; [repeat split; reflexivity|]). destruct Hb. }
  destruct (S d Hd) as (_ & _ & S3 & S4). destruct (S d' Hd') as (T1 & T2 & T3 & T4).
  unfold get_number_splitter, get_word_splitter. unfold is_bpe in Hd, Hd'. unfold param_in at 1 2. rewrite T1, T2, Hd'. cbn [bind].
  rewrite (Hq STR) by discriminate. rewrite Hml. cbn [bind]. eexists. split; [reflexivity|]. split; [reflexivity|].
  intros c. unfold in_types. cbn [types_to_be_repr]. unfold get_types_to_be_repr. rewrite S3, S4, T3, T4.
  unfold param_in. rewrite !Hq by discriminate. reflexivity.
Qed.

(** The output for more merges (of the same list, also if none, chars, is compared with some) has the same full tokens, of the
    same types; each is the same or has neighbouring subtokens joined.  In particular it is not longer. *)
Theorem C96_output : forall E o d d' b b' l l' more tokens out m,
  py_ascii E -> usable b l -> usable b' l' -> map fst l' = map fst l ++ more ->
  is_bpe d = true -> is_bpe d' = true -> (forall q, q <> SPLIT -> param d' q = param d q) ->
  spaceless E tokens -> to_repr E o d (Some b) tokens = Ok (out, m) ->
  exists out' m', to_repr E o d' (Some b') tokens = Ok (out', m')
    /\ Forall2 joined (slices (wb m) out) (slices (wb m') out')
    /\ List.concat (slices (wb m) out) = out /\ List.concat (slices (wb m') out') = out'
    /\ types m' = types m /\ nonproc m' = nonproc m
    /\ length out' <= length out.
Proof.
  intros E o d d' b b' l l' more tokens out m HE Hu Hu' El Hd Hd' Hq Hsp H.
  destruct (to_repr_segs _ _ _ _ _ _ _ H) as (rc & ss & Hrc & Hss & -> & _ & Hbo & _).
  destruct (Hbo Hd) as [Hne ->].
  destruct (repr_config_bpe _ _ _ _ Hrc Hd) as (Hns & Hws & Hb & Hfs & Hsc & _).
  destruct (rc_same o d d' b b' rc Hrc Hd Hd' Hq) as (rc' & Hrc' & Hmx & Hty).
  destruct (repr_config_bpe _ _ _ _ Hrc' Hd') as (Hns' & Hws' & Hb' & Hfs' & Hsc' & _).
  assert (HJ : forall w ws, ~ In 32%N w -> get_bpe_subwords b w = Ok ws ->
                 exists ws', get_bpe_subwords b' w = Ok ws' /\ joined ws ws').
  { intros w ws Hw Hg. destruct (C96_word b b' l l' more w Hu Hu' El Hw) as (v & v' & G & G' & J).
    rewrite Hg in G. injection G as <-. eauto. }
  assert (HF : exists rF, segs_list E rc' tokens = Ok rF /\ Forall2 joined_seg ss rF).
  { assert (Hfs2 : full_strings rc' = full_strings rc) by congruence.
    clear -HE HJ Hb Hsc Hns Hws Hb' Hns' Hws' Hmx Hfs2 Hty Hsp Hss.
    unfold segs_list in *. unfold spaceless, all_tokens in *.
    revert ss Hss. induction tokens as [|x tokens IH]; intros ss; cbn [segs_list_with].
    - intros [= <-]. exists []. split; [reflexivity|constructor].
    - rewrite bind_ok. intros (rx & Hrx & H). apply bind_ok in H. destruct H as (rs & Hrs & [= <-]).
      cbn [map List.concat] in Hsp.
      destruct (segs_joined E rc rc' b b' x rx) as (rxF & -> & H1); try assumption.
      + intros u Hu'. apply Hsp. apply in_or_app. left. exact Hu'.
      + destruct (IH) with (ss := rs) as (rsF & HrsF & H2); [|exact Hrs|].
        * intros u Hu'. apply Hsp. apply in_or_app. right. exact Hu'.
        * cbn [bind]. fold (segs_list_with (fun _ => true) (segs E rc')). rewrite HrsF. cbn [bind].
          eexists. split; [reflexivity|]. apply Forall2_app; assumption. }
  destruct HF as (rF & HrF & HF).
  assert (HneF : Forall (fun s => s_toks s <> []) rF).
  { clear -HF Hne. induction HF as [|x y a c (_ & _ & J) _ IH]; [constructor|]. inversion Hne; subst.
    constructor; [eapply joined_nil; eassumption|auto]. }
  exists (List.concat (map (fun s => mark (s_toks s)) rF)), (snd (flat rF)).
  assert (Hbd : forall ss, Forall (fun s => s_toks s <> []) ss ->
            bounds 0 (map s_toks ss) = bounds 0 (map (fun s => mark (s_toks s)) ss)).
  { clear. intros ss Hne. generalize 0. induction Hne as [|s ss Hs Hne IH]; intros k; [reflexivity|].
    cbn [map bounds]. rewrite mark_length by exact Hs. rewrite IH. reflexivity. }
  unfold flat; cbn [snd wb types nonproc]. rewrite !Hbd, !slices_bounds0 by assumption.
  split; [|split; [|split; [reflexivity|split; [reflexivity|split; [|split]]]]].
  - unfold to_repr. rewrite Hrc'. cbn [bind]. unfold to_repr_cfg. rewrite to_repr_list_segs, HrF. cbn [flat_res bind].
    rewrite Hd'. rewrite insert_flat by exact HneF. cbn [bind]. unfold flat. cbn [snd]. rewrite Hbd by exact HneF. reflexivity.
  - clear -HF Hne. induction HF as [|x y a c (_ & _ & J) _ IH]; [constructor|]. inversion Hne; subst.
    cbn [map]. constructor; [apply joined_mark; assumption|auto].
  - clear -HF. induction HF as [|x y a c (H & _) _ IH]; [reflexivity|]. simpl. rewrite H, IH. reflexivity.
  - clear -HF. induction HF as [|x y a c (_ & H & _) _ IH]; [reflexivity|]. simpl. rewrite H, IH. reflexivity.
  - clear -HF Hne. induction HF as [|x y a c (_ & _ & J) _ IH]; [apply le_n|]. inversion Hne as [|? ? Nx Ne]; subst.
    cbn [map List.concat]. rewrite !app_length. apply Nat.add_le_mono; [|auto].
    apply joined_length, joined_mark; assumption.
Qed.
Print Assumptions C96_output.

(** A file of merges, read up to n and up to k merges: the parts of a word with k merges are those with n merges or joined of
    them.  (C23: the file lists no pair twice and can be read.) *)
Lemma built_from (l : list (pair * option Z)) : NoDup (map fst l) -> built l (ml_from 0 l).
Proof.
  induction l as [|[p f] l IH] using rev_ind; intros Hnd; [apply built_empty|].
  rewrite map_app in Hnd. cbn [map fst] in Hnd.
  apply built_append with (ml := ml_from 0 l) (prio := None); [apply IH; eapply NoDup_app_l; exact Hnd|].
  unfold ml_append. rewrite ml_from_app. f_equal. rewrite dset_fresh.
  - rewrite ml_from_length. reflexivity.
  - apply dget_none. rewrite ml_from_keys. intros Hi. apply NoDup_remove_2 in Hnd. rewrite app_nil_r in Hnd. contradiction.
Qed.

Theorem C96_file : forall content ml n k mn mk w,
  read_merges content None = Ok ml -> length ml = length (file_lines content) -> 0 < n <= k ->
  read_merges content (Some n) = Ok mn -> read_merges content (Some k) = Ok mk -> ~ In 32%N w ->
  exists ws ws', get_bpe_subwords {| bd_merges := mn; bd_cache := [] |} w = Ok ws
    /\ get_bpe_subwords {| bd_merges := mk; bd_cache := [] |} w = Ok ws'
    /\ joined ws ws' /\ length ws' <= length ws.
Proof.
  intros content ml n k mn mk w Hr Hl Hnk Hn Hk Hw.
  assert (Z : exists l, NoDup (map fst l) /\ ml = ml_from 0 l).
  { unfold read_merges in Hr. destruct (read_loop_appends _ _ _ _ Hr) as (es & He & Ha).
    pose proof (mapM_length _ _ _ He) as HL.
    destruct (appends_len ml_empty (entry_ops 0 es) ml (NoDup_nil _) Ha) as [_ Hnd].
    rewrite entry_ops_length in Hnd. cbn [length ml_empty dkeys map app] in Hnd. specialize (Hnd ltac:(simpl; lia)).
    pose proof (appends_nodup [] (entry_ops 0 es) ml Hnd Ha) as ->. eexists. split; [|reflexivity].
    cbn [app]. rewrite map_map. exact Hnd. }
  destruct Z as (l & Hnd & ->).
  rewrite (C23_prefix _ _ n Hr Hl) in Hn by lia. rewrite (C23_prefix _ _ k Hr Hl) in Hk by lia.
  rewrite ml_from_firstn in Hn, Hk. injection Hn as <-. injection Hk as <-.
  assert (U : forall j, usable {| bd_merges := ml_from 0 (firstn j l); bd_cache := [] |} (firstn j l)).
  { intros j. assert (Nj : NoDup (map fst (firstn j l))) by (rewrite <- firstn_map; apply NoDup_firstn; exact Hnd).
    split; [apply built_from; exact Nj|]. split; [exact Nj|]. intros x parts Hx. discriminate. }
  destruct (C96_word _ _ _ _ (map fst (firstn (k - n) (skipn n l))) w (U n) (U k)) as (ws & ws' & G & G' & J); [|exact Hw|].
  - rewrite <- map_app. f_equal. replace k with (n + (k - n)) at 1 by lia. clear.
    generalize (k - n). intros j. revert n. induction l as [|x l IH]; intros [|n]; cbn; try reflexivity.
    + rewrite !firstn_nil. reflexivity.
    + f_equal. apply IH.
  - exists ws, ws'. repeat split; try assumption. apply joined_length, J.
Qed.
Print Assumptions C96_file.

(** Learning n merges and learning more of them for the same corpus. *)
Theorem C96_learned : forall base n k v1 ml1 v2 ml2 w,
  base_ok base -> do_merges (scratch_vocab base) n = Ok (v1, ml1) -> do_merges (scratch_vocab base) (n + k) = Ok (v2, ml2) ->
  ~ In 32%N w ->
  exists ws ws', get_bpe_subwords {| bd_merges := ml1; bd_cache := [] |} w = Ok ws
    /\ get_bpe_subwords {| bd_merges := ml2; bd_cache := [] |} w = Ok ws'
    /\ joined ws ws' /\ length ws' <= length ws.
Proof.
  intros base n k v1 ml1 v2 ml2 w Hb E1 E2 Hw.
  destruct (C29_from_scratch base n Hb) as (C & _). pose proof (corpus_state_learnable _ _ _ C) as L.
  destruct (C31_prefix _ _ _ n k _ _ _ _ C E1 E2) as (rest & Er).
  destruct (do_merges_spec n _ _ _ L) as (l1 & v1' & F1 & _ & L1 & _). rewrite F1 in E1. injection E1 as _ <-.
  destruct (do_merges_spec (n + k) _ _ _ L) as (l2 & v2' & F2 & _ & L2 & _). rewrite F2 in E2. injection E2 as _ <-.
  apply learnable_nodup in L1, L2. cbn [map app] in L1, L2.
  assert (U : forall l, NoDup (map fst l) -> usable {| bd_merges := ml_from 0 (map some_freq l); bd_cache := [] |} (map some_freq l)).
  { intros l Hl. assert (Hn : NoDup (map fst (map some_freq l))) by (rewrite map_map; exact Hl).
    split; [apply built_from; exact Hn|]. split; [exact Hn|]. intros x parts Hx. discriminate. }
  assert (P : map fst (map some_freq l2) = map fst (map some_freq l1) ++ map m_pair rest).
  { assert (G : forall l, map fst (map some_freq l) = map m_pair (ml_iter (ml_from 0 (map some_freq l)))).
    { intros l. rewrite <- (ml_from_iter_pairs 0 (map some_freq l)) at 1. rewrite !map_map. reflexivity. }
    rewrite !G, Er, map_app. reflexivity. }
  destruct (C96_word _ _ _ _ _ w (U l1 L1) (U l2 L2) P Hw) as (ws & ws' & G & G' & J).
  exists ws, ws'. repeat split; try assumption. apply joined_length, J.
Qed.
Print Assumptions C96_learned.

(** A file whose last line repeats a pair is accepted when it is read whole; the pair then comes last, and a word is not cut
    where it was cut before. *)
Theorem C96_repeated_line_refuted :
  exists content ml m2 ws ws', read_merges content None = Ok ml /\ read_merges content (Some 2) = Ok m2
    /\ get_bpe_subwords {| bd_merges := m2; bd_cache := [] |} (lit "abc") = Ok ws
    /\ get_bpe_subwords {| bd_merges := ml; bd_cache := [] |} (lit "abc") = Ok ws'
    /\ ~ joined ws ws'.
Proof.
  exists (lit "b c 3" ++ [10%N] ++ lit "a b 2" ++ [10%N] ++ lit "b c 1" ++ [10%N]).
  do 4 eexists. split; [vm_compute; reflexivity|]. split; [vm_compute; reflexivity|].
  split; [vm_compute; reflexivity|]. split; [vm_compute; reflexivity|].
  intros ([|g gs] & H1 & H2 & H3); [discriminate|]. inversion H3; subst. cbn [map] in H2. injection H2 as E _.
  destruct g as [|x [|y g]]; [congruence| |].
  - cbn [List.concat app] in *. rewrite app_nil_r in E. subst x. discriminate.
  - cbn [List.concat app] in H1. injection H1 as -> -> _. cbn in E. discriminate.
Qed.
Print Assumptions C96_repeated_line_refuted.

(** The same for whole texts; and whatever the codes are, their subtokens are joined from those of the splitting into
    characters. *)
Theorem C96_text : forall E K o d d' b b' l l' more lexed tokens out m,
  py_ascii E -> py_text E -> ascii_classes K -> lexer_ok lexed ->
  usable b l -> usable b' l' -> map fst l' = map fst l ++ more ->
  is_bpe d = true -> is_bpe d' = true -> (forall q, q <> SPLIT -> param d' q = param d q) ->
  convert_text E K lexed = Ok tokens -> to_repr E o d (Some b) tokens = Ok (out, m) ->
  exists out' m', to_repr E o d' (Some b') tokens = Ok (out', m')
    /\ Forall2 joined (slices (wb m) out) (slices (wb m') out')
    /\ List.concat (slices (wb m) out) = out /\ List.concat (slices (wb m') out') = out'
    /\ types m' = types m /\ nonproc m' = nonproc m /\ length out' <= length out.
Proof.
  intros E K o d d' b b' l l' more lexed tokens out m HE HT HK HL U U' El Hd Hd' Hq Hl H.
  destruct (C61_parser_output E K lexed tokens HK HT HL Hl) as (Hs & _ & _).
  exact (C96_output E o d d' b b' l l' more tokens out m HE U U' El Hd Hd' Hq Hs H).
Qed.
Theorem C96_characters : forall E K o d d' b l lexed tokens out m,
  py_ascii E -> py_text E -> ascii_classes K -> lexer_ok lexed -> usable b l ->
  is_bpe d = true -> is_bpe d' = true -> (forall q, q <> SPLIT -> param d' q = param d q) ->
  convert_text E K lexed = Ok tokens ->
  to_repr E o d (Some {| bd_merges := ml_empty; bd_cache := [] |}) tokens = Ok (out, m) ->
  exists out' m', to_repr E o d' (Some b) tokens = Ok (out', m')
    /\ Forall2 joined (slices (wb m) out) (slices (wb m') out') /\ List.concat (slices (wb m) out) = out
    /\ List.concat (slices (wb m') out') = out' /\ length out' <= length out.
Proof.
  intros E K o d d' b l lexed tokens out m HE HT HK HL U Hd Hd' Hq Hl H.
  assert (U0 : usable {| bd_merges := ml_empty; bd_cache := [] |} []).
  { split; [apply (built_from []); constructor|]. split; [constructor|]. intros x parts Hx. discriminate. }
  destruct (C96_text E K o d d' _ b [] l (map fst l) lexed tokens out m HE HT HK HL U0 U eq_refl Hd Hd' Hq Hl H)
    as (out' & m' & A & B & C & D & _ & _ & F).
  exists out', m'. auto.
Qed.
Print Assumptions C96_text.
Print Assumptions C96_characters.

Example C96_example :
  let l := [((lit "a", lit "b"), Some 3%Z); ((lit "ab", lit "c"), Some 2%Z)] in
  let l' := l ++ [((lit "c", lit "c"), Some 1%Z); ((lit "abc", lit "cc"), Some 1%Z)] in
  let b := {| bd_merges := ml_from 0 l; bd_cache := [] |} in
  let b' := {| bd_merges := ml_from 0 l'; bd_cache := [] |} in
  let tokens := [SplitContainer [Word (lit "abccc") CapNone; Underscore; Word (lit "cab") CapNone]; NonProc NpOperator (lit "=");
                 Number (lit "0xabc"); NewLine] in
  usable b l /\ usable b' l' /\ spaceless ascii_case tokens
  /\ (exists m, to_repr ascii_case no_splitters ex_config (Some b) tokens
      = Ok ([lit "abc"; lit "c"; lit "c"; lit "_"; lit "c"; lit "ab"; lit "</t>"; lit "=</t>"; lit "0"; lit "x"; lit "abc"; lit "</t>"; s_nl ++ lit "</t>"], m))
  /\ (exists m, to_repr ascii_case no_splitters ex_config (Some b') tokens
      = Ok ([lit "abccc"; lit "_"; lit "c"; lit "ab"; lit "</t>"; lit "=</t>"; lit "0"; lit "x"; lit "abc"; lit "</t>"; s_nl ++ lit "</t>"], m)).
Proof.
  cbv zeta.
  assert (U : forall l, NoDup (map fst l) -> usable {| bd_merges := ml_from 0 l; bd_cache := [] |} l).
  { intros l Hn. split; [apply built_from; exact Hn|]. split; [exact Hn|]. intros x parts Hx. discriminate. }
  split; [apply U; repeat constructor; cbn; intuition discriminate|].
  split; [apply U; repeat constructor; cbn; intuition discriminate|].
  split; [|split; eexists; vm_compute; reflexivity].
  intros t Ht Hx. cbn in Ht. intuition (subst; cbn in *; try discriminate; intuition discriminate).
Qed.
