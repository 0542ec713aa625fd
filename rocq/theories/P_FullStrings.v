(** * C115: full_strings *)
From Coq Require Import List NArith ZArith Bool String Lia.
From Verif Require Import M_Base L_Base M_Tokens M_Literal L_Literal M_Repr M_Merge M_BpeEncode M_PrepConfig P_PrepConfig
  L_Repr P_Repr L_Word P_ReprOptions L_Merge P_ReprStrings M_Regex M_Parse L_Regex P_Parse P_ParseRepr P_Split M_Stem P_Stem P_Case P_Unicode P_Source P_Keep P_KeepCase.
Import ListNotations.
Local Open Scope list_scope.

(** two configurations of nosplit that differ in full_strings only, without no_unicode *)
Definition full_and_not (d d' : params) : Prop :=
  param d SPLIT = lit "0" /\ param d' SPLIT = lit "F" /\ param d EN_ONLY = lit "u" /\ forall p, p <> SPLIT -> param d' p = param d p.

(** a text that consists of the words, in their order, with characters of [gap] before, between and after them *)
Inductive spaced (gap : str) : str -> list str -> Prop :=
| sp_nil : spaced gap [] []
| sp_gap c s ws : In c gap -> spaced gap s ws -> spaced gap (c :: s) ws
| sp_word w s ws : spaced gap s ws -> spaced gap (w ++ s) (w :: ws).

Lemma spaced_app gap s ws s' ws' : spaced gap s ws -> spaced gap s' ws' -> spaced gap (s ++ s') (ws ++ ws').
Proof.
  intros H H'. induction H as [|c s ws Hc H IH|w s ws H IH]; [exact H'|apply sp_gap; assumption|]. rewrite <- app_assoc. apply sp_word, IH.
Qed.
Lemma spaced_gap gap s : Forall (fun c => In c gap) s -> spaced gap s [].
Proof. induction 1; [constructor|apply sp_gap; assumption]. Qed.
Lemma spaced_one gap w : spaced gap w [w].
Proof. rewrite <- (app_nil_r w) at 1. apply sp_word. constructor. Qed.

(** the characters that are not in the tokens of a string that is split: the spaces (non-breaking in the output),
    and the newlines and tabs with no_spaces *)
Definition gap_chars (d : params) : str := if eqb (param d TABS_NEWLINES) (lit "0") then [160; 10; 9]%N else [160%N].

Section Full.
  Variable E : pycase.
  Definition flat_token (t : token) : Prop :=
    match t with
    | OneLineComment _ | MultilineComment _ | StringLiteral _ _ | SpaceInString _ => False
    | _ => True
    end.

  Variables (c0 cF : repr_config) (gap : str).
  Hypothesis Ht : forall c, in_types cF c = in_types c0 c.
  Hypothesis Hb0 : bpe c0 = false.
  Hypothesis HbF : bpe cF = false.
  Hypothesis Hf0 : full_strings c0 = false.
  Hypothesis HfF : full_strings cF = true.
  Hypothesis Hmax : max_str_length cF = max_str_length c0.
  Hypothesis Hwt : in_types c0 CWord = false.
  Hypothesis Hct : in_types c0 CSplitContainer = false.
  Hypothesis Hnt : in_types c0 CNumber = false.
  Hypothesis Hne : in_types c0 CNonEng = false.
  Hypothesis Hnl : in_types c0 CNewLine = in_types c0 CTab.
  Hypothesis Hgap : gap = if in_types c0 CNewLine then [160; 10; 9]%N else [160%N].

  Lemma split_plain cfg k : in_types cfg CWord = false -> in_types cfg CSplitContainer = false ->
    segs_split E cfg k = Ok (one_seg CSplitContainer [split_str E k] []).
  Proof.
    intros H1 H2. unfold segs_split. rewrite H2. replace (mapM _ k) with (Ok (map (subtoken_str E) k)); [reflexivity|].
    induction k as [|s k IH]; [reflexivity|]. cbn [mapM map]. rewrite <- IH. destruct s as [|w c]; cbn [torepr_sub]; [reflexivity|].
    rewrite H1. reflexivity.
  Qed.
  (** the representation of a token that is not a container *)
  Definition plain_segs (t : token) : list seg :=
    match t with
    | NewLine => if in_types c0 CNewLine then [] else one_seg CNewLine [s_nl] [s_nl]
    | Tab => if in_types c0 CTab then [] else one_seg CTab [s_tab] [s_tab]
    | Number v => one_seg CNumber [v] []
    | One => one_seg COne [lit "1"] []
    | Zero => one_seg CZero [lit "0"] []
    | NonProc c s => one_seg (np_class c) [s] [s]
    | SplitContainer k | NonEng k => one_seg CSplitContainer [split_str E k] []
    | _ => []
    end.
  Lemma flat_0 t : flat_token t -> segs E c0 t = Ok (plain_segs t).
  Proof.
    destruct t; cbn [flat_token segs plain_segs]; try contradiction; intros _; try reflexivity.
    - destruct (in_types c0 CNewLine); reflexivity.
    - destruct (in_types c0 CTab); reflexivity.
    - rewrite Hnt. reflexivity.
    - apply split_plain; assumption.
    - rewrite Hne. apply split_plain; assumption.
  Qed.
  Lemma flat_F t : flat_token t -> segs E cF t = Ok (plain_segs t).
  Proof.
    destruct t; cbn [flat_token segs plain_segs]; try contradiction; intros _; try reflexivity; rewrite ?Ht.
    - destruct (in_types c0 CNewLine); reflexivity.
    - destruct (in_types c0 CTab); reflexivity.
    - rewrite Hnt. reflexivity.
    - apply split_plain; rewrite Ht; assumption.
    - rewrite Hne. apply split_plain; rewrite Ht; assumption.
  Qed.
  Lemma list_plain cfg keep l : (forall t, flat_token t -> segs E cfg t = Ok (plain_segs t)) -> Forall (fun t => keep t = true -> flat_token t) l ->
    segs_list_with keep (segs E cfg) l = Ok (List.concat (map plain_segs (filter keep l))).
  Proof.
    intros Hs. induction 1 as [|x l Hx Hl IH]; [reflexivity|]. cbn [segs_list_with filter]. destruct (keep x) eqn:Hk; [|exact IH].
    rewrite (Hs x (Hx eq_refl)). cbn [bind]. fold (segs_list_with keep (segs E cfg)). rewrite IH. reflexivity.
  Qed.

  Lemma text_spaced t : flat_token t \/ is_space_in_string t = true ->
    spaced gap (join (lit " ") (nonprep_none E t)) (List.concat (map s_toks (if negb (is_space_in_string t) then plain_segs t else []))).
  Proof.
    assert (G160 : In 160%N gap) by (rewrite Hgap; destruct (in_types c0 CNewLine); left; reflexivity).
    destruct t as [| |n|v| | |c s|k|k|k|k|k n]; cbn [flat_token is_space_in_string nonprep_none plain_segs negb]; intros [H|H]; try contradiction; try discriminate; cbn [join].
    - destruct (in_types c0 CNewLine) eqn:X; [|apply spaced_one]. apply spaced_gap. constructor; [|constructor]. rewrite Hgap. cbn. auto.
    - rewrite <- Hnl. destruct (in_types c0 CNewLine) eqn:X; [|apply spaced_one]. apply spaced_gap. constructor; [|constructor]. rewrite Hgap. cbn. auto.
    - apply spaced_gap. induction n as [|n IH]; [constructor|]. cbn [repeat List.concat]. apply Forall_app. split; [|exact IH]. constructor; [exact G160|constructor].
    - apply spaced_one.
    - apply spaced_one.
    - apply spaced_one.
    - apply spaced_one.
    - apply spaced_one.
    - apply spaced_one.
  Qed.

  Definition string_seg (s : seg) : Prop := s_cls s = CStringLiteral.
  Definition full_group (r r' : list seg) : Prop :=
    (r' = r /\ Forall (fun s => s_cls s <> CStringLiteral) r) \/
    (exists s np, r' = one_seg CStringLiteral [s] np /\ np = [] /\ Forall string_seg r /\ spaced gap s (List.concat (map s_toks r)) /\
                  Forall (fun s => forall x, In x (s_np s) -> In x (s_toks s)) r).

  Lemma plain_np l : Forall (fun s => forall x, In x (s_np s) -> In x (s_toks s)) (List.concat (map plain_segs l)).
  Proof.
    assert (C : forall c toks np, (forall x : str, In x np -> In x toks) -> Forall (fun s => forall x, In x (s_np s) -> In x (s_toks s)) (one_seg c toks np)).
    { intros c toks np H. constructor; [exact H|constructor]. }
    induction l as [|t l IH]; [constructor|]. cbn [map List.concat]. apply Forall_app. split; [|exact IH].
    destruct t as [| |n|v| | |c s|k|k|k|k|k n]; cbn [plain_segs];
      repeat match goal with |- context [if ?b then _ else _] => destruct b end; try apply Forall_nil; apply C; cbn; tauto.
  Qed.
  Lemma retype_np c r : Forall (fun s => forall x, In x (s_np s) -> In x (s_toks s)) r ->
    Forall (fun s => forall x, In x (s_np s) -> In x (s_toks s)) (map (retype c) r).
  Proof. induction 1 as [|s r Hs _ IH]; constructor; [exact Hs|exact IH]. Qed.

  Lemma plain_no_string l : Forall (fun s => s_cls s <> CStringLiteral) (List.concat (map plain_segs l)).
  Proof.
    induction l as [|t l IH]; [constructor|]. cbn [map List.concat]. apply Forall_app. split; [|exact IH]. clear.
    destruct t as [| | | | | |c s| | | | |]; cbn [plain_segs]; try (constructor; [cbn; discriminate|constructor]); try constructor.
    - destruct (in_types c0 CNewLine); repeat constructor. discriminate.
    - destruct (in_types c0 CTab); repeat constructor. discriminate.
    - destruct c; discriminate.
    - constructor.
  Qed.
  Lemma retype_class (P : cls -> Prop) c r : P c -> Forall (fun s => P (s_cls s)) (map (retype c) r).
  Proof. intros H. induction r; constructor; assumption. Qed.

  Lemma full_token t r : one_deep flat_token t -> segs E c0 t = Ok r -> exists r', segs E cF t = Ok r' /\ full_group r r'.
  Proof.
    assert (F : forall t r, flat_token t -> segs E c0 t = Ok r -> exists r', segs E cF t = Ok r' /\ full_group r r').
    { intros u q Hu Hq. rewrite (flat_0 u Hu) in Hq. injection Hq as <-. exists (plain_segs u). split; [apply flat_F, Hu|]. left. split; [reflexivity|].
      pose proof (plain_no_string [u]) as X. cbn [map List.concat] in X. rewrite app_nil_r in X. exact X. }
    destruct t as [| |n|v| | |c s|k|k|k|k|k n]; cbn [one_deep]; intros Hu; try (apply F; exact Hu); try contradiction; cbn [segs]; rewrite Ht.
    - destruct (in_types c0 COneLineComment).
      { intros [= <-]. eexists. split; [reflexivity|]. left. split; [reflexivity|]. repeat constructor. discriminate. }
      rewrite !(list_plain c0 (fun _ => true) k), !(list_plain cF (fun _ => true) k) by (first [exact flat_0|exact flat_F|eapply Forall_impl; [|exact Hu]; auto]).
      cbn [bind]. intros [= <-]. eexists. split; [reflexivity|]. left. split; [reflexivity|]. apply Forall_app. split; [|repeat constructor; discriminate].
      apply (retype_class (fun c => c <> CStringLiteral)). discriminate.
    - destruct (in_types c0 CMultilineComment).
      { intros [= <-]. eexists. split; [reflexivity|]. left. split; [reflexivity|]. repeat constructor. discriminate. }
      rewrite !(list_plain c0 (fun _ => true) k), !(list_plain cF (fun _ => true) k) by (first [exact flat_0|exact flat_F|eapply Forall_impl; [|exact Hu]; auto]).
      cbn [bind]. intros [= <-]. eexists. split; [reflexivity|]. left. split; [reflexivity|].
      apply (retype_class (fun c => c <> CStringLiteral)). discriminate.
    - destruct (in_types c0 CStringLiteral).
      { intros [= <-]. eexists. split; [reflexivity|]. right. do 2 eexists. split; [reflexivity|]. split; [reflexivity|].
        split; [repeat constructor|]. split; [apply spaced_one|]. constructor; [intros x []|constructor]. }
      rewrite Hmax, Hb0, HbF, Hf0, HfF. destruct (max_str_length c0) as [mx|]; [|discriminate].
      destruct (mx <? n)%Z.
      { intros [= <-]. eexists. split; [reflexivity|]. right. do 2 eexists. split; [reflexivity|]. split; [reflexivity|]. split; [repeat constructor|].
        cbn [map s_toks List.concat app one_seg]. split; [apply (sp_word gap s_quote); apply spaced_one|]. constructor; [cbn; tauto|constructor]. }
      rewrite (list_plain c0 _ k flat_0).
      2:{ eapply Forall_impl; [|exact Hu]. intros u [H|H]; [rewrite H; discriminate|auto]. }
      unfold string_text. rewrite Ht, Hne. cbn [bind]. intros [= <-]. eexists. split; [reflexivity|]. right. do 2 eexists.
      split; [reflexivity|]. split; [reflexivity|]. split; [apply (retype_class (fun c => c = CStringLiteral)); reflexivity|].
      split; [|apply retype_np, plain_np].
      rewrite map_map. cbn [retype s_toks]. unfold tok_str. cbn [nonprep_none join].
      induction Hu as [|u l Hx Hu IH]; [constructor|]. cbn [map List.concat filter].
      assert (Hx' : flat_token u \/ is_space_in_string u = true) by tauto. pose proof (text_spaced u Hx') as S1.
      destruct (is_space_in_string u); cbn [negb] in *.
      + apply (spaced_app gap _ [] _ _ S1 IH).
      + cbn [map List.concat]. rewrite map_app, concat_app. apply spaced_app; [exact S1|exact IH].
  Qed.
  Lemma full_list l r : Forall (one_deep flat_token) l -> segs_list E c0 l = Ok r ->
    exists gs gs', r = List.concat gs /\ segs_list E cF l = Ok (List.concat gs') /\ Forall2 full_group gs gs'.
  Proof.
    intros Hp. unfold segs_list. revert r. induction Hp as [|x l Hx Hp IH]; intros r; cbn [segs_list_with].
    - intros [= <-]. exists [], []. repeat split. constructor.
    - rewrite bind_ok. intros (a & Ha & H). apply bind_ok in H. destruct H as (rs & Hrs & [= <-]).
      destruct (full_token x a Hx Ha) as (a' & -> & Ra). destruct (IH rs Hrs) as (gs & gs' & -> & Ers & Rrs). cbn [bind].
      fold (segs_list_with (fun _ => true) (segs E cF)). rewrite Ers. exists (a :: gs), (a' :: gs'). repeat split. constructor; assumption.
  Qed.
End Full.

Definition typed_words (s : seg) : cls * list str := (s_cls s, s_toks s).
Lemma combine_typed ss : combine (map s_cls ss) (map s_toks ss) = map typed_words ss.
Proof. induction ss as [|s ss IH]; [reflexivity|]. cbn [map combine]. rewrite IH. reflexivity. Qed.
Definition group_words (gap : str) (g : list (cls * list str)) (y : cls * list str) : Prop :=
  (g = [y] /\ fst y <> CStringLiteral) \/
  (exists s, y = (CStringLiteral, [s]) /\ Forall (fun x => fst x = CStringLiteral) g /\ spaced gap s (List.concat (map snd g))).
Lemma groups_of gap gs gs' : Forall2 (full_group gap) gs gs' ->
  exists groups, map typed_words (List.concat gs) = List.concat groups /\ Forall2 (group_words gap) groups (map typed_words (List.concat gs')).
Proof.
  induction 1 as [|r r' gs gs' Hr _ (groups & E1 & E2)]; [exists []; split; [reflexivity|constructor]|]. cbn [List.concat]. rewrite !map_app.
  destruct Hr as [[-> Hc]|(s & np & -> & _ & Hc & Hs & _)].
  - exists (map (fun s => [typed_words s]) r ++ groups). rewrite concat_app, <- E1. split.
    + f_equal. clear. induction r as [|x r IH]; [reflexivity|]. cbn [map List.concat app]. rewrite <- IH. reflexivity.
    + apply Forall2_app; [|exact E2]. induction Hc as [|x r Hx _ IH]; constructor; [|exact IH]. left. split; [reflexivity|exact Hx].
  - exists (map typed_words r :: groups). cbn [List.concat]. rewrite <- E1. split; [reflexivity|]. constructor; [|exact E2].
    right. exists s. split; [reflexivity|]. split.
    + apply Forall_forall. intros x Hx. apply in_map_iff in Hx. destruct Hx as (y & <- & Hy). rewrite Forall_forall in Hc. apply (Hc y Hy).
    + rewrite map_map. exact Hs.
Qed.

(** C115: With full_strings each string is one token.  The full tokens without the option can be grouped such that each group is
    one full token with the option: tokens that are not of a string stay as they are, with their types; the tokens of each string
    become one token of the same type, whose text consists of these tokens in order with the spaces of the string between them
    (non-breaking spaces; with no_spaces also its newlines and tabs).  Non-processable are the same tokens, apart from those in
    strings. *)
Theorem C115_full_strings : forall E K o d d' b lexed l out m,
  ascii_classes K -> py_text E -> full_and_not d d' -> In (param d TABS_NEWLINES) [lit "s"; lit "0"] ->
  convert_text E K lexed = Ok l -> to_repr E o d b l = Ok (out, m) ->
  exists out' m' groups, to_repr E o d' b l = Ok (out', m') /\
    List.concat (slices (wb m) out) = out /\ List.concat (slices (wb m') out') = out' /\
    length (types m) = length (slices (wb m) out) /\ length (types m') = length (slices (wb m') out') /\
    (forall x, In x (nonproc m') -> In x (nonproc m)) /\
    (forall x, In x (nonproc m) -> In x (nonproc m') \/
       exists ws, In (CStringLiteral, ws) (combine (types m) (slices (wb m) out)) /\ In x ws) /\
    combine (types m) (slices (wb m) out) = List.concat groups /\
    Forall2 (fun (g : list (cls * list str)) (y : cls * list str) =>
        (g = [y] /\ fst y <> CStringLiteral) \/
        (exists s, y = (CStringLiteral, [s]) /\ Forall (fun x => fst x = CStringLiteral) g /\
                   spaced (gap_chars d) s (List.concat (map snd g))))
      groups (combine (types m') (slices (wb m') out')).
Proof.
  intros E K o d d' b lexed l out m HK HT (Hsp & Hsp' & Hen & Hsame) Htn Hl H.
  assert (Hb : is_bpe d = false) by (unfold is_bpe, param_in; rewrite Hsp; reflexivity).
  assert (Hb' : is_bpe d' = false) by (unfold is_bpe, param_in; rewrite Hsp'; reflexivity).
  destruct (to_repr_segs _ _ _ _ _ _ _ H) as (c0 & ss & Hcfg & Hss & -> & Hout & _ & _). specialize (Hout Hb). subst out.
  unfold get_repr_config, get_number_splitter, get_word_splitter, param_in in Hcfg. rewrite Hb, Hsp in Hcfg.
  apply bind_ok in Hcfg. destruct Hcfg as (ns & Hns & Hcfg). apply bind_ok in Hcfg. destruct Hcfg as (ws & Hws & Hcfg).
  apply bind_ok in Hcfg. destruct Hcfg as (ml & Hml & Hcfg). injection Hns as <-. injection Hws as <-. injection Hcfg as <-.
  assert (A : get_number_splitter d' None = Ok (fun s => Ok [s])) by (unfold get_number_splitter, param_in; rewrite Hsp'; reflexivity).
  assert (B : get_word_splitter o d' None = Ok None) by (unfold get_word_splitter, param_in; rewrite Hsp'; reflexivity).
  unfold to_repr, to_repr_cfg, get_repr_config. rewrite Hb', A, B. cbn [bind]. rewrite (Hsame STR), Hml by discriminate. cbn [bind].
  rewrite to_repr_list_segs. unfold param_in. rewrite (Hsame CASE), Hsp' by discriminate.
  match type of Hss with segs_list _ ?a _ = _ => set (c0 := a) in * end.
  match goal with |- context [segs_list _ ?a _] => set (cF := a) in * end.
  assert (T : forall c, in_types cF c = in_types c0 c).
  { intros c. unfold in_types, cF, c0. cbn [types_to_be_repr]. rewrite !types_in. unfold param_in. destruct c; rewrite ?Hsame by discriminate;
      rewrite ?Hsp, ?Hsp'; reflexivity. }
  assert (Hd : Forall (one_deep flat_token) l).
  { apply (text_lift E K (fun _ => True) (fun _ => True) flat_token HK) with (lexed := lexed); try exact I; try assumption; try (intros; exact I).
    - intros w t _ _ _ [Hn|parts subs _ _ _ _ _]; [exact I|]. destruct (is_ascii w); exact I.
    - apply Forall_forall. intros tv _. split; [apply Forall_forall; auto|auto]. }
  destruct (full_list E c0 cF (gap_chars d)) with (l := l) (r := ss) as (gs & gs' & -> & Hs' & R); try reflexivity; try assumption.
  1-6: unfold in_types, c0, gap_chars; cbn [types_to_be_repr]; rewrite ?types_in; unfold param_in; rewrite ?Hsp, ?Hsp', ?Hen; try reflexivity.
  { destruct Htn as [<-|[<-|[]]]; reflexivity. }
  rewrite Hs'. cbn [flat_res bind].
  exists (List.concat (map s_toks (List.concat gs'))), (snd (flat (List.concat gs'))).
  destruct (groups_of _ _ _ R) as (groups & E1 & E2). exists groups. split; [reflexivity|].
  unfold flat. cbn [snd types nonproc wb]. rewrite !slices_bounds0, !map_length, !combine_typed. do 4 (split; [reflexivity|]).
  split; [|split; [|split; [exact E1|exact E2]]].
  2:{ clear - R. intros x Hx. induction R as [|r r' gs gs' Hr _ IH]; [destruct Hx|].
      cbn [List.concat] in *. rewrite map_app, concat_app in Hx. apply in_app_or in Hx. rewrite !map_app, !concat_app. destruct Hx as [Hx|Hx].
      - destruct Hr as [[-> _]|(s & np & _ & _ & Hc & _ & Hnp)]; [left; apply in_or_app; left; exact Hx|right].
        apply in_concat in Hx. destruct Hx as (y & Hy & Hx). apply in_map_iff in Hy. destruct Hy as (sg & <- & Hsg).
        rewrite Forall_forall in Hc, Hnp. exists (s_toks sg). split; [|apply (Hnp sg Hsg x Hx)].
        apply in_or_app. left. rewrite <- (Hc sg Hsg). apply (in_map typed_words) in Hsg. exact Hsg.
      - destruct (IH Hx) as [H|(w & H1 & H2)]; [left; apply in_or_app; right; exact H|right; exists w; split; [apply in_or_app; right; exact H1|exact H2]]. }
  clear - R. intros x Hx. induction R as [|r r' gs gs' Hr _ IH]; [destruct Hx|].
  cbn [List.concat] in *. rewrite map_app, concat_app in *. apply in_app_or in Hx. apply in_or_app. destruct Hx as [Hx|Hx]; [left|right; apply IH, Hx].
  destruct Hr as [[-> _]|(s & np & -> & -> & _)]; [exact Hx|destruct Hx].
Qed.
Print Assumptions C115_full_strings.

(** the text of a string with its spaces written as non-breaking spaces *)
Definition no_break (v : str) : str := map (fun c => if N.eqb c 32 then 160%N else c) v.

Lemma string_kept E K G lo up (v : str) l : ascii_classes K -> simple_case E K G lo up -> Forall G v ->
  split_string E K v = Ok l ->
  let s := List.concat (map (fun t => join (lit " ") (nonprep_none E t)) l) in
  lowered lo (no_break v) s /\ ((forall ps w, pieces K v ps -> In (PWord w) ps -> number_literal w -> lower E w = w) -> s = no_break v).
Proof.
  intros HK HS Hg H. destruct (C13_string E K v l HK H) as (ps & tss & Hp & HF & ->). cbv zeta.
  assert (Hnum : (forall ps w, pieces K v ps -> In (PWord w) ps -> number_literal w -> lower E w = w) ->
    forall w, In (PWord w) ps -> number_literal w -> lower E w = w) by (intros X w; apply X; exact Hp).
  destruct Hp as (-> & Hok & _). revert Hnum. set (Z := forall ps w, _ -> _ -> _ -> _). clearbody Z. intros Hnum. clear H.
  revert Hg Hok Hnum. induction HF as [|p ts ps tss Hp HF IH]; intros Hg Hok Hnum; [split; [constructor|reflexivity]|].
  inversion Hok as [|? ? Hq Hqs]; subst. cbn [map List.concat] in Hg |- *. apply Forall_app in Hg. destruct Hg as [Hg1 Hg2].
  destruct (IH Hg2 Hqs (fun z w Hw => Hnum z w (or_intror Hw))) as [I1 I2]. unfold no_break in *. rewrite !map_app, concat_app.
  assert (X : lowered lo (map (fun c => if N.eqb c 32 then 160%N else c) (piece_text p)) (List.concat (map (fun t => join (lit " ") (nonprep_none E t)) ts)) /\
    (Z -> List.concat (map (fun t => join (lit " ") (nonprep_none E t)) ts) = map (fun c => if N.eqb c 32 then 160%N else c) (piece_text p))).
  { destruct p as [w|c|n]; cbn [piece_tokens piece_ok piece_text] in *.
    - destruct Hp as (t & -> & Hw). cbn [map List.concat]. rewrite app_nil_r. destruct Hq as [_ Hq].
      assert (Hid : map (fun c => if N.eqb c 32 then 160%N else c) w = w).
      { rewrite <- (map_id w) at 2. apply map_ext_in. intros c Hc. destruct (N.eqb_spec c 32) as [->|]; [|reflexivity].
        rewrite forallb_forall in Hq. specialize (Hq _ Hc). rewrite (w_ascii K HK) in Hq by reflexivity. discriminate. }
      rewrite Hid. assert (Hsp : join (lit " ") (nonprep_none E t) = spelling E t) by (destruct Hw; [reflexivity|destruct (is_ascii w); reflexivity]).
      rewrite Hsp. split; [exact (word_lowered E K G lo up HK HS w t Hg1 Hw)|].
      intros z. apply (word_spelled E K G lo up HK HS w t Hg1 Hw). apply (Hnum z w). left. reflexivity.
    - subst ts. destruct Hq as [_ Hq]. cbn [map List.concat]. rewrite app_nil_r. destruct (N.eqb_spec c 32) as [->|_]; [contradiction|].
      assert (Hsp : join (lit " ") (nonprep_none E (char_token c)) = [c]).
      { unfold char_token. destruct (N.eqb_spec c 10) as [->|_]; [reflexivity|]. destruct (N.eqb_spec c 9) as [->|_]; reflexivity. }
      rewrite Hsp. split; [apply lowered_refl|reflexivity].
    - subst ts. cbn [map List.concat nonprep_none join]. rewrite app_nil_r.
      assert (Hsp : List.concat (repeat ph_space_in_str n) = map (fun c => if N.eqb c 32 then 160%N else c) (repeat 32%N n)).
      { clear. induction n as [|n IH]; [reflexivity|]. cbn [repeat List.concat map]. rewrite IH. reflexivity. }
      rewrite Hsp. split; [apply lowered_refl|reflexivity]. }
  destruct X as [X1 X2]. split; [apply lowered_app; assumption|]. intros z. rewrite (X2 z), (I2 z). reflexivity.
Qed.

Lemma made_config x d : mk_prep_config x = Ok d -> d = x /\ mk_prep_config d = Ok d.
Proof. intros H. assert (d = x) as -> by (unfold mk_prep_config in H; apply bind_ok in H; destruct H as (u & _ & [= ->]); reflexivity). auto. Qed.

(** A string within the limit is written with full_strings as it is in the source, its spaces as non-breaking spaces; if there
    are numbers in it that have letters in upper case these letters are put into lower case, otherwise it is exactly the same. *)
Theorem C115_verbatim : forall E K G lo up o d b no_spaces no_com mx t r (v : str) l,
  ascii_classes K -> simple_case E K G lo up -> Forall G v ->
  nosplit_config no_spaces false no_com false true mx = Ok d -> (2 <= mx < 62)%Z \/ mx = maxsize -> (Z.of_nat (length v) <= mx)%Z ->
  t = ("Literal" :: "String" :: r)%string -> v <> [10%N] -> v <> [9%N] -> blank K v = false ->
  convert_text E K [(t, v)] = Ok l ->
  exists s m, to_repr E o d b l = Ok ([s], m) /\ lowered lo (no_break v) s /\
    ((forall ps w, pieces K v ps -> In (PWord w) ps -> number_literal w -> lower E w = w) -> s = no_break v).
Proof.
  intros E K G lo up o d b no_spaces no_com mx t r v l HK HS Hg Hd Hmx Hlen -> Hn1 Hn2 Hbl H.
  cbn [convert_text] in H. unfold convert in H. destruct (eqb_spec v s_nl) as [->|_]; [destruct Hn1; reflexivity|].
  destruct (eqb_spec v s_tab) as [->|_]; [destruct Hn2; reflexivity|].
  rewrite Hbl in H. unfold type_is in H.
  repeat match type of H with context [list_eq_dec string_dec ?a ?b] => destruct (list_eq_dec string_dec a b) as [X|_]; [discriminate X|] end.
  cbn [orb type_in String.eqb Ascii.eqb Bool.eqb] in H. apply bind_ok in H. destruct H as (a & Ha & H).
  replace (type_in r []) with true in Ha by (destruct r; reflexivity).
  apply bind_ok in Ha. destruct Ha as (k & Hk & [= <-]). injection H as <-.
  destruct (string_kept E K G lo up v k HK HS Hg Hk) as [S1 S2]. eexists.
  assert (D : mk_prep_config d = Ok d /\ param d STR = create_str_value false mx /\ param d SPLIT = lit "F" /\ param d EN_ONLY = lit "u").
  { destruct (made_config _ _ Hd) as [-> Hd']. split; [exact Hd'|]. repeat split. }
  clear Hd. destruct D as (Hd & D1 & D2 & D3).
  destruct (valid_repr_config o d b Hd) as (rc & Hrc & _). destruct (repr_config_fields _ _ _ _ Hrc) as [Hf Hm].
  rewrite D1, C40_limit_kept in Hm by exact Hmx. injection Hm as Hm.
  assert (Hb : bpe rc = false).
  { unfold get_repr_config in Hrc. apply bind_ok in Hrc. destruct Hrc as (? & _ & Hrc). apply bind_ok in Hrc. destruct Hrc as (? & _ & Hrc).
    apply bind_ok in Hrc. destruct Hrc as (? & _ & Hrc). injection Hrc as <-. cbn [bpe]. unfold is_bpe, param_in. rewrite D2. reflexivity. }
  eexists. split; [|split; [exact S1|exact S2]].
  unfold to_repr. rewrite Hrc. cbn [bind]. unfold to_repr_cfg. rewrite to_repr_list_segs. unfold segs_list. cbn [segs_list_with segs].
  unfold in_types. rewrite (repr_config_types _ _ _ _ Hrc), types_in. replace (param_in d STR "0") with false.
  2:{ symmetry. unfold param_in. rewrite D1. apply str_value_not_0, Hmx. }
  rewrite <- Hm. destruct (Z.ltb_spec mx (Z.of_nat (length v))); [lia|]. rewrite Hb, Hf. replace (param_in d SPLIT "F") with true by (unfold param_in; rewrite D2; reflexivity).
  unfold string_text, in_types. rewrite (repr_config_types _ _ _ _ Hrc), types_in. replace (param_in d EN_ONLY "U") with false by (unfold param_in; rewrite D3; reflexivity).
  cbn [bind app flat_res]. replace (is_bpe d) with false by (unfold is_bpe, param_in; rewrite D2; reflexivity). reflexivity.
Qed.
Print Assumptions C115_verbatim.

(** the option: full_strings with and without, all other options the same *)
Theorem C115_options : forall no_spaces no_com no_str mx,
  exists d d',
    nosplit_config no_spaces false no_com no_str false mx = Ok d /\
    nosplit_config no_spaces false no_com no_str true mx = Ok d' /\ full_and_not d d' /\ In (param d TABS_NEWLINES) [lit "s"; lit "0"].
Proof.
  intros. unfold nosplit_config, create_prep_config. pose proof (str_value_known no_str mx) as Hst.
  generalize dependent (create_str_value no_str mx). intros sv Hst.
  assert (C : forall (sp : str) (d : params), In sp [lit "0"; lit "F"] ->
    d = [(EN_ONLY, lit "u"); (COM, if no_com then lit "0" else lit "c"); (STR, sv); (SPLIT, sp);
         (TABS_NEWLINES, if no_spaces then lit "0" else lit "s"); (CASE, lit "u")] ->
    mk_prep_config d = Ok d).
  { intros sp d Hin ->. unfold mk_prep_config, check_invariants. cbn [length Nat.eqb negb].
    replace (check_values _ _) with (if mem sv possible_str_values then Ok tt else Err ValueError)
      by (destruct Hin as [<-|[<-|[]]]; destruct no_com, no_spaces; reflexivity).
    rewrite Hst. destruct Hin as [<-|[<-|[]]]; reflexivity. }
  do 2 eexists. split; [eapply (C (lit "0")); [left; reflexivity|reflexivity]|].
  split; [eapply (C (lit "F")); [right; left; reflexivity|reflexivity]|].
  split; [|destruct no_spaces; cbn; auto].
  split; [reflexivity|]. split; [reflexivity|]. split; [reflexivity|]. intros p Hp. destruct p; try reflexivity. congruence.
Qed.
Print Assumptions C115_options.

(** f("a  b","c") # "d" *)
Example C115_example :
  let lexed := [(["Name"%string], lit "f"); (["Punctuation"%string], lit "("); (["Literal"; "String"]%string, [34%N] ++ lit "a  b" ++ [34%N]);
                (["Punctuation"%string], lit ","); (["Literal"; "String"]%string, [34%N] ++ lit "c" ++ [34%N]); (["Punctuation"%string], lit ")");
                (["Comment"; "Single"]%string, lit "# " ++ [34%N] ++ lit "d" ++ [34%N])] in
  match convert_text ascii_case ascii_K lexed with
  | Ok l =>
      match to_repr ascii_case no_splitters (combine prep_params (chars_of "uc10su")) None l,
            to_repr ascii_case no_splitters (combine prep_params (chars_of "uc1Fsu")) None l with
      | Ok (a, m), Ok (b, m') =>
          slices (wb m) a = [[lit "f"]; [lit "("]; [[34%N]]; [lit "a"]; [lit "b"]; [[34%N]]; [lit ","]; [[34%N]]; [lit "c"]; [[34%N]]; [lit ")"];
                             [lit "#"]; [[34%N]]; [lit "d"]; [[34%N]]; [lit "<EOL>"]] /\
          slices (wb m') b = [[lit "f"]; [lit "("]; [[34; 97; 160; 160; 98; 34]%N]; [lit ","]; [[34; 99; 34]%N]; [lit ")"];
                             [lit "#"]; [[34%N]]; [lit "d"]; [[34%N]]; [lit "<EOL>"]] /\
          spaced [160%N] [34; 97; 160; 160; 98; 34]%N [[34%N]; lit "a"; lit "b"; [34%N]]
      | _, _ => False
      end
  | Err _ => False
  end.
Proof.
  assert (S1 : spaced [160%N] [34; 97; 160; 160; 98; 34]%N [[34%N]; lit "a"; lit "b"; [34%N]]).
  { apply (sp_word _ [34%N]), (sp_word _ [97%N]). do 2 (apply sp_gap; [left; reflexivity|]). apply (sp_word _ [98%N]), spaced_one. }
  revert S1. generalize (spaced [160%N] [34; 97; 160; 160; 98; 34]%N [[34%N]; lit "a"; lit "b"; [34%N]]). intros P S1.
  vm_compute. repeat split. exact S1.
Qed.

(** "Is 0xFF ok" and "Is 12 ok": only the letters of a number change *)
Example C115_verbatim_example :
  match convert_text ascii_case ascii_K [(["Literal"; "String"]%string, [34%N] ++ lit "Is 0xFF ok" ++ [34%N])],
        convert_text ascii_case ascii_K [(["Literal"; "String"]%string, [34%N] ++ lit "Is 12 ok" ++ [34%N])] with
  | Ok l, Ok l' =>
      match to_repr ascii_case no_splitters (combine prep_params (chars_of "uc1Fsu")) None l,
            to_repr ascii_case no_splitters (combine prep_params (chars_of "uc1Fsu")) None l' with
      | Ok (a, _), Ok (b, _) =>
          a = [no_break ([34%N] ++ lit "Is 0xff ok" ++ [34%N])] /\ b = [no_break ([34%N] ++ lit "Is 12 ok" ++ [34%N])]
      | _, _ => False
      end
  | _, _ => False
  end.
Proof. vm_compute. split; reflexivity. Qed.
