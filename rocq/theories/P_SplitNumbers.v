(** * C114: split_numbers *)
From Coq Require Import List NArith ZArith Bool String Lia.
From Verif Require Import M_Base L_Base M_Tokens M_Literal L_Literal M_Repr M_Merge M_BpeEncode M_PrepConfig P_PrepConfig
  L_Repr P_Repr L_Word P_ReprOptions L_Merge P_ReprStrings M_Regex M_Parse L_Regex P_Parse P_ParseRepr P_Split M_Stem P_Stem P_Case P_Unicode.
Import ListNotations.
Local Open Scope list_scope.

(** two configurations of basic that differ in split_numbers only *)
Definition numbers_and_not (d d' : params) : Prop :=
  param d SPLIT = lit "1" /\ param d' SPLIT = lit "2" /\ forall p, p <> SPLIT -> param d' p = param d p.

(** a number in digits: one word per character, between the marks of a word if there are several *)
Definition in_digits (v : str) : list str :=
  match v with
  | _ :: _ :: _ => [lit "<w>"] ++ map (fun c => [c]) v ++ [lit "</w>"]
  | _ => map (fun c => [c]) v
  end.

(** ** A number in lower case is a number *)
Lemma map_join (f : N -> N) sep l : map f (join sep l) = join (map f sep) (map (map f) l).
Proof.
  induction l as [|x l IH]; [reflexivity|]. destruct l as [|y l]; [reflexivity|].
  change (join sep (x :: y :: l)) with (x ++ sep ++ join sep (y :: l)). rewrite !map_app, IH. reflexivity.
Qed.

Section LowerNumber.
  Let f := ascii_to_lower.
  Lemma f_digit c : is_digit c = true -> f c = c.
  Proof.
    unfold f, ascii_to_lower, ascii_upper_ch, is_digit. intros H. apply andb_true_iff in H. destruct H as [_ H]. apply N.leb_le in H.
    destruct (65 <=? c)%N eqn:X; [apply N.leb_le in X; lia|reflexivity].
  Qed.
  Lemma f_bin c : is_bin c = true -> f c = c.
  Proof.
    unfold is_bin, in_range. intros H. apply f_digit. unfold is_digit. apply andb_true_iff in H. destruct H as [H1 H2]. rewrite H1.
    apply N.leb_le in H2. apply N.leb_le. lia.
  Qed.
  Lemma f_hex c : is_hex c = true -> is_hex (f c) = true.
  Proof.
    unfold is_hex. intros H. apply orb_true_iff in H. destruct H as [H|H].
    - apply orb_true_iff in H. destruct H as [H|H]; [rewrite (f_digit c H), H; reflexivity|].
      unfold f, ascii_to_lower, ascii_upper_ch, in_range in *. apply andb_true_iff in H. destruct H as [H1 H2].
      apply N.leb_le in H1. replace ((65 <=? c) && (c <=? 90))%N with false; [|symmetry; apply andb_false_iff; right; apply N.leb_gt; lia].
      replace (97 <=? c)%N with true by (symmetry; apply N.leb_le; exact H1). rewrite H2. cbn. rewrite orb_true_r. reflexivity.
    - unfold f, ascii_to_lower, ascii_upper_ch, in_range in *. apply andb_true_iff in H. destruct H as [H1 H2].
      rewrite H1. apply N.leb_le in H1. apply N.leb_le in H2. replace (c <=? 90)%N with true by (symmetry; apply N.leb_le; lia). cbn [andb].
      replace (97 <=? c + 32)%N with true by (symmetry; apply N.leb_le; lia).
      replace (c + 32 <=? 102)%N with true by (symmetry; apply N.leb_le; lia). cbn. rewrite orb_true_r. reflexivity.
  Qed.
  Lemma f_all p s : (forall c, p c = true -> p (f c) = true) -> forallb p s = true -> forallb p (map f s) = true.
  Proof.
    intros Hp. induction s as [|c s IH]; [reflexivity|]. cbn [forallb map]. intros H. apply andb_true_iff in H. destruct H as [H1 H2].
    rewrite (Hp c H1), (IH H2). reflexivity.
  Qed.
  Lemma f_digits p s : (forall c, p c = true -> p (f c) = true) -> digits p s -> digits p (map f s).
  Proof. intros Hp [H1 H2]. split; [destruct s; [congruence|discriminate]|apply f_all; assumption]. Qed.
  Lemma f_grouped p s : (forall c, p c = true -> p (f c) = true) -> grouped p s -> grouped p (map f s).
  Proof.
    intros Hp (gs & H1 & H2 & ->). exists (map (map f) gs). split; [destruct gs; [congruence|discriminate]|]. split.
    - apply Forall_forall. intros x Hx. apply in_map_iff in Hx. destruct Hx as (g & <- & Hg). apply f_digits; [exact Hp|].
      rewrite Forall_forall in H2. apply H2, Hg.
    - rewrite map_join. reflexivity.
  Qed.
  Lemma f_optional chars s : (forall c, In c (lit chars) -> In (f c) (lit chars)) -> optional chars s -> optional chars (map f s).
  Proof. intros Hc [->|(c & H & ->)]; [left; reflexivity|right; exists (f c); split; [apply Hc, H|reflexivity]]. Qed.
  Lemma f_exponent s : exponent s -> exponent (map f s).
  Proof.
    intros (e & sg & ds & H1 & H2 & H3 & ->). exists (f e), (map f sg), (map f ds). split.
    - cbn in H1. destruct H1 as [<-|[<-|[]]]; left; reflexivity.
    - split; [apply f_optional; [|exact H2]|split; [apply f_digits; [|exact H3]|rewrite !map_app; reflexivity]].
      + intros c Hc. cbn in Hc. destruct Hc as [<-|[<-|[]]]; cbn; auto.
      + intros c Hc. rewrite (f_digit c Hc). exact Hc.
  Qed.
  Lemma number_lower w : number_literal w -> number_literal (map f w).
  Proof.
    assert (D : forall c, is_digit c = true -> is_digit (f c) = true) by (intros c Hc; rewrite (f_digit c Hc); exact Hc).
    assert (B : forall c, is_bin c = true -> is_bin (f c) = true) by (intros c Hc; rewrite (f_bin c Hc); exact Hc).
    assert (O1 : forall c, In c (lit "lL") -> In (f c) (lit "lL")) by (intros c Hc; cbn in Hc; destruct Hc as [<-|[<-|[]]]; cbn; auto).
    assert (O2 : forall c, In c (lit "lLfFdD") -> In (f c) (lit "lLfFdD")) by (intros c Hc; cbn in Hc; repeat (destruct Hc as [<-|Hc]; [cbn; auto 8|]); destruct Hc).
    assert (O3 : forall c, In c (lit "fFdD") -> In (f c) (lit "fFdD")) by (intros c Hc; cbn in Hc; repeat (destruct Hc as [<-|Hc]; [cbn; auto 8|]); destruct Hc).
    intros [body suffix H1 H2|body suffix H1 H2|body suffix H1 H2|whole frac ex suffix H1 H2 H3 H4 H5|whole ex suffix H1 H2 H3]; rewrite !map_app.
    - change (map f (lit "0x")) with (lit "0x"). apply num_hex; [apply f_grouped; [exact f_hex|exact H1]|apply f_optional; assumption].
    - change (map f (lit "0b")) with (lit "0b"). apply num_bin; [apply f_grouped; assumption|apply f_optional; assumption].
    - apply num_int; [apply f_grouped; assumption|apply f_optional; assumption].
    - change (map f (lit ".")) with (lit "."). apply num_point; [apply f_all; assumption|apply f_all; assumption| | |apply f_optional; assumption].
      + destruct H3 as [H3|H3]; [left|right]; intros X; apply map_eq_nil in X; contradiction.
      + destruct H4 as [->|H4]; [left; reflexivity|right; apply f_exponent, H4].
    - apply num_exp; [apply f_digits; assumption|apply f_exponent, H2|apply f_optional; assumption].
  Qed.
End LowerNumber.

Section Numbers.
  Variables (E : pycase) (K : charclass) (G : N -> Prop) (lo up : N -> N).
  Hypothesis HK : ascii_classes K.
  Hypothesis HS : simple_case E K G lo up.
  Hypothesis Hlo : forall c, (c < 128)%N -> lo c = ascii_to_lower c.

  (** a token in a comment or a string: it is a number or its text is none *)
  Definition inner_token (t : token) : Prop :=
    match t with
    | Number v => number_literal v
    | SplitContainer k | NonEng k => exists w, ~ number_literal w /\ forall s, k = [s] -> subtoken_str E s = w
    | NonProc _ s => exists c, s = [c]
    | NewLine | Tab => True
    | _ => False
    end.

  Lemma inner_word w t : Forall G w -> word_token E K w t -> inner_token t.
  Proof.
    intros Hg [Hn|parts subs Hn Hc Hne Hok HF].
    - cbn. rewrite (sc_lower _ _ _ _ _ HS _ Hg). replace (map lo w) with (map ascii_to_lower w); [apply number_lower, Hn|].
      apply map_ext_in. intros c Hc. symmetry. apply Hlo. pose proof (number_ascii w Hn) as Ha. unfold ascii in Ha. rewrite Forall_forall in Ha. apply Ha, Hc.
    - assert (X : exists w, ~ number_literal w /\ forall s, subs = [s] -> subtoken_str E s = w).
      { exists w. split; [exact Hn|]. intros s ->. inversion HF as [|p s' ps ss Hx HF']; subst. inversion HF'; subst.
        cbn [List.concat] in *. rewrite app_nil_r in *. destruct Hx as [[-> ->]|[Hu Hx]]; [reflexivity|]. destruct Hok as [O1 _].
        destruct (part_stable E K G lo up HS (fun c _ => digit_uncased K HK c) p _ Hg O1 Hu) as (wd & Hw & Hstr). congruence. }
      destruct (is_ascii w); exact X.
  Qed.

  (** the tokens of the parser: what is in comments and strings *)
  Definition outer_token (t : token) : Prop :=
    match t with
    | OneLineComment l | MultilineComment l => Forall inner_token l
    | StringLiteral l _ => Forall (fun u => is_space_in_string u = true \/ inner_token u) l
    | SpaceInString _ => False
    | _ => True
    end.

  Lemma inner_pieces (R : token -> Prop) sp (s : str) ps tss :
    (forall t, inner_token t -> R t) -> (forall n, Forall R (sp n)) -> Forall G s -> pieces K s ps ->
    Forall2 (piece_tokens E K sp) ps tss -> Forall R (List.concat tss).
  Proof.
    intros HR Hsp Hg (-> & Hok & _) HF. revert Hg Hok. induction HF as [|p ts ps tss Hp HF IH]; intros Hg Hok; [constructor|].
    inversion Hok as [|? ? Hq Hqs]; subst. cbn [map List.concat] in Hg |- *. apply Forall_app in Hg. destruct Hg as [Hg1 Hg2].
    apply Forall_app. split; [|apply IH; assumption].
    destruct p as [w|c|n]; cbn [piece_tokens piece_ok piece_text] in *.
    - destruct Hp as (t & -> & Hw). constructor; [|constructor]. apply HR, (inner_word w); assumption.
    - subst ts. constructor; [|constructor]. apply HR. unfold char_token. destruct (N.eqb c 10); [exact I|]. destruct (N.eqb c 9); [exact I|].
      exists c. reflexivity.
    - subst ts. apply Hsp.
  Qed.
  Lemma inner_words s toks : Forall G s -> split_into_words E K s = Ok toks -> Forall inner_token toks.
  Proof.
    intros Hg H. destruct (C13_words E K s toks HK H) as (ps & tss & Hp & HF & ->).
    eapply (inner_pieces inner_token); [auto| |exact Hg|exact Hp|exact HF].
    intros n. apply Forall_forall. intros t Ht. apply repeat_spec in Ht. subst t. exact I.
  Qed.
  Lemma inner_string s toks : Forall G s -> split_string E K s = Ok toks -> Forall (fun u => is_space_in_string u = true \/ inner_token u) toks.
  Proof.
    intros Hg H. destruct (C13_string E K s toks HK H) as (ps & tss & Hp & HF & ->).
    eapply inner_pieces; [auto| |exact Hg|exact Hp|exact HF]. intros n. constructor; [left; reflexivity|constructor].
  Qed.
  Lemma inner_outer t : inner_token t -> outer_token t.
  Proof. destruct t; cbn; tauto. Qed.
  Lemma outer_convert t (v : str) toks : Forall G v -> convert E K t v = Ok toks -> Forall outer_token toks.
  Proof.
    intros Hg. unfold convert.
    assert (Hw : forall toks, split_into_words E K v = Ok toks -> Forall outer_token toks).
    { intros ts H. eapply Forall_impl; [apply inner_outer|]. eapply inner_words; eassumption. }
    assert (One1 : forall u, outer_token u -> Forall outer_token [u]) by (intros u Hu; constructor; [exact Hu|constructor]).
    destruct (eqb v s_nl); [intros [= <-]; apply One1; exact I|]. destruct (eqb v s_tab); [intros [= <-]; apply One1; exact I|].
    destruct (blank K v).
    { intros [= <-]. apply Forall_forall. intros x Hx. apply repeat_spec in Hx. subst x. exact I. }
    destruct (type_is t ["Operator"%string] || type_in t ["Punctuation"%string]).
    { intros [= <-]. unfold operator_token. repeat destruct (eqb v _); (apply One1; exact I). }
    destruct (type_in t ["Literal"; "Number"]%string).
    { intros [= <-]. unfold number_token. destruct (eqb v _); [apply One1; exact I|]. destruct (eqb v _); apply One1; exact I. }
    destruct (type_in t ["Name"%string]); [apply Hw|]. destruct (type_is t _ || type_is t _); [apply Hw|].
    destruct (type_in t ["Keyword"%string]); [intros [= <-]; apply One1; exact I|].
    destruct (type_in t ["Literal"; "String"]%string).
    { rewrite bind_ok. intros (l & Hl & [= <-]). apply One1. exact (inner_string v l Hg Hl). }
    destruct (type_is t ["Comment"; "Single"]%string).
    { rewrite bind_ok. intros (l & Hl & [= <-]). apply One1. exact (inner_words v l Hg Hl). }
    destruct (type_in t ["Comment"%string]); [|apply Hw].
    rewrite bind_ok. intros (l & Hl & [= <-]). apply One1. exact (inner_words v l Hg Hl).
  Qed.
  Lemma outer_text lexed l : Forall (fun tv => Forall G (snd tv)) lexed -> convert_text E K lexed = Ok l -> Forall outer_token l.
  Proof.
    intros HA. revert l. induction HA as [|[t v] rest H1 HA IH]; intros l; cbn [convert_text].
    - intros [= <-]. constructor.
    - rewrite bind_ok. intros (a & Ha & Hl). apply bind_ok in Hl. destruct Hl as (r & Hr & [= <-]).
      apply Forall_app. split; [exact (outer_convert t v a H1 Ha)|apply IH, Hr].
  Qed.

  (** *** Representations *)
  Variables (cn cs : repr_config).
  Hypothesis Ht : forall c, c <> CNumber -> in_types cs c = in_types cn c.
  Hypothesis Hns : in_types cs CNumber = true.
  Hypothesis Hnn : in_types cn CNumber = false.
  Hypothesis Hbn : bpe cn = false.
  Hypothesis Hbs : bpe cs = false.
  Hypothesis Hlow : should_lowercase cs = should_lowercase cn.
  Hypothesis Hnum : number_splitter cs = (fun v => Ok (map (fun c => [c]) v)).
  Hypothesis Hfull : full_strings cn = false.
  Hypothesis Hfull' : full_strings cs = false.
  Hypothesis Hmax : max_str_length cs = max_str_length cn.
  Hypothesis Hw : word_splitter cn = Some (fun s => Ok [s]).
  Hypothesis Hw' : word_splitter cs = Some (fun s => Ok [s]).
  Hypothesis Hwt : in_types cn CWord = true.
  Hypothesis Hct : in_types cn CSplitContainer = true.

  Lemma sub_same2 s : torepr_sub E cs s = torepr_sub E cn s.
  Proof. destruct s as [|w c]; cbn [torepr_sub]; [reflexivity|]. unfold split_word. rewrite Ht by discriminate. rewrite Hlow, Hw, Hw'. reflexivity. Qed.
  Lemma subs_same2 k : torepr_subs E cs k = torepr_subs E cn k.
  Proof. induction k as [|s k IH]; cbn [torepr_subs]; [reflexivity|]. rewrite sub_same2, IH. reflexivity. Qed.
  Lemma split_same2 k : segs_split E cs k = segs_split E cn k.
  Proof. unfold segs_split. rewrite Ht by discriminate. rewrite Hbn, Hbs, subs_same2, Hct. reflexivity. Qed.

  Lemma digits_split v : (if (1 <? length (map (fun c : N => [c]) v))%nat && true
    then [ph_word_start] ++ map (fun c => [c]) v ++ [ph_word_end] else map (fun c => [c]) v) = in_digits v.
  Proof. destruct v as [|a [|b v]]; reflexivity. Qed.

  (** the words of a token that is no number *)
  Lemma split_single k r v : segs_split E cn k = Ok r -> r = one_seg CSplitContainer [v] [] -> exists s, k = [s] /\ subtoken_str E s = v.
  Proof.
    unfold segs_split. rewrite Hct, Hbn, bind_ok. intros (ws & Hws & [= <-]) [= Hv].
    assert (L : ws = [v]).
    { clear -Hv. unfold wrap_in_word_boundaries_if_necessary in Hv. destruct ws as [|a [|b [|c ws]]]; [discriminate|exact Hv| |discriminate].
      destruct (_ || _) in Hv; discriminate. }
    subst ws. clear Hv. destruct k as [|s k]; [discriminate|]. cbn [torepr_subs] in Hws.
    apply bind_ok in Hws. destruct Hws as (a & Ha & H). apply bind_ok in H. destruct H as (rs & Hrs & [= Hv]).
    assert (Pos : forall s a, torepr_sub E cn s = Ok a -> exists x a', a = x :: a' /\ (a' = [] -> x = subtoken_str E s)).
    { clear -Hwt Hw. intros [|w c] a; cbn [torepr_sub subtoken_str]; [intros [= <-]; do 2 eexists; split; reflexivity|].
      rewrite Hwt. unfold split_word. rewrite Hw. destruct (should_lowercase cn); cbn [bind]; intros [= <-].
      - destruct c; do 2 eexists; (split; [reflexivity|]); intros X; try discriminate; reflexivity.
      - do 2 eexists. split; reflexivity. }
    destruct (Pos s a Ha) as (x & a' & -> & Hx). cbn [app] in Hv. injection Hv as -> Hv. apply app_eq_nil in Hv. destruct Hv as [-> ->].
    exists s. split; [|symmetry; apply Hx; reflexivity]. f_equal. destruct k as [|s' k]; [reflexivity|]. cbn [torepr_subs] in Hrs.
    apply bind_ok in Hrs. destruct Hrs as (b & Hb & H). apply bind_ok in H. destruct H as (q & _ & [= H]).
    destruct (Pos s' b Hb) as (y & b' & -> & _). discriminate.
  Qed.

  (** in a comment or a string *)
  Definition inner_seg (x y : seg) : Prop :=
    s_np y = s_np x /\
    (forall v, s_toks x = [v] -> number_literal v -> s_toks y = in_digits v) /\
    ((forall v, s_toks x = [v] -> ~ number_literal v) -> s_toks y = s_toks x).
  Definition outer_seg (x y : seg) : Prop :=
    s_np y = s_np x /\ s_cls y = s_cls x /\
    (s_cls x = CNumber -> exists v, s_toks x = [v]) /\
    (forall v, s_toks x = [v] -> (s_cls x = CNumber \/ (In (s_cls x) [COneLineComment; CMultilineComment; CStringLiteral] /\ number_literal v)) ->
       s_toks y = in_digits v) /\
    (s_cls x <> CNumber -> (In (s_cls x) [COneLineComment; CMultilineComment; CStringLiteral] -> forall v, s_toks x = [v] -> ~ number_literal v) ->
       s_toks y = s_toks x).

  Lemma char_seg c ch np : inner_seg {| s_toks := [[ch]]; s_cls := c; s_np := np |} {| s_toks := [[ch]]; s_cls := c; s_np := np |}.
  Proof. split; [reflexivity|]. split; [|reflexivity]. cbn [s_toks]. intros v [= <-] _. reflexivity. Qed.
  Lemma no_number_seg x : (forall v, s_toks x = [v] -> ~ number_literal v) -> inner_seg x x.
  Proof. intros H. split; [reflexivity|]. split; [|reflexivity]. intros v Hv Hn. destruct (H v Hv Hn). Qed.

  Lemma number_not v : is_number v = false -> ~ number_literal v.
  Proof. intros H Hn. apply C14_number_grammar in Hn. congruence. Qed.

  Lemma inner_swap t r : inner_token t -> segs E cn t = Ok r -> exists r', segs E cs t = Ok r' /\ Forall2 inner_seg r r'.
  Proof.
    assert (C : forall k r, (exists w, ~ number_literal w /\ forall s, k = [s] -> subtoken_str E s = w) -> segs_split E cn k = Ok r ->
      exists r', segs_split E cs k = Ok r' /\ Forall2 inner_seg r r').
    { intros k r0 (w & Hn & Hk) Hr. rewrite split_same2. exists r0. split; [exact Hr|].
      pose proof Hr as Hr'. unfold segs_split in Hr'. rewrite Hct, Hbn in Hr'. apply bind_ok in Hr'. destruct Hr' as (ws & _ & [= <-]).
      constructor; [|constructor]. apply no_number_seg. cbn [s_toks]. intros v Hv.
      destruct (split_single k _ v Hr) as (s & -> & <-); [unfold one_seg; rewrite Hv; reflexivity|]. rewrite (Hk s eq_refl). exact Hn. }
    destruct t as [| |n|v| | |c s|k|k|k|k|k n]; cbn [inner_token segs]; intros Hu; try contradiction; rewrite ?(Ht CNewLine), ?(Ht CTab), ?(Ht CNonEng) by discriminate.
    - destruct (in_types cn CNewLine); intros [= <-]; (eexists; split; [reflexivity|]); [constructor|constructor; [apply char_seg|constructor]].
    - destruct (in_types cn CTab); intros [= <-]; (eexists; split; [reflexivity|]); [constructor|constructor; [apply char_seg|constructor]].
    - rewrite Hnn, Hns, Hnum, Hbs. intros [= <-]. cbn [bind negb]. rewrite digits_split. eexists. split; [reflexivity|].
      constructor; [|constructor]. split; [reflexivity|]. cbn [s_toks]. split; [intros w [= <-] _; reflexivity|]. intros H. destruct (H v eq_refl Hu).
    - destruct Hu as (ch & ->). intros [= <-]. eexists. split; [reflexivity|]. constructor; [apply char_seg|constructor].
    - apply C, Hu.
    - destruct (in_types cn CNonEng); [|apply C, Hu]. rewrite Hbn, Hbs. intros [= <-]. eexists. split; [reflexivity|]. constructor; [|constructor].
      apply no_number_seg. cbn [s_toks]. intros v [= <-]. apply number_not. reflexivity.
  Qed.
  Lemma list_inner (keep : token -> bool) l r : Forall (fun u => keep u = true -> inner_token u) l ->
    segs_list_with keep (segs E cn) l = Ok r -> exists r', segs_list_with keep (segs E cs) l = Ok r' /\ Forall2 inner_seg r r'.
  Proof.
    intros H. revert r. induction H as [|x l Hx Hl IH]; intros r; cbn [segs_list_with]; [intros [= <-]; eexists; split; [reflexivity|constructor]|].
    destruct (keep x) eqn:Hk; [|apply IH].
    rewrite bind_ok. intros (a & Ha & H'). apply bind_ok in H'. destruct H' as (rs & Hrs & [= <-]).
    destruct (inner_swap x a (Hx eq_refl) Ha) as (a' & -> & Ra). destruct (IH rs Hrs) as (rs' & Ers & Rrs). cbn [bind].
    fold (segs_list_with keep (segs E cs)). rewrite Ers. eexists. split; [reflexivity|apply Forall2_app; assumption].
  Qed.
  Lemma retype_inner c r r' : In c [COneLineComment; CMultilineComment; CStringLiteral] -> Forall2 inner_seg r r' ->
    Forall2 outer_seg (map (retype c) r) (map (retype c) r').
  Proof.
    intros Hc. induction 1 as [|x y r r' (H1 & H2 & H3) _ IH]; constructor; [|exact IH].
    assert (Hne : c <> CNumber) by (intros ->; destruct Hc as [Hc|[Hc|[Hc|[]]]]; discriminate).
    split; [exact H1|]. split; [reflexivity|]. split; [intros X; contradiction|]. cbn [retype s_cls s_toks]. split.
    - intros v Hv [X|[_ X]]; [contradiction|]. apply H2; assumption.
    - intros _ X. apply H3. intros v Hv. apply X; assumption.
  Qed.
  Lemma kept_seg c toks np : c <> CNumber -> (forall v, toks = [v] -> is_number v = false \/ ~ In c [COneLineComment; CMultilineComment; CStringLiteral]) ->
    outer_seg {| s_toks := toks; s_cls := c; s_np := np |} {| s_toks := toks; s_cls := c; s_np := np |}.
  Proof.
    intros Hc Hv. split; [reflexivity|]. split; [reflexivity|]. split; [intros X; contradiction|]. split; [|reflexivity]. cbn [s_cls s_toks].
    intros v E1 [X|[X1 X2]]; [contradiction|]. destruct (Hv v E1) as [H|H]; [|contradiction]. destruct (number_not v H X2).
  Qed.
  Lemma kept_one2 c toks np : c <> CNumber -> (forall v, toks = [v] -> is_number v = false \/ ~ In c [COneLineComment; CMultilineComment; CStringLiteral]) ->
    exists r', Ok (one_seg c toks np) = Ok r' /\ Forall2 outer_seg (one_seg c toks np) r'.
  Proof. intros H1 H2. eexists. split; [reflexivity|]. constructor; [apply kept_seg; assumption|constructor]. Qed.

  Lemma split_kept k r : segs_split E cn k = Ok r -> exists r', segs_split E cs k = Ok r' /\ Forall2 outer_seg r r'.
  Proof.
    rewrite split_same2. intros Hr. exists r. split; [exact Hr|]. unfold segs_split in Hr. rewrite Hct, Hbn in Hr. apply bind_ok in Hr.
    destruct Hr as (ws & _ & [= <-]). constructor; [|constructor]. apply kept_seg; [discriminate|]. intros v _. right. intros [X|[X|[X|[]]]]; discriminate.
  Qed.

  Lemma outer_swap t r : outer_token t -> segs E cn t = Ok r -> exists r', segs E cs t = Ok r' /\ Forall2 outer_seg r r'.
  Proof.
    assert (Out : forall c, ~ In c [COneLineComment; CMultilineComment; CStringLiteral] -> forall (toks : list str) v, toks = [v] ->
      is_number v = false \/ ~ In c [COneLineComment; CMultilineComment; CStringLiteral]) by auto.
    destruct t as [| |n|v| | |c s|k|k|k|k|k n]; cbn [outer_token segs]; intros Hu; try contradiction;
      rewrite ?(Ht CNewLine), ?(Ht CTab), ?(Ht CNonEng), ?(Ht COneLineComment), ?(Ht CMultilineComment), ?(Ht CStringLiteral) by discriminate.
    - destruct (in_types cn CNewLine); intros [= <-]; [eexists; split; [reflexivity|constructor]|].
      apply kept_one2; [discriminate|]. apply Out. intros [X|[X|[X|[]]]]; discriminate.
    - destruct (in_types cn CTab); intros [= <-]; [eexists; split; [reflexivity|constructor]|].
      apply kept_one2; [discriminate|]. apply Out. intros [X|[X|[X|[]]]]; discriminate.
    - rewrite Hnn, Hns, Hnum, Hbs. intros [= <-]. cbn [bind negb]. rewrite digits_split. eexists. split; [reflexivity|].
      constructor; [|constructor]. split; [reflexivity|]. split; [reflexivity|]. cbn [s_cls s_toks].
      split; [intros _; eexists; reflexivity|]. split; [intros w [= <-] _; reflexivity|]. intros X. congruence.
    - intros [= <-]. apply kept_one2; [discriminate|]. apply Out. intros [X|[X|[X|[]]]]; discriminate.
    - intros [= <-]. apply kept_one2; [discriminate|]. apply Out. intros [X|[X|[X|[]]]]; discriminate.
    - intros [= <-]. apply kept_one2; [destruct c; discriminate|]. apply Out. destruct c; intros [X|[X|[X|[]]]]; discriminate.
    - apply split_kept.
    - destruct (in_types cn CNonEng); [|apply split_kept]. rewrite Hbn, Hbs. intros [= <-].
      apply kept_one2; [discriminate|]. apply Out. intros [X|[X|[X|[]]]]; discriminate.
    - destruct (in_types cn COneLineComment).
      { intros [= <-]. apply kept_one2; [discriminate|]. intros v [= <-]. left. reflexivity. }
      rewrite bind_ok. intros (rs & Hrs & [= <-]).
      destruct (list_inner (fun _ => true) k rs) as (rs' & -> & R); [eapply Forall_impl; [|exact Hu]; auto|exact Hrs|]. cbn [bind].
      eexists. split; [reflexivity|]. apply Forall2_app; [apply retype_inner; [left; reflexivity|exact R]|].
      constructor; [|constructor]. apply kept_seg; [discriminate|]. intros v [= <-]. left. reflexivity.
    - destruct (in_types cn CMultilineComment).
      { intros [= <-]. apply kept_one2; [discriminate|]. intros v [= <-]. left. reflexivity. }
      rewrite bind_ok. intros (rs & Hrs & [= <-]).
      destruct (list_inner (fun _ => true) k rs) as (rs' & -> & R); [eapply Forall_impl; [|exact Hu]; auto|exact Hrs|]. cbn [bind].
      eexists. split; [reflexivity|]. apply retype_inner; [right; left; reflexivity|exact R].
    - destruct (in_types cn CStringLiteral).
      { intros [= <-]. apply kept_one2; [discriminate|]. intros v [= <-]. left. reflexivity. }
      rewrite Hmax, Hbn, Hbs, Hfull, Hfull'. destruct (max_str_length cn) as [mx|]; [|discriminate].
      destruct (mx <? n)%Z. { intros [= <-]. apply kept_one2; [discriminate|]. intros v H. discriminate. }
      rewrite bind_ok. intros (rs & Hrs & [= <-]).
      destruct (list_inner (fun u => negb (is_space_in_string u)) k rs) as (rs' & -> & R); [|exact Hrs|].
      { eapply Forall_impl; [|exact Hu]. intros u [H|H]; [rewrite H; discriminate|auto]. }
      cbn [bind]. eexists. split; [reflexivity|]. apply retype_inner; [right; right; left; reflexivity|exact R].
  Qed.
  Lemma list_outer l r : Forall outer_token l -> segs_list E cn l = Ok r -> exists r', segs_list E cs l = Ok r' /\ Forall2 outer_seg r r'.
  Proof.
    intros Hp. unfold segs_list. revert r. induction Hp as [|x l Hx Hp IH]; intros r; cbn [segs_list_with].
    - intros [= <-]. eexists. split; [reflexivity|constructor].
    - rewrite bind_ok. intros (a & Ha & H). apply bind_ok in H. destruct H as (rs & Hrs & [= <-]).
      destruct (outer_swap x a Hx Ha) as (a' & -> & Ra). destruct (IH rs Hrs) as (rs' & Ers & Rrs). cbn [bind].
      fold (segs_list_with (fun _ => true) (segs E cs)). rewrite Ers. eexists. split; [reflexivity|apply Forall2_app; assumption].
  Qed.
End Numbers.

(** C114: With split_numbers there are the same full tokens with the same types and the same non-processable tokens.  Each
    number, in code and in comments and strings, is replaced by its characters, one word each, between the marks of a word if
    there are several; all other full tokens stay the same. *)
Theorem C114_split_numbers : forall E K G lo up o d d' b lexed l out m,
  ascii_classes K -> simple_case E K G lo up -> (forall c, (c < 128)%N -> lo c = ascii_to_lower c) ->
  numbers_and_not d d' -> Forall (fun tv => Forall G (snd tv)) lexed ->
  convert_text E K lexed = Ok l -> to_repr E o d b l = Ok (out, m) ->
  exists out' m', to_repr E o d' b l = Ok (out', m') /\ nonproc m' = nonproc m /\ types m' = types m /\
    List.concat (slices (wb m) out) = out /\ List.concat (slices (wb m') out') = out' /\
    length (types m) = length (slices (wb m) out) /\
    Forall2 (fun (x : cls * list str) (y : list str) =>
        let prose := In (fst x) [COneLineComment; CMultilineComment; CStringLiteral] in
        (fst x = CNumber -> exists v, snd x = [v]) /\
        (forall v, snd x = [v] -> (fst x = CNumber \/ (prose /\ number_literal v)) -> y = in_digits v) /\
        (fst x <> CNumber -> (prose -> forall v, snd x = [v] -> ~ number_literal v) -> y = snd x))
      (combine (types m) (slices (wb m) out)) (slices (wb m') out').
Proof.
  intros E K G lo up o d d' b lexed l out m HK HS Hlo (Hsp & Hsp' & Hsame) Hg Hl H.
  assert (Hb : is_bpe d = false) by (unfold is_bpe, param_in; rewrite Hsp; reflexivity).
  assert (Hb' : is_bpe d' = false) by (unfold is_bpe, param_in; rewrite Hsp'; reflexivity).
  destruct (to_repr_segs _ _ _ _ _ _ _ H) as (cn & ss & Hcfg & Hss & -> & Hout & _ & _). specialize (Hout Hb). subst out.
  unfold get_repr_config, get_number_splitter, get_word_splitter, param_in in Hcfg. rewrite Hb, Hsp in Hcfg.
  apply bind_ok in Hcfg. destruct Hcfg as (ns & Hns & Hcfg). apply bind_ok in Hcfg. destruct Hcfg as (ws & Hws & Hcfg).
  apply bind_ok in Hcfg. destruct Hcfg as (ml & Hml & Hcfg). injection Hns as <-. injection Hws as <-. injection Hcfg as <-.
  assert (A : get_number_splitter d' None = Ok (fun s => Ok (map (fun c => [c]) s))) by (unfold get_number_splitter, param_in; rewrite Hsp'; reflexivity).
  assert (B : get_word_splitter o d' None = Ok (Some (fun s => Ok [s]))) by (unfold get_word_splitter, param_in; rewrite Hsp'; reflexivity).
  unfold to_repr, to_repr_cfg, get_repr_config. rewrite Hb', A, B. cbn [bind]. rewrite (Hsame STR), Hml by discriminate. cbn [bind].
  rewrite to_repr_list_segs. unfold param_in. rewrite (Hsame CASE), Hsp' by discriminate.
  match type of Hss with segs_list _ ?a _ = _ => set (cn := a) in * end.
  match goal with |- context [segs_list _ ?a _] => set (cs := a) in * end.
  assert (T : forall c, c <> CNumber -> in_types cs c = in_types cn c).
  { intros c Hc. unfold in_types, cs, cn. cbn [types_to_be_repr]. rewrite !types_in. unfold param_in. destruct c; rewrite ?Hsame by discriminate;
      rewrite ?Hsp, ?Hsp'; try reflexivity. congruence. }
  destruct (list_outer E cn cs) with (l := l) (r := ss) as (ss' & Hs' & R); try reflexivity; try assumption.
  1-4: unfold in_types, cs, cn; cbn [types_to_be_repr]; rewrite types_in; unfold param_in; rewrite ?Hsp, ?Hsp'; reflexivity.
  { eapply outer_text; eassumption. }
  rewrite Hs'. cbn [flat_res bind]. exists (List.concat (map s_toks ss')), (snd (flat ss')). split; [reflexivity|].
  unfold flat. cbn [snd types nonproc wb]. rewrite !slices_bounds0, !map_length. clear - R.
  split; [induction R as [|x y r r' (R1 & _) _ IH]; cbn [map List.concat]; congruence|].
  split; [induction R as [|x y r r' (_ & R1 & _) _ IH]; cbn [map]; congruence|]. do 3 (split; [reflexivity|]).
  induction R as [|x y r r' (_ & _ & R1 & R2 & R3) _ IH]; cbn [map combine]; constructor; [|exact IH]. cbn [fst snd]. auto.
Qed.
Print Assumptions C114_split_numbers.

(** the option: split_numbers with and without, all other options the same *)
Theorem C114_options : forall no_spaces no_unicode no_case no_com no_str mx,
  exists d d',
    basic_config false false false no_spaces no_unicode no_case no_com no_str mx = Ok d /\
    basic_config true false false no_spaces no_unicode no_case no_com no_str mx = Ok d' /\ numbers_and_not d d'.
Proof.
  intros. unfold basic_config, create_prep_config. pose proof (str_value_known no_str mx) as Hst.
  generalize dependent (create_str_value no_str mx). intros sv Hst.
  assert (C : forall (sp : str) (d : params), In sp [lit "1"; lit "2"] ->
    d = [(EN_ONLY, if no_unicode then lit "U" else lit "u"); (COM, if no_com then lit "0" else lit "c"); (STR, sv); (SPLIT, sp);
         (TABS_NEWLINES, if no_spaces then lit "0" else lit "s"); (CASE, if no_case then lit "l" else lit "u")] ->
    mk_prep_config d = Ok d).
  { intros sp d Hin ->. unfold mk_prep_config, check_invariants. cbn [length Nat.eqb negb].
    replace (check_values _ _) with (if mem sv possible_str_values then Ok tt else Err ValueError)
      by (destruct Hin as [<-|[<-|[]]]; destruct no_unicode, no_com, no_spaces, no_case; reflexivity).
    rewrite Hst. destruct Hin as [<-|[<-|[]]]; destruct no_case; reflexivity. }
  do 2 eexists. split; [eapply (C (lit "1")); [left; reflexivity|reflexivity]|].
  split; [eapply (C (lit "2")); [right; left; reflexivity|reflexivity]|].
  split; [reflexivity|]. split; [reflexivity|]. intros p Hp. destruct p; try reflexivity. congruence.
Qed.
Print Assumptions C114_options.

(** x2 = 0x1F + 7 "v12 10" # see 42 *)
Example C114_example :
  let lexed := [(["Name"%string], lit "x2"); (["Operator"%string], lit "="); (["Literal"; "Number"; "Hex"]%string, lit "0x1F");
                (["Operator"%string], lit "+"); (["Literal"; "Number"]%string, lit "7");
                (["Literal"; "String"]%string, [34%N] ++ lit "v12 10" ++ [34%N]);
                (["Comment"; "Single"]%string, lit "# see 42")] in
  match convert_text ascii_case ascii_K lexed with
  | Ok l =>
      match to_repr ascii_case no_splitters (combine prep_params (chars_of "uc11su")) None l,
            to_repr ascii_case no_splitters (combine prep_params (chars_of "uc12su")) None l with
      | Ok (a, m), Ok (b, m') =>
          slices (wb m) a = [[lit "<w>"; lit "x"; lit "2"; lit "</w>"]; [lit "="]; [lit "0x1f"]; [lit "+"]; [lit "7"];
                             [[34%N]]; [lit "<w>"; lit "v"; lit "12"; lit "</w>"]; [lit "10"]; [[34%N]]; [lit "#"]; [lit "see"]; [lit "42"]; [lit "<EOL>"]] /\
          slices (wb m') b = [[lit "<w>"; lit "x"; lit "2"; lit "</w>"]; [lit "="];
                             [lit "<w>"; lit "0"; lit "x"; lit "1"; lit "f"; lit "</w>"]; [lit "+"]; [lit "7"];
                             [[34%N]]; [lit "<w>"; lit "v"; lit "12"; lit "</w>"]; [lit "<w>"; lit "1"; lit "0"; lit "</w>"]; [[34%N]];
                             [lit "#"]; [lit "see"]; [lit "<w>"; lit "4"; lit "2"; lit "</w>"]; [lit "<EOL>"]] /\
          types m' = types m /\ nth_error (types m) 2 = Some CNumber /\ number_literal (lit "42") /\ ~ number_literal (lit "v12")
      | _, _ => False
      end
  | Err _ => False
  end.
Proof.
  assert (N1 : number_literal (lit "42")) by (apply C14_number_grammar; reflexivity).
  assert (N2 : ~ number_literal (lit "v12")) by (intros H; apply C14_number_grammar in H; discriminate).
  revert N1 N2. generalize (number_literal (lit "42")) (~ number_literal (lit "v12")). intros P Q N1 N2.
  vm_compute. repeat split; assumption.
Qed.
