(** * C69, C70: split words are marked so that they can be put together again *)
From Coq Require Import List NArith ZArith Bool String Lia.
From Verif Require Import M_Base L_Base M_Tokens M_Literal L_Literal M_Repr M_Merge M_BpeEncode M_PrepConfig P_PrepConfig
  L_Repr P_Repr L_Word P_ReprOptions L_Merge P_ReprStrings M_Regex M_Parse L_Regex P_Parse P_ParseRepr.
Import ListNotations.
Local Open Scope list_scope.

(** ** C69 *)
Definition caps : list str := [lit "<Cap>"; lit "<CAPS>"].
Definition markers : list str := [lit "<w>"; lit "</w>"] ++ caps.

(** the output for one token: a token; a word after its case; several subtokens between the marks *)
Inductive delimited : list str -> Prop :=
| del_one x : ~ In x markers -> delimited [x]
| del_case c x : In c caps -> ~ In x markers -> delimited [c; x]
| del_word body : 2 <= length body -> ~ In (lit "<w>") body -> ~ In (lit "</w>") body -> ~ In (last body []) caps ->
    (length body = 2 -> ~ In (hd [] body) caps) -> delimited ([lit "<w>"] ++ body ++ [lit "</w>"]).

(** cutting a text into such groups; [open] is the group that has begun *)
Fixpoint regroup (open : option (list str)) (l : list str) : list (list str) :=
  match l with
  | [] => match open with None => [] | Some g => [g] end
  | t :: rest =>
      match open with
      | Some g => if eqb t (lit "</w>") then (g ++ [t]) :: regroup None rest else regroup (Some (g ++ [t])) rest
      | None =>
          if eqb t (lit "<w>") then regroup (Some [t]) rest
          else if mem t caps then match rest with [] => [[t]] | x :: rest' => [t; x] :: regroup None rest' end
          else [t] :: regroup None rest
      end
  end.

Lemma regroup_body body g rest : ~ In (lit "</w>") body ->
  regroup (Some g) (body ++ lit "</w>" :: rest) = (g ++ body ++ [lit "</w>"]) :: regroup None rest.
Proof.
  revert g. induction body as [|x body IH]; intros g Hn; cbn [app regroup].
  - rewrite eqb_refl. reflexivity.
  - destruct (eqb_spec x (lit "</w>")) as [->|_]; [exfalso; apply Hn; left; reflexivity|].
    rewrite IH by (intros H; apply Hn; right; exact H). rewrite <- app_assoc. reflexivity.
Qed.

Lemma regroup_groups gs : Forall delimited gs -> regroup None (List.concat gs) = gs.
Proof.
  induction 1 as [|g gs Hg _ IH]; [reflexivity|]. cbn [List.concat]. destruct Hg as [x Hx|c x Hc Hx|body _ _ Hb _ _].
  - cbn [app regroup]. destruct (eqb_spec x (lit "<w>")) as [->|_]; [exfalso; apply Hx; left; reflexivity|].
    destruct (mem x caps) eqn:Hm; [exfalso; apply Hx; apply mem_in in Hm; right; right; exact Hm|]. rewrite IH. reflexivity.
  - cbn [app regroup]. apply mem_in in Hc as Hm.
    destruct (eqb_spec c (lit "<w>")) as [->|_]; [destruct Hc as [Hc|[Hc|[]]]; discriminate Hc|].
    rewrite Hm, IH. reflexivity.
  - rewrite <- !app_assoc. cbn [app regroup]. rewrite eqb_refl, (regroup_body body [lit "<w>"] _ Hb), IH.
    reflexivity.
Qed.

Definition no_lt (s : str) : Prop := ~ In 60%N s.
Lemma no_lt_marker s : no_lt s -> ~ In s markers.
Proof. intros H [<-|[<-|[<-|[<-|[]]]]]; apply H; left; reflexivity. Qed.

Definition plain_sub (E : pycase) (s : subtoken) : Prop :=
  match s with Underscore => True | Word w c => w <> [] /\ no_lt w /\ with_preserved_case E w c <> [] /\ no_lt (with_preserved_case E w c) end.
Definition plain_token (E : pycase) (t : token) : Prop :=
  match t with
  | Number v => v <> [] /\ no_lt v
  | NonProc _ s => ~ In s markers
  | SplitContainer k | NonEng k => k <> [] /\ Forall (plain_sub E) k
  | _ => True
  end.

Definition groups_ok (r : list seg) : Prop := Forall (fun s => delimited (s_toks s)) r.

Section Groups.
  Variables (E : pycase) (cfg : repr_config).
  Hypothesis Hbpe : bpe cfg = false.
  Hypothesis Hfull : full_strings cfg = false.
  Hypothesis Htypes : in_types cfg CWord = in_types cfg CSplitContainer.
  Hypothesis Hns : forall v ws, v <> [] -> no_lt v -> number_splitter cfg v = Ok ws -> ws <> [] /\ Forall no_lt ws.
  Hypothesis Hws : forall v ws, in_types cfg CWord = true -> v <> [] -> no_lt v -> split_word cfg v = Ok ws -> ws <> [] /\ Forall no_lt ws.

  (** subtokens of a word: only case marks, and not at the end *)
  Definition inside (ws : list str) : Prop :=
    ws <> [] /\ Forall (fun x => In x caps \/ ~ In x markers) ws /\ ~ In (last ws []) markers.

  Lemma last_app {A} (a b : list A) d : b <> [] -> last (a ++ b) d = last b d.
  Proof.
    intros Hb. induction a as [|x a IH]; [reflexivity|]. cbn [app]. destruct (a ++ b) as [|y l] eqn:Ea.
    - destruct a; [contradiction|discriminate].
    - rewrite <- IH. reflexivity.
  Qed.

  Lemma inside_app a b : inside a -> inside b -> inside (a ++ b).
  Proof.
    intros (A1 & A2 & A3) (B1 & B2 & B3). repeat split.
    - intros H. apply app_eq_nil in H. tauto.
    - apply Forall_app. split; assumption.
    - rewrite last_app by exact B1. exact B3.
  Qed.

  Lemma inside_plain ws : ws <> [] -> Forall no_lt ws -> inside ws.
  Proof.
    intros H1 H2. repeat split; [exact H1| |].
    - eapply Forall_impl; [|exact H2]. intros x Hx. right. apply no_lt_marker, Hx.
    - apply no_lt_marker. rewrite Forall_forall in H2. apply H2. destruct ws as [|x ws]; [congruence|].
      rewrite (app_removelast_last [] (l := x :: ws)) at 2 by discriminate. apply in_or_app. right. left. reflexivity.
  Qed.

  Lemma inside_case c ws : inside ws -> inside (with_capitalization_prefixes c ws).
  Proof.
    intros H. assert (Hc : forall x, In x caps -> inside (x :: ws)).
    { intros x Hx. destruct H as (H1 & H2 & H3). repeat split; [discriminate|constructor; [left; exact Hx|exact H2]|].
      change (x :: ws) with ([x] ++ ws). rewrite last_app by exact H1. exact H3. }
    destruct c; cbn [with_capitalization_prefixes]; try exact H; apply Hc; cbn; auto.
  Qed.

  Lemma sub_inside s r : plain_sub E s -> torepr_sub E cfg s = Ok r -> inside r.
  Proof.
    intros Hs. destruct s as [|w c]; cbn [torepr_sub].
    - intros [= <-]. apply inside_plain; [discriminate|]. constructor; [|constructor]. intros [H|[]]; discriminate.
    - destruct Hs as (H1 & H2 & H3 & H4). destruct (in_types cfg CWord) eqn:Hw.
      + destruct (should_lowercase cfg).
        * rewrite bind_ok. intros (r' & Hr & [= <-]). destruct (Hws w r' eq_refl H1 H2 Hr) as [A B].
          apply inside_case, inside_plain; assumption.
        * intros Hr. destruct (Hws _ r eq_refl H3 H4 Hr) as [A B]. apply inside_plain; assumption.
      + intros [= <-]. apply inside_plain; [discriminate|]. constructor; [exact H4|constructor].
  Qed.

  Lemma subs_inside k r : k <> [] -> Forall (plain_sub E) k -> torepr_subs E cfg k = Ok r -> inside r.
  Proof.
    intros Hk Hf. revert r. induction Hf as [|s k Hs Hf IH]; intros r; [congruence|]. cbn [torepr_subs].
    rewrite bind_ok. intros (a & Ha & H). apply bind_ok in H. destruct H as (rs & Hrs & [= <-]).
    pose proof (sub_inside s a Hs Ha) as Hi. destruct k as [|s' k].
    - cbn [torepr_subs] in Hrs. injection Hrs as <-. rewrite app_nil_r. exact Hi.
    - apply inside_app; [exact Hi|]. apply IH; [discriminate|exact Hrs].
  Qed.

  Lemma wrap_delimited r : inside r -> delimited (wrap_in_word_boundaries_if_necessary r).
  Proof.
    intros (H1 & H2 & H3).
    assert (Hn : ~ In (lit "<w>") r /\ ~ In (lit "</w>") r).
    { rewrite Forall_forall in H2. split; intros Hin; (destruct (H2 _ Hin) as [[H|[H|[]]]|H]; [discriminate H|discriminate H|]);
        apply H; [left|right; left]; reflexivity. }
    assert (Hl : ~ In (last r []) caps) by (intros H; apply H3; right; right; exact H).
    unfold wrap_in_word_boundaries_if_necessary. destruct r as [|a [|b [|c r]]]; [congruence|..].
    - apply del_one, H3.
    - destruct (eqb_spec a ph_capitals) as [->|Ha]; [apply del_case; [right; left; reflexivity|exact H3]|].
      destruct (eqb_spec a ph_capital) as [->|Hb]; [apply del_case; [left; reflexivity|exact H3]|].
      cbn [orb]. apply del_word; [cbn; lia|apply Hn|apply Hn|exact Hl|]. intros _ [H|[H|[]]]; cbn [hd] in H; [apply Hb|apply Ha]; rewrite <- H; reflexivity.
    - apply del_word; [cbn; lia|apply Hn|apply Hn|exact Hl|]. cbn [length]. lia.
  Qed.

  Lemma split_groups k r : k <> [] -> Forall (plain_sub E) k -> segs_split E cfg k = Ok r -> groups_ok r.
  Proof.
    intros Hk Hf. pose proof (fun r => subs_inside k r Hk Hf) as Hi. unfold segs_split.
    destruct (in_types cfg CSplitContainer) eqn:Hsc.
    - rewrite Hbpe, bind_ok. intros (ws & Hw & [= <-]). constructor; [|constructor]. cbn [s_toks].
      apply wrap_delimited, Hi, Hw.
    - rewrite bind_ok. intros (hs & Hh & [= <-]). constructor; [|constructor]. cbn [s_toks].
      apply del_one, no_lt_marker. intros Hin. apply in_concat in Hin. destruct Hin as (x & Hx & Hc).
      destruct (P_Repr.mapM_in _ _ _ _ Hh Hx) as (s & Hs & Hfx). rewrite Forall_forall in Hf. specialize (Hf s Hs).
      destruct s as [|w c]; cbn [torepr_sub] in Hfx.
      + injection Hfx as <-. destruct Hc as [H|[]]; discriminate.
      + rewrite Htypes in Hfx. injection Hfx as <-. apply Hf, Hc.
  Qed.

  (** strings within the limit *)
  Definition short_string (t : token) : Prop :=
    match t with StringLiteral _ n => forall mx, max_str_length cfg = Some mx -> (n <= mx)%Z | _ => True end.

  Lemma segs_groups t r :
    Forall (fun t => plain_token E t /\ short_string t) (subterms t) -> segs E cfg t = Ok r -> groups_ok r.
  Proof.
    pose proof split_groups as Hsplit.
    assert (Hone : forall c x np, ~ In x markers -> groups_ok (one_seg c [x] np)).
    { intros c x np Hx. constructor; [|constructor]. apply del_one, Hx. }
    assert (Hlit : forall s, mem (lit s) markers = false -> ~ In (lit s) markers).
    { intros s Hs Hin. apply mem_in in Hin. congruence. }
    assert (Hlist : forall keep l r,
      Forall (fun t => forall r, Forall (fun t => plain_token E t /\ short_string t) (subterms t) -> segs E cfg t = Ok r -> groups_ok r) l ->
      Forall (fun t => plain_token E t /\ short_string t) (List.concat (map subterms l)) ->
      segs_list_with keep (segs E cfg) l = Ok r -> groups_ok r).
    { intros keep l r' Hf Hsp Hr. eapply segs_list_with_forall; [|exact Hr].
      apply Forall_forall. intros x Hx s Hs. rewrite Forall_forall in Hf. apply (Hf x Hx); [|exact Hs].
      rewrite Forall_forall in *. intros u Hu. apply Hsp. apply in_concat. exists (subterms x). split; [apply in_map, Hx|exact Hu]. }
    revert r. induction t using token_nested_ind; intros r Hm; cbn [segs]; cbn [subterms] in Hm;
      apply Forall_cons_iff in Hm; destruct Hm as [[Ht Hsh] Hm]; cbn [plain_token short_string] in Ht, Hsh.
    - destruct (in_types cfg CNewLine); intros [= <-]; [constructor|apply Hone; cbn; intuition discriminate].
    - destruct (in_types cfg CTab); intros [= <-]; [constructor|apply Hone; cbn; intuition discriminate].
    - intros [= <-]. apply Hone, no_lt_marker. intros Hin. apply in_concat in Hin. destruct Hin as (x & Hx & Hc).
      apply repeat_spec in Hx. subst x. destruct Hc as [H|[]]; discriminate.
    - destruct (in_types cfg CNumber); [|intros [= <-]; apply Hone, no_lt_marker, Ht].
      rewrite bind_ok. intros (ws & Hw & [= <-]). constructor; [|constructor]. cbn [s_toks].
      rewrite Hbpe. cbn [negb]. rewrite andb_true_r.
      destruct (Hns v ws (proj1 Ht) (proj2 Ht) Hw) as [A B]. destruct (Nat.ltb_spec 1 (length ws)) as [Hl|Hl].
      + apply del_word; [exact Hl|..].
        * intros Hin. rewrite Forall_forall in B. apply (B _ Hin). left. reflexivity.
        * intros Hin. rewrite Forall_forall in B. apply (B _ Hin). left. reflexivity.
        * destruct (inside_plain ws A B) as (_ & _ & H). intros Hin. apply H. right. right. exact Hin.
        * intros _. destruct ws as [|x ws]; [congruence|]. inversion B as [|? ? Hx _]; subst. cbn [hd]. intros Hin.
          apply (no_lt_marker x Hx). right. right. exact Hin.
      + destruct ws as [|x [|y ws]]; [congruence| |cbn in Hl; lia]. apply del_one, no_lt_marker. inversion B; assumption.
    - intros [= <-]. apply Hone; cbn; intuition discriminate.
    - intros [= <-]. apply Hone; cbn; intuition discriminate.
    - intros [= <-]. apply Hone, Ht.
    - intros Hr. eapply Hsplit; [apply Ht|apply Ht|exact Hr].
    - destruct (in_types cfg CNonEng); [|intros Hr; eapply Hsplit; [apply Ht|apply Ht|exact Hr]].
      rewrite Hbpe. intros [= <-]. apply Hone; cbn; intuition discriminate.
    - destruct (in_types cfg COneLineComment); [intros [= <-]; apply Hone; cbn; intuition discriminate|].
      rewrite bind_ok. intros (rs & Hrs & [= <-]).
      apply Forall_app. split; [|apply Hone; cbn; intuition discriminate]. apply Forall_map. cbn [retype s_toks].
      eapply Hlist; [exact H|exact Hm|exact Hrs].
    - destruct (in_types cfg CMultilineComment); [intros [= <-]; apply Hone; cbn; intuition discriminate|].
      rewrite bind_ok. intros (rs & Hrs & [= <-]). apply Forall_map. cbn [retype s_toks].
      eapply Hlist; [exact H|exact Hm|exact Hrs].
    - destruct (in_types cfg CStringLiteral); [intros [= <-]; apply Hone; cbn; intuition discriminate|].
      destruct (max_str_length cfg) as [mx|]; [|discriminate]. specialize (Hsh mx eq_refl).
      destruct (Z.ltb_spec mx n) as [Hx|_]; [lia|]. rewrite Hbpe, Hfull.
      rewrite bind_ok. intros (rs & Hrs & [= <-]). apply Forall_map. cbn [retype s_toks].
      eapply Hlist; [exact H|exact Hm|exact Hrs].
  Qed.
End Groups.

(** the external splitters neither lose a word nor make marks *)
Definition splitters_plain (o : splitters) : Prop :=
  (forall s, s <> [] -> no_lt s -> ronin_split o s <> [] /\ Forall no_lt (ronin_split o s)) /\ (forall s, no_lt s -> no_lt (stem o s)).

(** all strings are hidden or within the limit *)
Definition strings_within (d : params) (l : list token) : Prop :=
  param d STR = create_str_value true 0 \/
  exists mx, ((2 <= mx < 62)%Z \/ mx = maxsize) /\ param d STR = create_str_value false mx /\
    forall k n, In (StringLiteral k n) (all_tokens l) -> (n <= mx)%Z.

Theorem C69_groups : forall E o d b l out m,
  mk_prep_config d = Ok d -> is_bpe d = false -> param d SPLIT <> lit "F" -> splitters_plain o ->
  Forall (plain_token E) (all_tokens l) -> strings_within d l ->
  to_repr E o d b l = Ok (out, m) ->
  Forall delimited (slices (wb m) out) /\ regroup None out = slices (wb m) out.
Proof.
  intros E o d b l out m Hd Hb HF [Ho1 Ho2] Hp Hl H.
  destruct (to_repr_segs _ _ _ _ _ _ _ H) as (rc & ss & Hrc & Hss & -> & Hout & _ & _). rewrite (Hout Hb).
  unfold flat. cbn [snd wb]. rewrite slices_bounds0.
  assert (Hg : Forall delimited (map s_toks ss)); [|split; [exact Hg|apply regroup_groups, Hg]].
  apply Forall_map. destruct (repr_config_fields _ _ _ _ Hrc) as [Hfull Hmx].
  eapply segs_list_with_forall; [|exact Hss]. apply Forall_forall. intros t Ht r Hr.
  refine (segs_groups E rc _ _ _ _ _ t r _ Hr).
  - apply (repr_config_not_bpe _ _ _ _ Hrc Hb).
  - rewrite Hfull. unfold param_in. destruct (mem _ _) eqn:Hm; [|reflexivity]. apply mem_in in Hm. destruct Hm as [Hm|[]]. exfalso. apply HF. symmetry. exact Hm.
  - unfold in_types. rewrite (repr_config_types _ _ _ _ Hrc), !types_in. reflexivity.
  - intros v ws Hv Hn Hw. assert (Hx : ws = [v] \/ ws = map (fun c => [c]) v).
    { clear -Hrc Hb Hw. unfold get_repr_config in Hrc. rewrite Hb in Hrc. unfold get_number_splitter in Hrc.
      unfold is_bpe in Hb. rewrite Hb in Hrc.
      destruct (param_in d SPLIT "0F1").
      - cbn [bind] in Hrc. apply bind_ok in Hrc. destruct Hrc as (? & _ & Hrc). apply bind_ok in Hrc.
        destruct Hrc as (? & _ & [= <-]). cbn [number_splitter] in Hw. injection Hw as <-. auto.
      - destruct (param_in d SPLIT "23s"); [|discriminate]. cbn [bind] in Hrc.
        apply bind_ok in Hrc. destruct Hrc as (? & _ & Hrc). apply bind_ok in Hrc.
        destruct Hrc as (? & _ & [= <-]). cbn [number_splitter] in Hw. injection Hw as <-. auto. }
    destruct Hx as [->| ->]; [split; [discriminate|constructor; [exact Hn|constructor]]|].
    split; [destruct v; [congruence|discriminate]|]. apply Forall_map. apply Forall_forall. intros c Hc [Hx|[]]. subst c. contradiction.
  - intros v ws _ Hv Hn Hw. assert (Hx : ws = [v] \/ ws = ronin_split o v \/ ws = map (stem o) (ronin_split o v)).
    { clear -Hrc Hb Hw. unfold get_repr_config in Hrc. rewrite Hb in Hrc. unfold get_word_splitter in Hrc.
      unfold is_bpe in Hb. rewrite Hb in Hrc.
      apply bind_ok in Hrc. destruct Hrc as (? & _ & Hrc).
      apply bind_ok in Hrc. destruct Hrc as (wsp & Hwsp & Hrc). apply bind_ok in Hrc.
      destruct Hrc as (? & _ & [= <-]). unfold split_word in Hw. cbn [word_splitter] in Hw.
      destruct (param_in d SPLIT "12"); [injection Hwsp as <-; injection Hw as <-; auto|].
      destruct (param_in d SPLIT "3"); [injection Hwsp as <-; injection Hw as <-; auto|].
      destruct (param_in d SPLIT "s"); [injection Hwsp as <-; injection Hw as <-; auto|].
      destruct (param_in d SPLIT "0F"); [injection Hwsp as <-; discriminate|discriminate]. }
    destruct (Ho1 v Hv Hn) as [A B]. destruct Hx as [->|[->| ->]].
    + split; [discriminate|constructor; [exact Hn|constructor]].
    + split; assumption.
    + split; [destruct (ronin_split o v); [congruence|discriminate]|]. apply Forall_map. eapply Forall_impl; [|exact B]. exact Ho2.
  - apply Forall_forall. intros u Hu. assert (Hin : In u (all_tokens l)) by (eapply all_tokens_in; eassumption).
    rewrite Forall_forall in Hp. split; [apply Hp, Hin|]. destruct u; try exact I. cbn [short_string]. intros mx Hmx'.
    rewrite Hmx' in Hmx. destruct Hl as [Hl|(mx' & Hr' & Hl & Hs)]; rewrite Hl in Hmx.
    + discriminate Hmx.
    + rewrite C40_limit_kept in Hmx by exact Hr'. injection Hmx as <-. eapply Hs, Hin.
Qed.
Print Assumptions C69_groups.

(** ** Parsed texts *)
(** changing the case makes no [<] *)
Definition case_no_lt (E : pycase) : Prop :=
  forall s, no_lt s -> no_lt (lower E s) /\ no_lt (upper E s) /\ no_lt (capitalize E s).
(** no keyword, operator ... of the lexer is a mark, and numbers have no [<] *)
Definition lexer_no_marks (lexed : list (token_type * str)) : Prop :=
  Forall (fun tv => snd tv <> [] /\ (plain_type (fst tv) = true -> ~ In (snd tv) markers) /\
                    (type_in (fst tv) ["Literal"; "Number"]%string = true -> no_lt (snd tv))) lexed.

Section ParsedPlain.
  Variables (E : pycase) (K : charclass).
  Hypothesis HK : ascii_classes K.
  Hypothesis HT : py_text E.
  Hypothesis HL : case_no_lt E.

  Lemma word_no_lt w : forallb (is_w K) w = true -> no_lt w.
  Proof.
    intros Hw Hin. rewrite forallb_forall in Hw. specialize (Hw _ Hin). rewrite (w_ascii K HK) in Hw by reflexivity. discriminate.
  Qed.

  Lemma word_plain p s : p <> [] -> no_lt p -> word_from E p = Ok s -> plain_sub E s.
  Proof.
    intros Hne Hp H. destruct s as [|w k]; [exact I|]. assert (Hw : w <> [] /\ no_lt w).
    { destruct p as [|c rest]; [discriminate|]. unfold word_from, mk_word in H.
      destruct (HL _ Hp) as (H1 & _). destruct (pt_nonempty E HT (c :: rest)) as (N1 & _); [discriminate|].
      destruct (HL [c]) as (H2 & _); [intros [->|[]]; apply Hp; left; reflexivity|].
      destruct (pt_nonempty E HT [c]) as (N2 & _); [discriminate|].
      destruct (islower E (c :: rest)); [destruct (canonic_ok E _); [|discriminate]; injection H as <- _; auto|].
      destruct (isupper E (c :: rest)); [destruct (canonic_ok E _); [|discriminate]; injection H as <- _; auto|].
      destruct (isupper E [c]); (destruct (canonic_ok E _); [|discriminate]); injection H as <- _; [|auto].
      split; [intros Hx; apply app_eq_nil in Hx; apply N2, Hx|]. unfold no_lt. rewrite in_app_iff. intros [Hx|Hx]; [exact (H2 Hx)|].
      apply Hp. right. exact Hx. }
    destruct Hw as [W1 W2]. cbn. split; [exact W1|]. split; [exact W2|].
    destruct (HL w W2) as (_ & H2 & H3). destruct (pt_nonempty E HT w W1) as (_ & N2 & N3). destruct k; cbn; auto.
  Qed.

  Lemma word_token_plain w t : w <> [] -> no_lt w -> word_token E K w t -> plain_token E t.
  Proof.
    intros Hne Hw [Hn|parts subs _ <- Hp _ HF]; [split; [apply (pt_nonempty E HT), Hne|apply HL, Hw]|].
    assert (Hs : subs <> [] /\ Forall (plain_sub E) subs).
    { split; [intros ->; inversion HF; subst; apply Hne; reflexivity|].
      clear Hne. induction HF as [|p s ps ss Hx HF IH]; [constructor|]. cbn [List.concat] in Hw. inversion Hp; subst.
      unfold no_lt in Hw. rewrite in_app_iff in Hw.
      constructor; [|apply IH; [unfold no_lt; tauto|assumption]].
      destruct Hx as [[_ ->]|[_ Hx]]; [exact I|]. apply (word_plain p); [assumption|unfold no_lt; tauto|exact Hx]. }
    destruct (is_ascii (List.concat parts)); exact Hs.
  Qed.

  Lemma pieces_plain sp s ps tss :
    (forall n, Forall (plain_token E) (sp n)) -> pieces K s ps ->
    Forall2 (piece_tokens E K sp) ps tss -> Forall (plain_token E) (List.concat tss).
  Proof.
    intros Hsp (_ & Hok & _) HF. revert Hok. induction HF as [|p ts ps tss Hp HF IH]; intros Hok; [constructor|].
    inversion Hok as [|? ? Hq Hqs]; subst. cbn [List.concat]. apply Forall_app. split; [|apply IH; assumption].
    destruct p as [w|c|n]; cbn [piece_tokens piece_ok] in *.
    - destruct Hp as (t & -> & Hw). constructor; [|constructor]. apply (word_token_plain w); [apply Hq|apply word_no_lt, Hq|exact Hw].
    - subst ts. constructor; [|constructor]. unfold char_token. destruct (N.eqb c 10); [exact I|]. destruct (N.eqb c 9); [exact I|].
      intros [Hx|[Hx|[Hx|[Hx|[]]]]]; discriminate Hx.
    - subst ts. apply Hsp.
  Qed.

  Lemma words_plain s toks : split_into_words E K s = Ok toks -> Forall (plain_token E) toks.
  Proof.
    intros H. destruct (C13_words E K s toks HK H) as (ps & tss & Hp & HF & ->).
    eapply pieces_plain; [|exact Hp|exact HF].
    intros n. apply Forall_forall. intros t Ht. apply repeat_spec in Ht. subst t. exact I.
  Qed.
  Lemma string_plain s toks : split_string E K s = Ok toks -> Forall (plain_token E) toks.
  Proof.
    intros H. destruct (C13_string E K s toks HK H) as (ps & tss & Hp & HF & ->).
    eapply pieces_plain; [|exact Hp|exact HF]. intros n. constructor; [exact I|constructor].
  Qed.

  Lemma simple_all (P : token -> Prop) l : Forall (simple_token E) l -> Forall P l -> Forall P (List.concat (map subterms l)).
  Proof.
    intros H1 H2. apply Forall_concat, Forall_map. rewrite Forall_forall in *. intros t Ht.
    rewrite (simple_subterms E t (H1 t Ht)). constructor; [apply H2, Ht|constructor].
  Qed.

  Lemma convert_plain t (v : str) toks :
    v <> [] -> (plain_type t = true -> ~ In v markers) -> (type_in t ["Literal"; "Number"]%string = true -> no_lt v) ->
    convert E K t v = Ok toks -> Forall (fun u => Forall (plain_token E) (subterms u)) toks.
  Proof.
    intros Hne Hp Hnum. unfold convert.
    assert (Hone : forall u, plain_token E u -> simple_token E u -> Forall (fun u => Forall (plain_token E) (subterms u)) [u]).
    { intros u H1 H2. constructor; [|constructor]. rewrite (simple_subterms E u H2). constructor; [exact H1|constructor]. }
    assert (Hw : forall toks, split_into_words E K v = Ok toks -> Forall (fun u => Forall (plain_token E) (subterms u)) toks).
    { intros ts H. pose proof (words_simple E K HK HT v ts H) as H1. pose proof (words_plain v ts H) as H2.
      rewrite Forall_forall in *. intros x Hx. rewrite (simple_subterms E x (H1 x Hx)).
      constructor; [apply H2, Hx|constructor]. }
    destruct (eqb v s_nl); [intros [= <-]; apply Hone; exact I|]. destruct (eqb v s_tab); [intros [= <-]; apply Hone; exact I|].
    destruct (blank K v).
    { intros [= <-]. apply Forall_forall. intros x Hx. apply repeat_spec in Hx. subst x. constructor; [exact I|constructor]. }
    unfold plain_type in Hp.
    destruct (type_is t ["Operator"%string] || type_in t ["Punctuation"%string]).
    { specialize (Hp eq_refl).
      intros [= <-]. constructor; [|constructor]. unfold operator_token.
      destruct (eqb v _); [constructor; [exact Hp|constructor]|]. destruct (eqb v _); [constructor; [exact Hp|constructor]|].
      destruct (eqb v _); [constructor; [exact Hp|constructor]|]. destruct (eqb v _); [constructor; [exact Hp|constructor]|].
      destruct (eqb v _); (constructor; [exact Hp|constructor]). }
    destruct (type_in t ["Literal"; "Number"]%string) eqn:Hn.
    { specialize (Hnum eq_refl). intros [= <-]. constructor; [|constructor]. unfold number_token.
      destruct (eqb v _); [constructor; [exact I|constructor]|]. destruct (eqb v _); [constructor; [exact I|constructor]|].
      constructor; [|constructor]. split; [apply (pt_nonempty E HT), Hne|apply HL, Hnum]. }
    destruct (type_in t ["Name"%string]); [apply Hw|]. destruct (type_is t _ || type_is t _); [apply Hw|].
    destruct (type_in t ["Keyword"%string]).
    { specialize (Hp eq_refl). intros [= <-]. constructor; [|constructor]. constructor; [|constructor]. exact Hp. }
    destruct (type_in t ["Literal"; "String"]%string).
    { rewrite bind_ok. intros (l & Hl & [= <-]). constructor; [|constructor]. constructor; [exact I|].
      apply simple_all; [eapply (string_simple E K HK HT), Hl|eapply string_plain, Hl]. }
    destruct (type_is t ["Comment"; "Single"]%string).
    { rewrite bind_ok. intros (l & Hl & [= <-]). constructor; [|constructor]. constructor; [exact I|].
      apply simple_all; [eapply (words_simple E K HK HT), Hl|eapply words_plain, Hl]. }
    destruct (type_in t ["Comment"%string]); [|apply Hw].
    rewrite bind_ok. intros (l & Hl & [= <-]). constructor; [|constructor]. constructor; [exact I|].
    apply simple_all; [eapply (words_simple E K HK HT), Hl|eapply words_plain, Hl].
  Qed.

  Lemma text_plain lexed l : lexer_no_marks lexed -> convert_text E K lexed = Ok l -> Forall (plain_token E) (all_tokens l).
  Proof.
    intros HA Hl. apply Forall_concat, Forall_map. revert l Hl.
    induction HA as [|[t v] rest (H1 & H2 & H3) HA IH]; intros l; cbn [convert_text].
    - intros [= <-]. constructor.
    - rewrite bind_ok. intros (a & Ha & Hl). apply bind_ok in Hl. destruct Hl as (r & Hr & [= <-]).
      apply Forall_app. split; [|apply IH, Hr]. eapply convert_plain; eassumption.
  Qed.
End ParsedPlain.

Theorem C69_text : forall E K o d b lexed l out m,
  ascii_classes K -> py_text E -> case_no_lt E -> lexer_no_marks lexed ->
  mk_prep_config d = Ok d -> is_bpe d = false -> param d SPLIT <> lit "F" -> splitters_plain o -> strings_within d l ->
  convert_text E K lexed = Ok l -> to_repr E o d b l = Ok (out, m) ->
  Forall delimited (slices (wb m) out) /\ regroup None out = slices (wb m) out.
Proof.
  intros E K o d b lexed l out m HK HT HL Hlx Hd Hb HF Ho Hs Hl H.
  apply (C69_groups E o d b l out m); try assumption. eapply text_plain; eassumption.
Qed.
Print Assumptions C69_text.

Example C69_example :
  let d := combine prep_params (chars_of "uc12sl") in
  let lexed := [(["Name"]%string, lit "myHTML"); (["Operator"]%string, lit "="); (["Name"]%string, lit "foo")] in
  exists l out m, lexer_no_marks lexed /\ splitters_plain no_splitters /\ strings_within d l /\ convert_text ascii_case ascii_K lexed = Ok l /\
  to_repr ascii_case no_splitters d None l = Ok (out, m) /\
  slices (wb m) out = [map lit ["<w>"; "my"; "<CAPS>"; "html"; "</w>"]; [lit "="]; [lit "foo"]]%string /\ regroup None out = slices (wb m) out.
Proof.
  cbv zeta. do 3 eexists. split.
  { repeat (constructor; [split; [discriminate|split; cbn; intros H; try discriminate H; unfold no_lt; cbn; intuition discriminate]|]). constructor. }
  split; [split; intros s; cbn; [intros _ H; split; [discriminate|constructor; [exact H|constructor]]|auto]|].
  split; [|split; [vm_compute; reflexivity|split; [vm_compute; reflexivity|split; vm_compute; reflexivity]]].
  right. exists maxsize. split; [right; reflexivity|]. split; [reflexivity|]. intros k n H. vm_compute in H.
  repeat (destruct H as [H|H]; [discriminate H|]). destruct H.
Qed.

(** A string over the limit becomes two tokens without marks. *)
Theorem C69_long_string_refuted : exists d l out m,
  mk_prep_config d = Ok d /\ is_bpe d = false /\ param d SPLIT <> lit "F" /\ Forall (plain_token ascii_case) (all_tokens l) /\
  to_repr ascii_case no_splitters d None l = Ok (out, m) /\ regroup None out <> slices (wb m) out.
Proof.
  exists (combine prep_params (chars_of "uc21su")), [StringLiteral [NonProc NpNonCodeChar [34%N]; NonProc NpNonCodeChar (lit "a"); NonProc NpNonCodeChar [34%N]] 3].
  do 2 eexists. split; [reflexivity|]. split; [reflexivity|]. split; [discriminate|].
  split; [|split; [vm_compute; reflexivity|vm_compute; discriminate]].
  repeat (constructor; [first [exact I|cbn; intuition discriminate]|]). constructor.
Qed.
Print Assumptions C69_long_string_refuted.

(** ** C70 *)
(** reading the marks: [<Cap>] and [<CAPS>] say how the next subtoken is written *)
Fixpoint put_together (E : pycase) (l : list str) : str :=
  match l with
  | [] => []
  | t :: rest =>
      if eqb t (lit "<w>") || eqb t (lit "</w>") then put_together E rest
      else if eqb t (lit "<Cap>") then match rest with [] => [] | x :: rest' => capitalize E x ++ put_together E rest' end
      else if eqb t (lit "<CAPS>") then match rest with [] => [] | x :: rest' => upper E x ++ put_together E rest' end
      else t ++ put_together E rest
  end.

(** the texts of the tokens, inside comments and strings too; spaces in strings are left out *)
Fixpoint leaf_texts (E : pycase) (t : token) : list str :=
  match t with
  | OneLineComment l => List.concat (map (leaf_texts E) l) ++ [lit "<EOL>"]
  | MultilineComment l => List.concat (map (leaf_texts E) l)
  | StringLiteral l _ => List.concat (map (fun u => if is_space_in_string u then [] else leaf_texts E u) l)
  | _ => [tok_str E t]
  end.

Lemma put_together_plain E x rest : ~ In x markers -> put_together E (x :: rest) = x ++ put_together E rest.
Proof.
  intros Hx. cbn [put_together].
  destruct (eqb_spec x (lit "<w>")) as [->|_]; [exfalso; apply Hx; left; reflexivity|].
  destruct (eqb_spec x (lit "</w>")) as [->|_]; [exfalso; apply Hx; right; left; reflexivity|].
  destruct (eqb_spec x (lit "<Cap>")) as [->|_]; [exfalso; apply Hx; right; right; left; reflexivity|].
  destruct (eqb_spec x (lit "<CAPS>")) as [->|_]; [exfalso; apply Hx; right; right; right; left; reflexivity|]. reflexivity.
Qed.

Lemma put_together_all E xs rest : Forall no_lt xs -> put_together E (xs ++ rest) = List.concat xs ++ put_together E rest.
Proof.
  induction 1 as [|x xs Hx _ IH]; [reflexivity|]. cbn [app List.concat]. rewrite put_together_plain by apply no_lt_marker, Hx.
  rewrite IH, app_assoc. reflexivity.
Qed.

Section Reverse.
  Variables (E : pycase) (cfg : repr_config).
  Hypothesis Hbpe : bpe cfg = false.
  Hypothesis Hfull : full_strings cfg = false.
  Hypothesis Htypes : in_types cfg CWord = in_types cfg CSplitContainer.
  Hypothesis Hkept : in_types cfg CNewLine = false /\ in_types cfg CTab = false /\ in_types cfg CNonEng = false /\
    in_types cfg COneLineComment = false /\ in_types cfg CMultilineComment = false /\ in_types cfg CStringLiteral = false.
  Hypothesis Hns : forall v ws, no_lt v -> number_splitter cfg v = Ok ws -> Forall no_lt ws /\ List.concat ws = v.
  Hypothesis Hws : forall v ws, in_types cfg CWord = true -> v <> [] -> no_lt v -> split_word cfg v = Ok ws ->
    Forall no_lt ws /\ List.concat ws = v /\ (should_lowercase cfg = true -> ws = [v]).

  Lemma sub_text s r rest : plain_sub E s -> torepr_sub E cfg s = Ok r ->
    put_together E (r ++ rest) = subtoken_str E s ++ put_together E rest.
  Proof.
    intros Hs. destruct s as [|w c]; cbn [torepr_sub subtoken_str].
    - intros [= <-]. cbn [app]. apply put_together_plain. cbn. intuition discriminate.
    - destruct Hs as (H1 & H2 & H3 & H4). destruct (in_types cfg CWord) eqn:Hw.
      + destruct (should_lowercase cfg) eqn:Hlow.
        * rewrite bind_ok. intros (r' & Hr & [= <-]). destruct (Hws w r' eq_refl H1 H2 Hr) as (_ & _ & Hx). rewrite (Hx eq_refl).
          destruct c; cbn [with_capitalization_prefixes with_preserved_case app]; try reflexivity;
            apply put_together_plain, no_lt_marker, H2.
        * intros Hr. destruct (Hws _ r eq_refl H3 H4 Hr) as (A & B & _). rewrite (put_together_all E r rest A), B. reflexivity.
      + intros [= <-]. cbn [app]. apply put_together_plain, no_lt_marker, H4.
  Qed.

  Lemma subs_text k r rest : Forall (plain_sub E) k -> torepr_subs E cfg k = Ok r ->
    put_together E (r ++ rest) = split_str E k ++ put_together E rest.
  Proof.
    intros Hf. revert r. induction Hf as [|s k Hs Hf IH]; intros r; cbn [torepr_subs]; [intros [= <-]; reflexivity|].
    rewrite bind_ok. intros (a & Ha & H). apply bind_ok in H. destruct H as (rs & Hrs & [= <-]).
    rewrite <- app_assoc, (sub_text s a _ Hs Ha), (IH rs Hrs). unfold split_str. cbn [map List.concat]. rewrite app_assoc. reflexivity.
  Qed.

  Lemma put_together_wrap r : (put_together E (r ++ [lit "</w>"]) = put_together E r ++ []) ->
    put_together E (wrap_in_word_boundaries_if_necessary r) = put_together E r.
  Proof.
    intros H. rewrite app_nil_r in H. unfold wrap_in_word_boundaries_if_necessary.
    assert (Hw : put_together E ([ph_word_start] ++ r ++ [ph_word_end]) = put_together E r) by (cbn; exact H).
    destruct r as [|a [|b [|c r]]]; try exact Hw; [reflexivity|]. destruct (_ || _); [reflexivity|exact Hw].
  Qed.

  Definition texts (r : list seg) : list str := map (fun s => put_together E (s_toks s)) r.

  Lemma split_text k r : Forall (plain_sub E) k -> segs_split E cfg k = Ok r -> texts r = [split_str E k].
  Proof.
    intros Hf. pose proof (fun r rest => subs_text k r rest Hf) as Hi. unfold segs_split.
    destruct (in_types cfg CSplitContainer) eqn:Hsc.
    - rewrite Hbpe, bind_ok. intros (ws & Hw & [= <-]). cbn. f_equal.
      pose proof (Hi ws [] Hw) as H1. pose proof (Hi ws [lit "</w>"] Hw) as H2. cbn [put_together] in H1. rewrite !app_nil_r in H1.
      rewrite put_together_wrap; [exact H1|]. rewrite H2, H1. reflexivity.
    - rewrite bind_ok. intros (hs & Hh & [= <-]). cbn [texts map one_seg s_toks]. f_equal.
      assert (Hx : hs = map (subtoken_str E) k /\ no_lt (List.concat hs)).
      { clear Hi. revert hs Hh. induction Hf as [|s k Hs Hf IH]; intros hs; cbn [mapM].
        - intros [= <-]. split; [reflexivity|intros []].
        - rewrite bind_ok. intros (x & Hx & H). apply bind_ok in H. destruct H as (xs & Hxs & [= <-]).
          destruct (IH xs Hxs) as [-> Hn]. destruct s as [|w c]; cbn [torepr_sub] in Hx.
          + injection Hx as <-. split; [reflexivity|]. cbn. intros [H|H]; [discriminate|exact (Hn H)].
          + rewrite Htypes in Hx. injection Hx as <-. split; [reflexivity|]. cbn [List.concat]. unfold no_lt. rewrite in_app_iff.
            intros [H|H]; [apply Hs, H|exact (Hn H)]. }
      destruct Hx as [-> Hn]. rewrite put_together_plain by apply no_lt_marker, Hn. cbn. rewrite app_nil_r. reflexivity.
  Qed.

  Lemma texts_retype c r : texts (map (retype c) r) = texts r.
  Proof. unfold texts. rewrite map_map. reflexivity. Qed.
  Lemma texts_app a b : texts (a ++ b) = texts a ++ texts b.
  Proof. apply map_app. Qed.

  Lemma segs_texts t r :
    Forall (fun t => plain_token E t /\ short_string cfg t) (subterms t) -> segs E cfg t = Ok r -> texts r = leaf_texts E t.
  Proof.
    pose proof split_text as Hsplit. destruct Hkept as (K1 & K2 & K3 & K4 & K5 & K6).
    assert (Hone : forall c x np, ~ In x markers -> texts (one_seg c [x] np) = [x]).
    { intros c x np Hx. cbn [texts map one_seg s_toks]. rewrite put_together_plain by exact Hx. cbn. rewrite app_nil_r. reflexivity. }
    assert (Hlist : forall keep l r,
      Forall (fun t => forall r, Forall (fun t => plain_token E t /\ short_string cfg t) (subterms t) -> segs E cfg t = Ok r -> texts r = leaf_texts E t) l ->
      Forall (fun t => plain_token E t /\ short_string cfg t) (List.concat (map subterms l)) ->
      segs_list_with keep (segs E cfg) l = Ok r -> texts r = List.concat (map (fun u => if keep u then leaf_texts E u else []) l)).
    { intros keep l r' Hf. revert r'. induction Hf as [|u l Hu Hf IH]; intros r' Hsp; cbn [segs_list_with map List.concat].
      - intros [= <-]. reflexivity.
      - cbn [map List.concat] in Hsp. apply Forall_app in Hsp. destruct Hsp as [S1 S2]. destruct (keep u); [|apply IH, S2].
        rewrite bind_ok. intros (a & Ha & H). apply bind_ok in H. destruct H as (rs & Hrs & [= <-]).
        rewrite texts_app, (Hu a S1 Ha), (IH rs S2 Hrs). reflexivity. }
    revert r. induction t using token_nested_ind; intros r Hm; cbn [segs leaf_texts]; cbn [subterms] in Hm;
      apply Forall_cons_iff in Hm; destruct Hm as [[Ht Hsh] Hm]; cbn [plain_token short_string] in Ht, Hsh.
    - rewrite K1. intros [= <-]. apply Hone. cbn; intuition discriminate.
    - rewrite K2. intros [= <-]. apply Hone. cbn; intuition discriminate.
    - intros [= <-]. apply Hone, no_lt_marker. intros Hin. apply in_concat in Hin. destruct Hin as (x & Hx & Hc).
      apply repeat_spec in Hx. subst x. destruct Hc as [H|[]]; discriminate.
    - destruct (in_types cfg CNumber); [|intros [= <-]; apply Hone, no_lt_marker, Ht].
      rewrite bind_ok. intros (ws & Hw & [= <-]). cbn [texts map one_seg s_toks].
      destruct (Hns v ws (proj2 Ht) Hw) as [A B].
      assert (Hx : put_together E ws = v).
      { rewrite <- (app_nil_r ws), (put_together_all E ws [] A), B. apply app_nil_r. }
      destruct (_ && _); [|rewrite Hx; reflexivity].
      cbn [app]. change (put_together E (ph_word_start :: ws ++ [ph_word_end])) with (put_together E (ws ++ [ph_word_end])).
      rewrite (put_together_all E ws _ A), B. cbn. rewrite app_nil_r. reflexivity.
    - intros [= <-]. apply Hone; cbn; intuition discriminate.
    - intros [= <-]. apply Hone; cbn; intuition discriminate.
    - intros [= <-]. apply Hone, Ht.
    - intros Hr. apply Hsplit; [apply Ht|exact Hr].
    - rewrite K3. intros Hr. apply Hsplit; [apply Ht|exact Hr].
    - rewrite K4, bind_ok. intros (rs & Hrs & [= <-]). rewrite texts_app, texts_retype, (Hlist _ l rs H Hm Hrs). reflexivity.
    - rewrite K5, bind_ok. intros (rs & Hrs & [= <-]). rewrite texts_retype, (Hlist _ l rs H Hm Hrs). reflexivity.
    - rewrite K6. destruct (max_str_length cfg) as [mx|]; [|discriminate]. specialize (Hsh mx eq_refl).
      destruct (Z.ltb_spec mx n) as [Hx|_]; [lia|]. rewrite Hbpe, Hfull.
      rewrite bind_ok. intros (rs & Hrs & [= <-]). rewrite texts_retype, (Hlist _ l rs H Hm Hrs). f_equal. apply map_ext.
      intros u. destruct (is_space_in_string u); reflexivity.
  Qed.
End Reverse.

(** splitting that keeps the text: 0, 1 and 2; 3 without lowercasing if the splitter only cuts *)
Definition keeps_text (o : splitters) (d : params) : Prop :=
  param d SPLIT = lit "0" \/ param d SPLIT = lit "1" \/ param d SPLIT = lit "2" \/
  (param d SPLIT = lit "3" /\ param d CASE <> lit "l" /\
   forall s, s <> [] -> no_lt s -> List.concat (ronin_split o s) = s).
(** nothing is hidden or removed *)
Definition keeps_all (d : params) (l : list token) : Prop :=
  param d COM = lit "c" /\ param d TABS_NEWLINES = lit "s" /\ param d EN_ONLY = lit "u" /\
  exists mx, ((2 <= mx < 62)%Z \/ mx = maxsize) /\ param d STR = create_str_value false mx /\
    forall k n, In (StringLiteral k n) (all_tokens l) -> (n <= mx)%Z.

Lemma param_in_false d p s x : param d p = lit x -> mem (lit x) (chars_of s) = false -> param_in d p s = false.
Proof. intros H1 H2. unfold param_in. rewrite H1. exact H2. Qed.

Lemma str_value_shown mx : ((2 <= mx < 62)%Z \/ mx = maxsize) -> mem (create_str_value false mx) (chars_of "0") = false.
Proof.
  intros H. pose proof (C40_limit_kept mx H) as Hk. destruct (mem _ _) eqn:Hm; [|reflexivity].
  apply mem_in in Hm. destruct Hm as [Hm|[]]. rewrite <- Hm in Hk. discriminate Hk.
Qed.

Theorem C70_tokens : forall E o d b l out m,
  mk_prep_config d = Ok d -> keeps_text o d -> keeps_all d l -> Forall (plain_token E) (all_tokens l) ->
  to_repr E o d b l = Ok (out, m) ->
  map (put_together E) (slices (wb m) out) = List.concat (map (leaf_texts E) l).
Proof.
  intros E o d b l out m Hd Hk (Hcom & Htab & Hen & mx & Hmx & Hstr & Hlen) Hp H.
  assert (Hb : is_bpe d = false /\ param_in d SPLIT "F" = false).
  { unfold is_bpe, param_in. destruct Hk as [-> | [-> | [-> | [-> _]]]]; split; reflexivity. }
  destruct Hb as [Hb HF].
  destruct (to_repr_segs _ _ _ _ _ _ _ H) as (rc & ss & Hrc & Hss & -> & Hout & _ & _). rewrite (Hout Hb).
  unfold flat. cbn [snd wb]. rewrite slices_bounds0, map_map. change (texts E ss = List.concat (map (leaf_texts E) l)).
  destruct (repr_config_fields _ _ _ _ Hrc) as [Hfull Hm]. rewrite Hstr, (C40_limit_kept mx Hmx) in Hm. injection Hm as Hm.
  assert (Hone : forall t r, In t l -> segs E rc t = Ok r -> texts E r = leaf_texts E t).
  { intros t r Ht Hr. refine (segs_texts E rc _ _ _ _ _ _ t r _ Hr).
    - apply (repr_config_not_bpe _ _ _ _ Hrc Hb).
    - rewrite Hfull. exact HF.
    - unfold in_types. rewrite (repr_config_types _ _ _ _ Hrc), !types_in. reflexivity.
    - unfold in_types. rewrite (repr_config_types _ _ _ _ Hrc), !types_in.
      unfold param_in. rewrite Hcom, Htab, Hen, Hstr, (str_value_shown mx Hmx). repeat split.
    - intros v ws Hn Hw. assert (Hx : ws = [v] \/ ws = map (fun c => [c]) v).
      { clear -Hrc Hb Hw. unfold get_repr_config in Hrc. rewrite Hb in Hrc. unfold get_number_splitter in Hrc.
        unfold is_bpe in Hb. rewrite Hb in Hrc.
        destruct (param_in d SPLIT "0F1").
        - cbn [bind] in Hrc. apply bind_ok in Hrc. destruct Hrc as (? & _ & Hrc). apply bind_ok in Hrc.
          destruct Hrc as (? & _ & [= <-]). cbn [number_splitter] in Hw. injection Hw as <-. auto.
        - destruct (param_in d SPLIT "23s"); [|discriminate]. cbn [bind] in Hrc.
          apply bind_ok in Hrc. destruct Hrc as (? & _ & Hrc). apply bind_ok in Hrc.
          destruct Hrc as (? & _ & [= <-]). cbn [number_splitter] in Hw. injection Hw as <-. auto. }
      destruct Hx as [->| ->]; [split; [constructor; [exact Hn|constructor]|apply app_nil_r]|].
      split; [apply Forall_map, Forall_forall; intros c Hc [Hx|[]]; subst c; contradiction|].
      clear. induction v as [|c v IH]; [reflexivity|]. cbn. rewrite IH. reflexivity.
    - intros v ws Hty Hv Hn Hw.
      assert (Hx : ws = [v] \/ (param_in d CASE "l" = false /\ ws = ronin_split o v /\ List.concat ws = v)).
      { revert Hw Hty. unfold in_types. rewrite (repr_config_types _ _ _ _ Hrc), types_in.
        unfold get_repr_config in Hrc. rewrite Hb in Hrc. unfold get_word_splitter in Hrc.
        apply bind_ok in Hrc. destruct Hrc as (? & _ & Hrc).
        apply bind_ok in Hrc. destruct Hrc as (wsp & Hwsp & Hrc). apply bind_ok in Hrc.
        destruct Hrc as (? & _ & [= <-]). unfold split_word. cbn [word_splitter]. unfold param_in in *.
        destruct Hk as [Hs | [Hs | [Hs | (Hs & Hc & Hr3)]]]; rewrite Hs in Hwsp |- *; cbn in Hwsp; injection Hwsp as <-.
        - discriminate.
        - intros [= <-] _. auto.
        - intros [= <-] _. auto.
        - intros [= <-] _. right. split; [|split; [reflexivity|apply Hr3; assumption]].
          destruct (mem (param d CASE) (chars_of "l")) eqn:Hx; [|reflexivity]. apply mem_in in Hx. destruct Hx as [Hx|[]].
          exfalso. apply Hc. symmetry. exact Hx. }
      destruct Hx as [->|(Hc & _ & Hcat)].
      + split; [constructor; [exact Hn|constructor]|]. split; [apply app_nil_r|reflexivity].
      + split; [|split; [exact Hcat|]].
        * apply Forall_forall. intros x Hx Hin. apply Hn. unfold str in *. rewrite <- Hcat. apply in_concat. exists x. auto.
        * unfold get_repr_config in Hrc. apply bind_ok in Hrc. destruct Hrc as (? & _ & Hrc). apply bind_ok in Hrc.
          destruct Hrc as (? & _ & Hrc). apply bind_ok in Hrc. destruct Hrc as (? & _ & [= <-]). cbn [should_lowercase].
          rewrite Hc. discriminate.
    - apply Forall_forall. intros u Hu. assert (Hin : In u (all_tokens l)) by (eapply all_tokens_in; eassumption).
      rewrite Forall_forall in Hp. split; [apply Hp, Hin|]. destruct u; try exact I. cbn [short_string]. rewrite <- Hm.
      intros mx' [= <-]. eapply Hlen, Hin. }
  clear -Hss Hone. revert ss Hss. unfold segs_list. induction l as [|t l IH]; intros ss; cbn [segs_list_with].
  - intros [= <-]. reflexivity.
  - rewrite bind_ok. intros (r & Hr & Hx). apply bind_ok in Hx. destruct Hx as (rs & Hrs & [= <-]).
    rewrite texts_app. cbn [map List.concat]. rewrite (Hone t r (or_introl eq_refl) Hr), (IH (fun t r Ht => Hone t r (or_intror Ht)) rs Hrs).
    reflexivity.
Qed.
Print Assumptions C70_tokens.

(** identifiers of the source *)
Theorem C70_identifier :
  forall E K G lo up o d b t (w : str),
  ascii_classes K -> words_not_blank K -> simple_case E K G lo up -> py_text E -> case_no_lt E ->
  mk_prep_config d = Ok d -> keeps_text o d -> keeps_all d [] ->
  type_in t ["Name"%string] = true -> w <> [] -> forallb (is_w K) w = true -> ~ number_literal w -> Forall G w ->
  forall l out m, convert_text E K [(t, w)] = Ok l -> to_repr E o d b l = Ok (out, m) -> put_together E out = w.
Proof.
  intros E K G lo up o d b t w HK HB HS HT HL Hd Hk Hall Ht Hne Hw Hnum Hg l out m Hl Hr.
  cbn [convert_text] in Hl. rewrite (convert_name E K t w Ht HB HK Hne Hw), (words_of_word E K w HK Hne Hw) in Hl.
  unfold to_parsed_token in Hl.
  assert (H10 : forall n, is_w K n = false -> w <> [n]).
  { intros n Hx ->. cbn in Hw. rewrite Hx in Hw. discriminate. }
  destruct (eqb_spec w s_nl) as [->|_]; [exfalso; eapply (H10 10%N); [|reflexivity]; rewrite (w_ascii K HK) by reflexivity; reflexivity|].
  destruct (eqb_spec w s_tab) as [->|_]; [exfalso; eapply (H10 9%N); [|reflexivity]; rewrite (w_ascii K HK) by reflexivity; reflexivity|].
  destruct (is_number w) eqn:Hx; [exfalso; apply Hnum, C14_number_grammar, Hx|].
  replace (fullmatch (Plus (Chr (is_w K))) w) with true in Hl by (symmetry; apply fullmatch_plus; auto).
  assert (Hdg : forall c, G c -> is_digit c = true -> is_low K c = false /\ is_up K c = false).
  { intros c _ Hc. unfold is_digit in Hc. apply andb_true_iff in Hc. destruct Hc as [H1 H2]. apply N.leb_le in H1, H2.
    destruct (HK c) as (_ & -> & ->); [lia|]. unfold ascii_lower_ch, ascii_upper_ch.
    split; apply andb_false_iff; left; apply N.leb_gt; lia. }
  destruct (identifier_stable E K G lo up HS Hdg w (word_no_space K HK w Hw) Hg) as (subs & Hm & Hs).
  assert (Hcont : exists u, l = [u] /\ (u = SplitContainer subs \/ u = NonEng subs)).
  { unfold split_identifier in Hl. rewrite Hm in Hl. cbn [bind app] in Hl. injection Hl as <-. eexists. split; [reflexivity|].
    destruct (is_non_eng w); auto. }
  destruct Hcont as (u & -> & Hu).
  assert (Hplain : subs <> [] /\ Forall (plain_sub E) subs).
  { split; [intros ->; apply Hne; symmetry; exact Hs|].
    destruct (identifier_parts K w (word_no_space K HK w Hw)) as (H1 & H2 & _).
    assert (Hp : Forall no_lt (finditer (identifier_re K) w)).
    { apply Forall_forall. intros p Hp Hin. apply (word_no_lt K HK w Hw). rewrite <- H1. apply in_concat. exists p. auto. }
    clear -Hm H2 Hp HT HL. revert subs Hm. induction (finditer (identifier_re K) w) as [|p ps IH]; intros subs; cbn [mapM].
    - intros [= <-]. constructor.
    - rewrite bind_ok. intros (s & Hs & Hm). apply bind_ok in Hm. destruct Hm as (ss & Hss & [= <-]).
      inversion H2; subst. inversion Hp; subst. constructor; [|apply IH; assumption].
      destruct (eqb p s_underscore); [injection Hs as <-; exact I|]. eapply word_plain; eassumption. }
  assert (Hsub : all_tokens [u] = [u]) by (destruct Hu as [-> | ->]; reflexivity).
  pose proof (C70_tokens E o d b [u] out m Hd Hk) as HC.
  assert (Hx2 : map (put_together E) (slices (wb m) out) = [w]).
  { rewrite HC; [destruct Hu as [-> | ->]; cbn; unfold tok_str; cbn [nonprep_none join]; rewrite Hs; reflexivity| | |exact Hr].
    - destruct Hall as (A1 & A2 & A3 & mx & A4 & A5 & _). repeat (split; [assumption|]). exists mx. split; [exact A4|]. split; [exact A5|].
      intros k n. rewrite Hsub. intros [Hin|[]]. destruct Hu as [-> | ->]; discriminate Hin.
    - rewrite Hsub. constructor; [|constructor]. destruct Hu as [-> | ->]; exact Hplain. }
  assert (Hcat : List.concat (slices (wb m) out) = out).
  { destruct (to_repr_segs _ _ _ _ _ _ _ Hr) as (rc & ss & _ & _ & -> & Hout & _). rewrite Hout.
    - unfold flat. cbn [snd wb]. rewrite slices_bounds0. reflexivity.
    - unfold is_bpe, param_in. destruct Hk as [-> | [-> | [-> | [-> _]]]]; reflexivity. }
  destruct (slices (wb m) out) as [|g [|g' gs]]; try discriminate Hx2. cbn in Hcat. rewrite app_nil_r in Hcat. subst g.
  cbn in Hx2. injection Hx2 as Hx2. exact Hx2.
Qed.
Print Assumptions C70_identifier.

Example C70_example :
  let d := combine prep_params (chars_of "uc12sl") in
  let lexed := [(["Name"]%string, lit "myHTMLParser_V2"); (["Operator"]%string, lit "="); (["Literal"; "Number"]%string, lit "0x1F");
                (["Name"]%string, lit "Foo"); (["Name"]%string, lit "bar"); (["Literal"; "String"]%string, lit "'a <w>'")] in
  lexer_no_marks lexed /\ splitters_plain no_splitters /\ case_no_lt ascii_case /\ keeps_text no_splitters d /\ mk_prep_config d = Ok d /\
  match (l <- convert_text ascii_case ascii_K lexed ;; to_repr ascii_case no_splitters d None l) with
  | Ok (out, m) =>
      out = map lit ["<w>"; "my"; "<CAPS>"; "html"; "<Cap>"; "parser"; "_"; "<CAPS>"; "v"; "2"; "</w>"; "=";
                     "<w>"; "0"; "x"; "1"; "f"; "</w>"; "<Cap>"; "foo"; "bar"; "'"; "a"; "<"; "w"; ">"; "'"]%string /\
      map (put_together ascii_case) (regroup None out)
      = map lit ["myHTMLParser_V2"; "="; "0x1f"; "Foo"; "bar"; "'"; "a"; "<"; "w"; ">"; "'"]%string
  | Err _ => False
  end.
Proof.
  cbv zeta. split; [|split; [|split; [|split; [|split; [reflexivity|vm_compute; auto]]]]].
  - repeat (constructor; [split; [discriminate|split; cbn; intros H; try discriminate H; unfold no_lt; cbn; intuition discriminate]|]). constructor.
  - split; intros s; cbn; [intros _ H; split; [discriminate|constructor; [exact H|constructor]]|auto].
  - assert (Hl : forall c, c <> 60%N -> ascii_to_lower c <> 60%N).
    { intros c Hc. unfold ascii_to_lower. destruct (ascii_upper_ch c) eqn:Hx; [|exact Hc].
      unfold ascii_upper_ch in Hx. apply andb_true_iff in Hx. destruct Hx as [Hx _]. apply N.leb_le in Hx. lia. }
    assert (Hu : forall c, c <> 60%N -> ascii_to_upper c <> 60%N).
    { intros c Hc. unfold ascii_to_upper. destruct (ascii_lower_ch c) eqn:Hx; [|exact Hc].
      unfold ascii_lower_ch in Hx. apply andb_true_iff in Hx. destruct Hx as [Hx _]. apply N.leb_le in Hx. lia. }
    assert (Hm : forall f, (forall c, c <> 60%N -> f c <> 60%N) -> forall s, no_lt s -> no_lt (map f s)).
    { intros f Hf s Hs Hin. apply in_map_iff in Hin. destruct Hin as (c & Hc & Hin). apply (Hf c); [intros ->; exact (Hs Hin)|exact Hc]. }
    intros s Hs. split; [apply (Hm _ Hl), Hs|]. split; [apply (Hm _ Hu), Hs|]. cbn [capitalize ascii_case].
    destruct s as [|c s]; [exact Hs|]. intros [Hx|Hx]; [apply (Hu c); [intros ->; apply Hs; left; reflexivity|exact Hx]|].
    apply (Hm _ Hl s); [intros H; apply Hs; right; exact H|exact Hx].
  - right. right. left. reflexivity.
Qed.
