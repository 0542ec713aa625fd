(** C09 once more: every character outside words stays, whatever no_unicode says. *)
From Coq Require Import List NArith ZArith Lia String.
From Verif Require Import M_Base L_Base M_Tokens M_Regex M_Parse M_Repr M_PrepConfig L_Repr P_Repr P_Parse P_ParseRepr.
Import ListNotations.

Lemma char_piece K s ps c : pieces K s ps -> In c s -> is_w K c = false -> c <> 32%N -> In (PChar c) ps.
Proof.
  intros (-> & Hok & _) Hc Hw H32. apply in_concat in Hc. destruct Hc as (x & Hx & Hc). apply in_map_iff in Hx. destruct Hx as (p & <- & Hp).
  rewrite Forall_forall in Hok. specialize (Hok p Hp). destruct p as [w|d|n]; cbn [piece_text piece_ok] in *.
  - destruct Hok as [_ Hok]. rewrite forallb_forall in Hok. specialize (Hok c Hc). congruence.
  - destruct Hc as [->|[]]. exact Hp.
  - apply repeat_spec in Hc. destruct (H32 Hc).
Qed.
Lemma Forall2_concat_in {A B} (R : A -> list B -> Prop) a b x y : Forall2 R a b -> In x a -> (forall ts, R x ts -> In y ts) -> In y (List.concat b).
Proof.
  induction 1 as [|u v a b Huv _ IH]; intros Hx Hy; [destruct Hx|]. cbn [List.concat]. apply in_or_app. destruct Hx as [->|Hx]; [left; exact (Hy _ Huv)|right; auto].
Qed.
Lemma segs_in (f : token -> res (list seg)) l : forall ss t, segs_list_with (fun _ => true) f l = Ok ss -> In t l ->
  exists r, f t = Ok r /\ incl r ss.
Proof.
  induction l as [|u l IH]; intros ss t H Ht; [destruct Ht|]. cbn [segs_list_with] in H. apply bind_ok in H. destruct H as (r & Hr & H).
  apply bind_ok in H. destruct H as (rs & Hrs & [= <-]). destruct Ht as [->|Ht].
  - exists r. split; [exact Hr|]. intros x Hx. apply in_or_app. left. exact Hx.
  - destruct (IH rs t Hrs Ht) as (r' & H1 & H2). exists r'. split; [exact H1|]. intros x Hx. apply in_or_app. right. exact (H2 x Hx).
Qed.
Lemma converted_in E K lexed : forall l t v, convert_text E K lexed = Ok l -> In (t, v) lexed -> exists l', convert E K t v = Ok l' /\ incl l' l.
Proof.
  induction lexed as [|[t0 v0] lexed IH]; intros l t v H Hin; [destruct Hin|]. cbn [convert_text] in H. apply bind_ok in H. destruct H as (l0 & H0 & H).
  apply bind_ok in H. destruct H as (ls & Hls & [= <-]). destruct Hin as [[= -> ->]|Hin].
  - exists l0. split; [exact H0|]. intros x Hx. apply in_or_app. left. exact Hx.
  - destruct (IH ls t v Hls Hin) as (l' & H1 & H2). exists l'. split; [exact H1|]. intros x Hx. apply in_or_app. right. exact (H2 x Hx).
Qed.
Lemma types_of o d b rc : get_repr_config o d b = Ok rc -> types_to_be_repr rc = get_types_to_be_repr d.
Proof.
  unfold get_repr_config. rewrite bind_ok. intros (ns & _ & H). apply bind_ok in H. destruct H as (ws & _ & H). apply bind_ok in H. destruct H as (mx & _ & [= <-]). reflexivity.
Qed.

(** Every character that is not ascii and not a letter, a digit or an underscore, in a name or in a comment that is shown, is in the output as it is,
    with every configuration, those with no_unicode among them. *)
Theorem C09_every_sign_refuted E K o d b lexed l out m t v c :
  ascii_classes K -> (128 <= c)%N -> is_w K c = false -> convert_text E K lexed = Ok l -> to_repr E o d b l = Ok (out, m) ->
  In (t, v) lexed -> In c v -> Exists (fun x => is_blank K x = false) v ->
  (exists r, t = "Name"%string :: r) \/ (exists r, t = "Comment"%string :: r) /\ param_in d COM "0" = false ->
  In (if is_bpe d then c :: lit "</t>" else [c]) out.
Proof.
  intros HK Hc Hw Hl H Hin Hcv Hb Ht. destruct (converted_in E K lexed l t v Hl Hin) as (l' & Hl' & Sub).
  assert (T : exists toks, split_into_words E K v = Ok toks /\ ((l' = toks /\ exists r, t = "Name"%string :: r) \/
    param_in d COM "0" = false /\ (l' = [OneLineComment toks] \/ l' = [MultilineComment toks]))).
  { unfold convert in Hl'.
    destruct (eqb_spec v s_nl) as [->|_]; [destruct Hcv as [<-|[]]; lia|]. destruct (eqb_spec v s_tab) as [->|_]; [destruct Hcv as [<-|[]]; lia|].
    assert (B : blank K v = false).
    { apply not_true_is_false. unfold blank. rewrite forallb_forall. intros A. apply Exists_exists in Hb. destruct Hb as (x & Hx & Hb). rewrite (A x Hx) in Hb. discriminate. }
    rewrite B in Hl'. destruct Ht as [[r ->]|[[r ->] Hd]].
    - exists l'. split; [|left; split; [reflexivity|exists r; reflexivity]]. unfold type_is in Hl'. destruct (list_eq_dec _ _ _) as [D|_]; [discriminate D|]. destruct r; exact Hl'.
    - unfold type_is in Hl'. repeat (destruct (list_eq_dec string_dec ("Comment"%string :: r) _) as [D|_] in Hl'; [try discriminate D|]);
        try (destruct r); cbn in Hl'; apply bind_ok in Hl'; destruct Hl' as (toks & Hs & [= <-]); exists toks; auto. }
  destruct T as (toks & Hs & T). destruct (C13_words E K v toks HK Hs) as (ps & tss & Hp & F & ->).
  assert (Ic : In (NonProc NpNonCodeChar [c]) (List.concat tss)).
  { refine (Forall2_concat_in _ ps tss (PChar c) _ F (char_piece K v ps c Hp Hcv Hw _) _); [lia|]. intros ts Hts. cbn [piece_tokens] in Hts. subst ts. unfold char_token.
    destruct (N.eqb_spec c 10); [lia|]. destruct (N.eqb_spec c 9); [lia|]. left. reflexivity. }
  destruct (to_repr_segs _ _ _ _ _ _ _ H) as (rc & ss & Hrc & Hss & _ & Ho & Hbo & _). unfold segs_list in Hss.
  assert (S : exists s, In s ss /\ s_toks s = [[c]]).
  { destruct T as [[-> _]|[Hd T]].
    - destruct (segs_in _ l ss _ Hss (Sub _ Ic)) as (r & Hr & I). cbn [segs] in Hr. injection Hr as <-. eexists. split; [apply I; left; reflexivity|reflexivity].
    - assert (Q : in_types rc COneLineComment = false /\ in_types rc CMultilineComment = false).
      { unfold in_types. rewrite (types_of _ _ _ _ Hrc). unfold get_types_to_be_repr. rewrite Hd.
        destruct (param_in d SPLIT "123456789s"), (param_in d SPLIT "23456789s"), (param_in d STR "0"), (param_in d EN_ONLY "U"), (param_in d TABS_NEWLINES "0"); split; reflexivity. }
      destruct Q as [Q1 Q2].
      assert (G : forall k r, segs_list_with (fun _ => true) (segs E rc) (List.concat tss) = Ok r -> exists s, In s (map (retype k) r) /\ s_toks s = [[c]]).
      { intros k r Hr. destruct (segs_in _ _ r _ Hr Ic) as (r1 & Hr1 & I). cbn [segs] in Hr1. injection Hr1 as <-.
        eexists. split; [apply in_map, I; left; reflexivity|reflexivity]. }
      destruct T as [-> | ->]; destruct (segs_in _ l ss _ Hss (Sub _ (or_introl eq_refl))) as (r & Hr & I); cbn [segs] in Hr; [rewrite Q1 in Hr|rewrite Q2 in Hr];
        apply bind_ok in Hr; destruct Hr as (r1 & Hr1 & [= <-]).
      + destruct (G COneLineComment r1 Hr1) as (s & Hi & Es). exists s. split; [apply I, in_or_app; left; exact Hi|exact Es].
      + destruct (G CMultilineComment r1 Hr1) as (s & Hi & Es). exists s. split; [apply I, Hi|exact Es]. }
  destruct S as (s & Is & Es). destruct (is_bpe d) eqn:Eb.
  - destruct (Hbo eq_refl) as [_ ->]. apply in_concat. exists (mark (s_toks s)). split; [apply in_map_iff; exists s; auto|]. rewrite Es. left. reflexivity.
  - rewrite (Ho eq_refl). apply in_concat. exists (s_toks s). split; [apply in_map; exact Is|]. rewrite Es. left. reflexivity.
Qed.
Print Assumptions C09_every_sign_refuted.

Example C09_every_sign_example : exists l out m,
  convert_text ascii_case ascii_K [(["Comment"; "Single"]%string, lit "# " ++ [8220%N])] = Ok l /\
  to_repr ascii_case no_splitters (combine prep_params (chars_of "Uc11su")) None l = Ok (out, m) /\ out = [lit "#"; [8220%N]; lit "<EOL>"] /\
  is_w ascii_K 8220 = false /\ is_blank ascii_K 8220 = false.
Proof. do 3 eexists. split; [vm_compute; reflexivity|]. split; [vm_compute; reflexivity|]. repeat split. Qed.
