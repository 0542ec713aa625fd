(** C10 once more: what every identifier is shown as without splitting, whatever its letters. *)
From Coq Require Import List NArith ZArith Lia String.
From Verif Require Import M_Base L_Base M_Tokens M_Regex M_Parse M_Merge M_BpeEncode M_Repr M_PrepConfig L_Repr P_Repr P_Parse P_ParseRepr.
Import ListNotations.

(** a part of an identifier after its case was taken away and put back: upper case parts and first letters go through their lower case *)
Definition recased (E : pycase) (p : str) : str :=
  if eqb p s_underscore then p
  else if islower E p then p
  else if isupper E p then upper E (lower E p)
  else if isupper E (firstn 1 p) then capitalize E (lower E (firstn 1 p) ++ skipn 1 p)
  else p.

Lemma part_recased E p wd : (if eqb p s_underscore then Ok Underscore else word_from E p) = Ok wd -> subtoken_str E wd = recased E p.
Proof.
  unfold recased. destruct (eqb_spec p s_underscore) as [->|Hu].
  - intros [= <-]. reflexivity.
  - destruct p as [|c rest]; [discriminate|]. unfold word_from, mk_word. cbn [firstn skipn]. intros H.
    destruct (islower E (c :: rest)); [|destruct (isupper E (c :: rest)); [|destruct (isupper E [c])]];
    match type of H with (if ?x then _ else _) = _ => destruct x; [|discriminate] end;
    injection H as <-; reflexivity.
Qed.

Lemma parts_recased E ps : forall subs, mapM (fun p => if eqb p s_underscore then Ok Underscore else word_from E p) ps = Ok subs ->
  split_str E subs = List.concat (map (recased E) ps).
Proof.
  induction ps as [|p ps IH]; intros subs H; cbn [mapM] in H; [injection H as <-; reflexivity|].
  apply bind_ok in H. destruct H as (wd & Hw & H). apply bind_ok in H. destruct H as (rest & Hr & [= <-]).
  unfold split_str in *. cbn [map List.concat]. rewrite (IH _ Hr). f_equal. apply part_recased, Hw.
Qed.

Theorem C10_recased : forall E K o d b t (w : str) l,
  ascii_classes K -> words_not_blank K -> mk_prep_config d = Ok d -> nosplit d ->
  type_in t ["Name"%string] = true -> w <> [] -> forallb (is_w K) w = true -> ~ number_literal w ->
  (is_ascii w = true \/ param d EN_ONLY <> lit "U") -> convert_text E K [(t, w)] = Ok l ->
  exists parts m, List.concat parts = w /\ Forall (fun p => p <> []) parts /\ parts_ok K parts /\
  to_repr E o d b l = Ok ([List.concat (map (recased E) parts)], m).
Proof.
  intros E K o d b t w l HK HB Hd Hn Ht Hne Hw Hnum Hor Hl. cbn [convert_text] in Hl.
  rewrite (convert_name E K t w Ht HB HK Hne Hw), (words_of_word E K w HK Hne Hw) in Hl. unfold to_parsed_token in Hl.
  assert (H10 : forall n, is_w K n = false -> w <> [n]).
  { intros n Hx ->. cbn in Hw. rewrite Hx in Hw. discriminate. }
  destruct (eqb_spec w s_nl) as [->|_]; [exfalso; eapply (H10 10%N); [|reflexivity]; rewrite (w_ascii K HK) by reflexivity; reflexivity|].
  destruct (eqb_spec w s_tab) as [->|_]; [exfalso; eapply (H10 9%N); [|reflexivity]; rewrite (w_ascii K HK) by reflexivity; reflexivity|].
  destruct (is_number w) eqn:Hx; [exfalso; apply Hnum, C14_number_grammar, Hx|].
  replace (fullmatch (Plus (Chr (is_w K))) w) with true in Hl by (symmetry; apply fullmatch_plus; auto).
  unfold split_identifier in Hl. destruct (identifier_parts K w (word_no_space K HK w Hw)) as (H1 & H2 & H3).
  destruct (mapM (fun p => if eqb p s_underscore then Ok Underscore else word_from E p) (finditer (identifier_re K) w)) as [subs|] eqn:Hm; [|discriminate].
  cbn [bind app] in Hl. exists (finditer (identifier_re K) w). pose proof (parts_recased E _ _ Hm) as Hs.
  unfold is_non_eng in Hl. destruct (is_ascii w) eqn:Ha; cbn [negb] in Hl; injection Hl as <-.
  - destruct (nosplit_out E o d b subs Hd Hn) as (m & Hr). rewrite Hs in Hr. exists m. split; [exact H1|]. split; [exact H2|]. split; [exact H3|exact Hr].
  - destruct (nosplit_out_noneng E o d b subs Hd Hn) as (m & Hr); [destruct Hor; [discriminate|assumption]|].
    rewrite Hs in Hr. exists m. split; [exact H1|]. split; [exact H2|]. split; [exact H3|exact Hr].
Qed.
Print Assumptions C10_recased.

(** letters that are upper case and nothing else *)
Definition all_upper (K : charclass) (w : str) : Prop :=
  Forall (fun c => is_up K c = true /\ is_low K c = false /\ is_digit c = false /\ c <> 95%N) w.

Lemma upper_one_part K parts w : w <> [] -> all_upper K w -> List.concat parts = w -> Forall (fun p => p <> []) parts -> parts_ok K parts -> parts = [w].
Proof.
  intros Hne Hu Hc Hp Hok. destruct parts as [|p rest]; [cbn in Hc; congruence|]. cbn [List.concat parts_ok] in *. destruct Hok as [Hok _].
  inversion Hp as [|? ? Hpne Hrest]; subst. apply Forall_app in Hu. destruct Hu as [Hu Ht].
  assert (R : List.concat rest = []).
  { assert (P : forall x, In x p -> is_low K x = false /\ is_digit x = false /\ x <> 95%N /\ is_up K x = true).
    { rewrite Forall_forall in Hu. intros x Hx. destruct (Hu x Hx) as (A & B & C & D). auto. }
    destruct Hok as [-> | [Hd1 Hd2] _ |cap v -> _ Hv Hl _| _ _ _ Hs|c -> _ _ _ Hup].
    - destruct (P 95%N (or_introl eq_refl)) as (_ & _ & H & _). congruence.
    - exfalso. destruct p as [|x p]; [congruence|]. destruct (P x (or_introl eq_refl)) as (_ & H & _).
      cbn in Hd2. rewrite H in Hd2. discriminate.
    - exfalso. destruct v as [|x v]; [congruence|]. cbn in Hl. apply andb_true_iff in Hl.
      destruct (P x) as (H & _); [apply in_or_app; right; left; reflexivity|]. destruct Hl. congruence.
    - destruct (List.concat rest) as [|x t]; [reflexivity|]. exfalso. inversion Ht as [|? ? Hx Ht']; subst. cbn in Hs.
      specialize (Hs (proj1 Hx)). destruct t as [|y t]; [discriminate|]. inversion Ht' as [|? ? Hy _]; subst. cbn in Hs. destruct Hy as (_ & Hy & _). congruence.
    - destruct (P c (or_introl eq_refl)) as (_ & _ & _ & H). congruence. }
  rewrite R, app_nil_r. destruct rest as [|q rest]; [reflexivity|]. inversion Hrest; subst. cbn in R. apply app_eq_nil in R. destruct R. congruence.
Qed.

(** Every identifier of upper case letters is shown as the upper case of its lower case, so it is changed exactly if that is something else. *)
Theorem C10_upper_refuted : forall E K o d b t (w : str) l out m,
  ascii_classes K -> words_not_blank K -> mk_prep_config d = Ok d -> nosplit d ->
  type_in t ["Name"%string] = true -> w <> [] -> forallb (is_w K) w = true -> all_upper K w -> ~ number_literal w ->
  param d EN_ONLY <> lit "U" -> islower E w = false -> isupper E w = true ->
  convert_text E K [(t, w)] = Ok l -> to_repr E o d b l = Ok (out, m) ->
  out = [upper E (lower E w)] /\ (out <> [w] <-> upper E (lower E w) <> w).
Proof.
  intros E K o d b t w l out m HK HB Hd Hn Ht Hne Hw Hup Hnum Hen Hlo Hupp Hl Ho.
  destruct (C10_recased E K o d b t w l HK HB Hd Hn Ht Hne Hw Hnum (or_intror Hen) Hl) as (parts & m' & H1 & H2 & H3 & H4).
  rewrite (upper_one_part K parts w Hne Hup H1 H2 H3) in H4. rewrite Ho in H4. injection H4 as -> _.
  assert (Hr : recased E w = upper E (lower E w)).
  { unfold recased. rewrite Hlo, Hupp. destruct (eqb_spec w s_underscore) as [->|]; [|reflexivity].
    inversion Hup as [|? ? Hx _]; subst. destruct Hx as (_ & _ & _ & Hx). cbn in Hx. congruence. }
  cbn [map List.concat]. rewrite app_nil_r, Hr. split; [reflexivity|]. split; intros H X; apply H; [rewrite X; reflexivity|injection X as X; exact X].
Qed.
Print Assumptions C10_upper_refuted.

Example C10_upper_example :
  let w := [65; 7838; 66]%N in let d := combine prep_params (chars_of "uc10su") in
  forallb (is_w sharp_K) w = true /\ all_upper sharp_K w /\ islower sharp_E w = false /\ isupper sharp_E w = true /\ ~ number_literal w /\
  nosplit d /\ param d EN_ONLY <> lit "U" /\ upper sharp_E (lower sharp_E w) = lit "ASSB" /\
  match (l <- convert_text sharp_E sharp_K [(["Name"]%string, w)] ;; to_repr sharp_E no_splitters d None l) with Ok r => fst r | _ => [] end = [lit "ASSB"].
Proof.
  cbv zeta. split; [reflexivity|]. split; [repeat constructor; discriminate|]. split; [reflexivity|]. split; [reflexivity|].
  split; [rewrite <- C14_number_grammar; vm_compute; discriminate|]. split; [left; reflexivity|]. split; [discriminate|].
  split; vm_compute; reflexivity.
Qed.
Example C10_recased_example :
  recased ascii_case (lit "Parser") = lit "Parser" /\ recased ascii_case (lit "_") = lit "_" /\ recased sharp_E ([7838%N] ++ lit "X") = lit "SSX".
Proof. vm_compute. auto. Qed.
