(** C76 once more: strings that the lexer delivers in parts, for all strings. *)
From Coq Require Import List NArith ZArith Lia String.
From Verif Require Import M_Base L_Base M_Tokens M_Regex M_Parse M_Merge M_BpeEncode M_Repr M_PrepConfig L_Repr P_Repr P_ReprOptions P_ReprStrings P_PrepConfig
  P_Parse P_ParseRepr P_Source P_Strings.
Import ListNotations.

Lemma appears_all E K o d b x : forall tvs pre la oa ma e me,
  Forall (fun tv => appears E K o d b tv x) tvs -> to_repr E o d b [] = Ok (e, me) -> e = [] ->
  convert_text E K pre = Ok la -> to_repr E o d b la = Ok (oa, ma) ->
  exists l m, convert_text E K (pre ++ tvs) = Ok l /\ to_repr E o d b l = Ok (oa ++ List.concat (repeat x (List.length tvs)), m).
Proof.
  induction tvs as [|tv tvs IH]; intros pre la oa ma e me HF He Ee Hp Ho.
  - rewrite app_nil_r. cbn [List.length repeat List.concat]. rewrite app_nil_r. eauto.
  - inversion HF as [|? ? Htv HF']; subst. destruct (Htv pre [] la [] oa ma [] me Hp eq_refl Ho He) as (l & m & Hl & Hm). rewrite app_nil_r in Hm.
    destruct (IH (pre ++ [tv]) l _ m [] me HF' He eq_refl Hl Hm) as (l' & m' & Hl' & Hm').
    exists l', m'. rewrite <- app_assoc in Hl'. split; [exact Hl'|]. rewrite Hm'. cbn [List.length repeat List.concat]. rewrite <- app_assoc. reflexivity.
Qed.

(** With no_str a string that the lexer delivers in several parts is shown as just as many placeholders, whatever is in it: one string and
    several strings beside each other cannot be told apart. *)
Theorem C76_every_part_refuted : forall E K o d b parts,
  ascii_classes K -> py_text E -> spaces_blank K -> mk_prep_config d = Ok d -> param d STR = create_str_value true 0 ->
  Forall (string_part K) parts ->
  exists l m, convert_text E K parts = Ok l /\ to_repr E o d b l = Ok (repeat (end_mark d (lit "<str-literal>")) (List.length parts), m).
Proof.
  intros E K o d b parts HA HT HK Hd Hp HF.
  assert (He : exists me, to_repr E o d b [] = Ok ([], me)).
  { pose proof (C08_no_str E o d b [] 0 Hd Hp) as H0. unfold to_repr in *. destruct (get_repr_config o d b) as [rc|]; [|discriminate].
    cbn [bind] in *. unfold to_repr_cfg. destruct (is_bpe d); eexists; reflexivity. }
  destruct He as (me & He).
  destruct (appears_all E K o d b [end_mark d (lit "<str-literal>")] parts [] [] [] me [] me) as (l & m & Hl & Hm); try assumption; try reflexivity.
  - eapply Forall_impl; [|exact HF]. intros tv Htv. apply C76_no_str; assumption.
  - exists l, m. split; [exact Hl|]. rewrite Hm. do 2 f_equal. cbn [app]. clear. induction parts as [|x l IH]; [reflexivity|]. cbn. f_equal. exact IH.
Qed.
Print Assumptions C76_every_part_refuted.

(** A part of a string that is white space is treated as white space between tokens is, whatever the options. *)
Theorem C76_blank_part_refuted : forall E K pre post t t' v,
  blank K v = true -> convert_text E K (pre ++ (t, v) :: post) = convert_text E K (pre ++ (t', v) :: post).
Proof.
  intros E K pre post t t' v Hb. rewrite !convert_text_app. cbn [convert_text].
  replace (convert E K t v) with (convert E K t' v); [reflexivity|].
  unfold convert. rewrite Hb. destruct (eqb v s_nl); [reflexivity|]. destruct (eqb v s_tab); reflexivity.
Qed.
Print Assumptions C76_blank_part_refuted.

Example C76_parts_example :
  let t := ["Literal"; "String"; "Double"]%string in
  let parts := [(t, lit """"); (t, lit "a b"); (["Literal"; "String"; "Escape"]%string, lit "\n"); (t, lit """")] in
  Forall (string_part ascii_K) parts /\ show_source "Uc00su" parts = repeat (lit "<str-literal>") 4 /\
  blank ascii_K (lit "        ") = true /\ show_source "Uc00su" [(t, lit "        ")] = [s_tab; s_tab].
Proof.
  split.
  - repeat constructor; cbn [snd]; [exists 34%N|exists 97%N|exists 110%N|exists 34%N]; (split; [cbn; auto|reflexivity]).
  - vm_compute. auto.
Qed.
