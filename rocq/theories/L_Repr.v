(** Lemmas on the representation of tokens: every representation is a list of full-token segments. *)
From Verif Require Import M_Base L_Base M_Tokens M_Repr.
From Coq Require Import Arith.

(** ** Induction over nested tokens *)
Section TokenInd.
  Variable P : token -> Prop.
  Hypothesis Hnl : P NewLine.
  Hypothesis Htab : P Tab.
  Hypothesis Hsp : forall n, P (SpaceInString n).
  Hypothesis Hnum : forall v, P (Number v).
  Hypothesis Hone : P One.
  Hypothesis Hzero : P Zero.
  Hypothesis Hnp : forall c t, P (NonProc c t).
  Hypothesis Hsc : forall l, P (SplitContainer l).
  Hypothesis Hne : forall l, P (NonEng l).
  Hypothesis Holc : forall l, Forall P l -> P (OneLineComment l).
  Hypothesis Hmlc : forall l, Forall P l -> P (MultilineComment l).
  Hypothesis Hstr : forall l n, Forall P l -> P (StringLiteral l n).
  Fixpoint token_nested_ind (t : token) : P t :=
    let go := fix go (l : list token) : Forall P l :=
      match l with [] => Forall_nil P | x :: r => Forall_cons x (token_nested_ind x) (go r) end in
    match t with
    | NewLine => Hnl | Tab => Htab | SpaceInString n => Hsp n | Number v => Hnum v
    | One => Hone | Zero => Hzero | NonProc c s => Hnp c s | SplitContainer l => Hsc l | NonEng l => Hne l
    | OneLineComment l => Holc l (go l)
    | MultilineComment l => Hmlc l (go l)
    | StringLiteral l n => Hstr l n (go l)
    end.
End TokenInd.

(** ** Segments *)
Record seg := { s_toks : list str; s_cls : cls; s_np : list str }.

(** running sums of the lengths, starting at [k] *)
Fixpoint bounds (k : nat) (gs : list (list str)) : list nat :=
  match gs with [] => [k] | g :: t => k :: bounds (k + length g) t end.

Definition flat (l : list seg) : list str * meta :=
  (List.concat (map s_toks l),
   {| nonproc := List.concat (map s_np l);
      wb := bounds 0 (map s_toks l);
      types := map s_cls l |}).

Definition flat_res (r : res (list seg)) : res (list str * meta) := l <- r ;; Ok (flat l).

Lemma bounds_shift k j gs : bounds (k + j) gs = map (fun b => k + b) (bounds j gs).
Proof.
  revert j; induction gs as [|g gs IH]; intros j; simpl; [reflexivity|].
  rewrite <- Nat.add_assoc, IH. reflexivity.
Qed.

Lemma bounds_length k gs : length (bounds k gs) = S (length gs).
Proof. revert k; induction gs; intros; simpl; [reflexivity|rewrite IHgs; reflexivity]. Qed.

Lemma bounds_nonempty k gs : bounds k gs <> [].
Proof. destruct gs; discriminate. Qed.

Lemma bounds_last k gs d : last (bounds k gs) d = k + length (List.concat gs).
Proof.
  revert k; induction gs as [|g gs IH]; intros k; [simpl; lia|].
  cbn [bounds map List.concat]. rewrite app_length.
  pose proof (bounds_nonempty (k + length g) gs).
  destruct (bounds (k + length g) gs) eqn:E; [congruence|].
  change (last (k :: n :: l) d) with (last (n :: l) d). rewrite <- E, IH. lia.
Qed.

Lemma bounds_app k a b :
  bounds k (a ++ b) = removelast (bounds k a) ++ bounds (k + length (List.concat a)) b.
Proof.
  revert k; induction a as [|g a IH]; intros k; simpl; [rewrite Nat.add_0_r; reflexivity|].
  rewrite IH, app_length. pose proof (bounds_nonempty (k + length g) a).
  destruct (bounds (k + length g) a) eqn:E; [congruence|]. rewrite Nat.add_assoc. reflexivity.
Qed.

Lemma flat_nil : flat [] = ([], meta0).
Proof. reflexivity. Qed.

Lemma flat_app a b :
  flat (a ++ b) = (fst (flat a) ++ fst (flat b), meta_update (snd (flat a)) (snd (flat b))).
Proof.
  unfold flat, meta_update; cbn [fst snd nonproc wb types]. rewrite !map_app, !concat_app. f_equal. f_equal.
  rewrite bounds_app. f_equal. rewrite bounds_last, <- bounds_shift. f_equal. lia.
Qed.

Lemma full_word_flat c toks np : full_word c toks np = flat [{| s_toks := toks; s_cls := c; s_np := np |}].
Proof. unfold full_word, flat; simpl. rewrite !app_nil_r. reflexivity. Qed.

Definition retype (c : cls) (s : seg) : seg := {| s_toks := s_toks s; s_cls := c; s_np := s_np s |}.

Lemma set_all_flat c l : (fst (flat l), set_all_tokens_type c (snd (flat l))) = flat (map (retype c) l).
Proof.
  unfold flat, set_all_tokens_type; cbn [fst snd nonproc wb types].
  rewrite !map_map. cbn [retype s_toks s_np s_cls]. f_equal. f_equal.
  rewrite bounds_length, map_length. simpl. rewrite Nat.sub_0_r.
  induction l; simpl; congruence.
Qed.

(** ** Segments of a token *)
Definition one_seg (c : cls) (toks np : list str) : list seg := [{| s_toks := toks; s_cls := c; s_np := np |}].

Definition segs_list_with (keep : token -> bool) (f : token -> res (list seg)) :=
  fix go (l : list token) : res (list seg) :=
    match l with
    | [] => Ok []
    | t :: rest => if keep t then r <- f t ;; rs <- go rest ;; Ok (r ++ rs) else go rest
    end.

Section Segs.
  Variable E : pycase.

  Definition segs_split (cfg : repr_config) (l : list subtoken) : res (list seg) :=
    if in_types cfg CSplitContainer then
      if bpe cfg
      then r <- split_word cfg (split_str E l) ;; Ok (one_seg CSplitContainer r [])
      else r <- torepr_subs E cfg l ;;
           Ok (one_seg CSplitContainer (wrap_in_word_boundaries_if_necessary r) [])
    else
      heads <- mapM (fun s => r <- torepr_sub E cfg s ;;
                              match r with [] => Err IndexError | x :: _ => Ok x end) l ;;
      Ok (one_seg CSplitContainer [List.concat heads] []).

  Fixpoint segs (cfg : repr_config) (t : token) : res (list seg) :=
    match t with
    | NewLine => if in_types cfg CNewLine then Ok [] else Ok (one_seg CNewLine [s_nl] [s_nl])
    | Tab => if in_types cfg CTab then Ok [] else Ok (one_seg CTab [s_tab] [s_tab])
    | SpaceInString n => Ok (one_seg CSpaceInString [List.concat (repeat ph_space_in_str n)] [])
    | Number v =>
        if in_types cfg CNumber then
          subwords <- number_splitter cfg v ;;
          Ok (one_seg CNumber
                (if (1 <? length subwords)%nat && negb (bpe cfg)
                 then [ph_word_start] ++ subwords ++ [ph_word_end] else subwords) [])
        else Ok (one_seg CNumber [v] [])
    | One => Ok (one_seg COne [lit "1"] [])
    | Zero => Ok (one_seg CZero [lit "0"] [])
    | NonProc c s => Ok (one_seg (np_class c) [s] [s])
    | SplitContainer l => segs_split cfg l
    | NonEng l =>
        if in_types cfg CNonEng then
          if bpe cfg then
            s <- replace_non_ascii_seqs (split_str E l) ph_non_ascii_seq ;;
            w <- word_from E s ;;
            segs_split cfg [w]
          else Ok (one_seg CNonEng [ph_non_eng] [])
        else segs_split cfg l
    | OneLineComment l =>
        if in_types cfg COneLineComment then Ok (one_seg COneLineComment [ph_comment] [])
        else r <- segs_list_with (fun _ => true) (segs cfg) l ;;
             Ok (map (retype COneLineComment) r ++ one_seg COneLineComment [ph_olc_end] [])
    | MultilineComment l =>
        if in_types cfg CMultilineComment then Ok (one_seg CMultilineComment [ph_comment] [])
        else r <- segs_list_with (fun _ => true) (segs cfg) l ;; Ok (map (retype CMultilineComment) r)
    | StringLiteral l len =>
        if in_types cfg CStringLiteral then Ok (one_seg CStringLiteral [ph_string_literal] [])
        else
          match max_str_length cfg with
          | None => Err TypeError
          | Some mx =>
              if (mx <? len)%Z then
                Ok (if full_strings cfg
                    then one_seg CStringLiteral [s_quote ++ s_quote] []
                    else one_seg CStringLiteral [s_quote; s_quote] [s_quote])
              else if bpe cfg then
                s <- string_text E cfg t ;;
                r <- split_word cfg s ;;
                Ok (one_seg CStringLiteral r [])
              else if full_strings cfg then
                s <- string_text E cfg t ;;
                Ok (one_seg CStringLiteral [s] [])
              else
                r <- segs_list_with (fun u => negb (is_space_in_string u)) (segs cfg) l ;;
                Ok (map (retype CStringLiteral) r)
          end
    end.

  Definition segs_list (cfg : repr_config) (l : list token) : res (list seg) :=
    segs_list_with (fun _ => true) (segs cfg) l.

  Lemma torepr_split_segs cfg l : torepr_split E cfg l = flat_res (segs_split cfg l).
  Proof.
    unfold torepr_split, segs_split, flat_res, one_seg.
    destruct (in_types cfg CSplitContainer); [destruct (bpe cfg)|].
    - destruct (split_word _ _); simpl; [|reflexivity]. rewrite full_word_flat. reflexivity.
    - destruct (torepr_subs _ _ _); cbn [bind]; [|reflexivity]. rewrite full_word_flat. reflexivity.
    - destruct (mapM _ _); cbn [bind]; [|reflexivity]. rewrite full_word_flat. reflexivity.
  Qed.

  Lemma to_repr_list_with_segs keep f g l acc :
    Forall (fun t => f t = flat_res (g t)) l ->
    to_repr_list_with keep f (flat acc) l =
    flat_res (r <- segs_list_with keep g l ;; Ok (acc ++ r)).
  Proof.
    intros Hf. revert acc. induction Hf as [|t l Ht Hf IH]; intros acc.
    - simpl. rewrite app_nil_r. reflexivity.
    - cbn [to_repr_list_with segs_list_with]. destruct (keep t); [|apply IH].
      rewrite Ht. destruct (g t) as [r|e]; cbn [flat_res bind]; [|reflexivity].
      rewrite <- flat_app. fold (to_repr_list_with keep f). rewrite IH.
      fold (segs_list_with keep g). destruct (segs_list_with keep g l); cbn [bind flat_res]; [|reflexivity].
      rewrite app_assoc. reflexivity.
  Qed.

  Lemma torepr_segs cfg t : torepr E cfg t = flat_res (segs cfg t).
  Proof.
    induction t using token_nested_ind; cbn [torepr segs].
    - destruct (in_types _ _); reflexivity.
    - destruct (in_types _ _); reflexivity.
    - rewrite full_word_flat. reflexivity.
    - destruct (in_types _ _); [|reflexivity].
      destruct (number_splitter _ _); cbn [bind flat_res]; [|reflexivity]. rewrite full_word_flat. reflexivity.
    - reflexivity.
    - reflexivity.
    - rewrite full_word_flat. reflexivity.
    - apply torepr_split_segs.
    - destruct (in_types _ _); [|apply torepr_split_segs]. destruct (bpe cfg); [|reflexivity].
      destruct (replace_non_ascii_seqs _ _); cbn [bind flat_res]; [|reflexivity].
      destruct (word_from _ _); cbn [bind flat_res]; [|reflexivity]. apply torepr_split_segs.
    - destruct (in_types _ _); [reflexivity|].
      rewrite <- flat_nil, (to_repr_list_with_segs _ _ (segs cfg)) by assumption.
      destruct (segs_list_with _ _ _) as [r|e]; cbn [bind flat_res]; [|reflexivity]. cbn [app].
      f_equal.
      change (OneLineComment l) with (OneLineComment l).
      transitivity (flat (map (retype COneLineComment) (r ++ one_seg COneLineComment [ph_olc_end] []))).
      + rewrite <- set_all_flat, flat_app. reflexivity.
      + rewrite map_app. reflexivity.
    - destruct (in_types _ _); [reflexivity|].
      rewrite <- flat_nil, (to_repr_list_with_segs _ _ (segs cfg)) by assumption.
      destruct (segs_list_with _ _ _) as [r|e]; cbn [bind flat_res]; [|reflexivity]. cbn [app].
      rewrite set_all_flat. reflexivity.
    - destruct (in_types _ _); [reflexivity|]. destruct (max_str_length cfg) as [mx|]; [|reflexivity].
      destruct (mx <? n)%Z; [destruct (full_strings cfg); reflexivity|].
      destruct (bpe cfg); [|destruct (full_strings cfg)].
      + destruct (string_text _ _ _); cbn [bind flat_res]; [|reflexivity].
        destruct (split_word _ _); cbn [bind flat_res]; [|reflexivity]. rewrite full_word_flat. reflexivity.
      + destruct (string_text _ _ _); cbn [bind flat_res]; [|reflexivity]. rewrite full_word_flat. reflexivity.
      + rewrite <- flat_nil, (to_repr_list_with_segs _ _ (segs cfg)) by assumption.
        destruct (segs_list_with _ _ _) as [r|e]; cbn [bind flat_res]; [|reflexivity]. cbn [app].
        rewrite set_all_flat. reflexivity.
  Qed.

  Lemma to_repr_list_segs cfg l : to_repr_list E cfg l = flat_res (segs_list cfg l).
  Proof.
    unfold to_repr_list, segs_list. rewrite <- flat_nil, (to_repr_list_with_segs _ _ (segs cfg)).
    - destruct (segs_list_with _ _ _); reflexivity.
    - apply Forall_forall. intros t _. apply torepr_segs.
  Qed.
End Segs.

Lemma segs_list_with_app keep f a b :
  segs_list_with keep f (a ++ b) =
  (ra <- segs_list_with keep f a ;; rb <- segs_list_with keep f b ;; Ok (ra ++ rb)).
Proof.
  induction a as [|t a IH]; cbn [app segs_list_with bind].
  - destruct (segs_list_with keep f b); reflexivity.
  - destruct (keep t); [|exact IH]. destruct (f t); cbn [bind]; [|reflexivity].
    fold (segs_list_with keep f). rewrite IH. destruct (segs_list_with keep f a); cbn [bind]; [|reflexivity].
    destruct (segs_list_with keep f b); cbn [bind]; [|reflexivity]. rewrite app_assoc. reflexivity.
Qed.

(** a property of segments that holds for every token and is kept by retyping *)
Lemma segs_list_with_forall (P : seg -> Prop) keep f l r :
  Forall (fun t => forall s, f t = Ok s -> Forall P s) l ->
  segs_list_with keep f l = Ok r -> Forall P r.
Proof.
  intros Hf. revert r. induction Hf as [|t l Ht Hf IH]; intros r; cbn [segs_list_with].
  - intros [= <-]. constructor.
  - destruct (keep t); [|apply IH]. rewrite bind_ok. intros (s & Hs & H).
    apply bind_ok in H. destruct H as (rs & Hrs & [= <-]). apply Forall_app. split; [auto|]. apply IH, Hrs.
Qed.

(** ** Boundaries *)
Inductive increasing : list nat -> Prop :=
| inc_one x : increasing [x]
| inc_cons x y l : x < y -> increasing (y :: l) -> increasing (x :: y :: l).

Lemma bounds_increasing k gs : Forall (fun g => g <> []) gs -> increasing (bounds k gs).
Proof.
  intros Hf. revert k. induction Hf as [|g gs Hg Hf IH]; intros k; simpl; [constructor|].
  specialize (IH (k + length g)). destruct gs as [|g2 gs]; simpl in *.
  - constructor; [destruct g; [congruence|simpl; lia]|constructor].
  - constructor; [destruct g; [congruence|simpl; lia]|exact IH].
Qed.

(** ** End-of-token marks *)
Definition mark (g : list str) : list str := removelast g ++ [last g [] ++ ph_compound_word_end].

Lemma append_at_spec i suf l1 x l2 : length l1 = i -> append_at i suf (l1 ++ x :: l2) = Some (l1 ++ (x ++ suf) :: l2).
Proof.
  intros <-. induction l1 as [|y l1 IH]; [reflexivity|]. simpl. rewrite IH. reflexivity.
Qed.

Lemma mark_length g : g <> [] -> length (mark g) = length g.
Proof.
  intros Hg. unfold mark. rewrite app_length. simpl.
  rewrite (app_removelast_last [] Hg) at 2. rewrite app_length. reflexivity.
Qed.

Lemma mark_all_bounds pre gs :
  Forall (fun g => g <> []) gs ->
  mark_all (tl (bounds (length pre) gs)) (pre ++ List.concat gs) = Ok (pre ++ List.concat (map mark gs)).
Proof.
  intros Hf. revert pre. induction Hf as [|g gs Hg Hf IH]; intros pre; [reflexivity|].
  cbn [bounds tl map List.concat].
  assert (Hb : bounds (length pre + length g) gs
               = (length pre + length g) :: tl (bounds (length pre + length g) gs)).
  { destruct gs; reflexivity. }
  rewrite Hb. cbn [mark_all]. unfold mark_at.
  destruct (length pre + length g) as [|i] eqn:Ei; [destruct g; [congruence|simpl in Ei; lia]|].
  rewrite (app_removelast_last [] Hg) at 1. rewrite <- (app_assoc (removelast g)). cbn [app].
  rewrite app_assoc, append_at_spec.
  2:{ rewrite app_length. assert (Hl : length g = length (removelast g) + 1).
      { rewrite (app_removelast_last [] Hg) at 1. rewrite app_length. reflexivity. }
      unfold str in *. lia. }
  cbn [of_option bind].
  assert (Hr : (pre ++ mark g) ++ List.concat gs
               = (pre ++ removelast g) ++ (last g [] ++ ph_compound_word_end) :: List.concat gs)
    by (unfold mark; rewrite <- !app_assoc; reflexivity).
  specialize (IH (pre ++ mark g)). rewrite app_length, mark_length, Ei, Hr in IH by exact Hg.
  etransitivity; [exact IH|]. rewrite <- app_assoc. reflexivity.
Qed.

Lemma insert_flat l :
  Forall (fun s => s_toks s <> []) l ->
  insert_and_word_tokens (fst (flat l)) (snd (flat l)) = Ok (List.concat (map (fun s => mark (s_toks s)) l)).
Proof.
  intros Hf. unfold insert_and_word_tokens, flat; cbn [fst snd wb].
  change (List.concat (map s_toks l)) with ([] ++ List.concat (map s_toks l)).
  change 0 with (@length str []).
  rewrite mark_all_bounds by (apply Forall_map; exact Hf). rewrite map_map. reflexivity.
Qed.

(** ** Tokens occurring in a token, including itself *)
Fixpoint subterms (t : token) : list token :=
  t :: match t with
       | OneLineComment l | MultilineComment l | StringLiteral l _ => List.concat (map subterms l)
       | _ => []
       end.
Definition all_tokens (l : list token) : list token := List.concat (map subterms l).

Lemma subterms_self t : In t (subterms t).
Proof. destruct t; left; reflexivity. Qed.

Lemma all_tokens_in t u l : In t l -> In u (subterms t) -> In u (all_tokens l).
Proof. intros Ht Hu. apply in_concat. exists (subterms t). split; [apply in_map, Ht|exact Hu]. Qed.

(** a property of the tokens of [l] and everything below them *)
Lemma all_tokens_forall (P : token -> Prop) l :
  (forall u, In u (all_tokens l) -> P u) ->
  Forall (fun t => forall u, In u (subterms t) -> P u) l.
Proof. intros H. apply Forall_forall. intros t Ht u Hu. apply H. eapply all_tokens_in; eassumption. Qed.

(** ** Groups are not empty *)
Section NonEmpty.
  Variables (E : pycase) (cfg : repr_config).
  Hypothesis Hbpe : bpe cfg = true -> forall s ws, split_word cfg s = Ok ws -> ws <> [].

  Lemma wrap_nonempty r : wrap_in_word_boundaries_if_necessary r <> [].
  Proof.
    destruct r as [|a [|b [|c r]]]; simpl; try discriminate. destruct (_ || _); discriminate.
  Qed.

  Lemma segs_split_nonempty l r : segs_split E cfg l = Ok r -> Forall (fun s => s_toks s <> []) r.
  Proof.
    unfold segs_split. destruct (in_types _ _).
    - destruct (bpe cfg) eqn:Hb; rewrite bind_ok; intros (ws & Hw & [= <-]); repeat constructor.
      + simpl. apply (Hbpe eq_refl _ _ Hw).
      + apply wrap_nonempty.
    - rewrite bind_ok. intros (ws & Hw & [= <-]). repeat constructor. discriminate.
  Qed.

  Lemma segs_nonempty t r :
    (forall v ws, In (Number v) (subterms t) -> number_splitter cfg v = Ok ws -> ws <> []) ->
    segs E cfg t = Ok r -> Forall (fun s => s_toks s <> []) r.
  Proof.
    pose proof segs_split_nonempty as Hss. revert r. induction t using token_nested_ind; intros r Hn; cbn [segs].
    - destruct (in_types _ _); intros [= <-]; repeat constructor; discriminate.
    - destruct (in_types _ _); intros [= <-]; repeat constructor; discriminate.
    - intros [= <-]; repeat constructor; discriminate.
    - destruct (in_types _ _); [|intros [= <-]; repeat constructor; discriminate].
      rewrite bind_ok. intros (ws & Hw & [= <-]). repeat constructor. cbn [s_toks].
      specialize (Hn v ws (or_introl eq_refl) Hw).
      destruct (_ && _); [discriminate|exact Hn].
    - intros [= <-]; repeat constructor; discriminate.
    - intros [= <-]; repeat constructor; discriminate.
    - intros [= <-]; repeat constructor; discriminate.
    - apply Hss.
    - destruct (in_types _ _); [|apply Hss].
      destruct (bpe cfg) eqn:Hb; [|intros [= <-]; repeat constructor; discriminate].
      rewrite bind_ok. intros (s & _ & H). apply bind_ok in H. destruct H as (w & _ & H).
      eapply Hss; exact H.
    - destruct (in_types _ _); [intros [= <-]; repeat constructor; discriminate|].
      rewrite bind_ok. intros (rs & Hrs & [= <-]). apply Forall_app. split; [|repeat constructor; discriminate].
      apply Forall_map. cbn [retype s_toks]. eapply segs_list_with_forall; [|exact Hrs].
      apply Forall_forall. intros t Ht s Hs. rewrite Forall_forall in H. apply (H t Ht); [|exact Hs].
      intros v ws Hv. apply Hn. right. apply in_concat. exists (subterms t). split; [apply in_map, Ht|exact Hv].
    - destruct (in_types _ _); [intros [= <-]; repeat constructor; discriminate|].
      rewrite bind_ok. intros (rs & Hrs & [= <-]).
      apply Forall_map. cbn [retype s_toks]. eapply segs_list_with_forall; [|exact Hrs].
      apply Forall_forall. intros t Ht s Hs. rewrite Forall_forall in H. apply (H t Ht); [|exact Hs].
      intros v ws Hv. apply Hn. right. apply in_concat. exists (subterms t). split; [apply in_map, Ht|exact Hv].
    - destruct (in_types _ _); [intros [= <-]; repeat constructor; discriminate|].
      destruct (max_str_length cfg) as [mx|]; [|discriminate].
      destruct (mx <? n)%Z; [intros [= <-]; destruct (full_strings cfg); repeat constructor; discriminate|].
      destruct (bpe cfg) eqn:Hb; [|destruct (full_strings cfg)].
      + rewrite bind_ok. intros (s & _ & H'). apply bind_ok in H'. destruct H' as (w & Hw & [= <-]).
        repeat constructor. simpl. apply (Hbpe eq_refl _ _ Hw).
      + rewrite bind_ok. intros (s & _ & [= <-]). repeat constructor. discriminate.
      + rewrite bind_ok. intros (rs & Hrs & [= <-]).
        apply Forall_map. cbn [retype s_toks]. eapply segs_list_with_forall; [|exact Hrs].
        apply Forall_forall. intros t Ht s Hs. rewrite Forall_forall in H. apply (H t Ht); [|exact Hs].
        intros v ws Hv. apply Hn. right. apply in_concat. exists (subterms t). split; [apply in_map, Ht|exact Hv].
  Qed.

  Lemma segs_list_nonempty l r :
    (forall v ws, In (Number v) (all_tokens l) -> number_splitter cfg v = Ok ws -> ws <> []) ->
    segs_list E cfg l = Ok r -> Forall (fun s => s_toks s <> []) r.
  Proof.
    intros Hn. apply segs_list_with_forall. apply Forall_forall. intros t Ht s. apply segs_nonempty.
    intros v ws Hv. apply Hn. eapply all_tokens_in; eassumption.
  Qed.
End NonEmpty.

(** ** check_ends and terminal subtokens *)
Lemma check_ends_ok idx bs l :
  check_ends idx bs l = Ok tt <->
  forall i, i < length l -> is_terminal_subtoken (nth i l []) = mem (S (idx + i)) bs.
Proof.
  revert idx; induction l as [|x l IH]; intros idx; cbn [check_ends].
  - split; [intros _ i Hi; inversion Hi|reflexivity].
  - destruct (Bool.eqb (is_terminal_subtoken x) (mem (S idx) bs)) eqn:Eb.
    + apply eqb_prop in Eb. rewrite IH. split.
      * intros H [|i] Hi; simpl in *; [rewrite Nat.add_0_r; exact Eb|].
        rewrite H by lia. f_equal. lia.
      * intros H i Hi. specialize (H (S i)). simpl in H. rewrite H by lia. f_equal. lia.
    + split; [discriminate|]. intros H. specialize (H 0). simpl in H. rewrite Nat.add_0_r in H.
      rewrite H in Eb by lia. rewrite Bool.eqb_reflx in Eb. discriminate.
Qed.

Lemma check_ends_app idx bs a b :
  check_ends idx bs (a ++ b) = Ok tt <-> check_ends idx bs a = Ok tt /\ check_ends (idx + length a) bs b = Ok tt.
Proof.
  revert idx; induction a as [|x a IH]; intros idx; cbn [app check_ends length].
  - rewrite Nat.add_0_r. intuition.
  - destruct (Bool.eqb _ _); [|split; [discriminate|intros [H _]; discriminate]].
    rewrite IH. rewrite Nat.add_succ_r. reflexivity.
Qed.

Lemma bounds_min k gs x : In x (bounds k gs) -> k <= x.
Proof.
  revert k; induction gs as [|g gs IH]; intros k; simpl.
  - intros [<-|[]]. lia.
  - intros [<-|H]; [lia|]. apply IH in H. lia.
Qed.

Lemma terminal_mark x : is_terminal_subtoken (x ++ ph_compound_word_end) = true.
Proof. apply ends_with_spec. exists x. reflexivity. Qed.

(** marks are exactly at the boundaries if no inner subtoken looks like a marked one *)
Lemma check_ends_marked pre k gs :
  (forall x, In x pre -> x <= k) ->
  Forall (fun g => g <> []) gs ->
  Forall (fun g => Forall (fun s => is_terminal_subtoken s = false) (removelast g)) gs ->
  check_ends k (pre ++ bounds k gs) (List.concat (map mark gs)) = Ok tt.
Proof.
  intros Hpre Hne Hin. revert k pre Hpre. induction gs as [|g gs IH]; intros k pre Hpre; [reflexivity|].
  inversion Hne as [|? ? Hg Hne']; inversion Hin as [|? ? Hi Hin']; subst.
  cbn [map List.concat bounds]. apply check_ends_app. split.
  - unfold mark. apply check_ends_app. split.
    + apply check_ends_ok. intros i Hi'.
      transitivity false.
      * rewrite Forall_forall in Hi. apply Hi, nth_In, Hi'.
      * symmetry. apply mem_not_in. rewrite in_app_iff. intros [H|[H|H]].
        -- apply Hpre in H. lia.
        -- lia.
        -- apply bounds_min in H.
           assert (Hl : length g = length (removelast g) + 1).
           { rewrite (app_removelast_last [] Hg) at 1. rewrite app_length. reflexivity. }
           lia.
    + cbn [check_ends]. rewrite terminal_mark.
      assert (Hl : length g = length (removelast g) + 1).
      { rewrite (app_removelast_last [] Hg) at 1. rewrite app_length. reflexivity. }
      replace (mem (S (k + length (removelast g))) (pre ++ k :: bounds (k + length g) gs)) with true; [reflexivity|].
      symmetry. apply mem_in. rewrite in_app_iff. right. right.
      replace (S (k + length (removelast g))) with (k + length g) by lia.
      destruct gs; left; reflexivity.
  - rewrite mark_length by exact Hg.
    replace (pre ++ k :: bounds (k + length g) gs) with ((pre ++ [k]) ++ bounds (k + length g) gs)
      by (rewrite <- app_assoc; reflexivity).
    apply IH; [exact Hne'|exact Hin'|].
    intros x. rewrite in_app_iff. intros [H|[<-|[]]]; [apply Hpre in H|]; lia.
Qed.
