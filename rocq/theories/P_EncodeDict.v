(** C116: encoding a vocabulary. *)
From Coq Require Import List NArith ZArith Lia.
From Verif Require Import M_Base L_Base M_Literal M_Merge L_Merge M_BpeEncode S_Bpe L_Bpe L_BpeEncode P_Merge P_Bpe M_EncodeDict.
Import ListNotations.

(** the symbols of a word: single characters, an at sign only twice or at the end *)
Inductive spelled : str -> list str -> Prop :=
| spelled_end : spelled [] []
| spelled_at : spelled [64%N] [[64%N]]
| spelled_char c w s : c <> 64%N -> spelled w s -> spelled (c :: w) ([c] :: s)
| spelled_pair w s : spelled w s -> spelled (64%N :: 64%N :: w) ([64; 64]%N :: s).

Lemma spelled_list w s : spelled w s -> to_char_list w = Ok s.
Proof.
  induction 1 as [| |c w s Hc _ IH|w s _ IH]; [reflexivity|reflexivity| |].
  - cbn [to_char_list]. apply N.eqb_neq in Hc. unfold at_ch. rewrite Hc. cbn [negb]. rewrite IH. reflexivity.
  - cbn [to_char_list]. unfold at_ch. cbn [N.eqb Pos.eqb negb]. rewrite IH. reflexivity.
Qed.
Lemma list_spelled n : forall w, length w <= n -> (exists s, spelled w s) \/ to_char_list w = Err ValueError.
Proof.
  induction n as [|n IH]; intros w L.
  - destruct w; [|cbn in L; lia]. left. exists []. constructor.
  - destruct w as [|c w]; [left; exists []; constructor|]. cbn [length] in L. cbn [to_char_list]. unfold at_ch.
    destruct (N.eqb_spec c 64) as [->|Hc]; cbn [negb].
    + destruct w as [|d w]; [left; exists [[64%N]]; constructor|]. cbn [length] in L.
      destruct (N.eqb_spec d 64) as [->|Hd]; [|right; reflexivity].
      destruct (IH w) as [[s Hs]|E]; [lia|left; eexists; constructor; exact Hs|right; rewrite E; reflexivity].
    + destruct (IH w) as [[s Hs]|E]; [lia|left; eexists; constructor; eassumption|right; rewrite E; reflexivity].
Qed.
Lemma spelled_det w s s' : spelled w s -> spelled w s' -> s' = s.
Proof. intros A B. apply spelled_list in A, B. congruence. Qed.
Lemma spelled_concat w s : spelled w s -> List.concat s = w.
Proof. induction 1 as [| |c w s _ _ IH|w s _ IH]; cbn [List.concat app]; congruence. Qed.

Definition squeeze (s : str) : str := filter (fun c => negb (N.eqb c 32)) s.
Lemma squeeze_no (s : str) : no_char 32 s -> squeeze s = s.
Proof.
  induction s as [|c s IH]; intros H; [reflexivity|]. unfold squeeze. cbn [filter]. destruct (N.eqb_spec c 32) as [->|_]; [destruct H; left; reflexivity|].
  cbn [negb]. f_equal. apply IH. intros I. apply H. right. exact I.
Qed.
Lemma squeeze_join l : Forall (no_char 32) l -> squeeze (join (lit " ") l) = List.concat l.
Proof.
  induction l as [|x l IH]; intros H; [reflexivity|]. inversion H as [|? ? Hx Hl]; subst. cbn [List.concat].
  destruct l as [|y l]; [cbn; rewrite app_nil_r; apply squeeze_no, Hx|].
  rewrite join_cons by discriminate. unfold squeeze in *. rewrite !filter_app. rewrite IH by exact Hl. change (filter _ (lit " ")) with (@nil N).
  cbn [app]. f_equal. apply squeeze_no, Hx.
Qed.
Lemma squeeze_app a b : squeeze (a ++ b) = squeeze a ++ squeeze b. Proof. apply filter_app. Qed.
Lemma squeeze_join_any l : squeeze (join (lit " ") l) = squeeze (List.concat l).
Proof.
  induction l as [|x l IH]; [reflexivity|]. destruct l as [|y l]; [cbn; rewrite app_nil_r; reflexivity|].
  rewrite join_cons by discriminate. cbn [List.concat] in *. rewrite !squeeze_app. rewrite IH, squeeze_app. reflexivity.
Qed.
Lemma split_no_blank s : Forall (no_char 32) (split_on 32 s).
Proof. apply split_on_pieces. Qed.
Lemma split_squeeze s : List.concat (split_on 32 s) = squeeze s.
Proof. rewrite <- (squeeze_join _ (split_no_blank s)). change (lit " ") with [32%N]. rewrite join_split. reflexivity. Qed.

Section Encode.
  Variable l : list (pair * option Z).
  Variable ml : merge_list.
  Hypothesis Hb : built l ml.
  Hypothesis Hn : NoDup (map fst l).

  (** what one entry of the vocabulary becomes *)
  Definition becomes (e e' : str * Z) : Prop :=
    snd e' = snd e /\ exists s r, spelled (fst e) s /\ bpe_result (map fst l) s r /\ fst e' = join (lit " ") r.

  Lemma result_concat s r : bpe_result (map fst l) s r -> List.concat r = List.concat s.
  Proof. intros [S _]. exact (bpe_steps_concat _ _ _ S). Qed.

  Lemma letters_ok words : forall acc,
    (forall e, In e words -> no_char 32 (fst e)) -> NoDup (map (fun e => squeeze (fst e)) acc ++ map fst words) ->
    Forall (fun e => exists s, spelled (fst e) s) words ->
    exists ls, letters_list acc words = Ok (acc ++ ls) /\
      Forall2 (fun e e' => snd e' = snd e /\ exists s, spelled (fst e) s /\ fst e' = join (lit " ") s) words ls.
  Proof.
    induction words as [|[w f] words IH]; intros acc Hs Hnd Hsp; cbn [letters_list].
    - exists []. rewrite app_nil_r. split; [reflexivity|constructor].
    - inversion Hsp as [|? ? [s Hw] Hsp']; subst. cbn [fst] in Hw. rewrite (spelled_list w s Hw). cbn [bind].
      assert (Fs : Forall (no_char 32) s).
      { apply concat_no_char. rewrite (spelled_concat w s Hw). exact (Hs (w, f) (or_introl eq_refl)). }
      assert (Q : squeeze (join (lit " ") s) = w) by (rewrite squeeze_join by exact Fs; exact (spelled_concat w s Hw)).
      assert (Fr : dget acc (join (lit " ") s) = None).
      { destruct (dget acc (join (lit " ") s)) as [v|] eqn:G; [|reflexivity]. exfalso. apply dget_in in G.
        cbn [map fst] in Hnd. apply NoDup_remove_2 in Hnd. apply Hnd, in_or_app. left.
        apply in_map_iff. exists (join (lit " ") s, v). split; [exact Q|exact G]. }
      rewrite (dset_fresh _ _ _ Fr).
      destruct (IH (acc ++ [(join (lit " ") s, f)])) as (ls & E & F2).
      + intros e He. apply Hs. right. exact He.
      + rewrite map_app, <- app_assoc. cbn [map fst app]. rewrite Q. exact Hnd.
      + exact Hsp'.
      + exists ((join (lit " ") s, f) :: ls). rewrite E, <- app_assoc. split; [reflexivity|]. constructor; [|exact F2].
        split; [reflexivity|]. exists s. split; [exact Hw|reflexivity].
  Qed.

  Lemma one_word w s : no_char 32 w -> spelled w s -> exists r0 r,
    encode_loop ml (length (split_on 32 (join (lit " ") s))) (split_on 32 (join (lit " ") s)) = Ok r0 /\
    bpe_result (map fst l) s r /\ join (lit " ") r0 = join (lit " ") r /\ squeeze (join (lit " ") r) = w.
  Proof.
    intros Hw Hs. rewrite (built_ml_from l ml Hb Hn).
    assert (Fs : Forall (no_char 32) s) by (apply concat_no_char; rewrite (spelled_concat w s Hs); exact Hw).
    assert (Q : forall r, bpe_result (map fst l) s r -> squeeze (join (lit " ") r) = w).
    { intros r Hr. pose proof (result_concat s r Hr) as C. rewrite (spelled_concat w s Hs) in C.
      rewrite squeeze_join; [exact C|]. apply concat_no_char. rewrite C. exact Hw. }
    destruct s as [|x s].
    - exists [[]], []. assert (R : bpe_result (map fst l) [] []).
      { split; [constructor|]. intros p _ (u & v & E). destruct u; discriminate. }
      split; [reflexivity|]. split; [exact R|]. split; [reflexivity|exact (Q [] R)].
    - change (lit " ") with [32%N]. rewrite split_join by (first [discriminate|exact Fs]).
      destruct (encode_loop_spec l _ (x :: s) Hn (le_n _)) as (r & Er & Hr). exists r, r.
      split; [exact Er|]. split; [exact Hr|]. split; [reflexivity|exact (Q r Hr)].
  Qed.

  Lemma words_ok words ls : Forall2 (fun e e' => snd e' = snd e /\ exists s, spelled (fst e) s /\ fst e' = join (lit " ") s) words ls ->
    forall acc, (forall e, In e words -> no_char 32 (fst e)) -> NoDup (map (fun e => squeeze (fst e)) acc ++ map fst words) ->
    exists out, encode_words ml acc ls = Ok (acc ++ out) /\ Forall2 becomes words out.
  Proof.
    induction 1 as [|[w f] [k f'] words ls [Ef (s & Hw & Ek)] _ IH]; intros acc Hs Hnd; cbn [encode_words].
    - exists []. rewrite app_nil_r. split; [reflexivity|constructor].
    - cbn [fst snd] in *. subst f' k. destruct (one_word w s (Hs (w, f) (or_introl eq_refl)) Hw) as (r0 & r & E0 & Hr & Ej & Q).
      rewrite E0. cbn [bind]. rewrite Ej.
      assert (Fr : dget acc (join (lit " ") r) = None).
      { destruct (dget acc (join (lit " ") r)) as [v|] eqn:G; [|reflexivity]. exfalso. apply dget_in in G.
        apply NoDup_remove_2 in Hnd. apply Hnd, in_or_app. left. apply in_map_iff. exists (join (lit " ") r, v). split; [exact Q|exact G]. }
      rewrite (dset_fresh _ _ _ Fr).
      destruct (IH (acc ++ [(join (lit " ") r, f)])) as (out & E & F2).
      + intros e He. apply Hs. right. exact He.
      + rewrite map_app, <- app_assoc. cbn [map fst app]. rewrite Q. exact Hnd.
      + exists ((join (lit " ") r, f) :: out). rewrite E, <- app_assoc. split; [reflexivity|]. constructor; [|exact F2].
        split; [reflexivity|]. exists s, r. auto.
  Qed.

  (** Every word of the vocabulary, in the same order and with its count, becomes its textbook encoding with blanks between the
      parts; no two words fall together. *)
  Theorem C116_encodes words : NoDup (map fst words) -> (forall e, In e words -> no_char 32 (fst e)) ->
    Forall (fun e => exists s, spelled (fst e) s) words ->
    exists out, encode words ml = Ok out /\ Forall2 becomes words out /\ NoDup (map fst out) /\
      map (fun e => squeeze (fst e)) out = map fst words.
  Proof.
    intros Hd Hs Hsp. destruct (letters_ok words [] Hs Hd Hsp) as (ls & E & F). unfold encode. rewrite E. cbn [bind app].
    destruct (words_ok words ls F [] Hs Hd) as (out & Eo & Fo). exists out. split; [exact Eo|]. split; [exact Fo|].
    assert (M : map (fun e => squeeze (fst e)) out = map fst words).
    { clear E F Eo Hd Hsp. induction Fo as [|[w f] [k f'] words out [_ (s & r & Hw & Hr & Ek)] _ IH]; [reflexivity|]. cbn [map fst] in *. f_equal.
      - subst k. pose proof (result_concat s r Hr) as C. rewrite (spelled_concat w s Hw) in C.
        rewrite squeeze_join; [exact C|]. apply concat_no_char. rewrite C. exact (Hs (w, f) (or_introl eq_refl)).
      - apply IH. intros e He. apply Hs. right. exact He. }
    split; [|exact M]. rewrite <- M, <- (map_map fst squeeze) in Hd. exact (NoDup_map_inv _ _ Hd).
  Qed.

  (** With a word that has an at sign followed by anything else it is refused; nothing is encoded. *)
  Theorem C116_refused (words : dict str Z) : ~ Forall (fun e => exists s, spelled (fst e) s) words -> encode words ml = Err ValueError.
  Proof.
    intros H. unfold encode. assert (G : forall acc, letters_list acc words = Err ValueError); [|rewrite G; reflexivity].
    induction words as [|[w f] words' IH]; [destruct H; constructor|]. intros acc. cbn [letters_list].
    destruct (list_spelled (length w) w (le_n _)) as [[s Hs]|E]; [|rewrite E; reflexivity].
    rewrite (spelled_list w s Hs). cbn [bind]. apply IH. intros F. apply H. constructor; [exists s; exact Hs|exact F].
  Qed.

  (** One word: the parts. *)
  Theorem C116_word w s : no_char 32 w -> w <> [] -> spelled w s -> exists r, encode_word_by w ml = Ok r /\ encode_word ml w = Ok r /\
    bpe_result (map fst l) s r.
  Proof.
    intros Hw Hne Hs. destruct (one_word w s Hw Hs) as (r0 & r & E0 & Hr & Ej & _).
    assert (C : List.concat r = w) by (rewrite (result_concat s r Hr); exact (spelled_concat w s Hs)).
    assert (S : split_on 32 (join (lit " ") r) = r).
    { apply split_join; [intros ->; cbn in C; congruence|]. apply concat_no_char. rewrite C. exact Hw. }
    exists r. unfold encode_word_by, encode, encode_word. cbn [letters_list]. rewrite (spelled_list w s Hs). cbn [bind dset encode_words].
    rewrite E0. cbn [bind dset encode_words rev app]. rewrite Ej, S. auto.
  Qed.

  (** A blank in a word is lost, with every merge list: the parts give the word without its blanks, not the word. *)
  Theorem C116_blank_refuted w r : In 32%N w -> encode_word_by w ml = Ok r -> List.concat r = squeeze w /\ List.concat r <> w.
  Proof.
    intros Hi. unfold encode_word_by, encode. cbn [letters_list].
    destruct (list_spelled (length w) w (le_n _)) as [[s Hs]|E]; [|rewrite E; discriminate].
    rewrite (spelled_list w s Hs). cbn [bind dset encode_words]. rewrite (built_ml_from l ml Hb Hn).
    destruct (encode_loop_spec l _ (split_on 32 (join (lit " ") s)) Hn (le_n _)) as (r0 & Er & Hr). rewrite Er. cbn [bind dset encode_words rev app].
    intros [= <-]. assert (C : List.concat (split_on 32 (join (lit " ") r0)) = squeeze w).
    { refine (eq_trans (split_squeeze _) _). rewrite squeeze_join_any. refine (eq_trans (f_equal squeeze (result_concat _ r0 Hr)) _).
      refine (eq_trans (f_equal squeeze (split_squeeze _)) _). rewrite squeeze_join_any.
      refine (eq_trans (f_equal (fun x => squeeze (squeeze x)) (spelled_concat w s Hs)) _).
      apply squeeze_no. intros I. apply filter_In in I. destruct I as [_ I]. discriminate I. }
    split; [exact C|]. intros Q. assert (Q' : squeeze w = w) by exact (eq_trans (eq_sym C) Q). rewrite <- Q' in Hi. apply filter_In in Hi. destruct Hi as [_ Hi]. discriminate Hi.
  Qed.
End Encode.
Print Assumptions C116_encodes.
Print Assumptions C116_refused.
Print Assumptions C116_word.
Print Assumptions C116_blank_refuted.

Example C116_blank_example : encode_word_by (lit "a b") (ml_from 0 []) = Ok [lit "a"; []; []; lit "b"].
Proof. reflexivity. Qed.

Example C116_example :
  let l := [((lit "a", lit "b"), Some 3%Z); ((lit "ab", lit "@@"), Some 2%Z)] in
  built l (ml_from 0 l) /\ NoDup (map fst l) /\
  encode [(lit "abc", 7%Z); (lit "ab@@@", 4%Z); ([], 1%Z)] (ml_from 0 l) = Ok [(lit "ab c", 7%Z); (lit "ab@@ @", 4%Z); ([], 1%Z)] /\
  spelled (lit "ab@@@") [lit "a"; lit "b"; lit "@@"; lit "@"] /\ encode [(lit "abc", 7%Z); (lit "a@b", 4%Z)] (ml_from 0 l) = Err ValueError.
Proof.
  cbn zeta. assert (D : NoDup (map fst [((lit "a", lit "b"), Some 3%Z); ((lit "ab", lit "@@"), Some 2%Z)])).
  { repeat constructor; cbn; intuition discriminate. }
  split.
  - change [((lit "a", lit "b"), Some 3%Z); ((lit "ab", lit "@@"), Some 2%Z)] with (([] ++ [((lit "a", lit "b"), Some 3%Z)]) ++ [((lit "ab", lit "@@"), Some 2%Z)]).
    eapply built_append with (prio := None); [eapply built_append with (prio := None); [apply built_empty|reflexivity]|reflexivity].
  - split; [exact D|]. split; [vm_compute; reflexivity|]. split; [|vm_compute; reflexivity].
    apply spelled_char; [discriminate|]. apply spelled_char; [discriminate|]. apply spelled_pair, spelled_at.
Qed.
