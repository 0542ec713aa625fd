(** * C65-C68: preprocessing the files of a corpus *)
From Coq Require Import List NArith ZArith Bool String Lia.
From Verif Require Import M_Base L_Base M_Tokens M_Literal L_Literal M_Repr M_Merge M_BpeEncode M_PrepConfig P_PrepConfig
  L_Repr P_Repr L_Word P_ReprOptions L_Merge P_ReprStrings M_Regex M_Parse L_Regex P_Parse P_ParseRepr M_Registry M_Pipeline
  M_Dataset M_Api P_Api P_Merge S_Bpe L_Bpe L_BpeEncode P_Bpe M_Files.
Import ListNotations.
Local Open Scope list_scope.

(** ** UTF-8 *)
Section Utf8.
Local Open Scope N_scope.
Local Arguments N.add : simpl never.
Local Arguments N.sub : simpl never.
Local Arguments N.mul : simpl never.
Local Arguments N.ltb : simpl never.
Local Arguments N.leb : simpl never.

Lemma utf8_cons c s b : utf8 (c :: s) = Ok b -> exists x y, utf8_char c = Ok x /\ utf8 s = Ok y /\ b = x ++ y.
Proof.
  unfold utf8. cbn [mapM]. intros H. apply bind_ok in H. destruct H as (l & Hl & [= <-]).
  apply bind_ok in Hl. destruct Hl as (x & Hx & Hl). apply bind_ok in Hl. destruct Hl as (ys & Hys & [= <-]).
  exists x, (List.concat ys). rewrite Hys. repeat split; assumption.
Qed.

Lemma decode_char c x rest : c <= 1114111 -> utf8_char c = Ok x -> utf8_decode (x ++ rest) = option_map (cons c) (utf8_decode rest).
Proof.
  intros Hc. unfold utf8_char.
  pose proof (N.div_mod c 64 ltac:(lia)) as D1. pose proof (N.mod_lt c 64 ltac:(lia)) as D2.
  destruct (N.ltb_spec c 128) as [H1|H1].
  { intros [= <-]. cbn [app utf8_decode]. apply N.ltb_lt in H1. rewrite H1. reflexivity. }
  destruct (N.ltb_spec c 2048) as [H2|H2].
  { intros [= <-]. cbn [app utf8_decode]. generalize dependent (c / 64). generalize dependent (c mod 64). intros r Hr q E.
    replace (192 + q <? 128) with false by (symmetry; apply N.ltb_ge; lia).
    replace (lead2 (192 + q) (128 + r)) with true.
    - f_equal. f_equal. lia.
    - symmetry. unfold lead2, cont. repeat (apply andb_true_iff; split); apply N.leb_le; lia. }
  destruct ((55296 <=? c) && (c <=? 57343)) eqn:Hs; [discriminate|].
  pose proof (N.div_mod (c / 64) 64 ltac:(lia)) as D3. pose proof (N.mod_lt (c / 64) 64 ltac:(lia)) as D4.
  rewrite N.div_div in D3 by lia. change (64 * 64) with 4096 in D3.
  assert (Hs' : c < 55296 \/ 57343 < c).
  { apply andb_false_iff in Hs. destruct Hs as [Hs|Hs]; apply N.leb_gt in Hs; [left|right]; exact Hs. }
  destruct (N.ltb_spec c 65536) as [H3|H3].
  { intros [= <-]. cbn [app utf8_decode]. clear Hs.
    generalize dependent (c / 4096). generalize dependent ((c / 64) mod 64). generalize dependent (c / 64).
    generalize dependent (c mod 64). intros r Hr q E r' Hr' q' E'.
    replace (224 + q' <? 128) with false by (symmetry; apply N.ltb_ge; lia).
    replace (lead2 (224 + q') (128 + r')) with false.
    2:{ symmetry. unfold lead2. replace (224 + q' <=? 223) with false by (symmetry; apply N.leb_gt; lia).
        rewrite andb_false_r. reflexivity. }
    replace (lead3 (224 + q') (128 + r') && cont (128 + r)) with true.
    - f_equal. f_equal. lia.
    - symmetry. unfold lead3, cont. repeat (apply andb_true_iff; split); try (apply N.leb_le; lia);
        unfold implb; [destruct (N.eqb_spec (224 + q') 224) | destruct (N.eqb_spec (224 + q') 237)]; try reflexivity; apply N.leb_le; lia. }
  pose proof (N.div_mod (c / 4096) 64 ltac:(lia)) as D5. pose proof (N.mod_lt (c / 4096) 64 ltac:(lia)) as D6.
  rewrite N.div_div in D5 by lia. change (4096 * 64) with 262144 in D5.
  intros [= <-]. cbn [app utf8_decode]. clear Hs.
  generalize dependent (c / 262144). generalize dependent ((c / 4096) mod 64). generalize dependent (c / 4096).
  generalize dependent ((c / 64) mod 64). generalize dependent (c / 64).
  generalize dependent (c mod 64). intros r Hr q E r' Hr' q' E' r'' Hr'' q'' E''.
  replace (240 + q'' <? 128) with false by (symmetry; apply N.ltb_ge; lia).
  replace (lead2 (240 + q'') (128 + r'')) with false.
  2:{ symmetry. unfold lead2. replace (240 + q'' <=? 223) with false by (symmetry; apply N.leb_gt; lia).
      rewrite andb_false_r. reflexivity. }
  replace (lead3 (240 + q'') (128 + r'')) with false.
  2:{ symmetry. unfold lead3. replace (240 + q'' <=? 239) with false by (symmetry; apply N.leb_gt; lia).
      rewrite andb_false_r. reflexivity. }
  cbn [andb].
  replace (lead4 (240 + q'') (128 + r'') && cont (128 + r') && cont (128 + r)) with true.
  - f_equal. f_equal. lia.
  - symmetry. unfold lead4, cont. repeat (apply andb_true_iff; split); try (apply N.leb_le; lia);
      unfold implb; [destruct (N.eqb_spec (240 + q'') 240) | destruct (N.eqb_spec (240 + q'') 244)]; try reflexivity; apply N.leb_le; lia.
Qed.

Lemma decode_encode s b : valid_str s -> utf8 s = Ok b -> utf8_decode b = Some s.
Proof.
  intros Hv. revert b. induction Hv as [|c s Hc Hv IH]; intros b H.
  - injection H as <-. reflexivity.
  - destruct (utf8_cons _ _ _ H) as (x & y & Hx & Hy & ->). rewrite (decode_char c x y Hc Hx), (IH y Hy). reflexivity.
Qed.

Lemma utf8_app1 c x s y : utf8_char c = Ok x -> utf8 s = Ok y -> utf8 (c :: s) = Ok (x ++ y).
Proof.
  unfold utf8. intros Hx H. apply bind_ok in H. destruct H as (l & Hl & [= <-]). cbn [mapM]. rewrite Hx. cbn [bind].
  rewrite Hl. reflexivity.
Qed.

Lemma encode_decode b s : utf8_decode b = Some s -> utf8 s = Ok b /\ valid_str s.
Proof.
  remember (length b) as n eqn:Hn. assert (Hle : (length b <= n)%nat) by lia. clear Hn.
  revert b s Hle. induction n as [|n IH]; intros b s Hle; destruct b as [|a t1]; try (cbn in Hle; lia).
  1, 2: intros [= <-]; split; [reflexivity|constructor].
  cbn [length] in Hle. cbn [utf8_decode].
  destruct (N.ltb_spec a 128) as [Ha|Ha].
  { destruct (utf8_decode t1) as [s'|] eqn:E; [|discriminate]. intros [= <-]. destruct (IH t1 s' ltac:(lia) E) as [H1 H2].
    split; [|constructor; [lia|exact H2]]. apply (utf8_app1 a [a]); [|exact H1]. unfold utf8_char.
    apply N.ltb_lt in Ha. rewrite Ha. reflexivity. }
  destruct t1 as [|b t2]; [discriminate|]. cbn [length] in Hle.
  destruct (lead2 a b) eqn:L2.
  { destruct (utf8_decode t2) as [s'|] eqn:E; [|discriminate]. intros [= <-]. destruct (IH t2 s' ltac:(lia) E) as [H1 H2].
    unfold lead2, cont in L2. repeat (apply andb_true_iff in L2; destruct L2 as [L2 ?]).
    repeat match goal with H : _ && _ = true |- _ => apply andb_true_iff in H; destruct H end.
    repeat match goal with H : (_ <=? _) = true |- _ => apply N.leb_le in H end.
    remember ((a - 192) * 64 + (b - 128)) as c eqn:Ec.
    assert (D : c / 64 = a - 192 /\ c mod 64 = b - 128).
    { split; [symmetry; apply (N.div_unique c 64 (a - 192) (b - 128)); lia|symmetry; apply (N.mod_unique c 64 (a - 192) (b - 128)); lia]. }
    destruct D as [D1 D2].
    split; [|constructor; [lia|exact H2]]. apply (utf8_app1 c [a; b]); [|exact H1]. unfold utf8_char.
    replace (c <? 128) with false by (symmetry; apply N.ltb_ge; lia).
    replace (c <? 2048) with true by (symmetry; apply N.ltb_lt; lia). rewrite D1, D2. f_equal. f_equal; [lia|f_equal; lia]. }
  clear L2. destruct t2 as [|c0 t3]; [discriminate|]. cbn [length] in Hle.
  destruct (lead3 a b && cont c0) eqn:L3.
  { destruct (utf8_decode t3) as [s'|] eqn:E; [|discriminate]. intros [= <-]. destruct (IH t3 s' ltac:(lia) E) as [H1 H2].
    unfold lead3, cont in L3.
    repeat match goal with H : _ && _ = true |- _ => apply andb_true_iff in H; destruct H end.
    repeat match goal with H : (_ <=? _) = true |- _ => apply N.leb_le in H end.
    assert (G1 : a = 224 -> 160 <= b).
    { intros ->. apply N.leb_le. assumption. }
    assert (G2 : a = 237 -> b <= 159).
    { intros ->. apply N.leb_le. assumption. }
    remember ((a - 224) * 4096 + (b - 128) * 64 + (c0 - 128)) as c eqn:Ec.
    assert (D1 : c / 64 = (a - 224) * 64 + (b - 128)) by (symmetry; apply (N.div_unique c 64 _ (c0 - 128)); lia).
    assert (D2 : c mod 64 = c0 - 128) by (symmetry; apply (N.mod_unique c 64 ((a - 224) * 64 + (b - 128)) (c0 - 128)); lia).
    assert (D3 : (c / 64) mod 64 = b - 128) by (rewrite D1; symmetry; apply (N.mod_unique _ 64 (a - 224) (b - 128)); lia).
    assert (D4 : c / 4096 = a - 224) by (symmetry; apply (N.div_unique c 4096 (a - 224) ((b - 128) * 64 + (c0 - 128))); lia).
    split; [|constructor; [lia|exact H2]]. apply (utf8_app1 c [a; b; c0]); [|exact H1]. unfold utf8_char. rewrite D2, D3, D4.
    replace (c <? 128) with false by (symmetry; apply N.ltb_ge; lia).
    replace (c <? 2048) with false by (symmetry; apply N.ltb_ge; lia).
    replace ((55296 <=? c) && (c <=? 57343)) with false.
    2:{ symmetry. apply andb_false_iff. destruct (N.lt_ge_cases c 55296); [left; apply N.leb_gt; assumption|right; apply N.leb_gt].
        destruct (N.eq_dec a 237); lia. }
    replace (c <? 65536) with true by (symmetry; apply N.ltb_lt; lia). f_equal. f_equal; [lia|f_equal; [lia|f_equal; lia]]. }
  clear L3. destruct t3 as [|d t4]; [discriminate|]. cbn [length] in Hle.
  destruct (lead4 a b && cont c0 && cont d) eqn:L4; [|discriminate].
  destruct (utf8_decode t4) as [s'|] eqn:E; [|discriminate]. intros [= <-]. destruct (IH t4 s' ltac:(lia) E) as [H1 H2].
  unfold lead4, cont in L4.
  repeat match goal with H : _ && _ = true |- _ => apply andb_true_iff in H; destruct H end.
  repeat match goal with H : (_ <=? _) = true |- _ => apply N.leb_le in H end.
  assert (G1 : a = 240 -> 144 <= b).
  { intros ->. apply N.leb_le. assumption. }
  assert (G2 : a = 244 -> b <= 143).
  { intros ->. apply N.leb_le. assumption. }
  remember ((a - 240) * 262144 + (b - 128) * 4096 + (c0 - 128) * 64 + (d - 128)) as c eqn:Ec.
  assert (D1 : c / 64 = (a - 240) * 4096 + (b - 128) * 64 + (c0 - 128)) by (symmetry; apply (N.div_unique c 64 _ (d - 128)); lia).
  assert (D2 : c mod 64 = d - 128)
    by (symmetry; apply (N.mod_unique c 64 ((a - 240) * 4096 + (b - 128) * 64 + (c0 - 128)) (d - 128)); lia).
  assert (D3 : (c / 64) mod 64 = c0 - 128)
    by (rewrite D1; symmetry; apply (N.mod_unique _ 64 ((a - 240) * 64 + (b - 128)) (c0 - 128)); lia).
  assert (D4 : c / 4096 = (a - 240) * 64 + (b - 128))
    by (symmetry; apply (N.div_unique c 4096 _ ((c0 - 128) * 64 + (d - 128))); lia).
  assert (D5 : (c / 4096) mod 64 = b - 128) by (rewrite D4; symmetry; apply (N.mod_unique _ 64 (a - 240) (b - 128)); lia).
  assert (D6 : c / 262144 = a - 240)
    by (symmetry; apply (N.div_unique c 262144 (a - 240) ((b - 128) * 4096 + (c0 - 128) * 64 + (d - 128))); lia).
  split; [|constructor; [lia|exact H2]]. apply (utf8_app1 c [a; b; c0; d]); [|exact H1]. unfold utf8_char. rewrite D2, D3, D5, D6.
  replace (c <? 128) with false by (symmetry; apply N.ltb_ge; lia).
  replace (c <? 2048) with false by (symmetry; apply N.ltb_ge; lia).
  replace ((55296 <=? c) && (c <=? 57343)) with false.
  2:{ symmetry. apply andb_false_iff. right. apply N.leb_gt. lia. }
  replace (c <? 65536) with false by (symmetry; apply N.ltb_ge; lia). f_equal.
  f_equal; [lia|f_equal; [lia|f_equal; [lia|f_equal; lia]]].
Qed.
End Utf8.

(** The characters of a file: the text it is the UTF-8 form of if there is one, otherwise one character per byte *)
Definition holds (bytes chars : str) : Prop :=
  (valid_str chars /\ utf8 chars = Ok bytes) \/
  ((forall t, valid_str t -> utf8 t <> Ok bytes) /\ chars = bytes).

(** \r\n and \r end lines as \n does *)
Inductive newlines : str -> str -> Prop :=
| nl_nil : newlines [] []
| nl_crlf s t : newlines s t -> newlines (13 :: 10 :: s)%N (10 :: t)%N
| nl_cr s t : hd 0%N s <> 10%N -> newlines s t -> newlines (13 :: s)%N (10 :: t)%N
| nl_other c s t : c <> 13%N -> newlines s t -> newlines (c :: s) (c :: t).

Lemma univ_newlines_spec s : newlines s (univ_newlines s).
Proof.
  remember (length s) as n eqn:Hn. assert (Hle : (length s <= n)%nat) by lia. clear Hn.
  revert s Hle. induction n as [|n IH]; intros [|c t] Hle; try constructor; cbn [length] in Hle; [lia|].
  cbn [univ_newlines]. destruct (N.eqb_spec c 13) as [->|Hc].
  - destruct t as [|d t']; [constructor; [discriminate|constructor]|]. destruct (N.eqb_spec d 10) as [->|Hd].
    + apply nl_crlf, IH. cbn [length] in Hle. lia.
    + apply nl_cr; [exact Hd|apply IH; lia].
  - apply nl_other; [exact Hc|apply IH; lia].
Qed.

Lemma newlines_fun s t t' : newlines s t -> newlines s t' -> t = t'.
Proof.
  intros H. revert t'. induction H as [|s t H IH|s t Hh H IH|c s t Hc H IH]; intros t' H'; inversion H'; subst; try reflexivity;
    try (f_equal; auto); try congruence; cbn [hd] in *; congruence.
Qed.

Lemma join_snoc (l : list str) x : l <> [] -> join [10%N] (l ++ [x]) = join [10%N] l ++ 10%N :: x.
Proof.
  induction l as [|a l IH]; intros H; [congruence|]. destruct l as [|b l]; [reflexivity|].
  rewrite <- app_comm_cons. rewrite join_cons by (destruct l; discriminate). rewrite IH by discriminate.
  rewrite (join_cons [10%N] a (b :: l)) by discriminate. rewrite <- !app_assoc. reflexivity.
Qed.

Lemma lines_text c : let u := univ_newlines c in let s := join [10%N] (file_lines c) in
  u = s ++ [10%N] \/ (u = s /\ last u 0%N <> 10%N).
Proof.
  cbv zeta. unfold file_lines. pose proof (split_on_nonempty 10 (univ_newlines c)) as Hn.
  pose proof (split_on_pieces 10 (univ_newlines c)) as Hp. pose proof (join_split 10 (univ_newlines c)) as Hj.
  destruct (exists_last Hn) as (l & x & El). rewrite El in *. rewrite last_last, removelast_last.
  destruct x as [|y x].
  - destruct l as [|a l].
    + right. cbn in Hj. rewrite <- Hj. split; [reflexivity|discriminate].
    + left. rewrite <- Hj. apply join_snoc. discriminate.
  - right. split; [symmetry; exact Hj|]. apply Forall_app in Hp. destruct Hp as [_ Hp]. inversion Hp as [|? ? Hx _]; subst.
    assert (E : exists z, univ_newlines c = z ++ y :: x).
    { rewrite <- Hj. destruct l as [|a l]; [exists []; reflexivity|]. rewrite join_snoc by discriminate.
      exists (join [10%N] (a :: l) ++ [10%N]). rewrite <- app_assoc. reflexivity. }
    destruct E as (z & ->). intros E. apply Hx.
    assert (Hne : y :: x <> []) by discriminate. destruct (exists_last Hne) as (w & v & Ew). rewrite Ew in *.
    rewrite app_assoc, last_last in E. subst v. apply in_or_app. right. left. reflexivity.
Qed.

(** Every file is read, as the text it holds: with uniform ends of lines and without the last one. *)
Theorem C65_text : forall bytes, exists chars text,
  holds bytes chars /\ newlines chars text /\
  (text = source_text bytes ++ [10%N] \/ (text = source_text bytes /\ last text 0%N <> 10%N)).
Proof.
  intros bytes. unfold source_text, read_file_contents. destruct (utf8_decode bytes) as [t|] eqn:E.
  - exists t, (univ_newlines t). split; [left; destruct (encode_decode _ _ E); split; assumption|].
    split; [apply univ_newlines_spec|apply lines_text].
  - exists bytes, (univ_newlines bytes). split.
    + right. split; [|reflexivity]. intros t Hv Ht. rewrite (decode_encode t bytes Hv Ht) in E. discriminate.
    + split; [apply univ_newlines_spec|apply lines_text].
Qed.
Print Assumptions C65_text.

(** The text is determined: a file holds one text. *)
Theorem C65_unique : forall bytes chars chars' text text',
  holds bytes chars -> holds bytes chars' -> newlines chars text -> newlines chars' text' -> chars = chars' /\ text = text'.
Proof.
  intros bytes chars chars' text text' H H' Ht Ht'.
  assert (E : chars = chars').
  { destruct H as [[H1 H2]|[H1 ->]], H' as [[H3 H4]|[H3 ->]].
    - pose proof (decode_encode _ _ H1 H2). pose proof (decode_encode _ _ H3 H4). congruence.
    - exfalso. exact (H3 _ H1 H2).
    - exfalso. exact (H1 _ H3 H4).
    - reflexivity. }
  subst chars'. split; [reflexivity|]. eapply newlines_fun; eassumption.
Qed.
Print Assumptions C65_unique.

(** Nothing of a file with ordinary ends of lines is lost but the newline at the end. *)
Theorem C65_verbatim : forall bytes chars, holds bytes chars -> no_char 13%N chars ->
  chars = source_text bytes ++ [10%N] \/ chars = source_text bytes.
Proof.
  intros bytes chars H Hn. destruct (C65_text bytes) as (c & t & H1 & H2 & H3).
  assert (H4 : newlines chars chars).
  { clear -Hn. induction chars as [|x s IH]; [constructor|]. apply nl_other; [intros ->; apply Hn; left; reflexivity|].
    apply IH. intros Hi. apply Hn. right. exact Hi. }
  destruct (C65_unique _ _ _ _ _ H H1 H4 H2) as [<- <-]. destruct H3 as [H3|[H3 _]]; [left|right]; exact H3.
Qed.
Print Assumptions C65_verbatim.

(** UTF-8, a file that is not UTF-8, ends of lines of several kinds *)
Example C65_example :
  source_text [195; 169; 13; 10; 226; 130; 172; 240; 159; 152; 128; 13; 10]%N = [233; 10; 8364; 128512]%N /\
  source_text [97; 233; 10; 10]%N = [97; 233; 10]%N /\
  source_text [237; 160; 128]%N = [237; 160; 128]%N /\ source_text [192; 128]%N = [192; 128]%N /\ source_text [] = [].
Proof. vm_compute. auto. Qed.

(** ** C66: files and texts *)
(** the call of the text API for the same content *)
Definition text_call (config : params) (id : option str) (ext text : str) : call :=
  {| c_text := text; c_ext := Some ext; c_config := config; c_id := id; c_force := true; c_eof := true |}.

(** The results agree if the parsed text does not end with a newline, whatever was preprocessed before. *)
Theorem C66_agree : forall parse repr dk g g' config id path bytes ext l,
  no_bpe_no_data repr -> extension_of path = Ok ext -> parse (source_text bytes) (Some ext) = Ok l ->
  (forall l', l <> l' ++ [NewLine]) ->
  preprocess_file parse repr dk g config id path bytes
  = fst (preprocess parse repr dk g' (text_call config id ext (source_text bytes))).
Proof.
  intros parse repr dk g g' config id path bytes ext l Hr He Hp Hl. unfold preprocess_file, parse_file, preprocess, text_call.
  cbn [c_text c_ext c_config c_id c_force c_eof]. rewrite He. cbn [bind]. rewrite Hp. cbn [bind].
  assert (E : remove_trailing_newline l = l).
  { unfold remove_trailing_newline. destruct (rev l) as [|[] r] eqn:Er; try reflexivity. exfalso. apply (Hl (rev r)).
    rewrite <- (rev_involutive l), Er. reflexivity. }
  rewrite E. destruct (is_bpe config) eqn:Hb; [|apply Hr; exact Hb].
  destruct id as [[|x id]|]; [reflexivity| |reflexivity].
  destruct (if is_predefined_id (x :: id) then _ else _) as [custom|e]; [|reflexivity]. cbn [bind].
  assert (G : forall g1, init_bpe_data dk g1 config custom true = init_bpe_data dk None config custom true).
  { intros g1. destruct g1; reflexivity. }
  rewrite (G g), (G g'). destruct (init_bpe_data dk None config custom true) as [[[]|e] g2]; reflexivity.
Qed.
Print Assumptions C66_agree.

(** both results come from the same representation of the parsed tokens, with the newline at the end or without *)
Lemma file_and_text E o parse dk g g' config id path bytes ext l :
  extension_of path = Ok ext -> parse (source_text bytes) (Some ext) = Ok l ->
  exists k : list token -> res (list str * meta),
    ((exists e, k = fun _ => Err e) \/ (exists b, k = to_repr E o config b /\ (is_bpe config = true -> b <> None))) /\
    preprocess_file parse (plain_repr E o) dk g config id path bytes = k (l ++ [NonProc NpSpecialToken ph_ect]) /\
    fst (preprocess parse (plain_repr E o) dk g' (text_call config id ext (source_text bytes)))
    = k (remove_trailing_newline l ++ [NonProc NpSpecialToken ph_ect]).
Proof.
  intros He Hp. unfold preprocess_file, parse_file, preprocess, text_call.
  cbn [c_text c_ext c_config c_id c_force c_eof]. rewrite He. cbn [bind]. rewrite Hp. cbn [bind].
  destruct (is_bpe config) eqn:Hb.
  2:{ exists (to_repr E o config None). split; [right; exists None; split; [reflexivity|discriminate]|].
      assert (G : forall g l, fst (plain_repr E o config l g) = to_repr E o config None l).
      { intros g0 l0. rewrite (plain_repr_no_bpe E o config l0 g0 None Hb). reflexivity. }
      rewrite !G. split; reflexivity. }
  assert (Herr : forall e (A B : res (list str * meta)), A = Err e -> B = Err e ->
    exists k : list token -> res (list str * meta),
      ((exists e, k = fun _ => Err e) \/ (exists b, k = to_repr E o config b /\ (true = true -> b <> None))) /\
      A = k (l ++ [NonProc NpSpecialToken ph_ect]) /\ B = k (remove_trailing_newline l ++ [NonProc NpSpecialToken ph_ect])).
  { intros e A B HA HB. exists (fun _ => Err e). split; [left; exists e; reflexivity|]. split; assumption. }
  destruct id as [[|x id]|]; [eapply Herr; reflexivity| |eapply Herr; reflexivity].
  destruct (if is_predefined_id (x :: id) then _ else _) as [custom|e]; [|eapply Herr; reflexivity]. cbn [bind].
  assert (G : forall g1, init_bpe_data dk g1 config custom true = init_bpe_data dk None config custom true).
  { intros g1. destruct g1; reflexivity. }
  rewrite (G g), (G g'). destruct (init_bpe_data dk None config custom true) as [[[]|e] g2] eqn:Ei; [|eapply Herr; reflexivity].
  assert (exists c ml, g2 = Some {| ob_cache := Some c; ob_merges := Some ml |}) as (c & ml & ->).
  { unfold init_bpe_data in Ei. destruct custom as [[name n]|].
    - destruct (bind _ _) as [ml|e]; [|discriminate Ei]. destruct (bind _ _) as [nb|e]; [|discriminate Ei].
      injection Ei as <-. do 2 eexists. reflexivity.
    - destruct (dget _ _) as [dir|]; [|discriminate Ei].
      destruct (match dk_cache _ _ _ with Some _ => _ | None => _ end) as [ca|e]; [|discriminate Ei].
      destruct (bind _ _) as [ml|e]; [|discriminate Ei]. injection Ei as <-. do 2 eexists. reflexivity. }
  exists (to_repr E o config (Some {| bd_merges := ml; bd_cache := c |})).
  split; [right; eexists; split; [reflexivity|discriminate]|]. split; reflexivity.
Qed.

Lemma newline_dropped E o d b l l' : param d TABS_NEWLINES = lit "0" ->
  to_repr E o d b (l ++ NewLine :: l') = to_repr E o d b (l ++ l').
Proof.
  intros Ht. unfold to_repr. destruct (get_repr_config o d b) as [rc|e] eqn:Hrc; cbn [bind]; [|reflexivity].
  apply to_repr_cfg_segs. unfold segs_list. rewrite !segs_list_with_app. cbn [segs_list_with segs].
  assert (Hn : in_types rc CNewLine = true).
  { unfold in_types. rewrite (repr_config_types _ _ _ _ Hrc), types_in. unfold param_in. rewrite Ht. reflexivity. }
  rewrite Hn. cbn [bind app].
  destruct (segs_list_with (fun _ => true) (segs E rc) l') as [r|e]; reflexivity.
Qed.

Lemma trailing_newline l : (exists l', l = l' ++ [NewLine] /\ remove_trailing_newline l = l') \/ remove_trailing_newline l = l.
Proof.
  unfold remove_trailing_newline. destruct (rev l) as [|[] r] eqn:Er; try (right; reflexivity). left. exists (rev r).
  split; [|reflexivity]. rewrite <- (rev_involutive l), Er. reflexivity.
Qed.

(** Without newlines in the output the results agree for every file. *)
Theorem C66_no_spaces : forall E o parse dk g g' config id path bytes ext l,
  param config TABS_NEWLINES = lit "0" ->
  extension_of path = Ok ext -> parse (source_text bytes) (Some ext) = Ok l ->
  preprocess_file parse (plain_repr E o) dk g config id path bytes
  = fst (preprocess parse (plain_repr E o) dk g' (text_call config id ext (source_text bytes))).
Proof.
  intros E o parse dk g g' config id path bytes ext l Ht He Hp.
  destruct (file_and_text E o parse dk g g' config id path bytes ext l He Hp) as (k & Hk & -> & ->).
  destruct (trailing_newline l) as [(l' & -> & ->)| ->]; [|reflexivity].
  destruct Hk as [(e & ->)|(b & -> & _)]; [reflexivity|]. rewrite <- app_assoc. apply newline_dropped. exact Ht.
Qed.
Print Assumptions C66_no_spaces.

Definition token_end (d : params) : str := if is_bpe d then lit "</t>" else [].

Lemma special_repr E o d b s : mk_prep_config d = Ok d ->
  to_repr E o d b [NonProc NpSpecialToken s] = Ok ([s ++ token_end d], {| nonproc := [s]; wb := [0; 1]; types := [CSpecialToken] |}).
Proof.
  intros Hd. destruct (valid_repr_config o d b Hd) as (rc & Hrc & _). unfold to_repr. rewrite Hrc. cbn [bind].
  unfold to_repr_cfg. rewrite to_repr_list_segs. unfold segs_list, token_end. cbn [segs_list_with segs].
  destruct (is_bpe d); [reflexivity|]. rewrite app_nil_r. reflexivity.
Qed.

(** Otherwise the text API leaves out the newline at the end of the parsed text, and only that. *)
Theorem C66_newline : forall E o parse dk g g' config id path bytes ext l out m,
  mk_prep_config config = Ok config -> param config TABS_NEWLINES = lit "s" ->
  extension_of path = Ok ext -> parse (source_text bytes) (Some ext) = Ok (l ++ [NewLine]) ->
  preprocess_file parse (plain_repr E o) dk g config id path bytes = Ok (out, m) ->
  exists body m', out = body ++ [[10%N] ++ token_end config; lit "<EOF>" ++ token_end config] /\
    fst (preprocess parse (plain_repr E o) dk g' (text_call config id ext (source_text bytes)))
    = Ok (body ++ [lit "<EOF>" ++ token_end config], m') /\
    exists ts, types m = ts ++ [CNewLine; CSpecialToken] /\ types m' = ts ++ [CSpecialToken].
Proof.
  intros E o parse dk g g' config id path bytes ext l out m Hc Ht He Hp.
  destruct (file_and_text E o parse dk g g' config id path bytes ext _ He Hp) as (k & Hk & -> & ->).
  unfold remove_trailing_newline. rewrite rev_app_distr. cbn [rev app]. rewrite rev_involutive.
  destruct Hk as [(e & ->)|(b & -> & _)]; [discriminate|]. rewrite <- app_assoc. intros H.
  destruct (C04_splits _ _ _ _ _ _ _ H) as ([body mb] & r & Hb & _).
  destruct (C06_spaces_kept E o config b Hc Ht) as [Hn _].
  pose proof (special_repr E o config b ph_ect Hc) as Hs.
  pose proof (C04_compositional _ _ _ _ _ _ _ _ _ _ Hn Hs) as Hns.
  pose proof (C04_compositional _ _ _ _ _ _ _ _ _ _ Hb Hns) as H1.
  pose proof (C04_compositional _ _ _ _ _ _ _ _ _ _ Hb Hs) as H2.
  change ([NewLine] ++ [NonProc NpSpecialToken ph_ect]) with [NewLine; NonProc NpSpecialToken ph_ect] in H1.
  cbn [app] in H. rewrite H in H1. injection H1 as -> ->. rewrite H2. exists body. eexists.
  split; [unfold token_end; destruct (is_bpe config); [|cbn]; reflexivity|]. split; [reflexivity|].
  exists (types mb). split; reflexivity.
Qed.
Print Assumptions C66_newline.

(** So a file and its text have different results, whenever the parser ends the text with a newline - which the lexer
    always does. *)
Theorem C66_refuted : exists E o parse dk config id path bytes ext out out',
  mk_prep_config config = Ok config /\ extension_of path = Ok ext /\
  bind (preprocess_file parse (plain_repr E o) dk None config id path bytes) (fun x => Ok (fst x)) = Ok out /\
  tokens_of (preprocess parse (plain_repr E o) dk None (text_call config id ext (source_text bytes))) = Ok out' /\
  List.length out <> List.length out'.
Proof.
  exists ascii_case, no_splitters, parse_ex, disk_ex, config_ex, (Some (lit "a-1")), (lit "d/x.java"), (lit "abc").
  do 3 eexists. split; [reflexivity|]. split; [vm_compute; reflexivity|]. split; [vm_compute; reflexivity|].
  split; [vm_compute; reflexivity|]. vm_compute. discriminate.
Qed.
Print Assumptions C66_refuted.

Example C66_example :
  (* TABS_NEWLINES = "0": the same *)
  bind (preprocess_file parse_ex (plain_repr ascii_case no_splitters) disk_ex None (dset config_ex TABS_NEWLINES (lit "0"))
    (Some (lit "a-1")) (lit "d/x.java") (lit "abc")) (fun x => Ok (fst x)) = Ok [lit "ab"; lit "c"; lit "</t>"; lit "<EOF></t>"] /\
  tokens_of (preprocess parse_ex (plain_repr ascii_case no_splitters) disk_ex None
    (text_call (dset config_ex TABS_NEWLINES (lit "0")) (Some (lit "a-1")) (lit "java") (source_text (lit "abc"))))
  = Ok [lit "ab"; lit "c"; lit "</t>"; lit "<EOF></t>"] /\
  (* kept: one newline more *)
  bind (preprocess_file parse_ex (plain_repr ascii_case no_splitters) disk_ex None config_ex
    (Some (lit "a-1")) (lit "d/x.java") (lit "abc")) (fun x => Ok (fst x))
  = Ok [lit "ab"; lit "c"; lit "</t>"; 10%N :: lit "</t>"; lit "<EOF></t>"].
Proof. repeat split; vm_compute; reflexivity. Qed.

(** ** C67: no file makes preprocessing fail *)
(** the codes of the configuration are there and no word that is looked up is in the cache (see C18 for cached words) *)
Definition codes_loaded (dk : disk) (config : params) (id : option str) : Prop :=
  exists x i custom c ml merges, id = Some (x :: i) /\
    (if is_predefined_id (x :: i) then Ok None else bind (from_id dk (x :: i)) (fun i => Ok (Some i))) = Ok custom /\
    init_bpe_data dk None config custom true = (Ok tt, Some {| ob_cache := Some c; ob_merges := Some ml |}) /\
    built merges ml /\ NoDup (map fst merges) /\ (forall w, dget c (escape w true) = None).

Theorem C67_never_fails : forall E K o lex dk g config id path bytes ext,
  mk_prep_config config = Ok config -> py_ascii E -> py_text E -> ascii_classes K ->
  (forall text name, lexer_ok (lex text name)) -> (is_bpe config = true -> codes_loaded dk config id) ->
  utf8 ext = Ok (splitext path) -> valid_str ext ->
  exists out m, preprocess_file (parse_text E K lex) (plain_repr E o) dk g config id path bytes = Ok (out, m).
Proof.
  intros E K o lex dk g config id path bytes ext Hc HE HT HK HL Hb Hx Hv.
  assert (He : exists e, extension_of path = Ok e).
  { unfold extension_of. rewrite (decode_encode _ _ Hv Hx). eexists. reflexivity. }
  destruct He as (e & He).
  assert (Hend : forall b l out m, to_repr E o config b l = Ok (out, m) ->
            exists out m, to_repr E o config b (l ++ [NonProc NpSpecialToken ph_ect]) = Ok (out, m)).
  { intros b l out m H. do 2 eexists. apply (C04_compositional _ _ _ _ _ _ _ _ _ _ H (special_repr E o config b ph_ect Hc)). }
  unfold preprocess_file, parse_file. rewrite He. cbn [bind]. unfold parse_text.
  set (lexed := lex _ _). pose proof (HL (source_text bytes) (match e with [] => lit "java" | _ => e end)) as Hlx.
  assert (Elx : lexed = lex (source_text bytes) (match e with [] => lit "java" | _ => e end)) by (unfold lexed; destruct e; reflexivity).
  rewrite <- Elx in Hlx. clear Elx. clearbody lexed.
  destruct (is_bpe config) eqn:Hbp.
  - destruct (Hb eq_refl) as (x & i & custom & c & ml & merges & -> & Hcu & Hi & B1 & B2 & B3).
    destruct (C61_text_never_raises E K o config (Some {| bd_merges := ml; bd_cache := c |}) lexed Hc HE HT HK Hlx) as (l & out & m & Hl & Hr).
    { intros _. do 2 eexists. split; [reflexivity|]. split; [exact B1|]. split; [exact B2|]. intros w parts Hw.
      cbn [bd_cache] in Hw. rewrite B3 in Hw. discriminate. }
    rewrite Hl. cbn [bind]. rewrite Hcu. cbn [bind].
    replace (init_bpe_data dk g config custom true) with (init_bpe_data dk None config custom true) by (destruct g; reflexivity).
    rewrite Hi. unfold plain_repr. cbn [fst]. eapply Hend, Hr.
  - destruct (C61_text_never_raises E K o config None lexed Hc HE HT HK Hlx) as (l & out & m & Hl & Hr).
    { intros H. rewrite Hbp in H. discriminate. }
    rewrite Hl. cbn [bind]. rewrite (plain_repr_no_bpe E o config _ g None Hbp). eapply Hend, Hr.
Qed.
Print Assumptions C67_never_fails.

(** Only the extension is decoded: the rest of the name can be any bytes.  A name without extension counts as java. *)
Theorem C67_no_extension : forall E K lex path bytes, no_char 46%N (basename path) ->
  parse_file (parse_text E K lex) path bytes = parse_text E K lex (source_text bytes) (Some (lit "java")).
Proof.
  intros E K lex path bytes Hn. unfold parse_file, extension_of, splitext.
  assert (Hd : strip_dots (basename path) = basename path).
  { destruct (basename path) as [|c t]; [reflexivity|]. cbn. destruct (N.eqb_spec c 46) as [->|_]; [|reflexivity].
    exfalso. apply Hn. left. reflexivity. }
  rewrite Hd. rewrite (split_on_no_char 46 (basename path) Hn). reflexivity.
Qed.
Print Assumptions C67_no_extension.

Lemma strip_dots_spec s : exists k, s = repeat 46%N k ++ strip_dots s /\ hd 0%N (strip_dots s) <> 46%N.
Proof.
  induction s as [|c t (k & IH1 & IH2)]; [exists 0; split; [reflexivity|discriminate]|]. cbn [strip_dots].
  destruct (N.eqb_spec c 46) as [->|Hc].
  - exists (S k). split; [cbn [repeat app]; f_equal; exact IH1|exact IH2].
  - exists 0. split; [reflexivity|exact Hc].
Qed.

(** the extension is what follows the last dot that is not at the beginning of the name *)
Theorem C67_extension : forall path stem dots e ext,
  basename path = repeat 46%N dots ++ stem ++ 46%N :: e -> stem <> [] -> hd 0%N stem <> 46%N -> no_char 46%N e ->
  valid_str ext -> utf8 ext = Ok e -> extension_of path = Ok ext.
Proof.
  intros path stem dots e ext Hb Hs Hh Hn Hv Hu. unfold extension_of, splitext. rewrite Hb.
  assert (Hd : strip_dots (repeat 46%N dots ++ stem ++ 46%N :: e) = stem ++ 46%N :: e).
  { clear Hb. induction dots as [|k IH]; [|exact IH]. destruct stem as [|c stem]; [congruence|]. cbn.
    destruct (N.eqb_spec c 46) as [->|_]; [exfalso; apply Hh; reflexivity|reflexivity]. }
  rewrite Hd, split_on_app_sep, (split_on_no_char 46 e Hn), rev_app_distr. cbn [rev app].
  destruct (rev (split_on 46 stem)) as [|x y] eqn:Er.
  - exfalso. apply (split_on_nonempty 46 stem). rewrite <- (rev_involutive (split_on 46 stem)), Er. reflexivity.
  - rewrite (decode_encode (46%N :: ext)); [reflexivity|constructor; [lia|exact Hv]|].
    apply (utf8_app1 46 [46%N] ext e); [reflexivity|exact Hu].
Qed.
Print Assumptions C67_extension.

(** A file name with an extension that is not UTF-8 stops everything. *)
Theorem C67_refuted : forall parse repr dk g config id bytes,
  preprocess_file parse repr dk g config id (lit "dir/a.c" ++ [233%N]) bytes = Err UnicodeError.
Proof. reflexivity. Qed.
Print Assumptions C67_refuted.

Example C67_example :
  extension_of (lit "a.d/.x.tar.gz") = Ok (lit "gz") /\ extension_of (lit "a.d/.bashrc") = Ok [] /\
  extension_of (lit "a.b/Makefile") = Ok [] /\ extension_of ([233%N] ++ lit ".py") = Ok (lit "py").
Proof. repeat split; vm_compute; reflexivity. Qed.
