(** C10 - C15: splitting text into words, words into subwords, and the round trip of identifiers. *)
From Verif Require Import M_Base L_Base M_Tokens M_Regex M_Parse L_Regex M_Repr M_Merge M_BpeEncode S_Bpe L_BpeEncode P_Bpe
     M_PrepConfig P_PrepConfig L_Repr P_Repr L_Word P_ReprOptions L_Merge.
From Coq Require Import Arith.

(** what the character classes say on ascii *)
Definition ascii_word_ch (c : N) : bool := is_digit c || ascii_upper_ch c || ascii_lower_ch c || N.eqb c 95.
Definition ascii_classes (K : charclass) : Prop :=
  forall c, (c < 128)%N ->
  is_w K c = ascii_word_ch c /\ is_up K c = ascii_upper_ch c /\ is_low K c = ascii_lower_ch c.

(** the classes on ascii characters only, for examples *)
Definition ascii_K : charclass :=
  {| is_w := ascii_word_ch; is_up := ascii_upper_ch; is_low := ascii_lower_ch; is_blank := ch_in (String "009" (String "010" " ")) |}.
Lemma ascii_K_classes : ascii_classes ascii_K.
Proof. intros c _. repeat split. Qed.

(** * C14 *)
(** the number grammar, without regular expressions *)
Definition digits (p : N -> bool) (s : str) : Prop := s <> [] /\ forallb p s = true.
(** groups of digits separated by single underscores *)
Definition grouped (p : N -> bool) (s : str) : Prop :=
  exists groups, groups <> [] /\ Forall (digits p) groups /\ s = join (lit "_") groups.
Definition optional (chars : string) (s : str) : Prop := s = [] \/ exists c, In c (lit chars) /\ s = [c].
Definition exponent (s : str) : Prop :=
  exists e sign ds, In e (lit "eE") /\ optional "-+" sign /\ digits is_digit ds /\ s = [e] ++ sign ++ ds.

Inductive number_literal : str -> Prop :=
| num_hex body suffix : grouped is_hex body -> optional "lL" suffix -> number_literal (lit "0x" ++ body ++ suffix)
| num_bin body suffix : grouped is_bin body -> optional "lL" suffix -> number_literal (lit "0b" ++ body ++ suffix)
| num_int body suffix : grouped is_digit body -> optional "lLfFdD" suffix -> number_literal (body ++ suffix)
| num_point whole frac ex suffix :
    forallb is_digit whole = true -> forallb is_digit frac = true -> (whole <> [] \/ frac <> []) ->
    (ex = [] \/ exponent ex) -> optional "fFdD" suffix ->
    number_literal (whole ++ lit "." ++ frac ++ ex ++ suffix)
| num_exp whole ex suffix :
    digits is_digit whole -> exponent ex -> optional "fFdD" suffix -> number_literal (whole ++ ex ++ suffix).

Lemma ch_in_in s c : ch_in s c = true <-> In c (lit s).
Proof.
  unfold ch_in. rewrite existsb_exists. split.
  - intros (x & Hx & He). apply N.eqb_eq in He. subst x. exact Hx.
  - intros H. exists c. split; [exact H|apply N.eqb_refl].
Qed.

Lemma lang_optional s u : lang (Opt (Chr (ch_in s))) u <-> optional s u.
Proof.
  rewrite lang_opt_inv, lang_chr_inv. unfold optional. split; intros [H|(c & H1 & H2)]; auto; right; exists c.
  - apply ch_in_in in H2. auto.
  - apply ch_in_in in H1. auto.
Qed.

Lemma lang_grouped p u :
  lang (Seq (Star (Seq (Plus (Chr p)) (Chr (ch_in "_")))) (Plus (Chr p))) u <-> grouped p u.
Proof.
  rewrite lang_seq_inv. split.
  - intros (v & w & -> & Hv & Hw). apply lang_plus_chr_inv in Hw.
    remember (Star (Seq (Plus (Chr p)) (Chr (ch_in "_")))) as r eqn:Er. revert w Hw.
    induction Hv; try discriminate; intros w Hw.
    + exists [w]. split; [discriminate|]. split; [constructor; [exact Hw|constructor]|reflexivity].
    + injection Er as ->. destruct (IHHv2 eq_refl w Hw) as (gs & Hn & Hg & Hj).
      apply lang_seq_inv in Hv1. destruct Hv1 as (g & us & -> & Hd & Hus). apply lang_plus_chr_inv in Hd.
      apply lang_chr_inv in Hus. destruct Hus as (c & -> & Hc). apply ch_in_in in Hc. destruct Hc as [<-|[]].
      exists (g :: gs). split; [discriminate|]. split; [constructor; [exact Hd|exact Hg]|].
      rewrite join_cons by exact Hn. rewrite <- Hj, <- !app_assoc. reflexivity.
  - intros (gs & Hn & Hg & ->). induction Hg as [|g gs Hd Hg IH]; [congruence|]. destruct gs as [|g' gs].
    + exists [], g. split; [reflexivity|]. split; [constructor|apply lang_plus_chr_inv, Hd].
    + destruct IH as (v & w & Hj & Hv & Hw); [discriminate|]. rewrite join_cons by discriminate.
      exists ((g ++ lit "_") ++ v), w. split; [rewrite <- !app_assoc, Hj; reflexivity|]. split; [|exact Hw].
      constructor; [|destruct g; discriminate|exact Hv]. constructor; [apply lang_plus_chr_inv, Hd|].
      apply lang_chr_inv. exists 95%N. split; reflexivity.
Qed.

Lemma lang_exponent u : lang exponent_re u <-> u = [] \/ exponent u.
Proof.
  unfold exponent_re. rewrite lang_opt_inv. apply or_iff_compat_l. rewrite lang_seq_inv. split.
  - intros (v & w & -> & Hv & Hw). apply lang_chr_inv in Hv. destruct Hv as (e & -> & He). apply ch_in_in in He.
    apply lang_seq_inv in Hw. destruct Hw as (sg & ds & -> & Hs & Hd). apply lang_optional in Hs. apply lang_plus_chr_inv in Hd.
    exists e, sg, ds. auto.
  - intros (e & sg & ds & He & Hs & Hd & ->). exists [e], (sg ++ ds). split; [reflexivity|].
    split; [apply lang_chr_inv; exists e; split; [reflexivity|apply ch_in_in, He]|].
    apply lang_seq_inv. exists sg, ds. split; [reflexivity|]. split; [apply lang_optional, Hs|apply lang_plus_chr_inv, Hd].
Qed.

Lemma lang_point u : lang (Chr (ch_in ".")) u <-> u = lit ".".
Proof.
  rewrite lang_chr_inv. split.
  - intros (c & -> & Hc). apply ch_in_in in Hc. destruct Hc as [<-|[]]. reflexivity.
  - intros ->. exists 46%N. split; reflexivity.
Qed.

Lemma lang_prefixed pre p sfx u :
  lang (Seq (Str pre) (Seq (Star (Seq (Plus (Chr p)) (Chr (ch_in "_")))) (Seq (Plus (Chr p)) (Opt (Chr (ch_in sfx)))))) u <->
  exists body suffix, u = pre ++ body ++ suffix /\ grouped p body /\ optional sfx suffix.
Proof.
  split.
  - intros H. apply lang_seq_inv in H. destruct H as (v & w & -> & Hv & Hw). apply lang_str_inv in Hv. subst v.
    apply lang_seq_inv in Hw. destruct Hw as (a & w' & -> & Ha & Hw). apply lang_seq_inv in Hw.
    destruct Hw as (b & c & -> & Hb & Hc). apply lang_optional in Hc.
    exists (a ++ b), c. split; [rewrite <- app_assoc; reflexivity|]. split; [|exact Hc].
    apply lang_grouped. constructor; assumption.
  - intros (body & suffix & -> & Hb & Hs). apply lang_grouped in Hb. apply lang_seq_inv in Hb.
    destruct Hb as (a & b & -> & Ha & Hb). constructor; [apply lang_str_inv; reflexivity|].
    rewrite <- app_assoc. constructor; [exact Ha|]. constructor; [exact Hb|apply lang_optional, Hs].
Qed.

Theorem C14_number_grammar : forall w, is_number w = true <-> number_literal w.
Proof.
  intros w. unfold is_number. rewrite fullmatch_lang by reflexivity. unfold NUMBER_PATTERN. rewrite !lang_alt_inv. split.
  - intros [H|[H|[H|[H|[H|[H|H]]]]]].
    + apply lang_prefixed in H. destruct H as (b & s & -> & Hb & Hs). apply num_hex; assumption.
    + apply lang_prefixed in H. destruct H as (b & s & -> & Hb & Hs). apply num_bin; assumption.
    + apply (lang_seq Eps _ [] w lang_eps) in H. cbn [app] in H.
      apply (proj1 (lang_prefixed [] is_digit "lLfFdD" w)) in H. destruct H as (b & s & -> & Hb & Hs).
      exact (num_int b s Hb Hs).
    + apply lang_seq_inv in H. destruct H as (a & x & -> & Ha & H). apply lang_seq_inv in H. destruct H as (pt & x' & -> & Hp & H).
      apply lang_seq_inv in H. destruct H as (f & y & -> & Hf & H). apply lang_seq_inv in H. destruct H as (e & s & -> & He & Hs).
      apply lang_point in Hp. subst pt. apply lang_plus_chr_inv in Ha, Hf. apply lang_exponent in He. apply lang_optional in Hs.
      apply num_point; try assumption; try apply Ha; try apply Hf. left. apply Ha.
    + apply lang_seq_inv in H. destruct H as (a & x & -> & Ha & H). apply lang_seq_inv in H. destruct H as (pt & x' & -> & Hp & H).
      apply lang_seq_inv in H. destruct H as (e & s & -> & He & Hs).
      apply lang_point in Hp. subst pt. apply lang_plus_chr_inv in Ha. apply lang_exponent in He. apply lang_optional in Hs.
      apply (num_point a []); try assumption; try apply Ha; try reflexivity. left. apply Ha.
    + apply lang_seq_inv in H. destruct H as (pt & x' & -> & Hp & H).
      apply lang_seq_inv in H. destruct H as (f & y & -> & Hf & H). apply lang_seq_inv in H. destruct H as (e & s & -> & He & Hs).
      apply lang_point in Hp. subst pt. apply lang_plus_chr_inv in Hf. apply lang_exponent in He. apply lang_optional in Hs.
      apply (num_point []); try assumption; try apply Hf; try reflexivity. right. apply Hf.
    + apply lang_seq_inv in H. destruct H as (a & x & -> & Ha & H). apply lang_seq_inv in H. destruct H as (e & x' & -> & He & H).
      apply lang_seq_inv in H. destruct H as (sg & y & -> & Hsg & H). apply lang_seq_inv in H. destruct H as (ds & s & -> & Hd & Hs).
      apply lang_plus_chr_inv in Ha, Hd. apply lang_chr_inv in He. destruct He as (c & -> & Hc). apply ch_in_in in Hc.
      apply lang_optional in Hsg, Hs.
      replace (a ++ [c] ++ sg ++ ds ++ s) with (a ++ ([c] ++ sg ++ ds) ++ s) by (rewrite <- !app_assoc; reflexivity).
      apply num_exp; try assumption. exists c, sg, ds. auto.
  - intros H. destruct H as [b s Hb Hs|b s Hb Hs|b s Hb Hs|wh fr ex s Hw Hf Hor He Hs|wh ex s Hw He Hs].
    + left. apply lang_prefixed. exists b, s. auto.
    + right. left. apply lang_prefixed. exists b, s. auto.
    + right. right. left.
      assert (H : lang (Seq (Str []) IR_REGEX) ([] ++ (b ++ s))).
      { apply (proj2 (lang_prefixed [] is_digit "lLfFdD" (b ++ s))). exists b, s. auto. }
      apply lang_seq_inv in H. destruct H as (v & w & E & Hv & H). apply lang_str_inv in Hv. subst v. cbn [app] in E. subst w. exact H.
    + apply lang_exponent in He. apply lang_optional in Hs.
      destruct wh as [|c wh].
      * destruct Hor as [Hor|Hor]; [congruence|]. do 5 right. left.
        cbn [app]. constructor; [apply lang_point; reflexivity|]. constructor; [apply lang_plus_chr_inv; split; assumption|].
        constructor; assumption.
      * assert (Hwl : lang (Plus (Chr is_digit)) (c :: wh)) by (apply lang_plus_chr_inv; split; [discriminate|exact Hw]).
        destruct fr as [|f fr].
        -- do 4 right. left. cbn [app]. change (lang DBL_REGEXB ((c :: wh) ++ lit "." ++ ex ++ s)).
           constructor; [exact Hwl|]. constructor; [apply lang_point; reflexivity|]. constructor; assumption.
        -- do 3 right. left. constructor; [exact Hwl|]. constructor; [apply lang_point; reflexivity|].
           constructor; [apply lang_plus_chr_inv; split; [discriminate|exact Hf]|]. constructor; assumption.
    + do 6 right. destruct He as (e & sg & ds & He & Hsg & Hd & ->).
      rewrite <- !app_assoc. constructor; [apply lang_plus_chr_inv, Hw|].
      constructor; [apply lang_chr_inv; exists e; split; [reflexivity|apply ch_in_in, He]|].
      constructor; [apply lang_optional, Hsg|]. constructor; [apply lang_plus_chr_inv, Hd|apply lang_optional, Hs].
Qed.
Print Assumptions C14_number_grammar.

Lemma in_range_list a b (l : list N) c :
  l = map N.of_nat (seq (N.to_nat a) (S (N.to_nat b) - N.to_nat a)) -> in_range a b c = true <-> In c l.
Proof.
  intros ->. unfold in_range. rewrite andb_true_iff, !N.leb_le, in_map_iff. split.
  - intros [H1 H2]. exists (N.to_nat c). rewrite N2Nat.id, in_seq. split; [reflexivity|lia].
  - intros (x & <- & Hx). apply in_seq in Hx. lia.
Qed.

(** the digits of the grammar *)
Theorem C14_digits : forall c,
  (is_digit c = true <-> In c (lit "0123456789")) /\ (is_bin c = true <-> In c (lit "01")) /\
  (is_hex c = true <-> In c (lit "0123456789abcdefABCDEF")).
Proof.
  intros c. assert (Hd : is_digit c = true <-> In c (lit "0123456789")) by (apply (in_range_list 48 57); reflexivity).
  split; [exact Hd|]. split; [apply (in_range_list 48 49); reflexivity|]. unfold is_hex. rewrite !orb_true_iff, Hd.
  rewrite (in_range_list 97 102 (lit "abcdef")), (in_range_list 65 70 (lit "ABCDEF")) by reflexivity.
  change (lit "0123456789abcdefABCDEF") with ((lit "0123456789" ++ lit "abcdef") ++ lit "ABCDEF"). rewrite !in_app_iff. reflexivity.
Qed.
Print Assumptions C14_digits.

Example C14_example :
  map is_number (map lit ["0x8_AbL"; "12_345f"; "23424.E-30F"; "."; "0x"; "1__2"; "e5"; "0b012"]%string)
  = [true; true; true; false; false; false; false; false].
Proof. reflexivity. Qed.

(** * C15 *)
(** maximal runs: [marks ph s out] relates a word to its ascii parts separated by placeholders *)
Inductive collapsed (ph : str) : str -> str -> Prop :=
| col_nil : collapsed ph [] []
| col_ascii c s out : (c < 128)%N -> collapsed ph s out -> collapsed ph (c :: s) (c :: out)
| col_run run s out :
    run <> [] -> Forall (fun c => ~ (c < 128)%N) run -> (s = [] \/ exists c s', s = c :: s' /\ (c < 128)%N) ->
    collapsed ph s out -> collapsed ph (run ++ s) (ph ++ out).

Lemma replace_loop_run ph run s :
  Forall (fun c => ~ (c < 128)%N) run -> replace_non_ascii_loop ph true (run ++ s) = replace_non_ascii_loop ph true s.
Proof.
  induction 1 as [|c run Hc Hr IH]; [reflexivity|]. cbn [app replace_non_ascii_loop]. unfold is_ascii_char.
  destruct (N.ltb_spec c 128); [exfalso; lia|exact IH].
Qed.

Theorem C15_runs_collapse :
  forall ph w out, length ph = 1 -> (replace_non_ascii_seqs w ph = Ok out <-> collapsed ph w out).
Proof.
  intros ph w out Hph. unfold replace_non_ascii_seqs. rewrite Hph. cbn [Nat.eqb].
  assert (Hf : forall w out, collapsed ph w out -> replace_non_ascii_loop ph false w = out).
  { intros w' out' H. induction H as [|c s out' Hc H IH|run s out' Hne Hr Hs H IH]; [reflexivity|..].
    - cbn [replace_non_ascii_loop]. unfold is_ascii_char. destruct (N.ltb_spec c 128); [|lia]. cbn [app]. rewrite IH. reflexivity.
    - destruct run as [|c run]; [congruence|]. inversion Hr as [|? ? Hc Hr']; subst. cbn [app replace_non_ascii_loop].
      unfold is_ascii_char. destruct (N.ltb_spec c 128); [exfalso; lia|]. rewrite replace_loop_run by exact Hr'.
      destruct Hs as [->|(c' & s' & -> & Hc')]; [cbn; symmetry; apply app_nil_r|].
      cbn [replace_non_ascii_loop] in *. unfold is_ascii_char in *.
      destruct (N.ltb_spec c' 128); [|lia]. reflexivity. }
  split; [|intros H; rewrite (Hf _ _ H); reflexivity].
  intros [= <-].
  assert (Hex : forall n w, length w <= n -> exists out, collapsed ph w out).
  { induction n as [|n IH]; intros [|c w'] Hn; try (exists []; constructor); [cbn in Hn; lia|]. cbn in Hn.
    destruct (N.ltb_spec c 128) as [Hc|Hc].
    - destruct (IH w') as [o Ho]; [lia|]. exists (c :: o). constructor; assumption.
    - pose (p := fun c => negb (N.ltb c 128)).
      pose proof (span_app p w') as Hsp. pose proof (span_all p w') as Hall. pose proof (span_stop p w') as Hst.
      destruct (span p w') as [run rest]. cbn [fst snd] in *. subst w'. rewrite app_length in Hn.
      destruct (IH rest) as [o Ho]; [lia|]. exists (ph ++ o). apply (col_run ph (c :: run) rest); [discriminate| | |exact Ho].
      + constructor; [lia|]. apply Forall_forall. intros x Hx. rewrite forallb_forall in Hall. specialize (Hall x Hx).
        unfold p in Hall. destruct (N.ltb_spec x 128); [discriminate|lia].
      + destruct rest as [|x rest]; [left; reflexivity|]. right. exists x, rest. split; [reflexivity|].
        cbn in Hst. unfold p in Hst. destruct (N.ltb_spec x 128); [assumption|discriminate]. }
  destruct (Hex (length w) w (le_n _)) as [o Ho]. rewrite (Hf _ _ Ho). exact Ho.
Qed.
Print Assumptions C15_runs_collapse.

Theorem C15_idempotent :
  forall ph w out, replace_non_ascii_seqs w ph = Ok out -> replace_non_ascii_seqs out ph = Ok out.
Proof.
  intros ph w out H. assert (Hph : length ph = 1).
  { unfold replace_non_ascii_seqs in H. destruct (Nat.eqb_spec (length ph) 1); [assumption|discriminate]. }
  apply (C15_runs_collapse ph w out Hph) in H. apply (C15_runs_collapse ph out out Hph).
  destruct ph as [|p [|q ph]]; try discriminate.
  induction H as [|c s out Hc H IH|run s out Hne Hr Hs H IH]; [constructor|constructor; assumption|].
  destruct (N.ltb_spec p 128) as [Hp|Hp]; [constructor; assumption|].
  apply col_run; [discriminate|constructor; [lia|constructor]| |exact IH].
  destruct Hs as [->|(c' & s' & -> & Hc')]; apply (C15_runs_collapse [p] _ _ eq_refl) in H;
    unfold replace_non_ascii_seqs in H; cbn [length Nat.eqb replace_non_ascii_loop] in H.
  - left. injection H as <-. reflexivity.
  - right. unfold is_ascii_char in H. destruct (N.ltb_spec c' 128); [|lia]. injection H as <-. cbn [app]. eauto.
Qed.
Print Assumptions C15_idempotent.

Example C15_example :
  replace_non_ascii_seqs [97; 230; 98; 241; 324; 99; 250]%N [247%N] = Ok [97; 247; 98; 247; 99; 247]%N /\
  collapsed [247%N] [97; 230; 98; 241; 324; 99; 250]%N [97; 247; 98; 247; 99; 247]%N.
Proof. split; [reflexivity|]. apply C15_runs_collapse; reflexivity. Qed.

(** * C11, C12 *)
(** a part of an identifier followed by [t] *)
Inductive part_ok (K : charclass) (u t : str) : Prop :=
| part_underscore : u = lit "_" -> part_ok K u t
| part_digits : digits is_digit u -> starts is_digit t = false -> part_ok K u t
| part_lower cap w :
    u = cap ++ w -> (cap = [] \/ exists c, cap = [c] /\ is_up K c = true) ->
    w <> [] -> forallb (is_low K) w = true -> starts (is_low K) t = false -> part_ok K u t
| part_upper :
    u <> [] -> forallb (is_up K) u = true -> starts (is_low K) t = false ->
    (starts (is_up K) t = true -> starts (is_low K) (tl t) = true) -> part_ok K u t
| part_other c :
    u = [c] -> c <> 95%N -> is_digit c = false -> is_low K c = false -> is_up K c = false -> part_ok K u t.

(** parts with what follows them *)
Fixpoint parts_ok (K : charclass) (parts : list str) : Prop :=
  match parts with
  | [] => True
  | p :: rest => part_ok K p (List.concat rest) /\ parts_ok K rest
  end.

Lemma upper_first K s :
  let G s := List.concat (map (ms (NotNext (is_low K))) (ms (Star (Chr (is_up K))) s)) in
  (G s = [] /\ starts (is_low K) s = true) \/
  exists u t l, s = u ++ t /\ G s = t :: l /\ forallb (is_up K) u = true /\ starts (is_low K) t = false /\
    (starts (is_up K) t = true -> starts (is_low K) (tl t) = true).
Proof.
  intros G. induction s as [|c s IH].
  - right. exists [], [], []. repeat split. discriminate.
  - assert (HG : G (c :: s) = (if is_up K c then G s else []) ++ (if is_low K c then [] else [c :: s])).
    { unfold G. rewrite star_chr_cons, map_app, concat_app. f_equal; [destruct (is_up K c); reflexivity|].
      cbn [map List.concat ms]. rewrite app_nil_r. reflexivity. }
    rewrite HG. cbn [starts]. destruct (is_up K c) eqn:Hu.
    + destruct IH as [[HGs Hs]|(u & t & l & -> & HGs & H1 & H2 & H3)]; rewrite HGs.
      * destruct (is_low K c) eqn:Hl; [left; split; reflexivity|]. right. exists [], (c :: s), [].
        repeat split; [exact Hl|]. intros _. exact Hs.
      * right. exists (c :: u), t. eexists. split; [reflexivity|]. split; [reflexivity|]. split; [cbn; rewrite Hu; exact H1|]. auto.
    + destruct (is_low K c) eqn:Hl; [left; split; reflexivity|]. right. exists [], (c :: s), [].
      repeat split; [exact Hl|]. cbn [starts]. rewrite Hu. discriminate.
Qed.

Lemma identifier_first K c s :
  c <> 32%N -> exists u t l, c :: s = u ++ t /\ u <> [] /\ ms (identifier_re K) (c :: s) = t :: l /\ part_ok K u t.
Proof.
  intros Hc. unfold identifier_re.
  assert (Halt : forall a b, ms (Alt a b) (c :: s) = ms a (c :: s) ++ ms b (c :: s)) by reflexivity.
  rewrite Halt. destruct (ch_in "_" c) eqn:E1.
  { apply ch_in_in in E1. destruct E1 as [<-|[]]. exists (lit "_"), s. eexists. split; [reflexivity|]. split; [discriminate|].
    split; [reflexivity|]. apply part_underscore. reflexivity. }
  assert (Hu : c <> 95%N) by (intros ->; discriminate E1).
  replace (ms (Chr (ch_in "_")) (c :: s)) with (@nil str) by (cbn [ms]; rewrite E1; reflexivity). cbn [app].
  rewrite Halt, plus_chr_cons. destruct (is_digit c) eqn:E2.
  { destruct (star_chr_first is_digit s) as [l ->]. exists (c :: fst (span is_digit s)), (snd (span is_digit s)). eexists.
    cbn [app]. rewrite span_app. split; [reflexivity|]. split; [discriminate|]. split; [reflexivity|].
    apply part_digits; [split; [discriminate|cbn [forallb]; rewrite E2; apply span_all]|apply span_stop]. }
  cbn [app]. rewrite Halt.
  assert (H3 : ms (Seq (Opt (Chr (is_up K))) (Plus (Chr (is_low K)))) (c :: s) =
          (if is_up K c then ms (Plus (Chr (is_low K))) s else []) ++
          (if is_low K c then ms (Star (Chr (is_low K))) s else [])).
  { change (ms (Seq (Opt (Chr (is_up K))) (Plus (Chr (is_low K)))) (c :: s)) with
      (List.concat (map (ms (Plus (Chr (is_low K)))) ((if is_up K c then [s] else []) ++ [c :: s]))).
    rewrite map_app, concat_app. f_equal.
    - destruct (is_up K c); [|reflexivity]. cbn [map List.concat]. apply app_nil_r.
    - cbn [map List.concat]. rewrite app_nil_r. apply plus_chr_cons. }
  rewrite H3. clear H3.
  assert (Hlow : forall v w t, v = [] \/ (exists c, v = [c] /\ is_up K c = true) -> w <> [] ->
            forallb (is_low K) w = true -> starts (is_low K) t = false -> part_ok K (v ++ w) t).
  { intros v w t Hv Hw Hf Ht. eapply part_lower; [reflexivity|..]; assumption. }
  destruct (is_up K c) eqn:E3.
  - destruct s as [|d s].
    + rewrite plus_chr_nil. cbn [app]. destruct (is_low K c) eqn:E4.
      * exists [c], []. eexists. split; [reflexivity|]. split; [discriminate|]. split; [reflexivity|].
        apply (Hlow [] [c]); [left; reflexivity|discriminate|cbn; rewrite E4; reflexivity|reflexivity].
      * rewrite Halt. exists [c], []. eexists. split; [reflexivity|]. split; [discriminate|].
        split; [cbn; rewrite E3; reflexivity|].
        apply part_upper; [discriminate|cbn; rewrite E3; reflexivity|reflexivity|discriminate].
    + rewrite plus_chr_cons. destruct (is_low K d) eqn:E5.
      * destruct (star_chr_first (is_low K) s) as [l ->]. exists ([c] ++ d :: fst (span (is_low K) s)), (snd (span (is_low K) s)).
        eexists. split; [cbn [app]; rewrite span_app; reflexivity|]. split; [discriminate|]. split; [reflexivity|].
        apply Hlow; [right; eauto|discriminate|cbn [forallb]; rewrite E5; apply span_all|apply span_stop].
      * cbn [app]. destruct (is_low K c) eqn:E4.
        -- destruct (star_chr_first (is_low K) (d :: s)) as [l ->]. cbn [span]. rewrite E5. cbn [snd].
           exists [c], (d :: s). eexists. split; [reflexivity|]. split; [discriminate|]. split; [reflexivity|].
           apply (Hlow [] [c]); [left; reflexivity|discriminate|cbn; rewrite E4; reflexivity|exact E5].
        -- cbn [app]. rewrite Halt.
           destruct (upper_first K (d :: s)) as [[_ Hs]|(u & t & l & Es & HG & H1 & H2 & H4)];
             [cbn [starts] in Hs; congruence|].
           exists (c :: u), t. eexists. split; [cbn [app]; rewrite <- Es; reflexivity|]. split; [discriminate|]. split.
           ++ change (ms (Seq (Plus (Chr (is_up K))) (NotNext (is_low K))) (c :: d :: s)) with
                (List.concat (map (ms (NotNext (is_low K))) (ms (Plus (Chr (is_up K))) (c :: d :: s)))).
              rewrite plus_chr_cons, E3. cbv zeta in HG. rewrite HG. reflexivity.
           ++ apply part_upper; [discriminate|cbn; rewrite E3; exact H1|exact H2|exact H4].
  - cbn [app]. destruct (is_low K c) eqn:E4.
    + destruct (star_chr_first (is_low K) s) as [l ->]. exists (c :: fst (span (is_low K) s)), (snd (span (is_low K) s)).
      eexists. split; [cbn [app]; rewrite span_app; reflexivity|]. split; [discriminate|]. split; [reflexivity|].
      apply (Hlow []); [left; reflexivity|discriminate|cbn [forallb]; rewrite E4; apply span_all|apply span_stop].
    + cbn [app]. rewrite Halt. exists [c], s. eexists. split; [reflexivity|]. split; [discriminate|]. split.
      * change (ms (Seq (Plus (Chr (is_up K))) (NotNext (is_low K))) (c :: s)) with
          (List.concat (map (ms (NotNext (is_low K))) (ms (Plus (Chr (is_up K))) (c :: s)))).
        rewrite plus_chr_cons, E3. cbn [map List.concat app ms]. unfold not_space.
        destruct (N.eqb_spec c 32); [contradiction|]. reflexivity.
      * apply (part_other K [c] s c); auto.
Qed.

Lemma identifier_parts K w :
  ~ In 32%N w ->
  let parts := finditer (identifier_re K) w in
  List.concat parts = w /\ Forall (fun p => p <> []) parts /\ parts_ok K parts.
Proof.
  remember (length w) as n eqn:En. assert (Hn : length w <= n) by lia. clear En. revert w Hn.
  induction n as [|n IH]; intros [|c w] Hn Hs; try (cbn; repeat split; constructor); [cbn in Hn; lia|].
  destruct (identifier_first K c w) as (u & t & l & E & Hu & Hm & Hp); [intros ->; apply Hs; left; reflexivity|].
  cbv zeta. rewrite E in *. rewrite (finditer_match _ u t l Hu Hm).
  assert (Ht : length t <= n).
  { rewrite app_length in Hn. destruct u; [congruence|]. cbn in Hn. lia. }
  destruct (IH t Ht) as (H1 & H2 & H3); [intros Hin; apply Hs, in_or_app; right; exact Hin|].
  cbn [List.concat parts_ok]. rewrite H1. repeat split; try assumption. constructor; assumption.
Qed.

Theorem C11_partition :
  forall K w, ~ In 32%N w ->
  List.concat (finditer (identifier_re K) w) = w /\ Forall (fun p => p <> []) (finditer (identifier_re K) w).
Proof. intros K w H. destruct (identifier_parts K w H) as (H1 & H2 & _). auto. Qed.
Print Assumptions C11_partition.

Theorem C12_homogeneous : forall K w, ~ In 32%N w -> parts_ok K (finditer (identifier_re K) w).
Proof. intros K w H. apply (identifier_parts K w H). Qed.
Print Assumptions C12_homogeneous.

(** the parts become the subtokens *)
Theorem C11_subtokens :
  forall E K w t, ~ In 32%N w -> split_identifier E K w = Ok t ->
  exists parts subs, List.concat parts = w /\ Forall (fun p => p <> []) parts /\
    t = (if is_ascii w then SplitContainer subs else NonEng subs) /\
    Forall2 (fun p s => (p = lit "_" /\ s = Underscore) \/ (p <> lit "_" /\ word_from E p = Ok s)) parts subs.
Proof.
  intros E K w t Hs H. unfold split_identifier in H. apply bind_ok in H. destruct H as (subs & Hm & [= <-]).
  destruct (identifier_parts K w Hs) as (H1 & H2 & _). exists (finditer (identifier_re K) w), subs.
  split; [exact H1|]. split; [exact H2|]. split; [unfold is_non_eng; destruct (is_ascii w); reflexivity|].
  clear -Hm. revert subs Hm. induction (finditer (identifier_re K) w) as [|p ps IH]; intros subs; cbn [mapM].
  - intros [= <-]. constructor.
  - rewrite bind_ok. intros (s & Hp & H). apply bind_ok in H. destruct H as (ss & Hss & [= <-]).
    constructor; [|apply IH, Hss]. destruct (eqb_spec p s_underscore) as [->|Hne].
    + left. injection Hp as <-. split; reflexivity.
    + right. split; [exact Hne|exact Hp].
Qed.
Print Assumptions C11_subtokens.

Example C11_example :
  exists t, split_identifier ascii_case ascii_K (lit "my_v2") = Ok t /\
  t = SplitContainer [Word (lit "my") CapNone; Underscore; Word (lit "v") CapNone; Word (lit "2") CapUndefined] /\
  exists parts subs, List.concat parts = lit "my_v2" /\ t = SplitContainer subs /\ length subs = length parts.
Proof.
  eexists. split; [vm_compute; reflexivity|]. split; [reflexivity|].
  destruct (C11_subtokens ascii_case ascii_K (lit "my_v2")
    (SplitContainer [Word (lit "my") CapNone; Underscore; Word (lit "v") CapNone; Word (lit "2") CapUndefined]))
    as (parts & subs & H1 & _ & H3 & H4); [cbn; intuition discriminate|vm_compute; reflexivity|].
  exists parts, subs. split; [exact H1|]. split; [exact H3|]. clear -H4. induction H4; cbn; congruence.
Qed.
Example C12_example :
  finditer (identifier_re ascii_K) (lit "HTMLParser_v12aB$ABC") = map lit ["HTML"; "Parser"; "_"; "v"; "12"; "a"; "B"; "$"; "ABC"]%string.
Proof. vm_compute. reflexivity. Qed.

(** * C13 *)
Inductive piece := PWord (w : str) | PChar (c : N) | PSpaces (n : nat).
Definition piece_text (p : piece) : str :=
  match p with PWord w => w | PChar c => [c] | PSpaces n => repeat 32%N n end.
Definition piece_ok (K : charclass) (p : piece) : Prop :=
  match p with
  | PWord w => w <> [] /\ forallb (is_w K) w = true
  | PChar c => is_w K c = false /\ c <> 32%N
  | PSpaces n => 0 < n
  end.
(** words and runs of spaces are maximal *)
Fixpoint separated (l : list piece) : Prop :=
  match l with
  | PWord _ :: ((PWord _ :: _) as t) => False
  | PSpaces _ :: ((PSpaces _ :: _) as t) => False
  | _ :: t => separated t
  | [] => True
  end.
Definition pieces (K : charclass) (s : str) (ps : list piece) : Prop :=
  s = List.concat (map piece_text ps) /\ Forall (piece_ok K) ps /\ separated ps.

Lemma span_spaces s : exists n, fst (span (N.eqb 32) s) = repeat 32%N n.
Proof.
  induction s as [|c s [n IH]]; [exists 0; reflexivity|]. cbn [span]. destruct (N.eqb_spec 32 c) as [<-|].
  - exists (S n). cbn [fst repeat]. rewrite IH. reflexivity.
  - exists 0. reflexivity.
Qed.

Lemma starts_piece K p ps q :
  piece_ok K q -> starts p (List.concat (map piece_text (q :: ps))) =
  match q with PWord w => starts p w | PChar c => p c | PSpaces _ => p 32%N end.
Proof.
  intros Hq. cbn [map List.concat]. destruct q as [w|c|n]; cbn [piece_text piece_ok] in *.
  - destruct Hq as [Hw _]. destruct w; [congruence|reflexivity].
  - reflexivity.
  - destruct n; [lia|reflexivity].
Qed.

Section Segment.
  Variable K : charclass.
  Hypothesis Hw32 : is_w K 32%N = false.
  Variable r : re.
  Variable chunks : piece -> list str.
  Hypothesis Hword : forall c s, is_w K c = true -> exists l, ms r (c :: s) = snd (span (is_w K) s) :: l.
  Hypothesis Hchar : forall c s, is_w K c = false -> c <> 32%N -> exists l, ms r (c :: s) = s :: l.
  Hypothesis Hspaces : forall n s, starts (N.eqb 32) s = false -> 0 < n ->
    finditer r (repeat 32%N n ++ s) = chunks (PSpaces n) ++ finditer r s.
  Hypothesis Hcw : forall w, chunks (PWord w) = [w].
  Hypothesis Hcc : forall c, chunks (PChar c) = [[c]].

  Lemma segment s : exists ps, pieces K s ps /\ finditer r s = List.concat (map chunks ps).
  Proof.
    remember (length s) as n eqn:En. assert (Hn : length s <= n) by lia. clear En. revert s Hn.
    induction n as [|n IH]; intros s Hn.
    { destruct s; [|cbn in Hn; lia]. exists []. repeat split; constructor. }
    destruct s as [|c s]; [exists []; repeat split; constructor|]. cbn in Hn.
    destruct (is_w K c) eqn:Hc.
    - destruct (Hword c s Hc) as [l Hm]. pose proof (span_app (is_w K) s) as Ha.
      pose proof (span_all (is_w K) s) as Hall. pose proof (span_stop (is_w K) s) as Hst.
      destruct (span (is_w K) s) as [u t]. cbn [fst snd] in *. subst s. rewrite app_length in Hn.
      destruct (IH t) as (ps & (H1 & H2 & H3) & Hf); [lia|].
      exists (PWord (c :: u) :: ps). split; [split; [|split]|].
      + cbn [map List.concat piece_text app]. rewrite H1 at 1. reflexivity.
      + constructor; [|exact H2]. split; [discriminate|]. cbn [forallb]. rewrite Hc. exact Hall.
      + cbn [separated]. destruct ps as [|[w|d|k] ps]; try exact H3. inversion H2 as [|? ? Hq Hqs]; subst.
        rewrite (starts_piece K _ _ _ Hq) in Hst. destruct Hq as [Hw Hall']. destruct w as [|d w]; [congruence|].
        cbn in Hst, Hall'. rewrite Hst in Hall'. discriminate.
      + change (c :: u ++ t) with ((c :: u) ++ t) in *. rewrite (finditer_match r (c :: u) t l); [|discriminate|exact Hm].
        cbn [map List.concat]. rewrite Hcw, Hf. reflexivity.
    - destruct (N.eq_dec c 32) as [->|Hc32].
      + destruct (span_spaces s) as [k Hk]. pose proof (span_app (N.eqb 32) s) as Ha.
        pose proof (span_stop (N.eqb 32) s) as Hst. destruct (span (N.eqb 32) s) as [u t]. cbn [fst snd] in *. subst u s.
        rewrite app_length in Hn. destruct (IH t) as (ps & (H1 & H2 & H3) & Hf); [lia|].
        exists (PSpaces (S k) :: ps). split; [split; [|split]|].
        * cbn [map List.concat piece_text app repeat]. rewrite H1 at 1. reflexivity.
        * constructor; [cbn; lia|exact H2].
        * cbn [separated]. destruct ps as [|[w|d|j] ps]; try exact H3. inversion H2 as [|? ? Hq Hqs]; subst.
          rewrite (starts_piece K _ _ _ Hq) in Hst. discriminate.
        * change (32%N :: repeat 32%N k ++ t) with (repeat 32%N (S k) ++ t). rewrite Hspaces by (try exact Hst; lia).
          cbn [map List.concat]. rewrite Hf. reflexivity.
      + destruct (Hchar c s Hc Hc32) as [l Hm]. destruct (IH s) as (ps & (H1 & H2 & H3) & Hf); [lia|].
        exists (PChar c :: ps). split; [split; [|split]|].
        * cbn [map List.concat piece_text app]. rewrite H1 at 1. reflexivity.
        * constructor; [split; assumption|exact H2].
        * exact H3.
        * change (c :: s) with ([c] ++ s) in *. rewrite (finditer_match r [c] s l); [|discriminate|exact Hm].
          cbn [map List.concat]. rewrite Hcc, Hf. reflexivity.
  Qed.
End Segment.

Lemma alt_word_first K b c s : is_w K c = true ->
  exists l, ms (Alt (Plus (Chr (is_w K))) b) (c :: s) = snd (span (is_w K) s) :: l.
Proof.
  intros Hc. change (ms (Alt (Plus (Chr (is_w K))) b) (c :: s)) with (ms (Plus (Chr (is_w K))) (c :: s) ++ ms b (c :: s)).
  rewrite plus_chr_cons, Hc. destruct (star_chr_first (is_w K) s) as [l ->]. eexists. reflexivity.
Qed.

Lemma alt_char_first K b c s : is_w K c = false -> c <> 32%N ->
  exists l, ms (Alt (Plus (Chr (is_w K))) (Alt (Chr not_space) b)) (c :: s) = s :: l.
Proof.
  intros Hc Hn.
  change (ms (Alt (Plus (Chr (is_w K))) (Alt (Chr not_space) b)) (c :: s)) with
    (ms (Plus (Chr (is_w K))) (c :: s) ++ ms (Chr not_space) (c :: s) ++ ms b (c :: s)).
  rewrite plus_chr_cons, Hc. cbn [ms]. unfold not_space. destruct (N.eqb_spec c 32); [contradiction|]. eexists. reflexivity.
Qed.

Lemma alt_space_first K b s : is_w K 32%N = false ->
  ms (Alt (Plus (Chr (is_w K))) (Alt (Chr not_space) b)) (32%N :: s) = ms b (32%N :: s).
Proof.
  intros Hc.
  change (ms (Alt (Plus (Chr (is_w K))) (Alt (Chr not_space) b)) (32%N :: s)) with
    (ms (Plus (Chr (is_w K))) (32%N :: s) ++ ms (Chr not_space) (32%N :: s) ++ ms b (32%N :: s)).
  rewrite plus_chr_cons, Hc. reflexivity.
Qed.

Definition words_chunks (p : piece) : list str :=
  match p with PWord w => [w] | PChar c => [[c]] | PSpaces n => repeat four_spaces (n / 4) end.
Definition string_chunks (p : piece) : list str :=
  match p with PWord w => [w] | PChar c => [[c]] | PSpaces n => [repeat 32%N n] end.


Lemma words_spaces K s : is_w K 32%N = false -> starts (N.eqb 32) s = false -> forall n,
  finditer (words_re K) (repeat 32%N n ++ s) = repeat four_spaces (n / 4) ++ finditer (words_re K) s.
Proof.
  intros Hw Hs n. induction n as [n IH] using lt_wf_ind.
  assert (Hshort : forall k, k < 4 -> ms (words_re K) (32%N :: repeat 32%N k ++ s) = [] \/ k = 3).
  { intros k Hk. unfold words_re. rewrite alt_space_first by exact Hw.
    destruct k as [|[|[|[|k]]]]; try lia; left; destruct s as [|c s]; try reflexivity;
      cbn [starts] in Hs; cbn [starts] in Hs; cbn [repeat app Str four_spaces ms map List.concat]; cbn [N.eqb Pos.eqb ms map List.concat app];
      change (match c with | 0%N => false | N.pos q => (32 =? q)%positive end) with (N.eqb 32 c);
      try rewrite Hs; reflexivity. }
  destruct n as [|[|[|[|n]]]].
  - reflexivity.
  - destruct (Hshort 0) as [H|H]; [lia| |discriminate]. cbn [repeat app] in *. rewrite finditer_skip by exact H. reflexivity.
  - destruct (Hshort 1) as [H|H]; [lia| |discriminate]. cbn [repeat app] in *. rewrite finditer_skip by exact H.
    exact (IH 1 ltac:(lia)).
  - destruct (Hshort 2) as [H|H]; [lia| |discriminate]. cbn [repeat app] in *. rewrite finditer_skip by exact H.
    exact (IH 2 ltac:(lia)).
  - replace (repeat 32%N (S (S (S (S n)))) ++ s) with (four_spaces ++ (repeat 32%N n ++ s)) by reflexivity.
    replace (S (S (S (S n)))) with (n + 1 * 4) by lia. rewrite Nat.div_add by lia.
    rewrite Nat.add_1_r. cbn [repeat app]. rewrite <- IH by lia.
    apply (finditer_match (words_re K) four_spaces _ []); [discriminate|].
    unfold words_re, four_spaces. cbn [repeat app]. rewrite alt_space_first by exact Hw. reflexivity.
Qed.

Lemma string_spaces K s : is_w K 32%N = false -> starts (N.eqb 32) s = false -> forall n, 0 < n ->
  finditer (string_re K) (repeat 32%N n ++ s) = [repeat 32%N n] ++ finditer (string_re K) s.
Proof.
  intros Hw Hs [|n] Hn; [lia|].
  assert (Hm : exists l, ms (string_re K) (repeat 32%N (S n) ++ s) = s :: l).
  { unfold string_re. cbn [repeat app]. rewrite alt_space_first by exact Hw. unfold spaces_re. rewrite plus_chr_cons.
    cbn [N.eqb Pos.eqb]. destruct (star_chr_first (N.eqb 32) (repeat 32%N n ++ s)) as [l ->]. exists l. f_equal.
    induction n as [|n IH]; cbn [repeat app span].
    - destruct s as [|c s]; [reflexivity|]. cbn [starts] in Hs. cbn [span]. rewrite Hs. reflexivity.
    - cbn [N.eqb Pos.eqb snd]. apply IH. lia. }
  destruct Hm as [l Hm]. apply (finditer_match _ _ _ l); [discriminate|exact Hm].
Qed.

(** the token made of a word *)
Inductive word_token (E : pycase) (K : charclass) (w : str) : token -> Prop :=
| wt_number : number_literal w -> word_token E K w (Number (lower E w))
| wt_identifier parts subs :
    ~ number_literal w -> List.concat parts = w -> Forall (fun p => p <> []) parts -> parts_ok K parts ->
    Forall2 (fun p s => (p = lit "_" /\ s = Underscore) \/ (p <> lit "_" /\ word_from E p = Ok s)) parts subs ->
    word_token E K w (if is_ascii w then SplitContainer subs else NonEng subs).

Definition char_token (c : N) : token :=
  if N.eqb c 10 then NewLine else if N.eqb c 9 then Tab else NonProc NpNonCodeChar [c].

(** the tokens made of a piece; [sp n]: of [n] spaces *)
Definition piece_tokens (E : pycase) (K : charclass) (sp : nat -> list token) (p : piece) (ts : list token) : Prop :=
  match p with
  | PWord w => exists t, ts = [t] /\ word_token E K w t
  | PChar c => ts = [char_token c]
  | PSpaces n => ts = sp n
  end.

Lemma fullmatch_plus p w : fullmatch (Plus (Chr p)) w = true <-> w <> [] /\ forallb p w = true.
Proof. rewrite fullmatch_lang by reflexivity. apply lang_plus_chr_inv. Qed.

Lemma number_has_word w : number_literal w -> exists c, In c w /\ is_digit c = true.
Proof.
  assert (Hd : forall s, digits is_digit s -> exists c, In c s /\ is_digit c = true).
  { intros [|c s] [H1 H2]; [congruence|]. exists c. cbn in H2. apply andb_true_iff in H2. split; [left; reflexivity|apply H2]. }
  assert (Hz : forall b, exists c, In c (lit "0" ++ b) /\ is_digit c = true).
  { intros b. exists 48%N. split; [left; reflexivity|reflexivity]. }
  destruct 1 as [body suf _ _|body suf _ _|body suf (gs & Hn & Hg & ->) _|whole frac ex suf Hw Hf Hne _ _|whole ex suf Hw _ _].
  - exact (Hz (lit "x" ++ body ++ suf)).
  - exact (Hz (lit "b" ++ body ++ suf)).
  - destruct gs as [|g gs]; [congruence|]. inversion Hg as [|? ? Hg1 Hg2]; subst.
    destruct (Hd g Hg1) as (c & H1 & H2). exists c. split; [|exact H2]. apply in_or_app. left.
    destruct gs; [exact H1|]. rewrite join_cons by discriminate. apply in_or_app. left. exact H1.
  - destruct Hne as [Hne|Hne].
    + destruct (Hd whole (conj Hne Hw)) as (c & H1 & H2). exists c. split; [apply in_or_app; left; exact H1|exact H2].
    + destruct (Hd frac (conj Hne Hf)) as (c & H1 & H2). exists c. split; [|exact H2].
      apply in_or_app. right. apply in_or_app. right. apply in_or_app. left. exact H1.
  - destruct (Hd whole Hw) as (c & H1 & H2). exists c. split; [apply in_or_app; left; exact H1|exact H2].
Qed.

Section Pieces.
  Variables (E : pycase) (K : charclass).
  Hypothesis HK : ascii_classes K.

  Lemma w_ascii c : (c < 128)%N -> is_w K c = ascii_word_ch c.
  Proof. intros H. apply HK, H. Qed.

  Lemma word_no_space w : forallb (is_w K) w = true -> ~ In 32%N w.
  Proof.
    intros H Hin. rewrite forallb_forall in H. specialize (H _ Hin). rewrite w_ascii in H by reflexivity. discriminate.
  Qed.

  Lemma parsed_word (w : str) t :
    w <> [] -> forallb (is_w K) w = true -> to_parsed_token E K w = Ok t -> word_token E K w t.
  Proof.
    intros Hne Hw. unfold to_parsed_token.
    assert (H10 : w <> s_nl).
    { intros ->. cbn in Hw. rewrite w_ascii in Hw by reflexivity. discriminate. }
    assert (H9 : w <> s_tab).
    { intros ->. cbn in Hw. rewrite w_ascii in Hw by reflexivity. discriminate. }
    destruct (eqb_spec w s_nl); [contradiction|]. destruct (eqb_spec w s_tab); [contradiction|].
    destruct (is_number w) eqn:Hn.
    - intros [= <-]. apply wt_number, C14_number_grammar, Hn.
    - replace (fullmatch (Plus (Chr (is_w K))) w) with true by (symmetry; apply fullmatch_plus; auto).
      intros H. unfold split_identifier in H. apply bind_ok in H. destruct H as (subs & Hm & [= <-]).
      destruct (identifier_parts K w (word_no_space w Hw)) as (H1 & H2 & H3).
      replace (if is_non_eng w then NonEng subs else SplitContainer subs)
        with (if is_ascii w then SplitContainer subs else NonEng subs) by (unfold is_non_eng; destruct (is_ascii w); reflexivity).
      apply (wt_identifier E K w (finditer (identifier_re K) w)); auto.
      + rewrite <- C14_number_grammar, Hn. discriminate.
      + clear -Hm. revert subs Hm. induction (finditer (identifier_re K) w) as [|p ps IH]; intros subs; cbn [mapM].
        * intros [= <-]. constructor.
        * rewrite bind_ok. intros (s & Hp & H). apply bind_ok in H. destruct H as (ss & Hss & [= <-]).
          constructor; [|apply IH, Hss]. destruct (eqb_spec p s_underscore) as [->|Hx].
          -- left. injection Hp as <-. split; reflexivity.
          -- right. split; [exact Hx|exact Hp].
  Qed.

  Lemma parsed_char c t : is_w K c = false -> to_parsed_token E K [c] = Ok t -> t = char_token c.
  Proof.
    intros Hw. unfold to_parsed_token, char_token.
    assert (Hs : forall n, eqb [c] [n] = N.eqb c n).
    { intros n. destruct (eqb_spec [c] [n]) as [[= ->]|H]; [symmetry; apply N.eqb_refl|].
      symmetry. apply N.eqb_neq. intros ->. congruence. }
    change s_nl with [10%N]. change s_tab with [9%N]. rewrite !Hs.
    destruct (N.eqb c 10); [intros [= <-]; reflexivity|]. destruct (N.eqb c 9); [intros [= <-]; reflexivity|].
    destruct (is_number [c]) eqn:Hn.
    - apply C14_number_grammar, number_has_word in Hn. destruct Hn as (d & [<-|[]] & Hd).
      assert (Hlt : (c < 128)%N).
      { unfold is_digit in Hd. apply andb_true_iff in Hd. destruct Hd as [_ Hd]. apply N.leb_le in Hd. lia. }
      rewrite w_ascii in Hw by exact Hlt. unfold ascii_word_ch in Hw. rewrite Hd in Hw. discriminate.
    - destruct (fullmatch (Plus (Chr (is_w K))) [c]) eqn:Hf.
      + apply fullmatch_plus in Hf. destruct Hf as [_ Hf]. cbn in Hf. rewrite Hw in Hf. discriminate.
      + intros [= <-]. reflexivity.
  Qed.

  Lemma mapM_repeat {A B} (f : A -> res B) a b n : f a = Ok b -> mapM f (repeat a n) = Ok (repeat b n).
  Proof. intros H. induction n as [|n IH]; [reflexivity|]. cbn [repeat mapM]. rewrite H, IH. reflexivity. Qed.

  Lemma mapM_pieces (f : str -> res token) (chunks : piece -> list str) sp ps toks :
    (forall w, chunks (PWord w) = [w]) -> (forall c, chunks (PChar c) = [[c]]) ->
    (forall n, 0 < n -> mapM f (chunks (PSpaces n)) = Ok (sp n)) ->
    (forall (s : str) t, ~ In 32%N s -> f s = Ok t -> to_parsed_token E K s = Ok t) ->
    Forall (piece_ok K) ps -> mapM f (List.concat (map chunks ps)) = Ok toks ->
    exists tss, Forall2 (piece_tokens E K sp) ps tss /\ toks = List.concat tss.
  Proof.
    intros Hcw Hcc Hsp Hf Hps. revert toks. induction Hps as [|p ps Hp Hps IH]; intros toks H.
    - injection H as <-. exists []. split; [constructor|reflexivity].
    - cbn [map List.concat] in H. rewrite mapM_app in H. apply bind_ok in H. destruct H as (ts & H1 & H).
      apply bind_ok in H. destruct H as (rest & H2 & [= <-]). destruct (IH rest H2) as (tss & H3 & ->).
      exists (ts :: tss). split; [|reflexivity]. constructor; [|exact H3]. destruct p as [w|c|n]; cbn [piece_tokens piece_ok] in *.
      + rewrite Hcw in H1. cbn [mapM] in H1. apply bind_ok in H1. destruct H1 as (t & H1 & H4). injection H4 as <-.
        exists t. split; [reflexivity|]. apply parsed_word; [apply Hp|apply Hp|]. apply Hf; [|exact H1]. apply word_no_space, Hp.
      + rewrite Hcc in H1. cbn [mapM] in H1. apply bind_ok in H1. destruct H1 as (t & H1 & H4). injection H4 as <-.
        f_equal. apply parsed_char; [apply Hp|]. apply Hf; [|exact H1]. intros [Hx|[]]. destruct Hp as [_ Hp]. contradiction.
      + rewrite Hsp in H1 by exact Hp. injection H1 as <-. reflexivity.
  Qed.
End Pieces.

Theorem C13_words :
  forall E K s toks, ascii_classes K -> split_into_words E K s = Ok toks ->
  exists ps tss, pieces K s ps /\
    Forall2 (piece_tokens E K (fun n => repeat Tab (n / 4))) ps tss /\ toks = List.concat tss.
Proof.
  intros E K s toks HK H. unfold split_into_words in H.
  assert (Hw32 : is_w K 32%N = false) by (rewrite (w_ascii K HK) by reflexivity; reflexivity).
  destruct (segment K (words_re K) words_chunks) with (s := s) as (ps & Hps & Hf).
  - intros c t Hc. apply alt_word_first, Hc.
  - intros c t Hc Hn. apply alt_char_first; assumption.
  - intros n t Ht _. apply words_spaces; assumption.
  - reflexivity.
  - reflexivity.
  - rewrite Hf in H. exists ps. eapply (mapM_pieces E K) with (sp := fun n => repeat Tab (n / 4)) in H.
    + destruct H as (tss & H1 & H2). exists tss. auto.
    + exact HK.
    + reflexivity.
    + reflexivity.
    + intros n _. cbn [words_chunks]. apply mapM_repeat. reflexivity.
    + intros u t Hu. destruct (eqb_spec u four_spaces) as [->|]; [|auto]. exfalso. apply Hu. left. reflexivity.
    + apply Hps.
Qed.
Print Assumptions C13_words.

Theorem C13_string :
  forall E K s toks, ascii_classes K -> split_string E K s = Ok toks ->
  exists ps tss, pieces K s ps /\
    Forall2 (piece_tokens E K (fun n => [SpaceInString n])) ps tss /\ toks = List.concat tss.
Proof.
  intros E K s toks HK H. unfold split_string in H.
  assert (Hw32 : is_w K 32%N = false) by (rewrite (w_ascii K HK) by reflexivity; reflexivity).
  destruct (segment K (string_re K) string_chunks) with (s := s) as (ps & Hps & Hf).
  - intros c t Hc. apply alt_word_first, Hc.
  - intros c t Hc Hn. apply alt_char_first; assumption.
  - intros n t Ht Hn. apply string_spaces; assumption.
  - reflexivity.
  - reflexivity.
  - exists ps. rewrite Hf in H.
    assert (Hsp : forall n, 0 < n -> fullmatch spaces_re (repeat 32%N n) = true).
    { intros n Hn. apply fullmatch_plus. split; [destruct n; [lia|discriminate]|]. clear. induction n; [reflexivity|exact IHn]. }
    eapply (mapM_pieces E K) with (sp := fun n => [SpaceInString n]) in H.
    + destruct H as (tss & H1 & H2). exists tss. auto.
    + exact HK.
    + reflexivity.
    + reflexivity.
    + intros n Hn. cbn [string_chunks mapM]. rewrite Hsp by exact Hn. rewrite repeat_length. reflexivity.
    + intros u t Hu. destruct (fullmatch spaces_re u) eqn:Hm; [|auto]. apply fullmatch_plus in Hm. destruct Hm as [Hne Ha].
      exfalso. destruct u as [|c u]; [congruence|]. cbn in Ha. apply Hu. left. destruct c as [|q]; [discriminate|].
      apply andb_true_iff in Ha. destruct Ha as [Ha _]. apply Pos.eqb_eq in Ha. subst q. reflexivity.
    + apply Hps.
Qed.
Print Assumptions C13_string.

(** the characters of the text, without spaces, are those of the pieces that are not runs of spaces *)
Theorem C13_nothing_lost :
  forall K s ps, ascii_classes K -> pieces K s ps ->
  filter not_space s = List.concat (map (fun p => match p with PSpaces _ => [] | _ => piece_text p end) ps).
Proof.
  intros K s ps HK (-> & Hok & _). induction Hok as [|p ps Hp Hok IH]; [reflexivity|].
  cbn [map List.concat]. rewrite filter_app, IH. f_equal. destruct p as [w|c|n]; cbn [piece_text piece_ok] in *.
  - destruct Hp as [_ Hw]. pose proof (word_no_space K HK w Hw) as Hs. clear -Hs. induction w as [|c w IH]; [reflexivity|].
    cbn [filter]. unfold not_space at 1. destruct (N.eqb_spec c 32) as [->|]; [exfalso; apply Hs; left; reflexivity|].
    cbn. f_equal. apply IH. intros H. apply Hs. right. exact H.
  - cbn [filter]. unfold not_space. destruct Hp as [_ Hp]. destruct (N.eqb_spec c 32); [contradiction|reflexivity].
  - clear. induction n as [|n IH]; [reflexivity|exact IH].
Qed.
Print Assumptions C13_nothing_lost.

(** the pieces of a text are determined by the text *)
Lemma span_whole (f : N -> bool) w rest : forallb f w = true -> match rest with [] => True | c :: _ => f c = false end -> span f (w ++ rest) = (w, rest).
Proof.
  induction w as [|c w IH]; cbn [app forallb]; intros Hw Hr.
  - destruct rest as [|c rest]; [reflexivity|]. cbn. rewrite Hr. reflexivity.
  - apply andb_true_iff in Hw. destruct Hw as [Hc Hw]. cbn [span]. rewrite Hc, (IH Hw Hr). reflexivity.
Qed.

Lemma separated_tail p ps : separated (p :: ps) -> separated ps.
Proof. destruct p, ps as [|[] ps]; cbn; tauto. Qed.

Lemma word_rest K w ps : ascii_classes K -> Forall (piece_ok K) ps -> separated (PWord w :: ps) ->
  match List.concat (map piece_text ps) with [] => True | c :: _ => is_w K c = false end.
Proof.
  intros HK Hok Hs. destruct ps as [|[w'|c|n] ps]; [exact I|destruct Hs|inversion Hok as [|? ? H _]; exact (proj1 H)|].
  inversion Hok as [|? ? H _]; subst. cbn in H. destruct n as [|n]; [lia|]. cbn. apply (w_ascii K HK). reflexivity.
Qed.
Lemma spaces_rest K n ps : ascii_classes K -> Forall (piece_ok K) ps -> separated (PSpaces n :: ps) ->
  match List.concat (map piece_text ps) with [] => True | c :: _ => N.eqb 32 c = false end.
Proof.
  intros HK Hok Hs. destruct ps as [|[w'|c|m] ps]; [exact I| | |destruct Hs]; inversion Hok as [|? ? H _]; subst; cbn [piece_ok map List.concat piece_text app] in H |- *.
  - destruct H as [Hne Hw]. destruct w' as [|c w']; [contradiction|]. cbn [forallb app] in Hw |- *. apply andb_true_iff in Hw. destruct Hw as [Hc _].
    apply N.eqb_neq. intros <-. rewrite (w_ascii K HK) in Hc by reflexivity. discriminate.
  - apply N.eqb_neq. destruct H as [_ H]. congruence.
Qed.

Theorem C13_unique : forall K s ps qs, ascii_classes K -> pieces K s ps -> pieces K s qs -> ps = qs.
Proof.
  intros K s ps qs HK (-> & Hp & Sp) (E & Hq & Sq). revert qs E Hq Sq. induction ps as [|p ps IH]; intros qs E Hq Sq.
  - destruct qs as [|q qs]; [reflexivity|]. exfalso. inversion Hq as [|? ? H _]; subst. cbn in E. symmetry in E. apply app_eq_nil in E. destruct E as [E _].
    destruct q as [w|c|n]; cbn in H, E; [destruct H; contradiction|discriminate|]. destruct n; [lia|discriminate].
  - destruct qs as [|q qs].
    { exfalso. inversion Hp as [|? ? H _]; subst. cbn in E. apply app_eq_nil in E. destruct E as [E _].
      destruct p as [w|c|n]; cbn in H, E; [destruct H; contradiction|discriminate|]. destruct n; [lia|discriminate]. }
    inversion Hp as [|? ? P1 P2]; subst. inversion Hq as [|? ? Q1 Q2]; subst. cbn [map List.concat] in E.
    assert (Hgoal : p = q /\ List.concat (map piece_text ps) = List.concat (map piece_text qs)).
    { assert (Hfirst : forall x rest, piece_ok K x -> exists c r, piece_text x ++ rest = c :: r /\
         match x with PWord _ => is_w K c = true | PChar d => c = d | PSpaces _ => c = 32%N end).
      { intros x rest Hx. destruct x as [w|c|n]; cbn in Hx.
        - destruct Hx as [Hne Hw]. destruct w as [|c w]; [contradiction|]. exists c, (w ++ rest). split; [reflexivity|]. cbn in Hw. apply andb_true_iff in Hw. apply Hw.
        - exists c, rest. split; reflexivity.
        - destruct n as [|n]; [lia|]. exists 32%N, (repeat 32%N n ++ rest). split; reflexivity. }
      assert (H32 : is_w K 32 = false) by (apply (w_ascii K HK); reflexivity).
      destruct (Hfirst p (List.concat (map piece_text ps)) P1) as (c & r & Ep & Cp).
      destruct (Hfirst q (List.concat (map piece_text qs)) Q1) as (c' & r' & Eq & Cq).
      rewrite Ep, Eq in E. injection E as -> ->. rewrite <- Ep in Eq. clear Ep Hfirst.
      destruct p as [w|d|n], q as [w'|d'|n']; cbn [piece_ok piece_text] in *; subst; try (destruct P1, Q1; congruence); try congruence.
      - pose proof (span_whole (is_w K) w' _ (proj2 Q1) (word_rest K w' qs HK Q2 Sq)) as H1.
        pose proof (span_whole (is_w K) w _ (proj2 P1) (word_rest K w ps HK P2 Sp)) as H2.
        rewrite Eq in H1. rewrite H1 in H2. injection H2 as -> ->. auto.
      - cbn in Eq. injection Eq as ->. auto.
      - assert (Hr : forall n, forallb (N.eqb 32) (repeat 32%N n) = true) by (induction n0; [reflexivity|assumption]).
        pose proof (span_whole (N.eqb 32) _ _ (Hr n') (spaces_rest K n' qs HK Q2 Sq)) as H1.
        pose proof (span_whole (N.eqb 32) _ _ (Hr n) (spaces_rest K n ps HK P2 Sp)) as H2.
        rewrite Eq in H1. rewrite H1 in H2. injection H2 as H2 ->. split; [|reflexivity]. f_equal.
        apply (f_equal (@length N)) in H2. rewrite !repeat_length in H2. auto. }
    destruct Hgoal as [-> Ht]. f_equal. apply IH; try assumption; eapply separated_tail; eassumption.
Qed.
Print Assumptions C13_unique.

Example C13_example :
  split_into_words ascii_case ascii_K (lit "a1:         0xFF") =
    Ok [SplitContainer [Word (lit "a") CapNone; Word (lit "1") CapUndefined]; NonProc NpNonCodeChar (lit ":"); Tab; Tab; Number (lit "0xff")] /\
  split_string ascii_case ascii_K (lit "a  b") =
    Ok [SplitContainer [Word (lit "a") CapNone]; SpaceInString 2; SplitContainer [Word (lit "b") CapNone]].
Proof. vm_compute. split; reflexivity. Qed.
