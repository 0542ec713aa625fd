(** Lemmas on the unicode-escape codec and on text files. *)
From Verif Require Import M_Base L_Base M_Literal.
Local Open Scope N_scope.

Lemma hex_val_digit d : d < 16 -> hex_val (hex_digit d) = Some d.
Proof.
  intros Hd. unfold hex_digit, hex_val.
  destruct (N.ltb_spec d 10).
  - replace (48 <=? 48 + d) with true by (symmetry; apply N.leb_le; lia).
    replace (48 + d <=? 57) with true by (symmetry; apply N.leb_le; lia).
    cbn [andb]. f_equal. lia.
  - replace (87 + d <=? 57) with false by (symmetry; apply N.leb_gt; lia). rewrite andb_false_r.
    replace (97 <=? 87 + d) with true by (symmetry; apply N.leb_le; lia).
    replace (87 + d <=? 102) with true by (symmetry; apply N.leb_le; lia).
    cbn [andb]. f_equal. lia.
Qed.

Lemma hex_parse_app acc a b :
  hex_parse acc (a ++ b) = match hex_parse acc a with Some n => hex_parse n b | None => None end.
Proof.
  revert acc; induction a as [|c a IH]; intros acc; simpl; [reflexivity|].
  destruct (hex_val c); [apply IH|reflexivity].
Qed.

Lemma hex_parse_hex k n acc : hex_parse acc (hex k n) = Some (acc * 16 ^ N.of_nat k + n mod 16 ^ N.of_nat k).
Proof.
  revert n acc; induction k as [|k IH]; intros n acc.
  - simpl. rewrite N.mod_1_r. f_equal. lia.
  - cbn [hex]. rewrite hex_parse_app, IH. cbn [hex_parse].
    rewrite hex_val_digit by (apply N.mod_lt; lia).
    f_equal. rewrite Nnat.Nat2N.inj_succ, N.pow_succ_r by lia.
    rewrite N.mod_mul_r by (try apply N.pow_nonzero; lia). lia.
Qed.

Lemma hex_parse_hex_small k n : n < 16 ^ N.of_nat k -> hex_parse 0 (hex k n) = Some n.
Proof. intros Hn. rewrite hex_parse_hex, N.mod_small by exact Hn. f_equal; lia. Qed.

Lemma unescape_esc_char c t : c <= 1114111 ->
  unescape_bytes (esc_char c ++ t) = emit c (unescape_bytes t).
Proof.
  intros Hv. unfold esc_char.
  destruct (N.eqb_spec c 92) as [->|H92]; [reflexivity|].
  destruct (N.eqb_spec c 9) as [->|H9]; [reflexivity|].
  destruct (N.eqb_spec c 10) as [->|H10]; [reflexivity|].
  destruct (N.eqb_spec c 13) as [->|H13]; [reflexivity|].
  destruct ((32 <=? c) && (c <? 127)) eqn:Hp.
  { cbn [app unescape_bytes]. apply N.eqb_neq in H92. rewrite H92. reflexivity. }
  destruct (N.ltb_spec c 256) as [H256|H256].
  { assert (Hx : exists h1 h2, hex 2 c = [h1; h2]) by (cbn; eauto).
    destruct Hx as (h1 & h2 & Hx). rewrite Hx.
    pose proof (hex_parse_hex_small 2 c ltac:(cbn; lia)) as Hq. rewrite Hx in Hq.
    cbn -[hex_parse]. rewrite Hq. reflexivity. }
  destruct (N.ltb_spec c 65536) as [H65|H65].
  { assert (Hx : exists h1 h2 h3 h4, hex 4 c = [h1; h2; h3; h4]) by (cbn; repeat eexists).
    destruct Hx as (h1 & h2 & h3 & h4 & Hx). rewrite Hx.
    pose proof (hex_parse_hex_small 4 c ltac:(cbn; lia)) as Hq. rewrite Hx in Hq.
    cbn -[hex_parse]. rewrite Hq. reflexivity. }
  assert (Hx : exists h1 h2 h3 h4 h5 h6 h7 h8, hex 8 c = [h1; h2; h3; h4; h5; h6; h7; h8])
    by (cbn; repeat eexists).
  destruct Hx as (h1 & h2 & h3 & h4 & h5 & h6 & h7 & h8 & Hx). rewrite Hx.
  pose proof (hex_parse_hex_small 8 c ltac:(cbn; lia)) as Hq. rewrite Hx in Hq.
  cbn -[hex_parse N.leb]. rewrite Hq.
  replace (c <=? 1114111) with true by (symmetry; apply N.leb_le; exact Hv). reflexivity.
Qed.

Lemma unescape_literal s : valid_str s -> unescape_bytes (to_literal_str s) = Ok s.
Proof.
  unfold to_literal_str. induction 1 as [|c s Hc Hs IH]; [reflexivity|].
  cbn [map List.concat]. rewrite unescape_esc_char by exact Hc. rewrite IH. reflexivity.
Qed.

Definition printable (c : N) : Prop := 32 <= c < 127.

Lemma hex_digit_range d : d < 16 -> printable (hex_digit d).
Proof. unfold hex_digit, printable. intros. destruct (N.ltb_spec d 10); lia. Qed.

Lemma hex_printable k n : Forall printable (hex k n).
Proof.
  revert n; induction k as [|k IH]; intros n; simpl; [constructor|].
  apply Forall_app. split; [apply IH|]. constructor; [|constructor].
  apply hex_digit_range, N.mod_lt. lia.
Qed.

Lemma esc_char_printable c : Forall printable (esc_char c).
Proof.
  unfold esc_char, printable.
  destruct (N.eqb_spec c 92) as [->|H92]; [repeat constructor; lia|].
  destruct (N.eqb_spec c 9) as [->|H9]; [repeat constructor; lia|].
  destruct (N.eqb_spec c 10) as [->|H10]; [repeat constructor; lia|].
  destruct (N.eqb_spec c 13) as [->|H13]; [repeat constructor; lia|].
  destruct ((32 <=? c) && (c <? 127)) eqn:Hp.
  { apply andb_true_iff in Hp. destruct Hp as [Hp1 Hp2].
    apply N.leb_le in Hp1. apply N.ltb_lt in Hp2. repeat constructor; lia. }
  destruct (c <? 256); [|destruct (c <? 65536)];
    (constructor; [lia|constructor; [lia|apply hex_printable]]).
Qed.

Lemma literal_printable s : Forall printable (to_literal_str s).
Proof.
  unfold to_literal_str. induction s as [|c s IH]; simpl; [constructor|].
  apply Forall_app. split; [apply esc_char_printable|exact IH].
Qed.

Lemma literal_app a b : to_literal_str (a ++ b) = to_literal_str a ++ to_literal_str b.
Proof. unfold to_literal_str. rewrite map_app, concat_app. reflexivity. Qed.

Lemma literal_space : to_literal_str (lit " ") = lit " ".
Proof. reflexivity. Qed.

Lemma literal_join l : to_literal_str (join (lit " ") l) = join (lit " ") (map to_literal_str l).
Proof.
  induction l as [|x l IH]; [reflexivity|].
  destruct l as [|y l]; [reflexivity|].
  cbn [map]. rewrite !join_cons by congruence. rewrite !literal_app, IH. reflexivity.
Qed.

Lemma literal_no_char c s : ~ printable c -> no_char c (to_literal_str s).
Proof. intros Hc Hin. pose proof (literal_printable s) as Hf. rewrite Forall_forall in Hf. auto. Qed.

Lemma mapM_utf8_ascii s : Forall (fun c => c < 128) s -> mapM utf8_char s = Ok (map (fun c => [c]) s).
Proof.
  induction 1 as [|c s Hc Hs IH]; [reflexivity|]. cbn [mapM map].
  unfold utf8_char at 1. apply N.ltb_lt in Hc. rewrite Hc. cbn [bind]. rewrite IH. reflexivity.
Qed.

Lemma utf8_ascii s : Forall (fun c => c < 128) s -> utf8 s = Ok s.
Proof.
  intros Hs. unfold utf8. rewrite mapM_utf8_ascii by exact Hs. cbn [bind]. f_equal.
  clear Hs. induction s; simpl; congruence.
Qed.

Lemma printable_ascii s : Forall printable s -> Forall (fun c => c < 128) s.
Proof. apply Forall_impl. unfold printable. lia. Qed.

Lemma non_literal_literal s : valid_str s -> to_non_literal_str (to_literal_str s) = Ok s.
Proof.
  intros Hs. unfold to_non_literal_str.
  rewrite utf8_ascii by apply printable_ascii, literal_printable. cbn [bind]. apply unescape_literal, Hs.
Qed.

Lemma literal_inj a b : valid_str a -> valid_str b -> to_literal_str a = to_literal_str b -> a = b.
Proof.
  intros Ha Hb E. pose proof (unescape_literal a Ha) as H. rewrite E, unescape_literal in H by exact Hb. congruence.
Qed.

(** decoding of printable ascii appended to a literal, if it has no backslash *)
Lemma unescape_plain_app s p : valid_str s -> Forall printable p -> no_char 92 p ->
  unescape_bytes (to_literal_str s ++ p) = Ok (s ++ p).
Proof.
  intros Hs Hp Hn. induction Hs as [|c s Hc Hs IH].
  - cbn [to_literal_str map List.concat app].
    induction Hp as [|c p Hc Hp IHp]; [reflexivity|].
    cbn [unescape_bytes]. destruct (N.eqb_spec c 92) as [->|H92]; [exfalso; apply Hn; left; reflexivity|].
    cbn [negb]. rewrite IHp; [reflexivity|]. intros Hin; apply Hn; right; exact Hin.
  - unfold to_literal_str in *. cbn [map List.concat]. rewrite <- app_assoc, unescape_esc_char by exact Hc.
    rewrite IH. reflexivity.
Qed.

(** ** Files *)
Lemma univ_newlines_id s : no_char 13 s -> univ_newlines s = s.
Proof.
  unfold no_char. induction s as [|c s IH]; intros Hn; [reflexivity|].
  cbn [univ_newlines]. destruct (N.eqb_spec c 13) as [->|Hc]; [exfalso; apply Hn; left; reflexivity|].
  rewrite IH; [reflexivity|]. intros Hin. apply Hn. right. exact Hin.
Qed.

Lemma write_lines_no_cr ls : Forall (no_char 13) ls -> no_char 13 (write_lines ls).
Proof.
  unfold no_char, write_lines. induction 1 as [|l ls Hl Hls IH]; simpl; [intros []|].
  rewrite in_app_iff, in_app_iff. intros [[Hin|[E|[]]]|Hin]; [auto|discriminate|auto].
Qed.

Lemma split_write_lines ls : Forall (no_char 10) ls -> split_on 10 (write_lines ls) = ls ++ [[]].
Proof.
  unfold write_lines. induction 1 as [|l ls Hl Hls IH]; [reflexivity|].
  cbn [map List.concat]. rewrite <- app_assoc. cbn [app]. rewrite split_on_app_sep, IH.
  rewrite split_on_no_char by exact Hl. reflexivity.
Qed.

Lemma file_lines_write ls : Forall (no_char 10) ls -> Forall (no_char 13) ls -> file_lines (write_lines ls) = ls.
Proof.
  intros H10 H13. unfold file_lines.
  rewrite univ_newlines_id by (apply write_lines_no_cr; exact H13).
  rewrite split_write_lines by exact H10. rewrite last_last, removelast_last. reflexivity.
Qed.

Lemma printable_no_char c s : ~ printable c -> Forall printable s -> no_char c s.
Proof. intros Hc Hf Hin. rewrite Forall_forall in Hf. auto. Qed.

Lemma dec_char_printable s : Forall (fun c => dec_char c = true) s -> Forall printable s.
Proof.
  apply Forall_impl. unfold dec_char, is_digit, printable. intros c Hc.
  apply orb_true_iff in Hc. destruct Hc as [Hc|Hc].
  - apply andb_true_iff in Hc. rewrite !N.leb_le in Hc. lia.
  - apply N.eqb_eq in Hc. lia.
Qed.

Lemma decZ_printable z : Forall printable (decZ z).
Proof. apply dec_char_printable, decZ_chars. Qed.
