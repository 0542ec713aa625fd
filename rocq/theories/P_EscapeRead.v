(** C25: what texts with escapes are read as, whoever wrote them: hexadecimal digits in either case, octal escapes, short escapes. *)
From Coq Require Import List NArith Lia.
From Verif Require Import M_Base L_Base M_Literal L_Literal P_Escape.
Import ListNotations.

(** a hexadecimal digit, small or capital, and its value; an octal one *)
Definition hex_digit (c v : N) : Prop :=
  nth_error (lit "0123456789abcdef") (N.to_nat v) = Some c \/ nth_error (lit "0123456789ABCDEF") (N.to_nat v) = Some c.
Definition oct_digit (c v : N) : Prop := nth_error (lit "01234567") (N.to_nat v) = Some c.
(** the number with these digits, the first one being the highest *)
Fixpoint number (base : N) (digits : list N) : N :=
  match digits with [] => 0 | d :: ds => d * base ^ N.of_nat (length ds) + number base ds end.

(** what a piece of text stands for *)
Inductive piece : str -> str -> Prop :=
| plain_piece c : (c < 128)%N -> c <> 92%N -> piece [c] [c]
| short_piece e c : In (e, c) (combine (lit "bftnrva") [8; 12; 9; 10; 13; 11; 7]%N ++ [(92, 92); (39, 39); (34, 34)]%N) -> piece [92%N; e] [c]
| line_piece : piece [92; 10]%N []
| hex_piece k n ds vs : In (k, n) [(120%N, 2); (117%N, 4); (85%N, 8)] -> length ds = n -> Forall2 hex_digit ds vs ->
    (number 16 vs <= 1114111)%N -> piece (92%N :: k :: ds) [number 16 vs]
| oct_piece ds vs : length ds = 3 -> Forall2 oct_digit ds vs -> piece (92%N :: ds) [number 8 vs]
| other_piece c : (c < 128)%N -> ~ In c escape_starts -> piece [92%N; c] [92%N; c].

Lemma hex_digit_val c v : hex_digit c v -> hex_val c = Some v /\ (c < 128)%N.
Proof.
  intros H. assert (B : (N.to_nat v < 16)%nat).
  { destruct H as [H|H]; apply (f_equal (fun o => match o with Some _ => true | None => false end)) in H;
      (destruct (Nat.lt_ge_cases (N.to_nat v) 16) as [L|L]; [exact L|]); exfalso; revert H; rewrite (proj2 (nth_error_None _ _)); [discriminate|exact L|discriminate|exact L]. }
  assert (Q : exists m, v = N.of_nat m /\ (m < 16)%nat) by (exists (N.to_nat v); split; [lia|exact B]).
  destruct Q as (m & -> & Lm). unfold hex_digit in H. rewrite Nnat.Nat2N.id in H.
  do 16 (destruct m as [|m]; [destruct H as [H|H]; injection H as <-; split; reflexivity|]). lia.
Qed.
Lemma oct_digit_val c v : oct_digit c v -> oct_val c = Some v /\ (c < 128)%N.
Proof.
  intros H. assert (B : (N.to_nat v < 8)%nat).
  { apply (nth_error_Some (lit "01234567")). unfold oct_digit in H. rewrite H. discriminate. }
  assert (Q : exists m, v = N.of_nat m /\ (m < 8)%nat) by (exists (N.to_nat v); split; [lia|exact B]).
  destruct Q as (m & -> & Lm). unfold oct_digit in H. rewrite Nnat.Nat2N.id in H.
  do 8 (destruct m as [|m]; [injection H as <-; split; reflexivity|]). lia.
Qed.

Lemma hex_parse_number ds vs : Forall2 hex_digit ds vs -> forall acc,
  hex_parse acc ds = Some (acc * 16 ^ N.of_nat (length vs) + number 16 vs)%N.
Proof.
  induction 1 as [|d v ds vs Hd _ IH]; intros acc; cbn [hex_parse number length].
  - f_equal. cbn. lia.
  - rewrite (proj1 (hex_digit_val d v Hd)), IH. f_equal. rewrite Nnat.Nat2N.inj_succ, N.pow_succ_r'. lia.
Qed.

Lemma piece_ascii a b : piece a b -> Forall (fun c => c < 128)%N a.
Proof.
  intros H. destruct H as [c Hc _|e c He| |k n ds vs Hk _ Hd _|ds vs _ Hd|c Hc _].
  - repeat constructor. exact Hc.
  - assert (e < 128)%N by (cbn in He; intuition (try congruence); match goal with E : (_, _) = (e, c) |- _ => injection E as <- _ end; reflexivity).
    repeat constructor. assumption.
  - repeat constructor.
  - constructor; [reflexivity|]. constructor.
    + cbn in Hk. destruct Hk as [E|[E|[E|[]]]]; injection E as <- _; reflexivity.
    + clear -Hd. induction Hd as [|d v ds vs Hd _ IH]; constructor; [exact (proj2 (hex_digit_val d v Hd))|exact IH].
  - constructor; [reflexivity|]. clear -Hd. induction Hd as [|d v ds vs Hd _ IH]; constructor; [exact (proj2 (oct_digit_val d v Hd))|exact IH].
  - repeat constructor. exact Hc.
Qed.

Lemma read_x h1 h2 r : unescape_bytes (92%N :: 120%N :: h1 :: h2 :: r)
  = match hex_parse 0 [h1; h2] with Some v => emit v (unescape_bytes r) | None => Err UnicodeError end.
Proof. reflexivity. Qed.
Lemma read_u h1 h2 h3 h4 r : unescape_bytes (92%N :: 117%N :: h1 :: h2 :: h3 :: h4 :: r)
  = match hex_parse 0 [h1; h2; h3; h4] with Some v => emit v (unescape_bytes r) | None => Err UnicodeError end.
Proof. reflexivity. Qed.
Lemma read_U h1 h2 h3 h4 h5 h6 h7 h8 r : unescape_bytes (92%N :: 85%N :: h1 :: h2 :: h3 :: h4 :: h5 :: h6 :: h7 :: h8 :: r)
  = match hex_parse 0 [h1; h2; h3; h4; h5; h6; h7; h8] with
    | Some v => if (v <=? 1114111)%N then emit v (unescape_bytes r) else Err UnicodeError | None => Err UnicodeError end.
Proof. reflexivity. Qed.

Lemma piece_read a b r o : piece a b -> unescape_bytes r = Ok o -> unescape_bytes (a ++ r) = Ok (b ++ o).
Proof.
  intros H Hr. destruct H as [c _ Hc|e c He| |k n ds vs Hk Hl Hd Hm|ds vs Hl Hd|c _ Hc].
  - cbn [app unescape_bytes]. apply N.eqb_neq in Hc. rewrite Hc. cbn [negb]. rewrite Hr. reflexivity.
  - cbn in He. repeat (destruct He as [E|He]; [injection E as <- <-; cbn; rewrite Hr; reflexivity|]). destruct He.
  - cbn. exact Hr.
  - pose proof (hex_parse_number ds vs Hd 0) as P. rewrite N.mul_0_l, N.add_0_l in P.
    cbn in Hk. destruct Hk as [E|[E|[E|[]]]]; injection E as <- <-.
    + destruct ds as [|h1 [|h2 [|]]]; try discriminate Hl. cbn [app]. rewrite read_x, P, Hr. reflexivity.
    + destruct ds as [|h1 [|h2 [|h3 [|h4 [|]]]]]; try discriminate Hl. cbn [app]. rewrite read_u, P, Hr. reflexivity.
    + destruct ds as [|h1 [|h2 [|h3 [|h4 [|h5 [|h6 [|h7 [|h8 [|]]]]]]]]]; try discriminate Hl. cbn [app]. rewrite read_U, P.
      apply N.leb_le in Hm. rewrite Hm, Hr. reflexivity.
  - destruct ds as [|d1 [|d2 [|d3 [|]]]]; try discriminate Hl.
    inversion Hd as [|? v1 ? ? D1 Hd1]; subst. inversion Hd1 as [|? v2 ? ? D2 Hd2]; subst. inversion Hd2 as [|? v3 ? ? D3 Hd3]; subst. inversion Hd3; subst.
    destruct (oct_digit_val _ _ D1) as [V1 _], (oct_digit_val _ _ D2) as [V2 _], (oct_digit_val _ _ D3) as [V3 _].
    pose proof (oct_val_in _ _ V1) as I1.
    assert (Ne : forall x, existsb (N.eqb x) (lit "01234567") = false -> (d1 =? x)%N = false).
    { intros x Hx. apply N.eqb_neq. intros ->. assert (existsb (N.eqb x) (lit "01234567") = true); [|congruence].
      apply existsb_exists. exists x. split; [exact I1|apply N.eqb_refl]. }
    cbn [app unescape_bytes]. change (negb (92 =? 92)%N) with false. cbn iota. rewrite !Ne by reflexivity. cbn [orb]. rewrite V1, V2, V3, Hr.
    unfold emit. cbn [bind app number length]. do 2 f_equal. change (8 ^ N.of_nat 2)%N with 64%N. change (8 ^ N.of_nat 1)%N with 8%N. change (8 ^ N.of_nat 0)%N with 1%N. lia.
  - assert (T : forall x, existsb (N.eqb x) escape_starts = true -> (c =? x)%N = false).
    { intros x Hx. apply N.eqb_neq. intros ->. apply existsb_exists in Hx. destruct Hx as (y & Hy & Ey). apply N.eqb_eq in Ey. subst y. contradiction. }
    cbn [app unescape_bytes]. change (negb (92 =? 92)%N) with false. cbn iota. rewrite !T by reflexivity. cbn [orb].
    destruct (oct_val c) as [v|] eqn:O; [|rewrite Hr; reflexivity].
    destruct Hc. apply oct_val_in in O. unfold escape_starts. rewrite in_app_iff. right. cbn in O |- *. intuition auto.
Qed.

(** A text made of such pieces is read as what they stand for, one after the other. *)
Theorem C25_escapes : forall pieces meanings,
  Forall2 piece pieces meanings -> to_non_literal_str (List.concat pieces) = Ok (List.concat meanings).
Proof.
  intros ps ms H. unfold to_non_literal_str. rewrite utf8_ascii.
  - cbn [bind]. induction H as [|a b ps ms Hp _ IH]; [reflexivity|]. cbn [List.concat]. exact (piece_read a b _ _ Hp IH).
  - induction H as [|a b ps ms Hp _ IH]; [constructor|]. cbn [List.concat]. apply Forall_app. split; [exact (piece_ascii a b Hp)|exact IH].
Qed.
Print Assumptions C25_escapes.

(** a\x4Ab\u00e9\t\101 *)
Example C25_escapes_example :
  let pieces := [lit "a"; lit "\x4A"; lit "b"; lit "\u00e9"; lit "\t"; lit "\101"; lit "\d"] in
  let meanings := [lit "a"; lit "J"; lit "b"; [233%N]; [9%N]; lit "A"; lit "\d"] in
  Forall2 piece pieces meanings /\ to_non_literal_str (List.concat pieces) = Ok (List.concat meanings).
Proof.
  cbn zeta. match goal with |- ?P /\ _ => assert (H : P) end; [|split; [exact H|exact (C25_escapes _ _ H)]].
  constructor; [apply plain_piece; [reflexivity|discriminate]|].
  constructor; [apply (hex_piece 120 2 (lit "4A") [4; 10]%N); [cbn; auto|reflexivity|repeat constructor; (left; reflexivity) || (right; reflexivity)|discriminate]|].
  constructor; [apply plain_piece; [reflexivity|discriminate]|].
  constructor; [apply (hex_piece 117 4 (lit "00e9") [0; 0; 14; 9]%N); [cbn; auto|reflexivity|repeat constructor; left; reflexivity|discriminate]|].
  constructor; [apply short_piece; cbn; auto 20|].
  constructor; [apply (oct_piece (lit "101") [1; 0; 1]%N); [reflexivity|repeat constructor]|].
  constructor; [apply other_piece; [reflexivity|cbn; intuition discriminate]|]. constructor.
Qed.
