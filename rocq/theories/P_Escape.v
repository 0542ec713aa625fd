(** C25: reading of texts that were written without escaping. *)
From Verif Require Import M_Base L_Base M_Literal L_Literal.
From Coq Require Import NArith.

(** the characters that make an escape of a backslash before them: newline, backslash, quotes, letters, digits *)
Definition escape_starts : list N := [10; 92; 39; 34]%N ++ lit "bftnrva01234567xuUN".
Definition plain_text (s : str) : Prop :=
  forall a b, s = a ++ 92%N :: b -> exists c b', b = c :: b' /\ ~ In c escape_starts.

Lemma oct_val_in e v : oct_val e = Some v -> In e (lit "01234567").
Proof.
  unfold oct_val. destruct (N.leb_spec 48 e) as [H|]; [|discriminate]. destruct (N.leb_spec e 55) as [L|]; [|discriminate]. intros _.
  assert (Q : (e = 48 \/ e = 49 \/ e = 50 \/ e = 51 \/ e = 52 \/ e = 53 \/ e = 54 \/ e = 55)%N) by lia.
  repeat (destruct Q as [->|Q]; [cbn; auto 20|]). subst e. cbn. auto 20.
Qed.
Lemma oct_val_none e : oct_val e = None -> ~ In e (lit "01234567").
Proof. intros H I. cbn in I. repeat (destruct I as [<-|I]; [discriminate H|]). exact I. Qed.

Lemma backslash_read e r out : (forall x o, (length x <= length r)%nat -> unescape_bytes x = Ok o -> length o <= length x) ->
  unescape_bytes (92%N :: e :: r) = Ok out ->
  (In e escape_starts /\ length out <= S (length r))
  \/ (~ In e escape_starts /\ exists o, unescape_bytes r = Ok o /\ out = 92%N :: e :: o).
Proof.
  intros IH H. cbn [unescape_bytes] in H. change (negb (92 =? 92)%N) with false in H. cbn iota in H.
  assert (Ex : forall x r' o, emit x (unescape_bytes r') = Ok o -> length r' <= length r -> length o <= S (length r)).
  { intros x r' o Ho Hr. unfold emit in Ho. apply bind_ok in Ho. destruct Ho as (o' & Ho' & Eo). injection Eo as <-. cbn [length].
    apply IH in Ho'; lia. }
  assert (Ins : forall x, existsb (N.eqb x) escape_starts = true -> In x escape_starts).
  { intros x Hx. apply existsb_exists in Hx. destruct Hx as (y & Hy & Ey). apply N.eqb_eq in Ey. subst y. exact Hy. }
  destruct (N.eqb_spec e 10) as [->|N1]; [left; split; [left; reflexivity|apply IH in H; lia]|].
  destruct (N.eqb_spec e 92) as [->|N2]; [left; split; [apply Ins; reflexivity|exact (Ex _ _ _ H (le_n _))]|].
  destruct (N.eqb_spec e 39) as [->|N3]; [left; split; [apply Ins; reflexivity|exact (Ex _ _ _ H (le_n _))]|].
  destruct (N.eqb_spec e 34) as [->|N4]; [left; split; [apply Ins; reflexivity|exact (Ex _ _ _ H (le_n _))]|].
  cbn [orb] in H.
  destruct (N.eqb_spec e 98) as [->|N5]; [left; split; [apply Ins; reflexivity|exact (Ex _ _ _ H (le_n _))]|].
  destruct (N.eqb_spec e 102) as [->|N6]; [left; split; [apply Ins; reflexivity|exact (Ex _ _ _ H (le_n _))]|].
  destruct (N.eqb_spec e 116) as [->|N7]; [left; split; [apply Ins; reflexivity|exact (Ex _ _ _ H (le_n _))]|].
  destruct (N.eqb_spec e 110) as [->|N8]; [left; split; [apply Ins; reflexivity|exact (Ex _ _ _ H (le_n _))]|].
  destruct (N.eqb_spec e 114) as [->|N9]; [left; split; [apply Ins; reflexivity|exact (Ex _ _ _ H (le_n _))]|].
  destruct (N.eqb_spec e 118) as [->|N10]; [left; split; [apply Ins; reflexivity|exact (Ex _ _ _ H (le_n _))]|].
  destruct (N.eqb_spec e 97) as [->|N11]; [left; split; [apply Ins; reflexivity|exact (Ex _ _ _ H (le_n _))]|].
  destruct (oct_val e) as [v1|] eqn:O1.
  { apply oct_val_in in O1. left. split; [unfold escape_starts; rewrite in_app_iff; right; cbn in O1 |- *; intuition auto|].
    destruct r as [|o2 r2]; [exact (Ex _ _ _ H (le_n _))|]. destruct (oct_val o2); [|exact (Ex _ _ _ H (le_n _))].
    destruct r2 as [|o3 r3]; [eapply Ex; [exact H|cbn [length]; lia]|].
    destruct (oct_val o3); (eapply Ex; [exact H|cbn [length]; lia]). }
  apply oct_val_none in O1.
  destruct (N.eqb_spec e 120) as [->|N12].
  { left. split; [apply Ins; reflexivity|]. destruct r as [|h1 [|h2 r']]; [discriminate..|].
    destruct (hex_parse 0 [h1; h2]); [|discriminate]. eapply Ex; [exact H|cbn [length]; lia]. }
  destruct (N.eqb_spec e 117) as [->|N13].
  { left. split; [apply Ins; reflexivity|]. destruct r as [|h1 [|h2 [|h3 [|h4 r']]]]; [discriminate..|].
    destruct (hex_parse 0 [h1; h2; h3; h4]); [|discriminate]. eapply Ex; [exact H|cbn [length]; lia]. }
  destruct (N.eqb_spec e 85) as [->|N14].
  { left. split; [apply Ins; reflexivity|]. destruct r as [|h1 [|h2 [|h3 [|h4 [|h5 [|h6 [|h7 [|h8 r']]]]]]]]; [discriminate..|].
    destruct (hex_parse 0 [h1; h2; h3; h4; h5; h6; h7; h8]) as [v|]; [|discriminate].
    destruct (v <=? 1114111)%N; [|discriminate]. eapply Ex; [exact H|cbn [length]; lia]. }
  destruct (N.eqb_spec e 78) as [->|N15]; [discriminate|].
  right. split.
  - unfold escape_starts. rewrite in_app_iff. cbn in O1 |- *. intuition congruence.
  - unfold emit in H. apply bind_ok in H. destruct H as (o & Ho & E). apply bind_ok in Ho. destruct Ho as (o' & Ho' & E').
    injection E as <-. injection E' as <-. eauto.
Qed.

Lemma unescape_len n : forall s out, length s <= n -> unescape_bytes s = Ok out -> length out <= length s.
Proof.
  induction n as [|n IH]; intros s out Hn H.
  - destruct s; [|cbn in Hn; lia]. injection H as <-. constructor.
  - destruct s as [|c t]; [injection H as <-; constructor|]. cbn [length] in *.
    destruct (N.eqb_spec c 92) as [->|Nc].
    + destruct t as [|e r]; [discriminate|]. cbn [length] in *.
      destruct (backslash_read e r out) as [[_ L]|(_ & o & Ho & ->)]; [|exact H|lia|].
      * intros x o Hx. apply IH. lia.
      * apply IH in Ho; [|lia]. cbn [length]. lia.
    + cbn [unescape_bytes] in H. apply N.eqb_neq in Nc. rewrite Nc in H. cbn [negb] in H. unfold emit in H. apply bind_ok in H.
      destruct H as (o & Ho & E). injection E as <-. apply IH in Ho; [|lia]. cbn [length]. lia.
Qed.

Lemma plain_cons c s : plain_text (c :: s) -> c <> 92%N -> plain_text s.
Proof. intros H Hc a b ->. apply (H (c :: a) b). reflexivity. Qed.

(** A text in ASCII that was written without escaping is read as it is exactly if no backslash in it begins an
    escape. *)
Theorem C25_unescaped : forall s : str, Forall (fun c => c < 128)%N s ->
  (to_non_literal_str s = Ok s <-> plain_text s).
Proof.
  intros s Ha. unfold to_non_literal_str. rewrite utf8_ascii by exact Ha. cbn [bind]. clear Ha.
  remember (length s) as n eqn:En. assert (Hn : length s <= n) by lia. clear En. revert s Hn.
  induction n as [|n IH]; intros s Hn.
  { destruct s; [|cbn in Hn; lia]. split; [intros _ a b E; destruct a; discriminate|reflexivity]. }
  destruct s as [|c t]; [split; [intros _ a b E; destruct a; discriminate|reflexivity]|]. cbn [length] in Hn.
  destruct (N.eqb_spec c 92) as [->|Nc].
  - destruct t as [|e r].
    { split; [discriminate|]. intros P. destruct (P [] []) as (x & y & E & _); [reflexivity|discriminate]. }
    cbn [length] in Hn. split.
    + intros H. destruct (backslash_read e r _ (fun x o _ => unescape_len _ x o (le_n _)) H) as [[_ L]|(Ne & o & Ho & E)].
      * cbn [length] in L. lia.
      * injection E as <-. apply IH in Ho; [|lia]. intros a b Es. destruct a as [|x a].
        { injection Es as <-. eauto. }
        injection Es as <- Es. destruct a as [|y a].
        { injection Es as -> _. destruct Ne. right. left. reflexivity. }
        injection Es as <- Es. exact (Ho a b Es).
    + intros P. destruct (P [] (e :: r)) as (c & b' & E & Ne); [reflexivity|]. injection E as <- <-.
      assert (Pr : unescape_bytes r = Ok r).
      { apply IH; [lia|]. intros a b ->. apply (P (92%N :: e :: a) b). reflexivity. }
      assert (T : forall x, In x escape_starts -> (e =? x)%N = false) by (intros x Hx; apply N.eqb_neq; congruence).
      assert (Ins : forall x, existsb (N.eqb x) escape_starts = true -> In x escape_starts).
      { intros x Hx. apply existsb_exists in Hx. destruct Hx as (y & Hy & Ey). apply N.eqb_eq in Ey. subst y. exact Hy. }
      cbn [unescape_bytes]. change (negb (92 =? 92)%N) with false. cbn iota.
      rewrite !T by (apply Ins; reflexivity). cbn [orb].
      destruct (oct_val e) as [v|] eqn:O; [|rewrite Pr; reflexivity].
      destruct Ne. apply oct_val_in in O. unfold escape_starts. rewrite in_app_iff. right. cbn in O |- *. intuition auto.
  - cbn [unescape_bytes]. apply N.eqb_neq in Nc as Nb. rewrite Nb. cbn [negb]. unfold emit. rewrite bind_ok. split.
    + intros (o & Ho & E). injection E as ->. apply IH in Ho; [|lia]. intros a b Es. destruct a as [|x a]; [injection Es as -> _; contradiction|].
      injection Es as <- Es. exact (Ho a b Es).
    + intros P. exists t. split; [apply IH; [lia|eapply plain_cons; eassumption]|reflexivity].
Qed.
Print Assumptions C25_unescaped.
Example C25_unescaped_example :
  to_non_literal_str (lit "a\8\d") = Ok (lit "a\8\d") /\ plain_text (lit "a\8\d") /\ to_non_literal_str (lit "\101\x41") = Ok (lit "AA").
Proof.
  split; [reflexivity|]. split; [|reflexivity]. apply C25_unescaped; [|reflexivity].
  repeat (constructor; [reflexivity|]). constructor.
Qed.
