(** C57, C58: iterating over full tokens and over subtokens. *)
From Verif Require Import M_Base L_Base M_Iter M_Tokens M_Repr L_Repr M_BpeEncode M_PrepConfig P_Repr.
From Coq Require Import Arith.

Fixpoint nondecreasing (l : list nat) : Prop :=
  match l with a :: ((b :: _) as t) => a <= b /\ nondecreasing t | _ => True end.

(** boundaries for [n] subtokens: from 0 to [n] *)
Definition boundaries (n : nat) (bounds : list nat) : Prop :=
  exists rest, bounds = 0 :: rest /\ last bounds 0 = n.

Lemma validate_spec {A} (l : list A) bounds :
  (validate_word_boundaries l bounds = Ok tt <-> boundaries (length l) bounds) /\
  (validate_word_boundaries l bounds = Ok tt \/ validate_word_boundaries l bounds = Err ValueError).
Proof.
  unfold validate_word_boundaries, boundaries. destruct bounds as [|b bs].
  - split; [|right; reflexivity]. split; [discriminate|]. intros (r & H & _). discriminate.
  - destruct (Nat.eqb_spec (length l) (last (b :: bs) 0)) as [H1|H1]; cbn [negb].
    + destruct (Nat.eqb_spec b 0) as [H2|H2]; cbn [negb].
      * split; [|left; reflexivity]. split; [|reflexivity]. intros _. exists bs. subst b. split; [reflexivity|symmetry; exact H1].
      * split; [|right; reflexivity]. split; [discriminate|]. intros (r & [= -> ->] & _). congruence.
    + split; [|right; reflexivity]. split; [discriminate|]. intros (r & _ & H). symmetry in H. contradiction.
Qed.

(** invalid boundaries are rejected when the iterator is made *)
Theorem C57_invalid_rejected :
  forall A B (fmt : list A -> B) subs bounds, ~ boundaries (length subs) bounds ->
  full_tokens fmt subs bounds = Err ValueError /\ subtokens fmt subs bounds = Err ValueError.
Proof.
  intros A B fmt subs bounds H. unfold full_tokens, subtokens. destruct (validate_spec subs bounds) as [H1 [H2|H2]].
  - exfalso. apply H, H1, H2.
  - rewrite H2. split; reflexivity.
Qed.
Print Assumptions C57_invalid_rejected.

Lemma full_drain {A B} (fmt : list A -> B) subs bounds k :
  forall fuel cur, length bounds = cur + S k -> S k <= fuel ->
  drain (full_next fmt subs bounds) fuel cur =
  Ok (combine (seq cur k) (map fmt (slices (skipn cur bounds) subs))).
Proof.
  induction k as [|k IH]; intros [|fuel] cur Hl Hf; try lia; cbn [drain]; unfold full_next.
  - replace (length bounds - 1 <=? cur) with true by (symmetry; apply Nat.leb_le; lia). reflexivity.
  - replace (length bounds - 1 <=? cur) with false by (symmetry; apply Nat.leb_gt; lia).
    destruct (nth_error bounds cur) as [a|] eqn:Ha; [|apply nth_error_None in Ha; lia].
    destruct (nth_error bounds (cur + 1)) as [b|] eqn:Hb; [|apply nth_error_None in Hb; lia].
    cbn [bind]. rewrite IH by lia. cbn [bind]. f_equal.
    assert (Hs : skipn cur bounds = a :: b :: skipn (cur + 2) bounds).
    { clear -Ha Hb. revert cur Ha Hb. induction bounds as [|x l IHl]; intros [|cur] Ha Hb; try discriminate.
      - cbn in Ha, Hb. injection Ha as ->. destruct l as [|y l]; [discriminate|]. cbn in Hb. injection Hb as ->. reflexivity.
      - cbn in Ha, Hb |- *. apply IHl; assumption. }
    assert (Hs' : skipn (cur + 1) bounds = b :: skipn (cur + 2) bounds).
    { rewrite Nat.add_comm. replace (skipn (1 + cur) bounds) with (tl (skipn cur bounds)); [rewrite Hs; reflexivity|].
      clear. revert cur. induction bounds as [|x l IHl]; intros [|cur]; try reflexivity. cbn. exact (IHl cur). }
    rewrite Hs, Hs'. cbn [slices map seq combine]. rewrite Nat.add_1_r. reflexivity.
Qed.

Lemma slices_length {A} bounds (l : list A) : length (slices bounds l) = length bounds - 1.
Proof.
  induction bounds as [|a bounds IH]; [reflexivity|]. destruct bounds as [|b bounds]; [reflexivity|].
  cbn [slices length] in *. rewrite IH. lia.
Qed.

Lemma firstn_skipn_split {A} a b (l : list A) : a <= b -> firstn (b - a) (skipn a l) ++ skipn b l = skipn a l.
Proof.
  intros H. replace (skipn b l) with (skipn (b - a) (skipn a l)); [apply firstn_skipn|].
  replace b with (a + (b - a)) at 2 by lia. generalize (b - a) as k. clear. revert l.
  induction a as [|a IH]; intros l k; [reflexivity|]. destruct l as [|x l]; [destruct k; reflexivity|]. cbn. apply IH.
Qed.

Lemma slices_concat {A} (l : list A) bs a :
  nondecreasing (a :: bs) -> last (a :: bs) 0 = length l -> List.concat (slices (a :: bs) l) = skipn a l.
Proof.
  revert a. induction bs as [|b bs IH]; intros a H Hl.
  - cbn in Hl |- *. subst a. symmetry. apply skipn_all.
  - change (slices (a :: b :: bs) l) with (firstn (b - a) (skipn a l) :: slices (b :: bs) l). cbn [List.concat].
    destruct H as [Hab H]. rewrite (IH b H Hl). apply firstn_skipn_split, Hab.
Qed.

Theorem C57_full_tokens :
  forall A B (fmt : list A -> B) subs bounds,
  boundaries (length subs) bounds -> nondecreasing bounds ->
  exists tokens : list (list A),
    full_tokens fmt subs bounds = Ok (combine (seq 0 (length tokens)) (map fmt tokens)) /\
    List.concat tokens = subs /\ length tokens = length bounds - 1 /\
    (forall i t, nth_error tokens i = Some t ->
       exists a b, nth_error bounds i = Some a /\ nth_error bounds (S i) = Some b /\ t = firstn (b - a) (skipn a subs)).
Proof.
  intros A B fmt subs bounds Hb Hn. exists (slices bounds subs). pose proof Hb as (rest & -> & Hl).
  unfold full_tokens. rewrite (proj2 (proj1 (validate_spec subs (0 :: rest))) Hb). cbn [bind].
  split.
  { rewrite (full_drain fmt subs (0 :: rest) (length rest)) by (cbn; lia). rewrite slices_length. cbn [length].
    rewrite Nat.sub_succ, Nat.sub_0_r. reflexivity. }
  split; [rewrite (slices_concat subs rest 0 Hn Hl); reflexivity|]. split; [apply slices_length|].
  generalize (0 :: rest). intros bs. induction bs as [|a bs IH]; intros i t Hi; [destruct i; discriminate|].
  destruct bs as [|b bs]; [destruct i; discriminate|]. destruct i as [|i]; cbn [slices] in Hi.
  - injection Hi as <-. exists a, b. repeat split; reflexivity.
  - destruct (IH i t Hi) as (x & y & H1 & H2 & H3). exists x, y. auto.
Qed.
Print Assumptions C57_full_tokens.

(** Boundaries that go back are not rejected and subtokens are repeated. *)
Theorem C57_unordered_refuted :
  exists (subs : list nat) bounds l,
    boundaries (length subs) bounds /\ full_tokens (fun t => t) subs bounds = Ok l /\ List.concat (map snd l) <> subs.
Proof.
  exists [1; 2; 3], [0; 2; 1; 3]. eexists. split; [eexists; split; reflexivity|]. split; [reflexivity|]. discriminate.
Qed.
Print Assumptions C57_unordered_refuted.

(** ** C58 *)
Lemma drain_S {S T} (next : S -> res (option (T * S))) n s :
  drain next (Datatypes.S n) s = (r <- next s ;; match r with None => Ok [] | Some (x, s') => xs <- drain next n s' ;; Ok (x :: xs) end).
Proof. reflexivity. Qed.

Lemma nth_error_last {A} (l : list A) d : l <> [] -> nth_error l (length l - 1) = Some (last l d).
Proof.
  induction l as [|x l IH]; [congruence|]. intros _. destruct l as [|y l]; [reflexivity|].
  cbn [length]. replace (S (S (length l)) - 1) with (S (S (length l) - 1)) by lia. exact (IH ltac:(discriminate)).
Qed.

Lemma sub_drain_ok {A B} (fmt : list A -> B) subs bounds :
  boundaries (length subs) bounds ->
  forall k i f, i + k = length subs -> f < length bounds -> (f = length bounds - 1 -> length subs <= i) ->
  exists l, drain (sub_next fmt subs bounds) (S k) (i, f) = Ok l /\ map snd l = map (fun x => fmt [x]) (skipn i subs).
Proof.
  intros (rest & Hb0 & Hlast). induction k as [|k IH]; intros i f Hk Hlt Hend; rewrite drain_S; unfold sub_next at 1.
  - replace (length subs <=? i) with true by (symmetry; apply Nat.leb_le; lia). exists []. split; [reflexivity|].
    rewrite skipn_all2 by lia. reflexivity.
  - replace (length subs <=? i) with false by (symmetry; apply Nat.leb_gt; lia).
    destruct (nth_error subs i) as [x|] eqn:Hx; [|apply nth_error_None in Hx; lia].
    assert (Hf : f <> length bounds - 1) by (intros E; specialize (Hend E); lia).
    destruct (nth_error bounds (f + 1)) as [b|] eqn:Hb; [|apply nth_error_None in Hb; lia].
    cbn [bind]. destruct (IH (i + 1) (if (b =? i + 1) then f + 1 else f)) as (l & Hl & Hs).
    + lia.
    + destruct (b =? i + 1); lia.
    + destruct (Nat.eqb_spec b (i + 1)) as [->|Hne]; [|lia]. intros He.
      assert (Hla : nth_error bounds (f + 1) = Some (last bounds 0)).
      { rewrite He. apply nth_error_last. rewrite Hb0. discriminate. }
      rewrite Hb in Hla. injection Hla as Hla. lia.
    + exists ((f, fmt [x]) :: l). rewrite Hl. split; [reflexivity|]. cbn [map snd]. rewrite Hs.
      assert (Hsk : skipn i subs = x :: skipn (i + 1) subs).
      { clear -Hx. revert i Hx. induction subs as [|y l IH]; intros [|i] Hx; try discriminate.
        - injection Hx as ->. reflexivity.
        - cbn in Hx |- *. apply IH, Hx. }
      rewrite Hsk. reflexivity.
Qed.

(** every subtoken once, in order; no error for boundaries that passed validation *)
Theorem C58_all_subtokens :
  forall A B (fmt : list A -> B) subs bounds, boundaries (length subs) bounds ->
  exists l, subtokens fmt subs bounds = Ok l /\ map snd l = map (fun x => fmt [x]) subs.
Proof.
  intros A B fmt subs bounds Hb. unfold subtokens. rewrite (proj2 (proj1 (validate_spec subs bounds)) Hb). cbn [bind].
  destruct (sub_drain_ok fmt subs bounds Hb (length subs) 0 0) as (l & Hl & Hs).
  - reflexivity.
  - destruct Hb as (r & -> & _). cbn. lia.
  - destruct Hb as (r & -> & Hl). cbn [length]. intros H. destruct r; [cbn in Hl; lia|cbn in H; lia].
  - exists l. split; [exact Hl|exact Hs].
Qed.
Print Assumptions C58_all_subtokens.

(** with strictly increasing boundaries, as preprocessing produces them, the index is that of the full token *)
Lemma sub_drain_index {A B} (fmt : list A -> B) subs bounds :
  increasing bounds -> last bounds 0 = length subs ->
  forall k i f l a, i + k = length subs ->
  nth_error bounds f = Some a -> a <= i -> (forall b, nth_error bounds (f + 1) = Some b -> i < b) ->
  drain (sub_next fmt subs bounds) (S k) (i, f) = Ok l ->
  forall j p, nth_error l j = Some p ->
  exists x y, nth_error bounds (fst p) = Some x /\ nth_error bounds (fst p + 1) = Some y /\ x <= i + j < y.
Proof.
  intros Hinc Hlast. induction k as [|k IH]; intros i f l a Hk Ha Hai Hb H j p Hj.
  - rewrite drain_S in H. unfold sub_next at 1 in H. replace (length subs <=? i) with true in H by (symmetry; apply Nat.leb_le; lia).
    injection H as <-. destruct j; discriminate.
  - rewrite drain_S in H. unfold sub_next at 1 in H.
    replace (length subs <=? i) with false in H by (symmetry; apply Nat.leb_gt; lia).
    destruct (nth_error subs i) as [x|]; [|discriminate]. destruct (nth_error bounds (f + 1)) as [b|] eqn:Hnb; [|discriminate].
    cbn [bind] in H. apply bind_ok in H. destruct H as (l' & Hl & [= <-]). specialize (Hb b eq_refl). destruct j as [|j].
    + injection Hj as <-. cbn [fst]. exists a, b. split; [exact Ha|]. split; [exact Hnb|]. lia.
    + cbn in Hj. replace (i + S j) with ((i + 1) + j) by lia.
      destruct (Nat.eqb_spec b (i + 1)) as [->|Hne].
      * eapply (IH (i + 1) (f + 1) l' (i + 1)); [lia|exact Hnb|lia| |exact Hl|exact Hj].
        intros c Hc. clear -Hinc Hnb Hc.
        assert (Hgen : forall l n x y, increasing l -> nth_error l n = Some x -> nth_error l (n + 1) = Some y -> x < y).
        { clear. induction l as [|a l IH]; intros [|n] x y H Hx Hy; try discriminate.
          - destruct l as [|b l]; [discriminate|]. injection Hx as ->. injection Hy as ->. inversion H; subst; assumption.
          - destruct l as [|b l]; [destruct n; discriminate|]. eapply (IH n x y); [inversion H; subst; assumption|exact Hx|exact Hy]. }
        eapply Hgen; eassumption.
      * eapply (IH (i + 1) f l' a); [lia|exact Ha|lia| |exact Hl|exact Hj]. intros c Hc. rewrite Hnb in Hc. injection Hc as <-. lia.
Qed.

Theorem C58_right_full_token :
  forall A B (fmt : list A -> B) subs bounds l,
  boundaries (length subs) bounds -> increasing bounds -> subtokens fmt subs bounds = Ok l ->
  forall j p, nth_error l j = Some p ->
  exists x y, nth_error bounds (fst p) = Some x /\ nth_error bounds (fst p + 1) = Some y /\ x <= j < y.
Proof.
  intros A B fmt subs bounds l Hb Hinc H j p Hj. unfold subtokens in H.
  rewrite (proj2 (proj1 (validate_spec subs bounds)) Hb) in H. cbn [bind] in H. destruct Hb as (rest & -> & Hl).
  apply (sub_drain_index fmt subs (0 :: rest) Hinc Hl (length subs) 0 0 l 0) with (j := j) (p := p) in H; auto.
  intros b Hb. destruct rest as [|c rest]; [discriminate|]. injection Hb as <-. inversion Hinc; subst; assumption.
Qed.
Print Assumptions C58_right_full_token.

(** Repeated boundaries (an empty full token) pass validation, but then the reported index is wrong. *)
Theorem C58_repeated_refuted :
  exists (subs : list nat) bounds l j p,
    boundaries (length subs) bounds /\ nondecreasing bounds /\ subtokens (fun t => t) subs bounds = Ok l /\
    nth_error l j = Some p /\ ~ (nth (fst p) bounds 0 <= j < nth (fst p + 1) bounds 0).
Proof.
  exists [7; 8], [0; 1; 1; 2]. eexists. exists 1, (1, [8]). split; [eexists; split; reflexivity|].
  split; [cbn; lia|]. split; [reflexivity|]. split; [reflexivity|]. cbn. lia.
Qed.
Print Assumptions C58_repeated_refuted.

(** ** On the output of preprocessing *)
Lemma increasing_nondecreasing l : increasing l -> nondecreasing l.
Proof. induction 1 as [x|x y l Hxy _ IH]; [exact I|]. split; [lia|exact IH]. Qed.

Theorem C57_preprocessed :
  forall E o d b l out m,
  to_repr E o d b l = Ok (out, m) -> ~ In (Number []) (all_tokens l) ->
  exists tokens : list (list str),
    full_tokens (@List.concat N) out (wb m) = Ok (combine (seq 0 (length tokens)) (map (@List.concat N) tokens)) /\
    List.concat tokens = out /\ length tokens = length (types m) /\
    exists l', subtokens (hd []) out (wb m) = Ok l' /\ map snd l' = out /\
      forall j p, nth_error l' j = Some p ->
      exists x y, nth_error (wb m) (fst p) = Some x /\ nth_error (wb m) (fst p + 1) = Some y /\ x <= j < y.
Proof.
  intros E o d b l out m H Hn. destruct (C01_metadata_boundaries E o d b l out m H Hn) as (H0 & Hinc & Hl & Ht).
  assert (Hb : boundaries (length out) (wb m)).
  { destruct (wb m) as [|x w] eqn:Hw; [discriminate H0|]. cbn in H0. subst x. exists w. auto. }
  destruct (C57_full_tokens str str (@List.concat N) out (wb m) Hb (increasing_nondecreasing _ Hinc)) as (tokens & H1 & H2 & H3 & _).
  exists tokens. split; [exact H1|]. split; [exact H2|]. split; [lia|].
  destruct (C58_all_subtokens str str (hd []) out (wb m) Hb) as (l' & H4 & H5). exists l'. split; [exact H4|].
  split; [etransitivity; [exact H5|apply map_id]|]. apply (C58_right_full_token str str (hd []) out (wb m) l' Hb Hinc H4).
Qed.
Print Assumptions C57_preprocessed.

Example C57_example :
  boundaries 3 [0; 1; 3] /\ nondecreasing [0; 1; 3] /\
  full_tokens (@List.concat N) [lit "hi"; lit "the"; lit "re"] [0; 1; 3] = Ok [(0, lit "hi"); (1, lit "there")] /\
  subtokens (hd []) [lit "hi"; lit "the"; lit "re"] [0; 1; 3] = Ok [(0, lit "hi"); (1, lit "the"); (1, lit "re")].
Proof. split; [eexists; split; reflexivity|]. split; [cbn; lia|]. split; reflexivity. Qed.

(** the theorems on both iterators, used on these boundaries *)
Example C58_example :
  increasing [0; 1; 3] /\
  (exists l, subtokens (hd []) [lit "hi"; lit "the"; lit "re"] [0; 1; 3] = Ok l
    /\ map snd l = map (fun x => hd [] [x]) [lit "hi"; lit "the"; lit "re"]) /\
  forall l j p, subtokens (hd []) [lit "hi"; lit "the"; lit "re"] [0; 1; 3] = Ok l -> nth_error l j = Some p ->
  exists x y, nth_error [0; 1; 3] (fst p) = Some x /\ nth_error [0; 1; 3] (fst p + 1) = Some y /\ x <= j < y.
Proof.
  assert (B : boundaries (length [lit "hi"; lit "the"; lit "re"]) [0; 1; 3]) by (eexists; split; reflexivity).
  assert (I : increasing [0; 1; 3]) by (repeat constructor; lia).
  split; [exact I|]. split; [apply (C58_all_subtokens str str (hd []) _ _ B)|].
  intros l j p H. apply (C58_right_full_token str str (hd []) _ _ l B I H).
Qed.
