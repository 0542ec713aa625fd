(** Exact conditions for C26, C57 and C58. *)
From Verif Require Import M_Base L_Base M_Literal L_Literal M_Vocab L_Vocab P_Vocab P_Escape M_Tokens M_Repr L_Repr P_Repr M_Iter P_Iter.
From Coq Require Import Arith Lia.

(** ** C57 *)
Lemma slice_min {A} (l : list A) a b :
  firstn (b - a) (skipn a l) = firstn (Nat.min (length l) b - Nat.min (length l) a) (skipn (Nat.min (length l) a) l).
Proof.
  destruct (Nat.le_gt_cases a (length l)) as [Ha|Ha].
  - rewrite (Nat.min_r (length l) a) by exact Ha. destruct (Nat.le_gt_cases b (length l)) as [Hb|Hb].
    + rewrite (Nat.min_r (length l) b) by exact Hb. reflexivity.
    + rewrite (Nat.min_l (length l) b) by lia. rewrite !firstn_all2; [reflexivity|rewrite skipn_length; lia..].
  - rewrite (Nat.min_l (length l) a) by lia. rewrite !skipn_all2 by lia. rewrite !firstn_nil. reflexivity.
Qed.

Lemma slices_min {A} (l : list A) bs : slices bs l = slices (map (Nat.min (length l)) bs) l.
Proof.
  induction bs as [|a bs IH]; [reflexivity|]. destruct bs as [|b bs]; [reflexivity|]. cbn [map] in *.
  change (slices (a :: b :: bs) l) with (firstn (b - a) (skipn a l) :: slices (b :: bs) l). rewrite IH, (slice_min l a b). reflexivity.
Qed.

Lemma slices_count {A} (l : list A) bs a : Forall (fun x => x <= length l) (a :: bs) ->
  last (a :: bs) 0 <= length (List.concat (slices (a :: bs) l)) + a
  /\ (last (a :: bs) 0 = length (List.concat (slices (a :: bs) l)) + a -> nondecreasing (a :: bs)).
Proof.
  revert a. induction bs as [|b bs IH]; intros a F; [cbn; split; [lia|auto]|].
  change (slices (a :: b :: bs) l) with (firstn (b - a) (skipn a l) :: slices (b :: bs) l). cbn [List.concat].
  inversion F as [|? ? Ha F']; subst. inversion F' as [|? ? Hb _]; subst. destruct (IH b F') as [H1 H2].
  rewrite app_length, firstn_length, skipn_length. change (last (a :: b :: bs) 0) with (last (b :: bs) 0).
  split; [lia|]. intros E. split; [lia|]. apply H2. lia.
Qed.

(** For boundaries that pass validation, the full tokens are a partition of the subtokens exactly if the boundaries,
    cut off at the number of subtokens, do not decrease. *)
Theorem C57_exactly :
  forall A (subs : list A) bounds l,
  boundaries (length subs) bounds -> full_tokens (fun t => t) subs bounds = Ok l ->
  (List.concat (map snd l) = subs <-> nondecreasing (map (Nat.min (length subs)) bounds)).
Proof.
  intros A subs bounds l Hb H. pose proof Hb as (rest & E & Hl). unfold full_tokens in H.
  rewrite (proj2 (proj1 (validate_spec subs bounds)) Hb) in H. cbn [bind] in H.
  rewrite (full_drain (fun t => t) subs bounds (length rest)) in H by (rewrite E; cbn; lia). injection H as <-.
  rewrite map_id. cbn [skipn].
  assert (Es : map snd (combine (seq 0 (length rest)) (slices bounds subs)) = slices bounds subs).
  { assert (L : length (seq 0 (length rest)) = length (slices bounds subs)) by (rewrite seq_length, slices_length, E; cbn; lia).
    revert L. generalize (seq 0 (length rest)) as q. generalize (slices bounds subs) as x.
    induction x as [|y x IH]; intros [|z q] L; try discriminate; [reflexivity|]. cbn. f_equal. apply IH. cbn in L. lia. }
  unfold skipn. rewrite Es, slices_min.
  assert (Em : map (Nat.min (length subs)) bounds = 0 :: map (Nat.min (length subs)) rest) by (rewrite E; cbn [map]; rewrite Nat.min_0_r; reflexivity).
  assert (Lm : last (0 :: map (Nat.min (length subs)) rest) 0 = length subs).
  { rewrite <- Em. rewrite E in Hl |- *. clear -Hl. revert Hl. generalize 0 at 1 3 as a. induction rest as [|b rest IH]; intros a Hl.
    - cbn in Hl |- *. subst a. apply Nat.min_id.
    - exact (IH b Hl). }
  rewrite Em. split.
  - intros Hc. apply (slices_count subs).
    + constructor; [lia|]. apply Forall_forall. intros x Hx. apply in_map_iff in Hx. destruct Hx as (y & <- & _). apply Nat.le_min_l.
    + rewrite Lm. unfold str in *. rewrite Hc. lia.
  - intros Hn. rewrite (slices_concat subs _ 0 Hn Lm). reflexivity.
Qed.
Print Assumptions C57_exactly.

Example C57_exactly_example :
  full_tokens (fun t => t) [1; 2; 3] [0; 5; 4; 3] = Ok [(0, [1; 2; 3]); (1, []); (2, [])]
  /\ nondecreasing (map (Nat.min 3) [0; 5; 4; 3]) /\ ~ nondecreasing (map (Nat.min 3) [0; 2; 1; 3]).
Proof. split; [reflexivity|]. cbn. lia. Qed.

(** ** C58 *)
Definition repeated_only_at_end (n : nat) (bounds : list nat) : Prop :=
  forall i x, nth_error bounds i = Some x -> nth_error bounds (i + 1) = Some x -> x = n.

Lemma nondecreasing_nth l : nondecreasing l -> forall n x y, nth_error l n = Some x -> nth_error l (n + 1) = Some y -> x <= y.
Proof.
  induction l as [|a l IH]; intros H [|n] x y Hx Hy; try discriminate.
  - destruct l as [|b l]; [discriminate|]. injection Hx as ->. injection Hy as ->. apply H.
  - destruct l as [|b l]; [destruct n; discriminate|]. apply (IH (proj2 H) n x y Hx Hy).
Qed.
Lemma nondecreasing_le l : nondecreasing l -> forall d n x y, nth_error l n = Some x -> nth_error l (n + d) = Some y -> x <= y.
Proof.
  intros H. induction d as [|d IH]; intros n x y Hx Hy.
  - rewrite Nat.add_0_r in Hy. rewrite Hx in Hy. injection Hy as <-. lia.
  - assert (Hz : exists z, nth_error l (n + d) = Some z).
    { destruct (nth_error l (n + d)) as [z|] eqn:E; [eauto|]. apply nth_error_None in E.
      assert (C : nth_error l (n + S d) <> None) by congruence. apply nth_error_Some in C. lia. }
    destruct Hz as [z Hz]. specialize (IH n x z Hx Hz). replace (n + S d) with (n + d + 1) in Hy by lia.
    pose proof (nondecreasing_nth l H (n + d) z y Hz Hy). lia.
Qed.

Lemma sub_drain_right {A B} (fmt : list A -> B) subs bounds :
  nondecreasing bounds -> repeated_only_at_end (length subs) bounds ->
  forall k i f l a, i + k = length subs ->
  nth_error bounds f = Some a -> a <= i -> (k = 0 \/ forall b, nth_error bounds (f + 1) = Some b -> i < b) ->
  drain (sub_next fmt subs bounds) (S k) (i, f) = Ok l ->
  forall j p, nth_error l j = Some p ->
  exists x y, nth_error bounds (fst p) = Some x /\ nth_error bounds (fst p + 1) = Some y /\ x <= i + j < y.
Proof.
  intros Hnd Hrep. induction k as [|k IH]; intros i f l a Hk Ha Hai Hb H j p Hj.
  - rewrite drain_S in H. unfold sub_next at 1 in H. replace (length subs <=? i) with true in H by (symmetry; apply Nat.leb_le; lia).
    injection H as <-. destruct j; discriminate.
  - destruct Hb as [Hb|Hb]; [discriminate|]. rewrite drain_S in H. unfold sub_next at 1 in H.
    replace (length subs <=? i) with false in H by (symmetry; apply Nat.leb_gt; lia).
    destruct (nth_error subs i) as [x|]; [|discriminate]. destruct (nth_error bounds (f + 1)) as [b|] eqn:Hnb; [|discriminate].
    cbn [bind] in H. apply bind_ok in H. destruct H as (l' & Hl & [= <-]). specialize (Hb b eq_refl). destruct j as [|j].
    + injection Hj as <-. cbn [fst]. exists a, b. split; [exact Ha|]. split; [exact Hnb|]. lia.
    + cbn in Hj. replace (i + S j) with ((i + 1) + j) by lia.
      destruct (Nat.eqb_spec b (i + 1)) as [->|Hne].
      * eapply (IH (i + 1) (f + 1) l' (i + 1)); [lia|exact Hnb|lia| |exact Hl|exact Hj].
        destruct k as [|k]; [left; reflexivity|right]. intros c Hc.
        pose proof (nondecreasing_nth _ Hnd _ _ _ Hnb Hc). destruct (Nat.eq_dec c (i + 1)) as [->|]; [|lia].
        pose proof (Hrep _ _ Hnb Hc). lia.
      * eapply (IH (i + 1) f l' a); [lia|exact Ha|lia| |exact Hl|exact Hj]. right. intros c Hc. rewrite Hnb in Hc. injection Hc as <-. lia.
Qed.

(** the reported indices start at 0 and go up by at most one *)
Lemma sub_drain_next {A B} (fmt : list A -> B) subs bounds :
  forall n i f l, drain (sub_next fmt subs bounds) n (i, f) = Ok l ->
  (forall p, nth_error l 0 = Some p -> fst p = f)
  /\ forall j p q, nth_error l j = Some p -> nth_error l (j + 1) = Some q -> fst q <= fst p + 1.
Proof.
  induction n as [|n IH]; intros i f l H; [discriminate|]. rewrite drain_S in H. unfold sub_next at 1 in H.
  destruct (length subs <=? i); [injection H as <-; split; [discriminate|intros [|j]; discriminate]|].
  destruct (nth_error subs i) as [x|]; [|discriminate]. destruct (nth_error bounds (f + 1)) as [b|]; [|discriminate].
  cbn [bind] in H. apply bind_ok in H. destruct H as (l' & Hl & [= <-]). destruct (IH _ _ _ Hl) as [H1 H2].
  split; [intros p [= <-]; reflexivity|]. intros [|j] p q Hp Hq.
  - injection Hp as <-. cbn [fst]. cbn in Hq. rewrite (H1 q Hq). destruct (b =? i + 1); lia.
  - apply (H2 j p q Hp Hq).
Qed.

(** For boundaries that do not decrease, the reported full token is the right one for every subtoken exactly if no
    full token is empty, except for empty ones at the end. *)
Theorem C58_exactly :
  forall A B (fmt : list A -> B) subs bounds l,
  boundaries (length subs) bounds -> nondecreasing bounds -> subtokens fmt subs bounds = Ok l ->
  ((forall j p, nth_error l j = Some p ->
      exists x y, nth_error bounds (fst p) = Some x /\ nth_error bounds (fst p + 1) = Some y /\ x <= j < y)
   <-> repeated_only_at_end (length subs) bounds).
Proof.
  intros A B fmt subs bounds l Hb Hnd H.
  assert (Ll : length l = length subs).
  { destruct (C58_all_subtokens A B fmt subs bounds Hb) as (l' & H1 & H2). rewrite H in H1. injection H1 as <-.
    apply (f_equal (@length _)) in H2. rewrite !map_length in H2. exact H2. }
  unfold subtokens in H. rewrite (proj2 (proj1 (validate_spec subs bounds)) Hb) in H. cbn [bind] in H.
  pose proof Hb as (rest & E & Hl). split.
  - intros R i x Hi Hi1.
    assert (Hxn : x <= length subs).
    { rewrite <- Hl. assert (Hne : bounds <> []) by (rewrite E; discriminate). pose proof (nth_error_last bounds 0 Hne) as Hla.
      assert (C : nth_error bounds i <> None) by congruence. apply nth_error_Some in C.
      apply (nondecreasing_le bounds Hnd (length bounds - 1 - i) i); [exact Hi|]. replace (i + (length bounds - 1 - i)) with (length bounds - 1) by lia. exact Hla. }
    destruct (Nat.eq_dec x (length subs)) as [Ex|Ex]; [exact Ex|exfalso].
    destruct (sub_drain_next fmt subs bounds _ _ _ _ H) as [H0 H1].
    destruct (nth_error l x) as [p|] eqn:Hp; [|apply nth_error_None in Hp; lia].
    destruct (R x p Hp) as (u & v & Hu & Hv & Hr).
    assert (Hge : i + 1 <= fst p).
    { destruct (Nat.le_gt_cases (i + 1) (fst p)) as [G|G]; [exact G|].
      assert (v <= x); [|lia]. apply (nondecreasing_le bounds Hnd (i + 1 - (fst p + 1)) (fst p + 1)); [exact Hv|].
      replace (fst p + 1 + (i + 1 - (fst p + 1))) with (i + 1) by lia. exact Hi1. }
    destruct x as [|x].
    + rewrite (H0 p Hp) in Hge. lia.
    + destruct (nth_error l x) as [q|] eqn:Hq; [|apply nth_error_None in Hq; lia].
      destruct (R x q Hq) as (u' & v' & Hu' & Hv' & Hr').
      assert (Hqi : fst q < i).
      { destruct (Nat.lt_ge_cases (fst q) i) as [G|G]; [exact G|].
        assert (S x <= u'); [|lia]. apply (nondecreasing_le bounds Hnd (fst q - i) i); [exact Hi|].
        replace (i + (fst q - i)) with (fst q) by lia. exact Hu'. }
      specialize (H1 x q p Hq). rewrite Nat.add_1_r in H1. specialize (H1 Hp). lia.
  - intros Hrep j p Hj. subst bounds.
    apply (sub_drain_right fmt subs (0 :: rest) Hnd Hrep (length subs) 0 0 l 0) with (j := j) (p := p) in H; auto.
    destruct (length subs) as [|n] eqn:En; [left; reflexivity|right].
    intros b Hb1. destruct rest as [|c rest]; [discriminate|]. injection Hb1 as <-.
    destruct c as [|c]; [|lia]. assert (0 = S n) by (apply (Hrep 0 0); reflexivity). discriminate.
Qed.
Print Assumptions C58_exactly.

Example C58_exactly_example : repeated_only_at_end 2 [0; 1; 2; 2] /\ ~ repeated_only_at_end 2 [0; 0; 2]
  /\ subtokens (hd 0) [7; 8] [0; 1; 2; 2] = Ok [(0, 7); (1, 8)].
Proof.
  split; [|split; [|reflexivity]].
  - intros [|[|[|[|i]]]] x; try (cbn; congruence). destruct i; discriminate.
  - intros H. specialize (H 0 0 eq_refl eq_refl). discriminate.
Qed.

(** ** C26 *)
Lemma dset_keys (d : counts) w f : dkeys (dset d w f) = dkeys d ++ (match dget d w with None => [w] | Some _ => [] end).
Proof.
  unfold dkeys. induction d as [|[k v] d IH]; [reflexivity|]. cbn [dset dget map app]. destruct (eqb w k); cbn [map fst].
  - rewrite app_nil_r. reflexivity.
  - f_equal. exact IH.
Qed.

Lemma load_keys ls : forall (d r : counts), load_vocab_lines ls d = Ok r -> exists more, dkeys r = dkeys d ++ more /\ length more <= length ls.
Proof.
  induction ls as [|x ls IH]; intros d r H; cbn [load_vocab_lines] in H.
  - injection H as <-. exists []. rewrite app_nil_r. split; [reflexivity|cbn; lia].
  - apply bind_ok in H. destruct H as (d' & Hx & H). destruct (IH d' r H) as (more & E & L). rewrite E.
    unfold load_vocab_line in Hx. destruct (split_on tab x) as [|w [|f ?]]; try discriminate.
    apply bind_ok in Hx. destruct Hx as (v & _ & Hx). apply bind_ok in Hx. destruct Hx as (z & _ & [= <-]). rewrite dset_keys.
    exists ((match dget d v with None => [v] | Some _ => [] end) ++ more). rewrite <- app_assoc. split; [reflexivity|].
    rewrite app_length. cbn [length]. destruct (dget d v); cbn [length]; lia.
Qed.

Lemma load_line_word (w : str) f (d d' : counts) : no_char tab w -> load_vocab_line (vocab_line w f) d = Ok d' ->
  exists v, to_non_literal_str w = Ok v /\ d' = dset d v f.
Proof.
  intros Hw H. destruct (to_non_literal_str w) as [v|e] eqn:Ev.
  - rewrite (load_vocab_line_spec w v f d Hw Ev) in H. injection H as <-. eauto.
  - unfold load_vocab_line, vocab_line in H. rewrite split_on_app_sep in H. rewrite (split_on_no_char tab w Hw) in H.
    cbn [app removelast last] in H. rewrite (split_on_no_char tab (decZ f)) in H by (apply decZ_no_char; reflexivity).
    cbn in H. rewrite Ev in H. discriminate.
Qed.

(** Words that are not escaped before they are written, such as those of raw text files (cli/vocab.py): the file gives
    back the vocabulary exactly if no word has a backslash that begins an escape sequence. *)
Theorem C26_raw (l : list (str * Z)) : NoDup (map fst l) ->
  (forall w, In w (map fst l) -> Forall (fun c => c < 128)%N w /\ no_char tab w /\ no_char 10%N w /\ no_char 13%N w) ->
  (load_vocab_dict (dump_vocab_dict false l) = Ok l <-> Forall plain_text (map fst l)).
Proof.
  intros Hnd Hw.
  assert (Hp : forall w, In w (map fst l) -> (to_non_literal_str w = Ok w <-> plain_text w)).
  { intros w Hin. apply C25_unescaped, (Hw w Hin). }
  split.
  - intros H. unfold load_vocab_dict, dump_vocab_dict in H. rewrite file_lines_write in H.
    2,3: apply Forall_forall; intros x Hx; apply in_map_iff in Hx; destruct Hx as (y & <- & Hy);
         destruct (Hw (fst y) (in_map fst _ _ Hy)) as (_ & _ & H1 & H2); apply vocab_line_no_char; [assumption|discriminate|reflexivity].
    apply Forall_forall. intros w Hin. apply (Hp w Hin). clear Hp.
    assert (G : forall pre, NoDup (map fst (pre ++ l)) ->
              load_vocab_lines (map (fun wf => vocab_line (fst wf) (snd wf)) l) pre = Ok (pre ++ l) -> to_non_literal_str w = Ok w).
    { clear H Hnd. induction l as [|[x f] l' IH]; intros pre Hp H; [destruct Hin|]. cbn [map load_vocab_lines fst snd] in H.
      apply bind_ok in H. destruct H as (d' & Hx & H).
      destruct (Hw x (or_introl eq_refl)) as (_ & Ht & _). destruct (load_line_word x f pre d' Ht Hx) as (v & Hv & ->).
      destruct (load_keys _ _ _ H) as (more & E & L). rewrite dset_keys in E. unfold dkeys in E. rewrite map_app in E. cbn [map fst] in E.
      rewrite map_length in L. rewrite <- app_assoc in E. apply app_inv_head in E.
      destruct (dget (pre : counts) v) as [z|] eqn:Ed.
      - exfalso. cbn [app] in E. apply (f_equal (@length _)) in E. cbn [length] in E. rewrite map_length in E. lia.
      - cbn [app] in E. injection E as Ev _. subst v.
        destruct Hin as [Hin|Hin]; [subst w; exact Hv|].
        apply (IH (fun w Hi => Hw w (or_intror Hi)) Hin (pre ++ [(x, f)])).
        + rewrite <- app_assoc. exact Hp.
        + rewrite <- app_assoc. rewrite (dset_fresh (pre : counts) x f Ed) in H. exact H. }
    exact (G [] Hnd H).
  - intros F. apply (load_dump_gen (fun w => w)); [exact Hnd|]. intros w Hin. destruct (Hw w Hin) as (_ & H1 & H2 & H3).
    rewrite Forall_forall in F. repeat split; try assumption. apply (Hp w Hin), F, Hin.
Qed.
Print Assumptions C26_raw.

Example C26_raw_example :
  load_vocab_dict (dump_vocab_dict false [(lit "a\d", 2%Z); (lit "C:\q", 1%Z)]) = Ok [(lit "a\d", 2%Z); (lit "C:\q", 1%Z)]
  /\ load_vocab_dict (dump_vocab_dict false [(lit "a\\d", 2%Z)]) = Ok [(lit "a\d", 2%Z)].
Proof. split; reflexivity. Qed.
