(** C37 once more: exactly which names of datasets are found again in the names of bpe directories. *)
From Coq Require Import List NArith ZArith Lia Bool.
From Verif Require Import M_Base L_Base M_Registry P_Registry.
Import ListNotations.

Lemma starts_with_longer p : forall x y, starts_with p x = true -> starts_with p (x ++ y) = true.
Proof.
  induction p as [|a p IH]; intros [|c x] y H; try reflexivity; try discriminate. cbn in *. apply andb_true_iff in H. destruct H as [-> H]. cbn. apply IH, H.
Qed.
Lemma contains_cons p c s : contains p (c :: s) = starts_with p (c :: s) || contains p s.
Proof. reflexivity. Qed.
Lemma bpe_dir_parts_cons c s : bpe_dir_parts (c :: s) =
  if starts_with (lit "_-_") (c :: s) then ([], c :: s) else (c :: fst (bpe_dir_parts s), snd (bpe_dir_parts s)).
Proof. reflexivity. Qed.

(** no separator before the one that is found *)
Lemma parts_first s : s = fst (bpe_dir_parts s) ++ snd (bpe_dir_parts s) /\
  contains (lit "_-_") (fst (bpe_dir_parts s) ++ firstn 1 (snd (bpe_dir_parts s))) = false.
Proof.
  induction s as [|c s [IH1 IH2]]; [split; reflexivity|]. rewrite bpe_dir_parts_cons.
  destruct (starts_with (lit "_-_") (c :: s)) eqn:H; cbn [fst snd].
  - split; [reflexivity|]. change (firstn 1 (c :: s)) with [c]. cbn [app]. rewrite contains_cons. change (lit "_-_") with [95%N; 45%N; 95%N].
    cbn. rewrite andb_false_r. reflexivity.
  - split; [cbn [app]; rewrite <- IH1; reflexivity|]. cbn [app]. rewrite contains_cons, IH2, orb_false_r.
    destruct (starts_with (lit "_-_") (c :: fst (bpe_dir_parts s) ++ firstn 1 (snd (bpe_dir_parts s)))) eqn:X; [|reflexivity].
    apply (starts_with_longer _ _ (skipn 1 (snd (bpe_dir_parts s)))) in X. cbn [app] in X.
    rewrite <- app_assoc, firstn_skipn, <- IH1 in X. congruence.
Qed.
Lemma parts_none s : contains (lit "_-_") s = false -> bpe_dir_parts s = (s, []).
Proof.
  induction s as [|c s IH]; intros H; [reflexivity|]. rewrite contains_cons in H. apply orb_false_iff in H. destruct H as [H1 H2].
  rewrite bpe_dir_parts_cons, H1, (IH H2). reflexivity.
Qed.

(** The dataset part of the name of a bpe directory is found again exactly if it has no separator, not even one that its end makes with the
    separator behind it; otherwise a proper beginning of it is found. *)
Theorem C37_separator_exact d c :
  let found := fst (bpe_dir_parts (bpe_dir_name d c)) in
  let clear := contains (lit "_-_") (if eqb (to_suffix c) [] then d else d ++ lit "_") = false in
  (found = d <-> clear) /\ (~ clear -> exists rest, rest <> [] /\ d = found ++ rest).
Proof.
  cbv zeta. set (s := if eqb (to_suffix c) [] then [] else lit "_-_" ++ to_suffix c).
  assert (En : bpe_dir_name d c = d ++ s).
  { unfold bpe_dir_name, s. destruct (eqb (to_suffix c) []); cbn [join app]; [rewrite app_nil_r; reflexivity|reflexivity]. }
  assert (Ef : (if eqb (to_suffix c) [] then d else d ++ lit "_") = d ++ firstn 1 s).
  { unfold s. destruct (eqb (to_suffix c) []); cbn [firstn app]; [rewrite app_nil_r; reflexivity|reflexivity]. }
  rewrite En, Ef. destruct (parts_first (d ++ s)) as [H1 H2].
  assert (Iff : fst (bpe_dir_parts (d ++ s)) = d <-> contains (lit "_-_") (d ++ firstn 1 s) = false).
  { split.
    - intros E. rewrite E in H1, H2. apply app_inv_head in H1. rewrite <- H1 in H2. exact H2.
    - intros Hc. unfold s in *. destruct (eqb (to_suffix c) []).
      + cbn [firstn] in Hc. rewrite app_nil_r in *. rewrite (parts_none d Hc). reflexivity.
      + rewrite (bpe_dir_parts_app d (lit "_-_" ++ to_suffix c)); [reflexivity|exact Hc|right; eexists; reflexivity]. }
  split; [exact Iff|]. intros Hn.
  destruct (bpe_dir_parts (d ++ s)) as [a b] eqn:Ep. cbn [fst snd] in *.
  assert (L : length a < length d).
  { destruct (Nat.lt_ge_cases (length a) (length d)) as [L|L]; [exact L|]. exfalso. apply Hn.
    assert (P : exists x, a = d ++ x).
    { exists (skipn (length d) a). rewrite <- (firstn_skipn (length d) a) at 1. f_equal.
      assert (F : firstn (length d) (d ++ s) = firstn (length d) (a ++ b)) by (rewrite H1; reflexivity).
      rewrite firstn_app, Nat.sub_diag, firstn_all, firstn_O, app_nil_r in F. rewrite firstn_app in F.
      replace (length d - length a) with 0 in F by lia. rewrite firstn_O, app_nil_r in F. symmetry. exact F. }
    destruct P as (x & ->). rewrite <- app_assoc in H1. apply app_inv_head in H1.
    assert (Q : exists y, (d ++ x) ++ firstn 1 b = (d ++ firstn 1 s) ++ y).
    { rewrite H1. destruct x as [|e x]; [exists []; cbn [app]; rewrite !app_nil_r; reflexivity|].
      exists (x ++ firstn 1 b). cbn [app firstn]. rewrite <- !app_assoc. reflexivity. }
    destruct Q as (y & Q). rewrite Q in H2. clear -H2. revert H2. generalize (d ++ firstn 1 s) as u. intros u.
    induction u as [|e u IH]; intros H; [reflexivity|]. cbn [app] in H. rewrite contains_cons in *. apply orb_false_iff in H. destruct H as [Ha Hb].
    rewrite (IH Hb), orb_false_r. destruct (starts_with (lit "_-_") (e :: u)) eqn:X; [|reflexivity].
    apply (starts_with_longer _ _ y) in X. cbn [app] in X. congruence. }
  exists (skipn (length a) d). split.
  - intros X. apply (f_equal (@length N)) in X. rewrite skipn_length in X. cbn in X. lia.
  - rewrite <- (firstn_skipn (length a) d) at 1. f_equal.
    assert (F : firstn (length a) (d ++ s) = firstn (length a) (a ++ b)) by (rewrite H1; reflexivity).
    rewrite !firstn_app, Nat.sub_diag, firstn_all, firstn_O, app_nil_r in F.
    replace (length a - length d) with 0 in F by lia. rewrite firstn_O, app_nil_r in F. exact F.
Qed.
Print Assumptions C37_separator_exact.

Example C37_separator_example :
  let c := {| bc_case := lit "yes"; bc_word_end := true; bc_base := lit "code"; bc_unicode := lit "yes" |} in
  fst (bpe_dir_parts (bpe_dir_name (lit "web_-x") c)) = lit "web_-x" /\
  fst (bpe_dir_parts (bpe_dir_name (lit "web_-") c)) = lit "web" /\ fst (bpe_dir_parts (bpe_dir_name (lit "a_-_b") c)) = lit "a".
Proof. vm_compute. auto. Qed.
