(** Lemmas about dictionaries of counts, sorting and grouping. *)
From Verif Require Import M_Base L_Base M_Literal M_Tokens M_Learn L_Learn M_Vocab.
From Coq Require Import Lia Permutation.

(** ** counts *)
Lemma counter_get_dset (d : counts) k v w :
  counter_get (dset d k v) w = if eqb w k then v else counter_get d w.
Proof. unfold counter_get. rewrite dget_dset. destruct (eqb w k); reflexivity. Qed.

Lemma counter_get_nil w : counter_get [] w = 0%Z.
Proof. reflexivity. Qed.

Definition merge_step (r : counts * list str) (kv : str * Z) : counts * list str :=
  let '(d, new) := r in let '(k, v) := kv in
  match dget d k with
  | None => (dset d k v, new ++ [k])
  | Some x => (dset d k (x + v)%Z, new)
  end.
Lemma merge_dicts_fold d1 d2 : merge_dicts d1 d2 = fold_left merge_step d2 (d1, []).
Proof. reflexivity. Qed.

Lemma merge_fold_spec d2 : NoDup (dkeys d2) -> forall r, NoDup (dkeys (fst r)) ->
  let r' := fold_left merge_step d2 r in
  NoDup (dkeys (fst r'))
  /\ (forall w, counter_get (fst r') w = (counter_get (fst r) w + counter_get d2 w)%Z)
  /\ (forall w, In w (dkeys (fst r')) <-> In w (dkeys (fst r)) \/ In w (dkeys d2))
  /\ snd r' = snd r ++ filter (fun k => negb (mem k (dkeys (fst r)))) (dkeys d2).
Proof.
  induction d2 as [|[k v] d2 IH]; intros Hd r Hr; cbn [fold_left].
  - cbn zeta. split; [exact Hr|]. split; [intros w; rewrite counter_get_nil, Z.add_0_r; reflexivity|]. split; [intros w; cbn; tauto|].
    cbn [filter dkeys map]. rewrite app_nil_r. reflexivity.
  - cbn [dkeys map fst] in Hd. fold (dkeys d2) in Hd. inversion Hd as [|? ? Hk Hd2]; subst.
    destruct r as [d new]. cbn [fst snd] in *.
    assert (S : exists x, merge_step (d, new) (k, v) = (dset d k x, if mem k (dkeys d) then new else new ++ [k])
                          /\ x = (counter_get d k + v)%Z).
    { unfold merge_step, counter_get. destruct (dget d k) as [x|] eqn:E.
      - exists (x + v)%Z. split; [|reflexivity]. apply dget_some_key in E. apply mem_in in E. rewrite E. reflexivity.
      - exists v. split; [|lia]. apply dget_none in E. apply mem_not_in in E. rewrite E. reflexivity. }
    destruct S as (x & -> & Hx).
    destruct (IH Hd2 (dset d k x, if mem k (dkeys d) then new else new ++ [k])) as (H1 & H2 & H3 & H4).
    { apply dset_nodup. exact Hr. }
    cbn [fst snd] in *. split; [exact H1|]. split; [|split].
    + intros w. rewrite H2, counter_get_dset. unfold counter_get at 4. cbn [dget].
      destruct (eqb_spec w k) as [->|N].
      * assert (Z0 : counter_get d2 k = 0%Z).
        { unfold counter_get. apply dget_none in Hk. rewrite Hk. reflexivity. }
        rewrite Z0, Hx. lia.
      * reflexivity.
    + intros w. rewrite H3, in_dkeys_dset. cbn [dkeys map fst In]. fold (dkeys d2). intuition congruence.
    + rewrite H4. cbn [dkeys map fst filter]. fold (dkeys d2).
      assert (F : filter (fun k0 => negb (mem k0 (dkeys (dset d k x)))) (dkeys d2)
                  = filter (fun k0 => negb (mem k0 (dkeys d))) (dkeys d2)).
      { apply filter_ext_in. intros a Ha. f_equal.
        destruct (mem a (dkeys d)) eqn:M.
        - apply mem_in. apply in_dkeys_dset. right. apply mem_in. exact M.
        - apply mem_not_in. rewrite in_dkeys_dset. apply mem_not_in in M. intros [->|C]; [exact (Hk Ha)|exact (M C)]. }
      rewrite F. destruct (mem k (dkeys d)); cbn [negb]; [reflexivity|]. rewrite <- app_assoc. reflexivity.
Qed.

Lemma merge_dicts_spec d1 d2 : NoDup (dkeys d1) -> NoDup (dkeys d2) ->
  NoDup (dkeys (fst (merge_dicts d1 d2)))
  /\ (forall w, counter_get (fst (merge_dicts d1 d2)) w = (counter_get d1 w + counter_get d2 w)%Z)
  /\ (forall w, In w (dkeys (fst (merge_dicts d1 d2))) <-> In w (dkeys d1) \/ In w (dkeys d2))
  /\ snd (merge_dicts d1 d2) = filter (fun k => negb (mem k (dkeys d1))) (dkeys d2).
Proof.
  intros H1 H2. rewrite merge_dicts_fold. exact (merge_fold_spec d2 H2 (d1, []) H1).
Qed.

(** ** sorting *)
Lemma insert_desc_perm x l : Permutation (insert_desc x l) (x :: l).
Proof.
  induction l as [|y l IH]; cbn [insert_desc]; [reflexivity|]. destruct (snd x <=? snd y)%Z; [|reflexivity].
  rewrite IH. apply perm_swap.
Qed.

Lemma sort_desc_perm_from d : forall l, Permutation (fold_left (fun l x => insert_desc x l) d l) (d ++ l).
Proof.
  induction d as [|x d IH]; intros l; cbn [fold_left app]; [reflexivity|].
  rewrite IH, insert_desc_perm. symmetry. apply Permutation_middle.
Qed.
Lemma sort_desc_perm d : Permutation (sort_desc d) d.
Proof. unfold sort_desc. rewrite sort_desc_perm_from, app_nil_r. reflexivity. Qed.

(** each element is at least as frequent as those after it *)
Inductive descending : list (str * Z) -> Prop :=
| desc_nil : descending []
| desc_cons x l : (forall y, In y l -> (snd y <= snd x)%Z) -> descending l -> descending (x :: l).

Lemma insert_desc_sorted x l : descending l -> descending (insert_desc x l).
Proof.
  induction 1 as [|y l Hy Hl IH]; cbn [insert_desc].
  - constructor; [intros y []|constructor].
  - destruct (Z.leb_spec (snd x) (snd y)) as [L|L].
    + constructor; [|exact IH]. intros z Hz. apply (Permutation_in _ (insert_desc_perm x l)) in Hz.
      destruct Hz as [->|Hz]; [exact L|auto].
    + constructor; [|constructor; assumption]. intros z [->|Hz]; [lia|]. specialize (Hy z Hz). lia.
Qed.
Lemma sort_desc_sorted d : descending (sort_desc d).
Proof.
  unfold sort_desc. assert (G : forall l, descending l -> descending (fold_left (fun l x => insert_desc x l) d l)).
  { induction d as [|x d IH]; intros l Hl; cbn [fold_left]; [exact Hl|]. apply IH, insert_desc_sorted, Hl. }
  apply G. constructor.
Qed.

(** equally frequent elements keep their order *)
Lemma insert_desc_stable f x l : descending l ->
  filter (fun y => Z.eqb (snd y) f) (insert_desc x l)
  = filter (fun y => Z.eqb (snd y) f) l ++ (if Z.eqb (snd x) f then [x] else []).
Proof.
  induction 1 as [|y l Hy Hl IH]; cbn [insert_desc filter]; [destruct (Z.eqb (snd x) f); reflexivity|].
  destruct (Z.leb_spec (snd x) (snd y)) as [L|L]; cbn [filter].
  - rewrite IH. destruct (Z.eqb (snd y) f); reflexivity.
  - destruct (Z.eqb_spec (snd x) f) as [E|E].
    + assert (F : filter (fun z => Z.eqb (snd z) f) (y :: l) = []).
      { assert (G : forall z, In z (y :: l) -> Z.eqb (snd z) f = false).
        { intros z [->|Hz]; apply Z.eqb_neq; [lia|]. specialize (Hy z Hz). lia. }
        revert G. generalize (y :: l). intros q G. induction q as [|z q IHq]; cbn [filter]; [reflexivity|].
        rewrite (G z (or_introl eq_refl)). apply IHq. intros w Hw. apply G. right. exact Hw. }
      cbn [filter] in F. rewrite F. reflexivity.
    + rewrite app_nil_r. reflexivity.
Qed.
Lemma sort_desc_stable f d :
  filter (fun y => Z.eqb (snd y) f) (sort_desc d) = filter (fun y => Z.eqb (snd y) f) d.
Proof.
  unfold sort_desc.
  assert (G : forall l, descending l -> filter (fun y => Z.eqb (snd y) f) (fold_left (fun l x => insert_desc x l) d l)
     = filter (fun y => Z.eqb (snd y) f) l ++ filter (fun y => Z.eqb (snd y) f) d).
  { induction d as [|x d IH]; intros l Hl; cbn [fold_left]; [cbn [filter]; rewrite app_nil_r; reflexivity|].
    rewrite IH by (apply insert_desc_sorted, Hl). rewrite insert_desc_stable by exact Hl. rewrite <- app_assoc.
    cbn [filter]. destruct (Z.eqb (snd x) f); reflexivity. }
  exact (G [] desc_nil).
Qed.

(** ** words *)
Lemma counter_get_dincr (d : counts) w n q :
  counter_get (dincr d w n) q = (counter_get d q + if eqb q w then n else 0)%Z.
Proof. unfold counter_get. rewrite dget_dincr. destruct (eqb_spec q w) as [->|N]; destruct (dget d _); lia. Qed.

Definition str_dec (a b : str) : {a = b} + {a <> b} := Eqb_dec a b.
Definition zcount (w : str) (ws : list str) : Z := Z.of_nat (count_occ str_dec ws w).
Lemma zcount_app w a b : zcount w (a ++ b) = (zcount w a + zcount w b)%Z.
Proof. unfold zcount. rewrite count_occ_app. lia. Qed.

Lemma count_words_spec ws : forall d w, counter_get (count_words ws d) w = (counter_get d w + zcount w ws)%Z.
Proof.
  induction ws as [|x ws IH]; intros d w; [cbn; unfold zcount; cbn; lia|].
  change (count_words (x :: ws) d) with (count_words ws (dincr d x 1%Z)).
  rewrite IH, counter_get_dincr. unfold zcount. cbn [count_occ].
  destruct (eqb_spec w x) as [E|E].
  - destruct (str_dec x w) as [_|N]; [|congruence]. lia.
  - destruct (str_dec x w) as [Y|_]; [congruence|]. lia.
Qed.
Lemma count_words_nodup ws : forall d, NoDup (dkeys d) -> NoDup (dkeys (count_words ws d)).
Proof.
  induction ws as [|x ws IH]; intros d Hd; [exact Hd|].
  change (count_words (x :: ws) d) with (count_words ws (dincr d x 1%Z)). apply IH, dset_nodup, Hd.
Qed.
Lemma count_words_keys ws : forall d w, In w (dkeys (count_words ws d)) <-> In w (dkeys d) \/ In w ws.
Proof.
  induction ws as [|x ws IH]; intros d w; [cbn; tauto|].
  change (count_words (x :: ws) d) with (count_words ws (dincr d x 1%Z)). rewrite IH.
  unfold dincr. rewrite in_dkeys_dset. cbn [In]. intuition congruence.
Qed.

(** the words of a corpus, independently of dictionaries *)
Definition file_tokens (f : str) : list str := flat_map (split_on space) (file_lines f).
Definition corpus_tokens (files : list str) : list str := flat_map file_tokens files.

Lemma count_words_app a b d : count_words (a ++ b) d = count_words b (count_words a d).
Proof. unfold count_words. apply fold_left_app. Qed.

Lemma get_vocab_tokens files : get_vocab files = count_words (corpus_tokens files) [].
Proof.
  unfold get_vocab. generalize (@nil (str * Z)) as d. induction files as [|f fs IH]; intros d; cbn [fold_left]; [reflexivity|].
  cbn [corpus_tokens flat_map]. fold (corpus_tokens fs). rewrite count_words_app, <- IH. f_equal.
  unfold file_tokens. generalize (file_lines f) as ls. intros ls. revert d. clear.
  induction ls as [|l ls IH]; intros d; cbn [fold_left flat_map]; [reflexivity|].
  rewrite count_words_app, IH. reflexivity.
Qed.
