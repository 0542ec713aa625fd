(** C21 once more: merge lists as sequences, and pairs that are appended twice. *)
From Coq Require Import List NArith ZArith Lia.
From Verif Require Import M_Base L_Base M_Literal M_Merge L_Merge P_Merge M_MergeItem.
Import ListNotations.

Lemma merge_eqb_spec a b : merge_eqb a b = true <-> a = b.
Proof.
  destruct a as [p f k], b as [p' f' k']. unfold merge_eqb. cbn [m_pair m_freq m_priority]. rewrite !andb_true_iff, Nat.eqb_eq. split.
  - intros [[H1 ->] H3]. destruct (eqb_spec p p') as [->|]; [|discriminate]. destruct f as [x|], f' as [y|]; try discriminate; [|reflexivity].
    cbn in H3. apply Z.eqb_eq in H3. subst y. reflexivity.
  - intros [= -> -> ->]. rewrite eqb_refl. repeat split. destruct f'; [apply Z.eqb_refl|reflexivity].
Qed.
Lemma list_eqb_spec {A} (f : A -> A -> bool) : (forall x y, f x y = true <-> x = y) -> forall a b, list_eqb f a b = true <-> a = b.
Proof.
  intros Hf. induction a as [|x a IH]; intros [|y b]; cbn [list_eqb]; try (split; [discriminate|discriminate]); [tauto|].
  rewrite andb_true_iff, Hf, IH. split; [intros [-> ->]; reflexivity|intros [= -> ->]; auto].
Qed.

(** the merges with their places, counted from [k] *)
Fixpoint placed (k : nat) (l : list (pair * option Z)) : list merge :=
  match l with [] => [] | (p, f) :: t => {| m_pair := p; m_freq := f; m_priority := k |} :: placed (S k) t end.
Lemma placed_length l : forall k, length (placed k l) = length l.
Proof. induction l as [|[p f] l IH]; intros k; [reflexivity|]. cbn [placed length]. rewrite IH. reflexivity. Qed.
Lemma placed_nth l : forall k i, nth_error (placed k l) i = option_map (fun e => {| m_pair := fst e; m_freq := snd e; m_priority := k + i |}) (nth_error l i).
Proof.
  induction l as [|[p f] l IH]; intros k [|i]; try reflexivity.
  - cbn [placed nth_error option_map fst snd]. rewrite Nat.add_0_r. reflexivity.
  - cbn [placed nth_error]. rewrite IH. destruct (nth_error l i); [|reflexivity]. cbn [option_map]. do 2 f_equal. lia.
Qed.
Lemma placed_inj l : forall k l', placed k l = placed k l' -> l = l'.
Proof.
  induction l as [|[p f] l IH]; intros k [|[p' f'] l'] H; try reflexivity; try discriminate. cbn [placed] in H. injection H as -> -> H.
  f_equal. exact (IH _ _ H).
Qed.
Lemma iter_placed l ml : built l ml -> NoDup (map fst l) -> ml_iter ml = placed 0 l.
Proof.
  intros Hb Hn. destruct (C21_merge_list_ordered l ml Hb Hn) as (E & P & _). revert E P. generalize (ml_iter ml) as ms, 0. clear.
  induction l as [|[p f] l IH]; intros ms k E P; destruct ms as [|[q g r] ms]; try discriminate; [reflexivity|].
  cbn [map m_pair m_freq] in E. injection E as -> -> E. cbn [map m_priority length seq] in P. injection P as -> P. cbn [placed]. f_equal. apply IH; assumption.
Qed.
Lemma py_item_in {A} (l : list A) k : k < length l -> py_item l (Z.of_nat k) = of_option IndexError (nth_error l k).
Proof. intros L. unfold py_item. destruct (Z.ltb_spec (Z.of_nat k) 0); [lia|]. cbn zeta. rewrite Nat2Z.id. destruct (Z.ltb_spec (Z.of_nat k) 0); [lia|reflexivity]. Qed.

(** Merges that were appended, with distinct pairs: items count from both ends, anything else is an IndexError; a slice is a part of
    what was appended; two lists are equal exactly if the same pairs and counts were appended in the same order. *)
Theorem C21_items l ml : built l ml -> NoDup (map fst l) ->
  ml_len ml = length l /\
  (forall k p f, nth_error l k = Some (p, f) -> ml_item ml (Z.of_nat k) = Ok {| m_pair := p; m_freq := f; m_priority := k |}
     /\ ml_item ml (Z.of_nat k - Z.of_nat (length l)) = Ok {| m_pair := p; m_freq := f; m_priority := k |}) /\
  (forall i, (i < - Z.of_nat (length l) \/ Z.of_nat (length l) <= i)%Z -> ml_item ml i = Err IndexError) /\
  (forall a b, a <= b <= length l -> exists ms, ml_slice ml (Some (Z.of_nat a)) (Some (Z.of_nat b)) = ms /\
     map (fun m => (m_pair m, m_freq m)) ms = firstn (b - a) (skipn a l) /\ map m_priority ms = seq a (b - a)) /\
  (forall b, 0 < b <= length l -> ml_slice ml None (Some (- Z.of_nat b)%Z) = ml_slice ml (Some 0%Z) (Some (Z.of_nat (length l - b)))).
Proof.
  intros Hb Hn. pose proof (iter_placed l ml Hb Hn) as It. assert (Ln : length (ml_iter ml) = length l) by (rewrite It; apply placed_length).
  assert (Nt : forall k p f, nth_error l k = Some (p, f) -> nth_error (ml_iter ml) k = Some {| m_pair := p; m_freq := f; m_priority := k |}).
  { intros k p f E. rewrite It, placed_nth, E. reflexivity. }
  split; [|split; [|split; [|split]]].
  - unfold ml_len. rewrite <- Ln. unfold ml_iter, dvals. rewrite map_length. reflexivity.
  - intros k p f E. assert (K : k < length l) by (apply nth_error_Some; congruence). unfold ml_item. split.
    + rewrite py_item_in by lia. rewrite (Nt k p f E). reflexivity.
    + unfold py_item. rewrite Ln. destruct (Z.ltb_spec (Z.of_nat k - Z.of_nat (length l)) 0); [|lia].
      replace (Z.of_nat k - Z.of_nat (length l) + Z.of_nat (length l))%Z with (Z.of_nat k) by lia. cbn zeta. rewrite Nat2Z.id.
      destruct (Z.ltb_spec (Z.of_nat k) 0); [lia|]. rewrite (Nt k p f E). reflexivity.
  - intros i H. unfold ml_item, py_item. rewrite Ln. destruct (Z.ltb_spec i 0); cbn zeta.
    + destruct (Z.ltb_spec (i + Z.of_nat (length l)) 0); [reflexivity|lia].
    + destruct (Z.ltb_spec i 0); [lia|]. replace (nth_error (ml_iter ml) (Z.to_nat i)) with (@None merge); [reflexivity|].
      symmetry. apply nth_error_None. lia.
  - intros a b H. eexists. split; [reflexivity|]. unfold ml_slice, py_slice, py_bound. rewrite Ln.
    destruct (Z.ltb_spec (Z.of_nat a) 0); [lia|]. destruct (Z.ltb_spec (Z.of_nat b) 0); [lia|]. cbn zeta. rewrite !Nat2Z.id.
    destruct (Z.ltb_spec (Z.of_nat a) 0); [lia|]. destruct (Z.ltb_spec (Z.of_nat b) 0); [lia|]. rewrite !Nat.min_l by lia.
    destruct (C21_merge_list_ordered l ml Hb Hn) as (E & P & _). rewrite <- !firstn_map, <- !skipn_map, E, P. split; [reflexivity|].
    clear -H. destruct H as [H1 H2]. replace (length l) with (a + ((b - a) + (length l - b))) by lia. rewrite !seq_app, skipn_app, skipn_all2 by (rewrite seq_length; lia).
    rewrite seq_length, Nat.sub_diag. cbn [skipn app Nat.add]. rewrite firstn_app, firstn_all2 by (rewrite seq_length; lia).
    rewrite seq_length, Nat.sub_diag. cbn [firstn]. rewrite app_nil_r. reflexivity.
  - intros b H. unfold ml_slice, py_slice, py_bound. rewrite Ln. destruct (Z.ltb_spec (- Z.of_nat b) 0); [|lia]. cbn zeta.
    destruct (Z.ltb_spec (- Z.of_nat b + Z.of_nat (length l)) 0); [lia|].
    destruct (Z.ltb_spec (Z.of_nat (length l - b)) 0); [lia|]. destruct (Z.ltb_spec 0 0); [lia|]. destruct (Z.ltb_spec (Z.of_nat (length l - b)) 0); [lia|].
    rewrite Nat2Z.id. change (Z.to_nat 0) with 0. rewrite Nat.min_0_l. do 2 f_equal. lia.
Qed.
Print Assumptions C21_items.

Theorem C21_equal l a l' b : built l a -> NoDup (map fst l) -> built l' b -> NoDup (map fst l') -> ml_eq a b = true <-> l = l'.
Proof.
  intros Ha Hn Hb Hn'. unfold ml_eq. rewrite (list_eqb_spec _ merge_eqb_spec).
  assert (W : forall m, ml_slice m None None = ml_iter m) by (intros m; unfold ml_slice, py_slice; cbn [skipn]; rewrite Nat.sub_0_r; apply firstn_all).
  rewrite !W, (iter_placed l a Ha Hn), (iter_placed l' b Hb Hn'). split; [apply placed_inj|congruence].
Qed.
Print Assumptions C21_equal.

(** finding: every pair that is there already is accepted again; it then has the number of merges as its priority, and so has the next
    new pair, so that the priorities do not say any more which of the two comes first. *)
Theorem C21_repeated_refuted l ml p f q g : built l ml -> NoDup (map fst l) -> In p (map fst l) -> ~ In q (map fst l) ->
  exists ml1 ml2, ml_append ml p f None = Ok ml1 /\ ml_append ml1 q g None = Ok ml2 /\
    ml_len ml1 = length l /\ ml_priority ml2 p = Some (length l) /\ ml_priority ml2 q = Some (length l) /\ p <> q.
Proof.
  intros Hb Hn Hp Hq. destruct (C21_merge_list_ordered l ml Hb Hn) as (_ & _ & _ & C).
  destruct (C21_items l ml Hb Hn) as (Ln & _). unfold ml_len in Ln.
  assert (Cp : dmem ml p = true) by (apply C; exact Hp).
  unfold ml_append. eexists. eexists. split; [reflexivity|]. split; [reflexivity|].
  assert (L1 : forall v, length (dset ml p v) = length ml).
  { intros v. apply C in Hp. clear -Cp. unfold dmem in Cp. induction ml as [|[k w] ml IH]; [discriminate|]. cbn [dget dset] in *.
    destruct (eqb p k) eqn:E.
    - reflexivity.
    - cbn [length]. rewrite IH; [reflexivity|exact Cp]. }
  assert (D : p <> q) by (intros ->; exact (Hq Hp)).
  split; [unfold ml_len; rewrite L1; exact Ln|]. unfold ml_priority. split; [|split; [|exact D]].
  - rewrite dget_dset_neq by congruence. rewrite dget_dset_eq. cbn [option_map m_priority]. rewrite Ln. reflexivity.
  - rewrite dget_dset_eq. cbn [option_map m_priority]. rewrite L1, Ln. reflexivity.
Qed.
Print Assumptions C21_repeated_refuted.

Example C21_items_example : let l := [((lit "a", lit "b"), Some 3%Z); ((lit "b", lit "c"), None)] in
  let ml := ml_from 0 l in
  ml_item ml (-1) = Ok {| m_pair := (lit "b", lit "c"); m_freq := None; m_priority := 1 |} /\ ml_item ml 2 = Err IndexError /\
  ml_slice ml (Some 0%Z) (Some (-1)%Z) = [{| m_pair := (lit "a", lit "b"); m_freq := Some 3%Z; m_priority := 0 |}] /\
  ml_eq ml ml = true /\ ml_eq ml (ml_from 0 [((lit "a", lit "b"), Some 3%Z)]) = false.
Proof. vm_compute. repeat split; reflexivity. Qed.
