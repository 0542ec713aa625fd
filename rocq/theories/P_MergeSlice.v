(** C21 once more: slices of merge lists with any bounds. *)
From Coq Require Import List NArith ZArith Lia Bool.
From Verif Require Import M_Base L_Base M_Literal M_Merge L_Merge P_Merge M_MergeItem P_MergeItem.
Import ListNotations.

(** the merge with priority [k] of [n] merges lies at or after the bound; a bound below 0 counts from the end *)
Definition from_bound (n : nat) (i : Z) (k : nat) : bool :=
  if (i <? 0)%Z then (i + Z.of_nat n <=? Z.of_nat k)%Z else (i <=? Z.of_nat k)%Z.
Definition in_slice (n : nat) (a b : option Z) (k : nat) : bool :=
  match a with Some i => from_bound n i k | None => true end && negb (match b with Some i => from_bound n i k | None => false end).

Lemma from_bound_leb n i k : k < n -> from_bound n i k = Nat.leb (py_bound n i) k.
Proof.
  intros K. apply eq_true_iff_eq. unfold from_bound, py_bound. cbn zeta.
  destruct (Z.ltb_spec i 0); [destruct (Z.ltb_spec (i + Z.of_nat n) 0)|destruct (Z.ltb_spec i 0)];
    rewrite Z.leb_le, Nat.leb_le; lia.
Qed.

Lemma placed_filter l : forall k lo hi, firstn (hi - lo) (skipn lo (placed k l)) = filter (fun m => Nat.leb (k + lo) (m_priority m) && negb (Nat.leb (k + hi) (m_priority m))) (placed k l).
Proof.
  induction l as [|[p f] l IH]; intros k lo hi; [cbn [placed filter]; rewrite skipn_nil, firstn_nil; reflexivity|].
  cbn [placed filter m_priority]. destruct lo as [|lo].
  - cbn [skipn]. rewrite Nat.add_0_r, Nat.leb_refl, Nat.sub_0_r. cbn [andb]. destruct hi as [|hi].
    + rewrite Nat.add_0_r, Nat.leb_refl. cbn [firstn negb]. symmetry. specialize (IH (S k) 0 0). cbn [Nat.sub firstn] in IH.
      rewrite IH. apply filter_ext_in. intros m Hm.
      assert (P : S k <= m_priority m).
      { apply In_nth_error in Hm. destruct Hm as (i & Hi). rewrite placed_nth in Hi. destruct (nth_error l i); [|discriminate]. injection Hi as <-. cbn. lia. }
      destruct (Nat.leb_spec k (m_priority m)), (Nat.leb_spec (S k + 0) (m_priority m)); try lia; reflexivity.
    + destruct (Nat.leb_spec (k + S hi) k); [lia|]. cbn [negb firstn]. f_equal. specialize (IH (S k) 0 hi). rewrite Nat.sub_0_r in IH. cbn [skipn] in IH. rewrite IH.
      apply filter_ext_in. intros m Hm.
      assert (P : S k <= m_priority m).
      { apply In_nth_error in Hm. destruct Hm as (i & Hi). rewrite placed_nth in Hi. destruct (nth_error l i); [|discriminate]. injection Hi as <-. cbn. lia. }
      replace (k + S hi) with (S k + hi) by lia.
      destruct (Nat.leb_spec k (m_priority m)), (Nat.leb_spec (S k + 0) (m_priority m)); try lia; reflexivity.
  - destruct (Nat.leb_spec (k + S lo) k); [lia|]. cbn [andb skipn]. destruct hi as [|hi].
    + cbn [Nat.sub firstn]. symmetry. specialize (IH (S k) lo 0). cbn [Nat.sub firstn] in IH. rewrite IH. apply filter_ext_in. intros m Hm.
      assert (P : S k <= m_priority m).
      { apply In_nth_error in Hm. destruct Hm as (i & Hi). rewrite placed_nth in Hi. destruct (nth_error l i); [|discriminate]. injection Hi as <-. cbn. lia. }
      replace (k + S lo) with (S k + lo) by lia.
      destruct (Nat.leb_spec (k + 0) (m_priority m)), (Nat.leb_spec (S k + 0) (m_priority m)); try lia; reflexivity.
    + cbn [Nat.sub]. replace (k + S lo) with (S k + lo) by lia. replace (k + S hi) with (S k + hi) by lia. apply IH.
Qed.

(** Any slice without a step has, in order, exactly the merges between its bounds, with the priorities they have in the list; bounds beyond
    either end are no error, and bounds that are the wrong way round give nothing. *)
Theorem C21_slices l ml : built l ml -> NoDup (map fst l) -> forall a b,
  exists whole, map (fun m => (m_pair m, m_freq m)) whole = l /\ map m_priority whole = seq 0 (length l) /\
  ml_slice ml None None = whole /\
  ml_slice ml a b = filter (fun m => in_slice (length l) a b (m_priority m)) whole.
Proof.
  intros Hb Hn a b. exists (ml_iter ml). destruct (C21_merge_list_ordered l ml Hb Hn) as (E & P & _).
  split; [exact E|]. split; [exact P|].
  assert (Ln : length (ml_iter ml) = length l) by (rewrite (iter_placed l ml Hb Hn); apply placed_length).
  split. { unfold ml_slice, py_slice. rewrite Nat.sub_0_r. cbn [skipn]. apply firstn_all. }
  unfold ml_slice, py_slice. rewrite Ln, (iter_placed l ml Hb Hn). rewrite placed_filter. apply filter_ext_in. intros m Hm.
  assert (K : m_priority m < length l).
  { apply In_nth_error in Hm. destruct Hm as (i & Hi). rewrite placed_nth in Hi. destruct (nth_error l i) eqn:En; [|discriminate].
    injection Hi as <-. cbn. apply nth_error_Some. congruence. }
  unfold in_slice. cbn [Nat.add]. f_equal.
  - destruct a as [i|]; [|reflexivity]. symmetry. apply from_bound_leb, K.
  - f_equal. destruct b as [i|]; [symmetry; apply from_bound_leb, K|]. apply Nat.leb_gt, K.
Qed.
Print Assumptions C21_slices.
Example C21_slices_example :
  let l := [((lit "a", lit "b"), Some 4%Z); ((lit "ab", lit "c"), Some 3%Z); ((lit "x", lit "y"), None)] in
  exists ml, built l ml /\ NoDup (map fst l) /\
  map m_priority (ml_slice ml (Some (-2)%Z) (Some 9%Z)) = [1; 2] /\ map m_priority (ml_slice ml (Some 2%Z) (Some 1%Z)) = [] /\
  map m_priority (ml_slice ml (Some (-7)%Z) (Some (-1)%Z)) = [0; 1].
Proof.
  cbn zeta. eexists. split.
  - eapply (built_append [((lit "a", lit "b"), Some 4%Z); ((lit "ab", lit "c"), Some 3%Z)]) with (prio := None); [|reflexivity].
    eapply (built_append [((lit "a", lit "b"), Some 4%Z)]) with (prio := None); [|reflexivity].
    eapply (built_append []) with (prio := None); [constructor|reflexivity].
  - split; [repeat constructor; cbn; intuition discriminate|]. vm_compute. auto.
Qed.
