(** * C60: lists of positions are merged exactly *)
From Coq Require Import List ZArith Bool Lia Sorted.
From Verif Require Import M_Base M_Wild.
Import ListNotations.
Local Open Scope Z_scope.

Definition zmem (x : Z) (l : list Z) : bool := existsb (Z.eqb x) l.
Lemma zmem_spec x l : zmem x l = true <-> In x l.
Proof.
  unfold zmem. rewrite existsb_exists. split; [intros (y & H & E); apply Z.eqb_eq in E; subst; exact H|].
  intros H. exists x. split; [exact H|apply Z.eqb_refl].
Qed.
Lemma zmem_false x l : zmem x l = false <-> ~ In x l.
Proof. rewrite <- zmem_spec. destruct (zmem x l); intuition congruence. Qed.

Notation increasing := (StronglySorted Z.lt).

Lemma filter_ext_in2 {A} (f g : A -> bool) l : (forall x, In x l -> f x = g x) -> filter f l = filter g l.
Proof. apply filter_ext_in. Qed.

(** In the list of the neighbour exactly the positions that follow a merged position (at distance [s],
    negative for neighbours on the left) are taken out; the new pair is where the left one of the two
    pairs was. *)
Theorem C60_merge main l2 s : increasing main -> increasing l2 ->
  merge_lists main s l2
  = (filter (fun x => negb (zmem (x - s) main)) l2,
     map (fun x => Z.min (x - s) x) (filter (fun x => zmem (x - s) main) l2)).
Proof.
  intros Hm. revert l2. induction Hm as [|m ms Hm IH Hf]; intros l2 Hl.
  - assert (E : merge_lists [] s l2 = (l2, [])) by (destruct l2; reflexivity). rewrite E. clear E Hl.
    assert (A : filter (fun x => negb (zmem (x - s) [])) l2 = l2).
    { induction l2 as [|x l2 IH]; [reflexivity|]. cbn [filter zmem existsb negb]. f_equal. exact IH. }
    assert (B : filter (fun x => zmem (x - s) []) l2 = []).
    { induction l2 as [|x l2 IH']; [reflexivity|]. cbn [filter zmem existsb]. apply IH'.
      cbn [filter zmem existsb negb] in A. injection A. auto. }
    rewrite A, B. reflexivity.
  - induction Hl as [|x xs Hl IHl Hx]; [reflexivity|].
    cbn [merge_lists]. destruct (Z.eqb_spec (m + s) x) as [E|E].
    + assert (Hin : forall y, In y xs -> zmem (y - s) (m :: ms) = zmem (y - s) ms).
      { intros y Hy. cbn [zmem existsb]. destruct (Z.eqb_spec (y - s) m) as [E'|_]; [|reflexivity].
        rewrite Forall_forall in Hx. specialize (Hx y Hy). lia. }
      rewrite IH by exact Hl. cbn [filter].
      assert (T : zmem (x - s) (m :: ms) = true) by (apply zmem_spec; left; lia). rewrite T. cbn [negb map].
      f_equal.
      * apply filter_ext_in. intros y Hy. rewrite Hin by exact Hy. reflexivity.
      * f_equal; [f_equal; lia|]. f_equal. apply filter_ext_in. intros y Hy. rewrite Hin by exact Hy. reflexivity.
    + rewrite Z.gtb_ltb. destruct (Z.ltb_spec x (m + s)) as [L|L].
      * assert (T : zmem (x - s) (m :: ms) = false).
        { apply zmem_false. intros [H|H]; [lia|]. rewrite Forall_forall in Hf. specialize (Hf _ H). lia. }
        cbn [filter]. rewrite T. cbn [negb].
        change ((let (a, r) := merge_lists (m :: ms) s xs in (x :: a, r)) =
                (x :: filter (fun x0 => negb (zmem (x0 - s) (m :: ms))) xs,
                 map (fun x0 => Z.min (x0 - s) x0) (filter (fun x0 => zmem (x0 - s) (m :: ms)) xs))).
        rewrite IHl. reflexivity.
      * rewrite IH by (constructor; assumption).
        assert (Hin : forall y, In y (x :: xs) -> zmem (y - s) (m :: ms) = zmem (y - s) ms).
        { intros y Hy. cbn [zmem existsb]. destruct (Z.eqb_spec (y - s) m) as [E'|_]; [|reflexivity].
          destruct Hy as [<-|Hy]; [lia|]. rewrite Forall_forall in Hx. specialize (Hx y Hy). lia. }
        f_equal; [|f_equal]; apply filter_ext_in; intros y Hy; rewrite Hin by exact Hy; reflexivity.
Qed.
Example C60_merge_ex : increasing [2; 7; 10; 12; 15] /\ increasing [1; 3; 6; 11] /\
  merge_lists [2; 7; 10; 12; 15] 1 [1; 3; 6; 11] = ([1; 6], [2; 10]) /\
  merge_lists [2; 7; 10; 12; 15] (-1) [1; 3; 6; 11] = ([3], [1; 6; 11]).
Proof. repeat split; repeat constructor. Qed.

(** occurrences of the merged pair do not overlap: the next one starts where one ends, or later *)
Notation spaced g := (StronglySorted (fun a b => a + g <= b)).

Lemma spaced_lt g l : 0 < g -> spaced g l -> increasing l.
Proof.
  intros Hg H. induction H as [|x l H IH Hf]; constructor; [exact IH|].
  eapply Forall_impl; [|exact Hf]. cbv beta. intros. lia.
Qed.

Lemma merge_both_loop_spec main l2 s0 s1 : 0 < s0 -> s1 < 0 -> spaced (s0 - s1) main -> increasing l2 ->
  merge_both_loop main s0 s1 l2
  = (filter (fun x => negb (zmem (x - s0) main && zmem (x - s1) main)) l2,
     filter (fun m => zmem (m + s0) l2 && zmem (m + s0 - s1) main) main).
Proof.
  intros H0 H1 Hm. revert l2. induction Hm as [|m ms Hm IH Hf]; intros l2 Hl.
  - assert (E : merge_both_loop [] s0 s1 l2 = (l2, [])) by (destruct l2; reflexivity). rewrite E. cbn [filter].
    f_equal. clear E Hl. induction l2 as [|x l2 IH]; [reflexivity|]. cbn [filter zmem existsb andb negb]. f_equal. exact IH.
  - destruct ms as [|m' ms'].
    + assert (E : merge_both_loop [m] s0 s1 l2 = (l2, [])) by (destruct l2; reflexivity). rewrite E. clear E.
      assert (A : zmem (m + s0 - s1) [m] = false) by (apply zmem_false; intros [H|[]]; lia).
      cbn [filter]. rewrite A, andb_false_r. f_equal.
      assert (B : forall x, zmem (x - s0) [m] && zmem (x - s1) [m] = false).
      { intros x. apply andb_false_iff. rewrite !zmem_false. destruct (Z.eq_dec (x - s0) m) as [E|E];
        [right|left]; intros [H|[]]; lia. }
      clear -B. induction l2 as [|x l2 IH]; [reflexivity|]. cbn [filter]. rewrite B. cbn [negb]. f_equal. exact IH.
    + assert (Hf' : forall k, In k (m' :: ms') -> m + (s0 - s1) <= k) by (rewrite Forall_forall in Hf; exact Hf).
      (* looking past [m] *)
      assert (P1 : forall k, In k (m' :: ms') -> zmem (k + s0 - s1) (m :: m' :: ms') = zmem (k + s0 - s1) (m' :: ms')).
      { intros k Hk. specialize (Hf' k Hk). cbn [zmem existsb]. destruct (Z.eqb_spec (k + s0 - s1) m); [lia|reflexivity]. }
      induction Hl as [|x xs Hl IHl Hx].
      { assert (N : forall M l : list Z, filter (fun m0 => zmem (m0 + s0) [] && zmem (m0 + s0 - s1) M) l = []).
        { intros M l. clear. induction l as [|a l IH]; [reflexivity|exact IH]. }
        rewrite N. reflexivity. }
      assert (Hx' : forall y, In y xs -> x < y) by (rewrite Forall_forall in Hx; exact Hx).
      cbn [merge_both_loop]. destruct (Z.eqb_spec (m + s0) x) as [E|E].
      * change ((let (a, r) := merge_both_loop (m' :: ms') s0 s1 xs in if m' + s1 =? x then (a, m :: r) else (x :: a, r)) =
          (filter (fun x0 => negb (zmem (x0 - s0) (m :: m' :: ms') && zmem (x0 - s1) (m :: m' :: ms'))) (x :: xs),
           filter (fun m0 => zmem (m0 + s0) (x :: xs) && zmem (m0 + s0 - s1) (m :: m' :: ms')) (m :: m' :: ms'))).
        rewrite (IH xs Hl).
        assert (A : filter (fun x0 => negb (zmem (x0 - s0) (m :: m' :: ms') && zmem (x0 - s1) (m :: m' :: ms'))) xs
                    = filter (fun x0 => negb (zmem (x0 - s0) (m' :: ms') && zmem (x0 - s1) (m' :: ms'))) xs).
        { apply filter_ext_in. intros y Hy. specialize (Hx' y Hy). cbn [zmem existsb].
          destruct (Z.eqb_spec (y - s0) m); [lia|]. destruct (Z.eqb_spec (y - s1) m); [lia|]. reflexivity. }
        assert (B : filter (fun m0 => zmem (m0 + s0) (x :: xs) && zmem (m0 + s0 - s1) (m :: m' :: ms')) (m' :: ms')
                    = filter (fun m0 => zmem (m0 + s0) xs && zmem (m0 + s0 - s1) (m' :: ms')) (m' :: ms')).
        { apply filter_ext_in. intros k Hk. rewrite P1 by exact Hk. specialize (Hf' k Hk). cbn [zmem existsb].
          destruct (Z.eqb_spec (k + s0) x); [lia|]. reflexivity. }
        remember (m' :: ms') as ms eqn:Ems. cbn [filter]. rewrite A, B.
        assert (T1 : zmem (x - s0) (m :: ms) = true) by (apply zmem_spec; left; lia).
        assert (T2 : zmem (m + s0) (x :: xs) = true) by (apply zmem_spec; left; lia).
        assert (T3 : zmem (x - s1) (m :: ms) = (m' + s1 =? x)).
        { destruct (Z.eqb_spec (m' + s1) x) as [E'|E'].
          - apply zmem_spec. right. subst ms. left. lia.
          - apply zmem_false. intros [H|H]; [lia|]. subst ms. destruct H as [H|H]; [lia|].
            inversion Hm as [|? ? _ Hff]; subst. rewrite Forall_forall in Hff. specialize (Hff _ H). cbv beta in Hff.
            pose proof (Hf' m' (or_introl eq_refl)). lia. }
        assert (T4 : zmem (m + s0 - s1) (m :: ms) = zmem (x - s1) (m :: ms)) by (f_equal; lia).
        rewrite T1, T2, T4, T3. cbn [andb]. destruct (m' + s1 =? x); reflexivity.
      * rewrite Z.gtb_ltb. destruct (Z.ltb_spec x (m + s0)) as [L|L].
        -- change ((let (a, r) := merge_both_loop (m :: m' :: ms') s0 s1 xs in (x :: a, r)) =
             (filter (fun x0 => negb (zmem (x0 - s0) (m :: m' :: ms') && zmem (x0 - s1) (m :: m' :: ms'))) (x :: xs),
              filter (fun m0 => zmem (m0 + s0) (x :: xs) && zmem (m0 + s0 - s1) (m :: m' :: ms')) (m :: m' :: ms'))).
           rewrite IHl. remember (m' :: ms') as ms eqn:Ems.
           assert (T : zmem (x - s0) (m :: ms) = false).
           { apply zmem_false. intros [H|H]; [lia|]. specialize (Hf' _ H). lia. }
           cbn [filter]. rewrite T. cbn [andb negb]. f_equal.
           assert (P2 : forall k, In k (m :: ms) -> zmem (k + s0) (x :: xs) = zmem (k + s0) xs).
           { intros k Hk. cbn [zmem existsb]. destruct (Z.eqb_spec (k + s0) x); [|reflexivity].
             destruct Hk as [<-|Hk]; [lia|]. specialize (Hf' _ Hk). lia. }
           apply (filter_ext_in (fun m0 => zmem (m0 + s0) xs && zmem (m0 + s0 - s1) (m :: ms))
                    (fun m0 => zmem (m0 + s0) (x :: xs) && zmem (m0 + s0 - s1) (m :: ms)) (m :: ms)).
           intros k Hk. rewrite P2 by exact Hk. reflexivity.
        -- change (merge_both_loop (m' :: ms') s0 s1 (x :: xs) =
             (filter (fun x0 => negb (zmem (x0 - s0) (m :: m' :: ms') && zmem (x0 - s1) (m :: m' :: ms'))) (x :: xs),
              filter (fun m0 => zmem (m0 + s0) (x :: xs) && zmem (m0 + s0 - s1) (m :: m' :: ms')) (m :: m' :: ms'))).
           rewrite (IH (x :: xs)) by (constructor; assumption). remember (m' :: ms') as ms eqn:Ems. f_equal.
           ++ apply filter_ext_in. intros y Hy.
              assert (x <= y) by (destruct Hy as [<-|Hy]; [lia|specialize (Hx' _ Hy); lia]). cbn [zmem existsb].
              destruct (Z.eqb_spec (y - s0) m); [lia|]. destruct (Z.eqb_spec (y - s1) m); [lia|]. reflexivity.
           ++ assert (T : zmem (m + s0) (x :: xs) = false).
              { apply zmem_false. intros [H|H]; [lia|]. specialize (Hx' _ H). lia. }
              symmetry. cbn [filter]. rewrite T. cbn [andb]. apply filter_ext_in. intros k Hk. rewrite P1 by exact Hk. reflexivity.
Qed.

Lemma zlist_eqb_eq a b : zlist_eqb a b = true <-> a = b.
Proof.
  revert b. induction a as [|x a IH]; intros [|y b]; cbn [zlist_eqb]; split; intros H; try discriminate; try reflexivity.
  - apply andb_prop in H. destruct H as [H1 H2]. apply Z.eqb_eq in H1. apply IH in H2. congruence.
  - injection H as <- <-. rewrite Z.eqb_refl. apply IH. reflexivity.
Qed.

(** The pair between two occurrences of the merged pair: [s0] after the first and [- s1] before the second.
    Exactly these become the double pair, and exactly these disappear. *)
Theorem C60_both main l2 s0 s1 : 0 < s0 -> s1 < 0 -> spaced (s0 - s1) main -> increasing l2 -> main <> l2 ->
  merge_lists_both main l2 (s0, s1)
  = Ok (filter (fun x => negb (zmem (x - s0) main && zmem (x - s1) main)) l2,
        filter (fun m => zmem (m + s0) l2 && zmem (m + s0 - s1) main) main).
Proof.
  intros H0 H1 Hm Hl Hn. unfold merge_lists_both. cbn [fst snd]. rewrite Z.gtb_ltb.
  replace (0 <? s0) with true by (symmetry; apply Z.ltb_lt; exact H0).
  replace (s1 <? 0) with true by (symmetry; apply Z.ltb_lt; exact H1). cbn [andb negb].
  destruct (zlist_eqb main l2) eqn:E; [apply zlist_eqb_eq in E; contradiction|].
  f_equal. apply merge_both_loop_spec; assumption.
Qed.
Example C60_both_ex : spaced 2 [2; 7; 10; 12; 15] /\
  merge_lists_both [2; 7; 10; 12; 15] [1; 3; 6; 11] (1, -1) = Ok ([1; 3; 6], [10]).
Proof. split; [repeat (constructor; [|repeat constructor; lia])|reflexivity]. constructor. Qed.

(** Without the distance between the occurrences the pair in the middle would be missed. *)
Theorem C60_both_overlap_refuted : exists main l2 s0 s1, 0 < s0 /\ s1 < 0 /\ increasing main /\ increasing l2 /\ main <> l2 /\
  merge_lists_both main l2 (s0, s1)
  <> Ok (filter (fun x => negb (zmem (x - s0) main && zmem (x - s1) main)) l2,
         filter (fun m => zmem (m + s0) l2 && zmem (m + s0 - s1) main) main).
Proof.
  exists [0; 1; 2], [1], 1, (-1). split; [lia|]. split; [lia|]. split; [repeat (constructor; [|repeat constructor; lia]); constructor|].
  split; [repeat constructor|]. split; [discriminate|]. cbn. discriminate.
Qed.

(** The merged pair may overlap itself ("a a" in "a a a"): of the positions, which are at least [s] apart,
    the first and then those are merged that do not overlap a merged one; the others disappear.  This
    determines both lists. *)
Theorem C60_choose main s : 0 < s -> spaced s main ->
  let (a, d) := choose_positions_to_merge main s in
  a = filter (fun x => negb (zmem (x - s) a)) main /\ d = filter (fun x => zmem (x - s) a) main /\
  (forall a', a' = filter (fun x => negb (zmem (x - s) a')) main -> a' = a).
Proof.
  intros Hs Hm.
  assert (G : forall k main, (length main <= k)%nat -> spaced s main ->
    let (a, d) := choose_positions_to_merge main s in
    a = filter (fun x => negb (zmem (x - s) a)) main /\ d = filter (fun x => zmem (x - s) a) main).
  { clear main Hm. induction k as [|k IH]; intros main Hk Hm.
    - destruct main as [|m ms]; [|cbn in Hk; lia]. cbn. auto.
    - destruct main as [|m ms]; [cbn; auto|]. cbn [choose_positions_to_merge]. destruct ms as [|m' ms'].
      + cbn [filter]. assert (E : zmem (m - s) [m] = false) by (apply zmem_false; intros [H|[]]; lia). rewrite E. auto.
      + inversion Hm as [|? ? Hm' Hf]; subst. inversion Hm' as [|? ? Hm'' Hf']; subst. rewrite Forall_forall in Hf, Hf'.
        destruct (Z.eqb_spec (m + s) m') as [E|E].
        * specialize (IH ms' ltac:(cbn in Hk; lia) Hm''). destruct (choose_positions_to_merge ms' s) as [a d].
          destruct IH as [Ha Hd].
          assert (Hin : forall x, In x a -> m' + s <= x).
          { intros x Hx. rewrite Ha in Hx. apply filter_In in Hx. apply Hf'. tauto. }
          assert (A : zmem (m - s) (m :: a) = false).
          { apply zmem_false. intros [H|H]; [lia|]. specialize (Hin _ H). lia. }
          assert (B : zmem (m' - s) (m :: a) = true) by (apply zmem_spec; left; lia).
          assert (C : forall x, In x ms' -> zmem (x - s) (m :: a) = zmem (x - s) a).
          { intros x Hx. specialize (Hf' _ Hx). cbn [zmem existsb]. destruct (Z.eqb_spec (x - s) m); [lia|reflexivity]. }
          cbn [filter]. rewrite A, B. cbn [negb]. split.
          -- f_equal. rewrite Ha at 1. apply filter_ext_in. intros x Hx. rewrite C by exact Hx. reflexivity.
          -- f_equal. rewrite Hd at 1. apply filter_ext_in. intros x Hx. rewrite C by exact Hx. reflexivity.
        * specialize (IH (m' :: ms') ltac:(cbn in *; lia) Hm'). destruct (choose_positions_to_merge (m' :: ms') s) as [a d].
          destruct IH as [Ha Hd].
          assert (Hin : forall x, In x a -> m + s <= x).
          { intros x Hx. rewrite Ha in Hx. apply filter_In in Hx. apply Hf. tauto. }
          assert (A : zmem (m - s) (m :: a) = false).
          { apply zmem_false. intros [H|H]; [lia|]. specialize (Hin _ H). lia. }
          assert (C : forall x, In x (m' :: ms') -> zmem (x - s) (m :: a) = zmem (x - s) a).
          { intros x Hx. cbn [zmem existsb]. destruct (Z.eqb_spec (x - s) m); [|reflexivity].
            pose proof (Hf m' (or_introl eq_refl)). destruct Hx as [<-|Hx]; [lia|]. specialize (Hf' _ Hx). lia. }
          remember (m' :: ms') as ms. cbn [filter]. rewrite A. cbn [negb]. split.
          -- f_equal. rewrite Ha at 1. apply filter_ext_in. intros x Hx. rewrite C by exact Hx. reflexivity.
          -- rewrite Hd at 1. apply filter_ext_in. intros x Hx. rewrite C by exact Hx. reflexivity. }
  specialize (G (length main) main (le_n _) Hm). destruct (choose_positions_to_merge main s) as [a d].
  destruct G as [Ha Hd]. split; [exact Ha|]. split; [exact Hd|].
  intros a' Ha'.
  assert (K : forall x, zmem x a = zmem x a').
  { assert (Hlow : exists lo, forall x, In x main -> lo <= x).
    { destruct Hm as [|m ms Hm Hf]; [exists 0; intros x []|]. exists m. rewrite Forall_forall in Hf.
      intros x [<-|Hx]; [lia|]. specialize (Hf _ Hx). lia. }
    destruct Hlow as [lo Hlow]. intros x.
    assert (W : forall n, (forall x, x - lo < Z.of_nat n -> zmem x a = zmem x a')).
    { induction n as [|n IH]; intros y Hy.
      - assert (N : forall l, l = filter (fun x => negb (zmem (x - s) l)) main -> zmem y l = false).
        { intros l Hl. apply zmem_false. intros H. rewrite Hl in H. apply filter_In in H. specialize (Hlow _ (proj1 H)). lia. }
        rewrite (N a Ha), (N a' Ha'). reflexivity.
      - assert (N : forall l, l = filter (fun x => negb (zmem (x - s) l)) main -> zmem y l = zmem y main && negb (zmem (y - s) l)).
        { intros l Hl. rewrite Hl at 1. apply eq_true_iff_eq. rewrite zmem_spec, filter_In, andb_true_iff, zmem_spec. tauto. }
        rewrite (N a Ha), (N a' Ha'), (IH (y - s)) by lia. reflexivity. }
    apply (W (Z.to_nat (x - lo + 1))). lia. }
  rewrite Ha, Ha'. apply filter_ext_in. intros x _. rewrite K. reflexivity.
Qed.
Example C60_choose_ex : spaced 1 [0; 1; 2; 5; 8; 9; 10; 11; 12; 20; 33; 34] /\
  choose_positions_to_merge [0; 1; 2; 5; 8; 9; 10; 11; 12; 20; 33; 34] 1
  = ([0; 2; 5; 8; 10; 12; 20; 33], [1; 9; 11; 34]).
Proof. split; [repeat (constructor; [|repeat constructor; lia])|reflexivity]. constructor. Qed.

(** self_merge finds the merged positions after which one disappears. *)
Theorem C60_self main s : self_merge main s = ([], map (fun x => x - s) (snd (choose_positions_to_merge main s))).
Proof.
  unfold self_merge. f_equal.
  assert (G : forall k main, (length main <= k)%nat ->
    self_merge_loop main s = map (fun x => x - s) (snd (choose_positions_to_merge main s))).
  { clear main. induction k as [|k IH]; intros main Hk.
    - destruct main; [reflexivity|cbn in Hk; lia].
    - destruct main as [|m [|m' ms]]; [reflexivity|reflexivity|]. cbn [self_merge_loop choose_positions_to_merge].
      destruct (Z.eqb_spec (m + s) m') as [E|E].
      + specialize (IH ms ltac:(cbn in Hk; lia)). destruct (choose_positions_to_merge ms s) as [a d]. cbn [snd map] in *.
        rewrite IH. f_equal. lia.
      + specialize (IH (m' :: ms) ltac:(cbn in *; lia)).
        change (self_merge_loop (m' :: ms) s
          = map (fun x => x - s) (snd (let (a, d) := choose_positions_to_merge (m' :: ms) s in (m :: a, d)))).
        rewrite IH. destruct (choose_positions_to_merge (m' :: ms) s) as [a d]. reflexivity. }
  apply (G (length main)). lia.
Qed.
Example C60_self_ex : self_merge [0; 1; 2; 5; 8; 9; 10] 1 = ([], [0; 8]).
Proof. reflexivity. Qed.

Definition position_list_theorems := (C60_merge, C60_both, C60_both_overlap_refuted, C60_choose, C60_self).
Print Assumptions position_list_theorems.
