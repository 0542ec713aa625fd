(** C60 once more: what is found between two occurrences of the merged pair, also if the occurrences overlap. *)
From Coq Require Import List ZArith Bool Lia Sorted.
From Verif Require Import M_Base M_Wild P_Wild.
Import ListNotations.
Local Open Scope list_scope.
Local Open Scope Z_scope.

(** every position with the next one *)
Definition neighbours (l : list Z) : list (Z * Z) := combine l (tl l).
(** a position that is [s0] after the first of two occurrences and [- s1] before the second *)
Definition between (s0 s1 x : Z) (p : Z * Z) : bool := (fst p + s0 =? x) && (snd p + s1 =? x).

Lemma increasing_inv x l : increasing (x :: l) -> increasing l /\ forall y, In y l -> x < y.
Proof. intros H. inversion H as [|? ? H1 H2]; subst. split; [exact H1|]. intros y Hy. rewrite Forall_forall in H2. auto. Qed.
Lemma neighbours_cons m m' ms : neighbours (m :: m' :: ms) = (m, m') :: neighbours (m' :: ms).
Proof. reflexivity. Qed.
Lemma neighbours_in p l : In p (neighbours l) -> In (fst p) l /\ In (snd p) l.
Proof.
  destruct p as [a b]. intros H. split; [apply in_combine_l in H; exact H|]. apply in_combine_r in H. cbn [snd].
  destruct l; [destruct H|right; exact H].
Qed.
Lemma filter_same {A} (f g : A -> bool) l : (forall x, In x l -> f x = g x) -> filter f l = filter g l.
Proof. induction l as [|x l IH]; intros H; [reflexivity|]. cbn [filter]. rewrite (H x (or_introl eq_refl)), IH by (intros y Hy; apply H; right; exact Hy). reflexivity. Qed.
Lemma zmem_iff x l : zmem x l = true <-> In x l.
Proof. unfold zmem. rewrite existsb_exists. split; [intros (y & Hy & E); apply Z.eqb_eq in E; subst; exact Hy|intros H; exists x; split; [exact H|apply Z.eqb_refl]]. Qed.
Lemma zmem_cons_ne x y l : y <> x -> zmem y (x :: l) = zmem y l.
Proof. intros H. unfold zmem. cbn [existsb]. destruct (Z.eqb_spec y x); [contradiction|reflexivity]. Qed.

Lemma both_loop_exact s0 s1 : forall main l2, increasing main -> increasing l2 ->
  merge_both_loop main s0 s1 l2
  = (filter (fun x => negb (existsb (between s0 s1 x) (neighbours main))) l2,
     map fst (filter (fun p => zmem (fst p + s0) l2 && (snd p + s1 =? fst p + s0)) (neighbours main))).
Proof.
  assert (T : forall l : list Z, filter (fun _ => negb false) l = l) by (induction l as [|x l IH]; [reflexivity|cbn; f_equal; exact IH]).
  induction main as [|m ms IHm]; intros l2 Hm Hl.
  { replace (merge_both_loop [] s0 s1 l2) with (l2, @nil Z) by (destruct l2; reflexivity). cbn [neighbours combine tl existsb filter map]. rewrite T. reflexivity. }
  destruct ms as [|m' ms].
  { replace (merge_both_loop [m] s0 s1 l2) with (l2, @nil Z) by (destruct l2; reflexivity). cbn [neighbours combine tl existsb filter map]. rewrite T. reflexivity. }
  destruct (increasing_inv _ _ Hm) as [Hms Hlt]. rewrite neighbours_cons.
  induction l2 as [|x xs IHl].
  { cbn [merge_both_loop filter]. f_equal. symmetry. 
    assert (E : forall l, filter (fun p : Z * Z => zmem (fst p + s0) [] && (snd p + s1 =? fst p + s0)) l = []) by (induction l as [|p l IH]; [reflexivity|exact IH]).
    rewrite E. reflexivity. }
  destruct (increasing_inv _ _ Hl) as [Hxs Hx].
  assert (After : forall p, In p (neighbours (m' :: ms)) -> m < fst p) by (intros p Hp; apply Hlt, neighbours_in, Hp).
  destruct (Z.eqb_spec (m + s0) x) as [E|E].
  - replace (merge_both_loop (m :: m' :: ms) s0 s1 (x :: xs))
      with (let (a, r) := merge_both_loop (m' :: ms) s0 s1 xs in if m' + s1 =? x then (a, m :: r) else (x :: a, r))
      by (cbn [merge_both_loop]; rewrite (proj2 (Z.eqb_eq _ _) E); reflexivity).
    rewrite (IHm xs Hms Hxs). 
    assert (F1 : filter (fun y => negb (existsb (between s0 s1 y) ((m, m') :: neighbours (m' :: ms)))) xs
                 = filter (fun y => negb (existsb (between s0 s1 y) (neighbours (m' :: ms)))) xs).
    { apply filter_same. intros y Hy. cbn [existsb]. unfold between at 1. cbn [fst snd]. specialize (Hx y Hy). destruct (Z.eqb_spec (m + s0) y); [lia|reflexivity]. }
    assert (F2 : filter (fun p => zmem (fst p + s0) (x :: xs) && (snd p + s1 =? fst p + s0)) (neighbours (m' :: ms))
                 = filter (fun p => zmem (fst p + s0) xs && (snd p + s1 =? fst p + s0)) (neighbours (m' :: ms))).
    { apply filter_same. intros p Hp. specialize (After p Hp). rewrite zmem_cons_ne by lia. reflexivity. }
    assert (F3 : existsb (between s0 s1 x) (neighbours (m' :: ms)) = false).
    { apply not_true_is_false. intros H. apply existsb_exists in H. destruct H as (p & Hp & H). specialize (After p Hp).
      unfold between in H. apply andb_true_iff in H. destruct H as [H _]. apply Z.eqb_eq in H. lia. }
    assert (F4 : zmem (m + s0) (x :: xs) = true) by (apply zmem_iff; left; auto).
    cbn [filter]. rewrite F1, F2. cbn [existsb fst snd]. rewrite F3, F4, orb_false_r. unfold between. cbn [fst snd andb]. rewrite (proj2 (Z.eqb_eq _ _) E). cbn [andb].
    rewrite E. destruct (m' + s1 =? x); reflexivity.
  - destruct (m + s0 >? x) eqn:G.
    + replace (merge_both_loop (m :: m' :: ms) s0 s1 (x :: xs))
        with (let (a, r) := merge_both_loop (m :: m' :: ms) s0 s1 xs in (x :: a, r))
        by (cbn [merge_both_loop]; rewrite (proj2 (Z.eqb_neq _ _) E), G; reflexivity).
      rewrite (IHl Hxs). rewrite Z.gtb_ltb in G. apply Z.ltb_lt in G.
      assert (F1 : existsb (between s0 s1 x) ((m, m') :: neighbours (m' :: ms)) = false).
      { apply not_true_is_false. intros H. apply existsb_exists in H. destruct H as (p & [<-|Hp] & H);
          unfold between in H; apply andb_true_iff in H; destruct H as [H _]; apply Z.eqb_eq in H; cbn [fst] in *; [lia|specialize (After p Hp); lia]. }
      assert (F2 : filter (fun p => zmem (fst p + s0) (x :: xs) && (snd p + s1 =? fst p + s0)) ((m, m') :: neighbours (m' :: ms))
                   = filter (fun p => zmem (fst p + s0) xs && (snd p + s1 =? fst p + s0)) ((m, m') :: neighbours (m' :: ms))).
      { apply filter_same. intros p [<-|Hp]; rewrite zmem_cons_ne; try reflexivity; cbn [fst]; [lia|specialize (After p Hp); lia]. }
      rewrite F2. cbn [filter]. rewrite F1. reflexivity.
    + replace (merge_both_loop (m :: m' :: ms) s0 s1 (x :: xs)) with (merge_both_loop (m' :: ms) s0 s1 (x :: xs))
        by (cbn [merge_both_loop]; rewrite (proj2 (Z.eqb_neq _ _) E), G; reflexivity).
      rewrite (IHm (x :: xs) Hms Hl). rewrite Z.gtb_ltb in G. apply Z.ltb_ge in G.
      assert (F1 : filter (fun y => negb (existsb (between s0 s1 y) ((m, m') :: neighbours (m' :: ms)))) (x :: xs)
                   = filter (fun y => negb (existsb (between s0 s1 y) (neighbours (m' :: ms)))) (x :: xs)).
      { apply filter_same. intros y Hy. cbn [existsb]. unfold between at 1. cbn [fst snd].
        destruct (Z.eqb_spec (m + s0) y) as [Ey|]; [|reflexivity]. destruct Hy as [<-|Hy]; [contradiction|specialize (Hx y Hy); lia]. }
      assert (F2 : zmem (m + s0) (x :: xs) = false).
      { apply not_true_is_false. intros H. apply zmem_iff in H. destruct H as [H|H]; [congruence|specialize (Hx _ H); lia]. }
      rewrite F1. f_equal. cbn [filter fst snd]. rewrite F2. reflexivity.
Qed.

(** For all increasing lists of positions: exactly those positions are merged, and disappear, that lie between an occurrence of the merged pair
    and the very next one; what lies between two occurrences with another one in between is not seen. *)
Theorem C60_both_exact : forall main l2 s0 s1, 0 < s0 -> s1 < 0 -> increasing main -> increasing l2 -> main <> l2 ->
  merge_lists_both main l2 (s0, s1)
  = Ok (filter (fun x => negb (existsb (between s0 s1 x) (neighbours main))) l2,
        map fst (filter (fun p => zmem (fst p + s0) l2 && (snd p + s1 =? fst p + s0)) (neighbours main))).
Proof.
  intros main l2 s0 s1 H0 H1 Hm Hl Hn. unfold merge_lists_both. cbn [fst snd]. rewrite Z.gtb_ltb.
  replace (0 <? s0) with true by (symmetry; apply Z.ltb_lt; exact H0).
  replace (s1 <? 0) with true by (symmetry; apply Z.ltb_lt; exact H1). cbn [andb negb].
  destruct (zlist_eqb main l2) eqn:E; [apply zlist_eqb_eq in E; contradiction|]. f_equal. apply both_loop_exact; assumption.
Qed.
Print Assumptions C60_both_exact.

(** Whenever a third occurrence of the merged pair begins between two others, the pair in the middle of these two is missed. *)
Theorem C60_every_overlap_refuted : forall main l2 s0 s1 m m'' x, 0 < s0 -> s1 < 0 -> increasing main -> increasing l2 -> main <> l2 ->
  In m main -> In m'' main -> In x l2 -> x = m + s0 -> x = m'' + s1 -> (exists m', In m' main /\ m < m' < m'') ->
  exists rest found, merge_lists_both main l2 (s0, s1) = Ok (rest, found) /\ In x rest /\ ~ In m found.
Proof.
  intros main l2 s0 s1 m m'' x H0 H1 Hm Hl Hn Im Im'' Ix Ex Ex'' (m' & Im' & Hlt). rewrite (C60_both_exact main l2 s0 s1 H0 H1 Hm Hl Hn).
  assert (K : forall p l, increasing l -> In p (neighbours l) -> forall y, In y l -> ~ (fst p < y < snd p)).
  { intros p l. induction l as [|a [|b l] IH]; intros Hi Hp y Hy; [destruct Hp|destruct Hp|]. destruct (increasing_inv _ _ Hi) as [Hi' Ha].
    rewrite neighbours_cons in Hp. destruct Hp as [<-|Hp].
    - cbn [fst snd]. destruct Hy as [<-|[<-|Hy]]; [lia|lia|]. destruct (increasing_inv _ _ Hi') as [_ Hb]. specialize (Hb y Hy). lia.
    - destruct Hy as [<-|Hy]; [|apply (IH Hi' Hp y Hy)]. pose proof (Ha _ (proj1 (neighbours_in _ _ Hp))). lia. }
  eexists. eexists. split; [reflexivity|]. split.
  - apply filter_In. split; [exact Ix|]. apply negb_true_iff, not_true_is_false. intros H. apply existsb_exists in H. destruct H as (p & Hp & H).
    unfold between in H. apply andb_true_iff in H. destruct H as [A B]. apply Z.eqb_eq in A, B. apply (K p main Hm Hp m' Im'). lia.
  - intros H. apply in_map_iff in H. destruct H as (p & E & H). apply filter_In in H. destruct H as [Hp H]. apply andb_true_iff in H. destruct H as [_ B].
    apply Z.eqb_eq in B. apply (K p main Hm Hp m' Im'). lia.
Qed.
Print Assumptions C60_every_overlap_refuted.

Example C60_both_exact_ex :
  increasing [0; 1; 2; 7; 9] /\ merge_lists_both [0; 1; 2; 7; 9] [1; 8; 9] (1, -1) = Ok ([1; 9], [7]) /\
  neighbours [0; 1; 2; 7; 9] = [(0, 1); (1, 2); (2, 7); (7, 9)].
Proof. split; [repeat (constructor; [|repeat constructor; lia]); constructor|]. split; reflexivity. Qed.
