(** update_location_index makes the index of the merged text, and the changes it reports make the queue follow, for C84. *)
From Verif Require Import M_Base L_Base M_Wild M_WildRun P_Wild L_WildText L_WildLoc L_WildQueue.
From Coq Require Import Lia Sorting.Sorted Sorting.Permutation.
Local Open Scope Z_scope.

Lemma lget_dset li k l k' : lget (dset li k l) k' = if eqb k' k then l else lget li k'.
Proof. unfold lget. rewrite dget_dset. destruct (eqb k' k); reflexivity. Qed.
Lemma lget_dmem li k : lget li k <> [] -> dmem li k = true.
Proof. unfold lget, dmem. destruct (dget li k); congruence. Qed.

(** the location index of a text *)
Definition loc_ok (li : loc_index) (s : list str) : Prop :=
  NoDup (dkeys li) /\ (forall x y, good x -> good y -> lget li (mkp x y) = places 0 s x y) /\
  (forall k, dget li k <> Some []) /\ (forall k, dmem li k = true -> wf k).

Lemma lget_record li ch ap dp app rest li1 ch1 : record_changes li ch ap dp app rest = (li1, ch1) -> lget li ap = [] ->
  forall k, lget li1 k = if eqb k ap then app else lget li k.
Proof.
  unfold record_changes. intros E H k. destruct app as [|p t]; injection E as <- <-.
  - destruct (eqb_spec k ap) as [->|]; [exact H|reflexivity].
  - apply lget_dset.
Qed.
(** a recorded change has its effect on the queue *)
Lemma record_queue pr q0 o0 li ch ap dp app rest l li1 ch1 q o :
  record_changes li ch ap dp app rest = (li1, ch1) -> lget li ap = [] ->
  length l = (length app + length rest)%nat -> (exists f, rest = filter f l) -> ap <> dp -> ap <> pr ->
  fold_left (apply_change pr) ch (q0, o0) = (q, o) -> qinv q ->
  (forall k, k <> pr -> dget (w_finder q) k = entry_of (if eqb k dp then l else lget li k)) ->
  exists q1, fold_left (apply_change pr) ch1 (q0, o0) = (q1, if eqb dp pr then o - Z.of_nat (length app) else o) /\ qinv q1 /\
    dget (w_finder q1) pr = dget (w_finder q) pr /\
    (forall k, k <> pr -> dget (w_finder q1) k = entry_of (if eqb k dp then rest else lget li1 k)).
Proof.
  intros E H L [f F] N1 N2 Eq Q D. pose proof (lget_record _ _ _ _ _ _ _ _ E H) as LG. unfold record_changes in E. destruct app as [|p t].
  - injection E as <- <-. exists q. rewrite Eq. assert (Er : rest = l) by (rewrite F in *; apply filter_same; cbn in L; lia). rewrite Er.
    split; [destruct (eqb dp pr); f_equal; cbn; lia|]. split; [exact Q|]. split; [reflexivity|]. exact D.
  - injection E as _ <-. rewrite fold_left_app, Eq. cbn [fold_left apply_change].
    destruct (wq_add_spec q ap (Z.of_nat (length (p :: t))) p Q) as [Q1 D1].
    assert (Ea : dget (w_finder q) ap = None).
    { rewrite D by exact N2. destruct (eqb_spec ap dp) as [|_]; [contradiction|]. rewrite H. reflexivity. }
    set (q1 := wq_add q ap (Z.of_nat (length (p :: t))) p) in *.
    assert (D1' : forall k, k <> pr -> k <> dp -> dget (w_finder q1) k = entry_of (lget li1 k)).
    { intros k K1 K2. rewrite D1, LG. destruct (eqb_spec k ap) as [->|K3].
      - rewrite Ea. cbv zeta. destruct (Z.eqb_spec (- Z.of_nat (length (p :: t))) 0); [cbn [length] in *; lia|]. reflexivity.
      - rewrite D by exact K1. destruct (eqb_spec k dp); [contradiction|reflexivity]. }
    assert (Ep : dget (w_finder q1) pr = dget (w_finder q) pr) by (rewrite D1; destruct (eqb_spec pr ap); [congruence|reflexivity]).
    destruct (eqb_spec dp pr) as [->|N3]; cbn [negb].
    + exists q1. split; [reflexivity|]. split; [exact Q1|]. split; [exact Ep|]. intros k K. destruct (eqb_spec k pr); [contradiction|]. apply D1'; assumption.
    + destruct (wq_add_spec q1 dp (- Z.of_nat (length (p :: t))) (match rest with [] => -1 | q :: _ => q end) Q1) as [Q2 D2].
      eexists. split; [reflexivity|]. split; [exact Q2|]. split; [rewrite D2; destruct (eqb_spec pr dp); [congruence|exact Ep]|].
      intros k K. rewrite D2. destruct (eqb_spec k dp) as [->|K2]; [|apply D1'; assumption].
      rewrite D1. destruct (eqb_spec dp ap); [congruence|]. rewrite (D dp N3), eqb_refl. destruct l as [|z l]; [cbn in L; lia|]. cbn [entry_of]. cbv zeta.
      destruct rest as [|r rest].
      * destruct (Z.eqb_spec (- Z.of_nat (length (z :: l)) - - Z.of_nat (length (p :: t))) 0); [reflexivity|cbn [length] in *; lia].
      * destruct (Z.eqb_spec (- Z.of_nat (length (z :: l)) - - Z.of_nat (length (p :: t))) 0); [cbn [length] in *; lia|]. cbn [entry_of]. f_equal. f_equal. rewrite L.
        cbn [length]. lia.
Qed.

Section Merge.
  Variables (ms : pair_list) (s : list str) (a b : str).
  Hypothesis G : Forall good s.
  Hypothesis Lc : local ms s.
  Hypothesis Adj : adjacent s a b.
  Notation M := (mpos 0 a b s).
  Notation ab := (a ++ b).
  Notation s' := (merge_text a b s).
  Notation pr := (mkp a b).
  Let Ga : good a := proj1 (Gab ms s a b G Lc Adj).
  Let Gb : good b := proj2 (Gab ms s a b G Lc Adj).
  Let Gn : good ab := good_app a b Ga Gb.
  Lemma s_new p x : sym s p = Some x -> x <> ab.
  Proof. apply (sym_new ms s a b Lc Adj). Qed.
  Let Na : a <> ab := a_ab ms s a b Lc Adj.
  Let Nb : b <> ab := b_ab ms s a b Lc Adj.

  Variable d : list Z.
  Hypothesis d_sorted : increasing d.
  Hypothesis d_in : forall p, In p d <-> occ s a b p /\ In (p - len a) M.
  Variables (q0 : wqueue) (o0 : Z).

  Definition here (DR DL : list str) (x y : str) (p : Z) : Prop :=
    (occ s x y p /\ ~ (In (mkp x y) DR /\ In (p - len a) M) /\ ~ (In (mkp x y) DL /\ In (p + len x) M)) \/
    (occ s' x y p /\ x = ab /\ In (mkp b (if eqb y ab then a else y)) DR) \/
    (occ s' x y p /\ x <> ab /\ y = ab /\ In (mkp x a) DL).
  Definition linv (DR DL : list str) (li : loc_index) (ch : list change) : Prop :=
    NoDup (dkeys li) /\
    (forall k, increasing (lget li k)) /\
    (forall x y p, good x -> good y -> mkp x y <> pr -> In p (lget li (mkp x y)) <-> here DR DL x y p) /\
    (forall k, dget li k = Some [] -> In k DR \/ In k DL) /\
    (forall k, dmem li k = true -> wf k) /\
    exists q o, fold_left (apply_change pr) ch (q0, o0) = (q, o) /\ qinv q /\ dget (w_finder q) pr = None /\ (forall k, k <> pr -> dget (w_finder q) k = entry_of (lget li k)) /\
      o = o0 - (if mem pr DR then Z.of_nat (length d) else 0).

  Lemma record_dmem li ch ap dp app rest li1 ch1 k : record_changes li ch ap dp app rest = (li1, ch1) -> dmem li1 k = true -> k = ap \/ dmem li k = true.
  Proof.
    unfold record_changes. destruct app as [|p t]; intros E; injection E as <- <-; [auto|]. unfold dmem. rewrite dget_dset.
    destruct (eqb_spec k ap); auto.
  Qed.
  Lemma record_empty li ch ap dp app rest li1 ch1 k : record_changes li ch ap dp app rest = (li1, ch1) -> dget li1 k = Some [] -> dget li k = Some [].
  Proof.
    unfold record_changes. destruct app as [|p t]; intros E; injection E as <- <-; [auto|]. rewrite dget_dset.
    destruct (eqb_spec k ap); [discriminate|auto].
  Qed.
  Lemma record_nodup li ch ap dp app rest li1 ch1 : record_changes li ch ap dp app rest = (li1, ch1) -> NoDup (dkeys li) -> NoDup (dkeys li1).
  Proof. unfold record_changes. destruct app as [|p t]; intros E; injection E as <- <-; [auto|apply dset_nodup]. Qed.
  Lemma nil_in (l : list Z) : (forall p, ~ In p l) -> l = [].
  Proof. destruct l as [|p l]; [reflexivity|]. intros H. destruct (H p). left. reflexivity. Qed.

  Lemma right_inv (same : option (list Z)) DR li ch y :
    linv DR [] li ch -> good y -> y <> ab -> ~ In (mkp b y) DR -> (pr = mkp b y -> same = Some d) ->
    exists li' ch', location_body pr M same Right (mkp b y) (li, ch) = Ok (li', ch') /\ linv (mkp b y :: DR) [] li' ch'.
  Proof.
    intros (I1 & I2 & I3 & I4 & I5 & q & o & I6 & I7 & I7b & I8 & I9) Gy Ny Nd Sm.
    set (dp := mkp b y) in *.
    set (l0 := if eqb pr dp then d else lget li dp).
    assert (R : goal_right s a b pr dp y l0 li ch (location_body pr M same Right dp (li, ch))).
    { apply (right_step ms); try assumption.
      - fold dp. unfold l0. destruct (eqb_spec pr dp) as [E|]; [apply Sm, E|reflexivity].
      - unfold l0. destruct (eqb pr dp); [exact d_sorted|apply I2].
      - fold dp. unfold l0. intros p. destruct (eqb_spec pr dp) as [E|E].
        + rewrite d_in. pose proof E as E0. unfold dp in E0. apply mkp_inj in E0; [|assumption..]. destruct E0 as [Eb Ey].
          replace (occ s b y p) with (occ s a b p) by congruence. split; [tauto|]. intros [X Y]. split; [exact X|apply Y, E].
        + unfold dp. rewrite I3; [|assumption|assumption|intros X; apply E; symmetry; exact X]. unfold here. fold dp. split.
          * intros [(X & _ & _)|[(_ & X & _)|(_ & _ & _ & [])]]; [|congruence]. split; [exact X|]. intros X2. contradiction.
          * intros [X _]. left. split; [exact X|]. split; [tauto|]. intros [[] _]. }
    destruct R as (app1 & l1 & app2 & l2 & A1 & A2 & A3 & A4 & A5 & A6 & A7 & A8 & A9 & A10 & ->).
    (* the new pairs are new *)
    assert (Hd : dp <> mkp ab y).
    { unfold dp. intros E. apply mkp_inj in E; [|assumption..]. destruct E. congruence. }
    assert (Hd2 : dp <> mkp ab ab).
    { unfold dp. intros E. apply mkp_inj in E; [|assumption..]. destruct E. congruence. }
    assert (Hp : mkp ab y <> pr).
    { intros E. apply mkp_inj in E; [|assumption..]. destruct E. congruence. }
    assert (Hp2 : mkp ab ab <> pr).
    { intros E. apply mkp_inj in E; [|assumption..]. destruct E. congruence. }
    assert (Hyy : mkp ab y <> mkp ab ab).
    { intros E. apply mkp_inj in E; [|assumption..]. destruct E. congruence. }
    assert (F2 : lget li (mkp ab y) = []).
    { apply nil_in. intros p Hp'. apply I3 in Hp'; [|assumption..]. destruct Hp' as [((X & _) & _)|[(_ & _ & X)|(_ & _ & _ & [])]].
      - apply s_new in X. congruence.
      - destruct (eqb_spec y ab); [congruence|]. contradiction. }
    assert (F1 : app1 <> [] -> lget li (mkp ab ab) = []).
    { intros X. destruct app1 as [|z app1]; [congruence|]. destruct (proj1 (A4 z) (or_introl eq_refl)) as [Ey _]. apply nil_in. intros p Hp'. apply I3 in Hp'; [|assumption..].
      destruct Hp' as [((X1 & _) & _)|[(_ & _ & X1)|(_ & _ & _ & [])]].
      - apply s_new in X1. congruence.
      - rewrite eqb_refl in X1. unfold dp in Nd. rewrite Ey in Nd. contradiction. }
    destruct (record_changes li ch (mkp ab ab) dp app1 l1) as [li1 ch1] eqn:E1.
    destruct (record_changes li1 ch1 (mkp ab y) dp app2 l2) as [li2 ch2] eqn:E2.
    assert (LG1 : forall k, lget li1 k = if eqb k (mkp ab ab) && negb (match app1 with [] => true | _ => false end) then app1 else lget li k).
    { intros k. destruct app1 as [|z t].
      - cbn in E1. injection E1 as <- <-. rewrite andb_false_r. reflexivity.
      - rewrite andb_true_r. apply (lget_record _ _ _ _ _ _ _ _ E1). apply F1. discriminate. }
    assert (F3 : lget li1 (mkp ab y) = []).
    { rewrite LG1. destruct (eqb_spec (mkp ab y) (mkp ab ab)); [contradiction|]. exact F2. }
    pose proof (lget_record _ _ _ _ _ _ _ _ E2 F3) as LG2.
    exists (dset li2 dp l2), ch2. split; [reflexivity|].
    (* the queue *)
    assert (Q : exists q2, fold_left (apply_change pr) ch2 (q0, o0) = (q2, if eqb dp pr then o - Z.of_nat (length d) else o) /\ qinv q2 /\ dget (w_finder q2) pr = None /\
              forall k, k <> pr -> dget (w_finder q2) k = entry_of (lget (dset li2 dp l2) k)).
    { assert (Q1 : exists q1, fold_left (apply_change pr) ch1 (q0, o0) = (q1, if eqb dp pr then o - Z.of_nat (length app1) else o) /\ qinv q1 /\ dget (w_finder q1) pr = dget (w_finder q) pr /\
                 forall k, k <> pr -> dget (w_finder q1) k = entry_of (if eqb k dp then l1 else lget li1 k)).
      { destruct app1 as [|z t] eqn:Ea.
        - cbn in E1. injection E1 as <- <-. exists q. rewrite I6. cbn [length]. change (Z.of_nat 0) with 0. rewrite Z.sub_0_r. split; [destruct (eqb dp pr); reflexivity|]. split; [exact I7|]. split; [reflexivity|].
          intros k K. rewrite I8 by exact K. destruct (eqb_spec k dp) as [->|]; [|reflexivity]. f_equal. destruct A9 as [f F].
          assert (El : l1 = l0) by (rewrite F in *; apply filter_same; cbn in A7; lia). rewrite El. unfold l0. destruct (eqb_spec pr dp); [congruence|reflexivity].
        - apply (record_queue pr q0 o0 li ch (mkp ab ab) dp (z :: t) l1 l0 li1 ch1 q o E1); try assumption.
          + apply F1. discriminate.
          + congruence.
          + intros k K. rewrite I8 by exact K. destruct (eqb_spec k dp) as [->|]; [|reflexivity]. f_equal. unfold l0. destruct (eqb_spec pr dp); [congruence|reflexivity]. }
      destruct Q1 as (q1 & Eq1 & Q1 & P1 & D1).
      destruct (record_queue pr q0 o0 li1 ch1 (mkp ab y) dp app2 l2 l1 li2 ch2 q1 _ E2 F3 A8 A10 ltac:(congruence) Hp Eq1 Q1 D1) as (q2 & Eq2 & Q2 & P2 & D2).
      exists q2. split; [|split; [exact Q2|split; [congruence|]]].
      - rewrite Eq2. f_equal. destruct (eqb_spec dp pr) as [Ed|]; [|reflexivity].
        assert (El2 : l2 = []).
        { apply nil_in. intros p X. apply A6 in X. destruct X as [X1 X2]. unfold l0 in X1. rewrite Ed, eqb_refl in X1. apply d_in in X1. tauto. }
        assert (El0 : l0 = d) by (unfold l0; rewrite Ed, eqb_refl; reflexivity). rewrite El0 in A7. rewrite El2 in A8. cbn in A8. lia.
      - intros k K. rewrite D2 by exact K. rewrite lget_dset. reflexivity. }
    destruct Q as (q2 & Eq2 & Q2 & P2 & D2).
    split; [apply dset_nodup, (record_nodup _ _ _ _ _ _ _ _ E2), (record_nodup _ _ _ _ _ _ _ _ E1), I1|].
    assert (LG : forall k, lget (dset li2 dp l2) k = if eqb k dp then l2 else if eqb k (mkp ab y) then app2 else
       if eqb k (mkp ab ab) && negb (match app1 with [] => true | _ => false end) then app1 else lget li k).
    { intros k. rewrite lget_dset, LG2, LG1. reflexivity. }
    split.
    { intros k. rewrite LG. destruct (eqb k dp); [exact A3|]. destruct (eqb k (mkp ab y)); [exact A2|].
      destruct (eqb k (mkp ab ab) && negb (match app1 with [] => true | _ => false end)); [exact A1|apply I2]. }
    split.
    { intros x z p Gx Gz Nk. rewrite LG. destruct (eqb_spec (mkp x z) dp) as [Ek|Nk1].
      - (* the pair that disappears *)
        unfold dp in Ek. apply mkp_inj in Ek; [|assumption..]. destruct Ek as [-> ->]. fold dp in Nk. rewrite A6. unfold l0.
        destruct (eqb_spec pr dp) as [X|_]; [congruence|]. unfold dp at 1. rewrite I3 by assumption. unfold here. fold dp. split.
        + intros [[(X & _ & _)|[(_ & X & _)|(_ & _ & _ & [])]] Y]; [|congruence]. left. split; [exact X|]. split; [tauto|]. intros [[] _].
        + intros [(X & Y & _)|[(_ & X & _)|(_ & _ & _ & [])]]; [|congruence]. split; [|intros Z0; apply Y; split; [left; reflexivity|exact Z0]].
          left. split; [exact X|]. split; [tauto|]. intros [[] _].
      - destruct (eqb_spec (mkp x z) (mkp ab y)) as [Ek|Nk2].
        + apply mkp_inj in Ek; [|assumption..]. destruct Ek as [-> ->]. rewrite A5. unfold here. destruct (eqb_spec y ab); [contradiction|]. fold dp. split.
          * intros X. right. left. split; [exact X|]. split; [reflexivity|]. left. reflexivity.
          * intros [((X & _) & _)|[(X & _)|(_ & _ & _ & [])]]; [apply s_new in X; congruence|exact X].
        + assert (Hin : (forall u, mkp x z <> u \/ True) -> In p (lget li (mkp x z)) <-> here DR [] x z p) by (intros _; apply I3; assumption).
          specialize (Hin ltac:(auto)).
          destruct (eqb_spec (mkp x z) (mkp ab ab)) as [Ek|Nk3].
          * apply mkp_inj in Ek; [|assumption..]. destruct Ek as [-> ->]. cbn [andb]. destruct app1 as [|w t] eqn:Ea.
            -- cbn [negb]. rewrite Hin. unfold here. rewrite !eqb_refl. split.
               ++ intros [((X & _) & _)|[(X & _ & Y)|(_ & _ & _ & [])]]; [apply s_new in X; congruence|]. right. left. split; [exact X|]. split; [reflexivity|]. right. exact Y.
               ++ intros [((X & _) & _)|[(X & _ & [Y|Y])|(_ & _ & _ & [])]]; [apply s_new in X; congruence| |right; left; auto].
                  unfold dp in Y. apply mkp_inj in Y; [|assumption..]. destruct Y as [_ Y]. destruct (proj2 (A4 p) (conj Y X)).
            -- cbn [negb]. rewrite A4. destruct (proj1 (A4 w) (or_introl eq_refl)) as [Ey _]. unfold here. rewrite eqb_refl. split.
               ++ intros [_ X]. right. left. split; [exact X|]. split; [reflexivity|]. left. unfold dp. rewrite Ey. reflexivity.
               ++ intros [((X & _) & _)|[(X & _)|(_ & _ & _ & [])]]; [apply s_new in X; congruence|]. auto.
          * cbn [andb]. rewrite Hin. unfold here. split.
            -- intros [(X & Y & Z0)|[(X & -> & Y)|(_ & _ & _ & [])]].
               ++ left. split; [exact X|]. split; [|exact Z0]. intros [[W|W] W2]; [congruence|]. apply Y. auto.
               ++ right. left. split; [exact X|]. split; [reflexivity|]. right. exact Y.
            -- intros [(X & Y & Z0)|[(X & -> & Y)|(_ & _ & _ & [])]].
               ++ left. split; [exact X|]. split; [|exact Z0]. intros [W W2]. apply Y. split; [right; exact W|exact W2].
               ++ right. left. split; [exact X|]. split; [reflexivity|]. destruct Y as [Y|Y]; [|exact Y]. exfalso. destruct (eqb_spec z ab) as [->|Nz]; [congruence|].
                  unfold dp in Y. apply mkp_inj in Y; [|assumption..]. destruct Y as [_ Y]. congruence. }
    split.
    { intros k. rewrite dget_dset. destruct (eqb_spec k dp) as [->|]; [left; left; reflexivity|]. intros X.
      apply (record_empty _ _ _ _ _ _ _ _ _ E2) in X. apply (record_empty _ _ _ _ _ _ _ _ _ E1) in X. apply I4 in X. destruct X as [X|[]]. left. right. exact X. }
    split.
    { intros k. unfold dmem. rewrite dget_dset. destruct (eqb_spec k dp) as [->|]; [intros _; exists b, y; auto|]. intros X.
      apply (record_dmem _ _ _ _ _ _ _ _ _ E2) in X. destruct X as [->|X]; [exists ab, y; auto|].
      apply (record_dmem _ _ _ _ _ _ _ _ _ E1) in X. destruct X as [->|X]; [exists ab, ab; auto|]. apply I5, X. }
    exists q2. eexists. split; [exact Eq2|]. split; [exact Q2|]. split; [exact P2|]. split; [exact D2|].
    cbn [mem existsb]. rewrite (I9). unfold mem. cbn [existsb]. destruct (eqb_spec pr dp) as [Ep|Np].
    - rewrite <- Ep, eqb_refl. cbn [orb]. rewrite <- Ep in Nd. apply mem_not_in in Nd. unfold mem in Nd. rewrite Nd. lia.
    - destruct (eqb_spec dp pr) as [Ep|_]; [congruence|]. cbn [orb]. reflexivity.
  Qed.

  (** the pair itself cannot be a left neighbour that stays *)
  Lemma no_self_left p : a = b -> ~ occ s' a ab p.
  Proof.
    intros E H. apply (occ_right ms) in H; [|assumption..]. destruct H as (X & I & N1 & N2). destruct (M_in ms s a b G Lc Adj _ I) as [Y _].
    apply N2. apply (M_over ms); try assumption. congruence.
  Qed.
  Lemma left_inv (same : option (list Z)) DR DL li ch x :
    (forall p y, In p M -> sym s (p + len a + len b) = Some y -> In (mkp b y) DR) ->
    linv DR DL li ch -> good x -> x <> ab -> ~ In (mkp x a) DL ->
    exists li' ch', location_body pr M same Left (mkp x a) (li, ch) = Ok (li', ch') /\ linv DR (mkp x a :: DL) li' ch'.
  Proof.
    intros Rc (I1 & I2 & I3 & I4 & I5 & q & o & I6 & I7 & I7b & I8 & I9) Gx Nx Nd.
    set (dp := mkp x a) in *.
    destruct (eqb_spec pr dp) as [Ep|Np].
    { exists li, ch. split; [unfold location_body; rewrite Ep, eqb_refl; reflexivity|].
      split; [exact I1|]. split; [exact I2|]. split.
      - intros x' y' p Gx' Gy' Nk. rewrite I3 by assumption. unfold here. split.
        + intros [(X & Y & Z0)|[X|(X & Y & -> & Z0)]].
          * left. split; [exact X|]. split; [exact Y|]. intros [[W|W] W2]; [congruence|tauto].
          * right. left. exact X.
          * right. right. split; [exact X|]. split; [exact Y|]. split; [reflexivity|]. right. exact Z0.
        + intros [(X & Y & Z0)|[X|(X & Y & -> & Z0)]].
          * left. split; [exact X|]. split; [exact Y|]. intros [W W2]. apply Z0. split; [right; exact W|exact W2].
          * right. left. exact X.
          * right. right. split; [exact X|]. split; [exact Y|]. split; [reflexivity|]. destruct Z0 as [Z0|Z0]; [|exact Z0]. exfalso.
            rewrite <- Ep in Z0. apply mkp_inj in Z0; [|assumption..]. destruct Z0 as [<- Eb]. exact (no_self_left p (eq_sym Eb) X).
      - split; [intros k K; destruct (I4 k K); [left; assumption|right; right; assumption]|]. split; [exact I5|].
        exists q, o. repeat (split; [assumption|]). exact I9. }
    assert (H0 : forall p, In p (lget li dp) <-> occ s x a p /\ ~ In (p - len a) M).
    { intros p. unfold dp. rewrite I3; [|assumption|assumption|intros X; apply Np; symmetry; exact X]. unfold here. fold dp. split.
      - intros [(X & Y & Z0)|[(_ & X & _)|(_ & _ & X & _)]]; [|congruence|congruence]. split; [exact X|]. intros W. apply Y. split; [|exact W].
        destruct X as [X1 X2]. destruct (M_in ms s a b G Lc Adj _ W) as [_ W2]. replace (p - len a + len a) with p in W2 by lia.
        assert (x = b) by congruence. subst x. unfold dp. apply (Rc (p - len a)); [exact W|]. replace (p - len a + len a + len b) with (p + len b) by lia. exact X2.
      - intros [X Y]. left. split; [exact X|]. split; [tauto|]. tauto. }
    destruct (left_step ms s a b G Lc Adj same x li ch (lget li dp) Gx Nx Np eq_refl (I2 dp) H0) as (app & l2 & A1 & A2 & A3 & A4 & A5 & A6 & Eb).
    fold dp in Eb. rewrite Eb.
    assert (Hd : mkp x ab <> dp).
    { unfold dp. intros E. apply mkp_inj in E; [|assumption..]. destruct E. congruence. }
    assert (Hp : mkp x ab <> pr).
    { intros E. apply mkp_inj in E; [|assumption..]. destruct E. congruence. }
    assert (F : lget li (mkp x ab) = []).
    { apply nil_in. intros p Hp'. apply I3 in Hp'; [|assumption..]. destruct Hp' as [((_ & X) & _)|[(_ & X & _)|(_ & _ & _ & X)]].
      - apply s_new in X. congruence.
      - congruence.
      - contradiction. }
    destruct (record_changes li ch (mkp x ab) dp app l2) as [li2 ch2] eqn:E.
    pose proof (lget_record _ _ _ _ _ _ _ _ E F) as LG2.
    exists (dset li2 dp l2), ch2. split; [reflexivity|].
    destruct (record_queue pr q0 o0 li ch (mkp x ab) dp app l2 (lget li dp) li2 ch2 q o E F A5 A6 Hd Hp I6 I7) as (q2 & Eq2 & Q2 & P2 & D2).
    { intros k K. rewrite I8 by exact K. destruct (eqb_spec k dp) as [->|]; reflexivity. }
    split; [apply dset_nodup, (record_nodup _ _ _ _ _ _ _ _ E), I1|].
    assert (LG : forall k, lget (dset li2 dp l2) k = if eqb k dp then l2 else if eqb k (mkp x ab) then app else lget li k).
    { intros k. rewrite lget_dset, LG2. reflexivity. }
    split.
    { intros k. rewrite LG. destruct (eqb k dp); [exact A2|]. destruct (eqb k (mkp x ab)); [exact A1|apply I2]. }
    split.
    { intros u v p Gu Gv Nk. rewrite LG. destruct (eqb_spec (mkp u v) dp) as [Ek|Nk1].
      - unfold dp in Ek. apply mkp_inj in Ek; [|assumption..]. destruct Ek as [-> ->]. fold dp in Nk. rewrite A4, H0. unfold here. fold dp. split.
        + intros [[X Y] Z0]. left. split; [exact X|]. split; [tauto|]. tauto.
        + intros [(X & Y & Z0)|[(_ & X & _)|(_ & _ & X & _)]]; [|congruence|congruence].
          assert (H : ~ (In dp DL /\ In (p + len x) M)) by (intros [W _]; contradiction).
          assert (K : here DR DL x a p) by (left; fold dp; auto). apply I3 in K; [|assumption..]. fold dp in K. apply H0 in K.
          split; [exact K|]. intros W. apply Z0. split; [left; reflexivity|exact W].
      - destruct (eqb_spec (mkp u v) (mkp x ab)) as [Ek|Nk2].
        + apply mkp_inj in Ek; [|assumption..]. destruct Ek as [-> ->]. rewrite A3. unfold here. fold dp. split.
          * intros X. right. right. split; [exact X|]. split; [exact Nx|]. split; [reflexivity|]. left. reflexivity.
          * intros [((_ & X) & _)|[(_ & X & _)|(X & _)]]; [apply s_new in X; congruence|congruence|exact X].
        + rewrite I3 by assumption. unfold here. split.
          * intros [(X & Y & Z0)|[X|(X & Y & -> & Z0)]].
            -- left. split; [exact X|]. split; [exact Y|]. intros [[W|W] W2]; [congruence|tauto].
            -- right. left. exact X.
            -- right. right. split; [exact X|]. split; [exact Y|]. split; [reflexivity|]. right. exact Z0.
          * intros [(X & Y & Z0)|[X|(X & Y & -> & Z0)]].
            -- left. split; [exact X|]. split; [exact Y|]. intros [W W2]. apply Z0. split; [right; exact W|exact W2].
            -- right. left. exact X.
            -- right. right. split; [exact X|]. split; [exact Y|]. split; [reflexivity|]. destruct Z0 as [Z0|Z0]; [|exact Z0]. exfalso.
               unfold dp in Z0. apply mkp_inj in Z0; [|assumption..]. destruct Z0 as [Z0 _]. congruence. }
    split.
    { intros k. rewrite dget_dset. destruct (eqb_spec k dp) as [->|]; [right; left; reflexivity|]. intros X.
      apply (record_empty _ _ _ _ _ _ _ _ _ E) in X. apply I4 in X. destruct X as [X|X]; [left; exact X|right; right; exact X]. }
    split.
    { intros k. unfold dmem. rewrite dget_dset. destruct (eqb_spec k dp) as [->|]; [intros _; exists x, a; auto|]. intros X.
      apply (record_dmem _ _ _ _ _ _ _ _ _ E) in X. destruct X as [->|X]; [exists x, ab; auto|]. apply I5, X. }
    exists q2. eexists. split; [exact Eq2|]. split; [exact Q2|]. split; [congruence|]. split.
    { intros k K. rewrite D2 by exact K. rewrite lget_dset. reflexivity. }
    destruct (eqb_spec dp pr) as [X|_]; [congruence|exact I9].
  Qed.

  Lemma right_all same R DR li ch : (forall k, In k R -> exists y, k = mkp b y /\ good y /\ y <> ab) -> NoDup R -> (forall k, In k R -> ~ In k DR) ->
    (In pr R -> same = Some d) -> linv DR [] li ch ->
    exists li' ch', foldM (location_body pr M same Right) R (li, ch) = Ok (li', ch') /\ linv (rev R ++ DR) [] li' ch'.
  Proof.
    revert DR li ch. induction R as [|k R IH]; intros DR li ch V N D Sm I; [exists li, ch; auto|]. inversion N as [|? ? N1 N2]; subst.
    destruct (V k (or_introl eq_refl)) as (y & -> & Gy & Ny).
    destruct (right_inv same DR li ch y I Gy Ny (D _ (or_introl eq_refl))) as (li1 & ch1 & E1 & J1).
    { intros E. apply Sm. left. symmetry. exact E. }
    cbn [foldM]. rewrite E1. cbn [bind]. cbn [rev]. rewrite <- app_assoc. apply IH; [|exact N2| |intros X; apply Sm; right; exact X|exact J1].
    - intros k Hk. apply V. right. exact Hk.
    - intros k Hk [<-|X]; [contradiction|]. exact (D k (or_intror Hk) X).
  Qed.
  Lemma left_all same R L DL li ch :
    (forall p y, In p M -> sym s (p + len a + len b) = Some y -> In (mkp b y) R) ->
    (forall k, In k L -> exists x, k = mkp x a /\ good x /\ x <> ab) -> NoDup L -> (forall k, In k L -> ~ In k DL) ->
    linv R DL li ch ->
    exists li' ch', foldM (location_body pr M same Left) L (li, ch) = Ok (li', ch') /\ linv R (rev L ++ DL) li' ch'.
  Proof.
    intros Rc. revert DL li ch. induction L as [|k L IH]; intros DL li ch V N D I; [exists li, ch; auto|]. inversion N as [|? ? N1 N2]; subst.
    destruct (V k (or_introl eq_refl)) as (x & -> & Gx & Nx).
    destruct (left_inv same R DL li ch x Rc I Gx Nx (D _ (or_introl eq_refl))) as (li1 & ch1 & E1 & J1).
    cbn [foldM]. rewrite E1. cbn [bind]. cbn [rev]. rewrite <- app_assoc. apply IH; [|exact N2| |exact J1].
    - intros k Hk. apply V. right. exact Hk.
    - intros k Hk [<-|X]; [contradiction|]. exact (D k (or_intror Hk) X).
  Qed.
  (** when all neighbours have been visited, the index is that of the merged text *)
  Lemma here_all R L x y p :
    (forall p y, In p M -> sym s (p + len a + len b) = Some y -> In (mkp b y) R) ->
    (forall p x, sym s p = Some x -> In (p + len x) M -> In (mkp x a) L) ->
    good x -> good y -> mkp x y <> pr -> here R L x y p <-> occ s' x y p.
  Proof.
    intros Rc Lcm Gx Gy Nk. assert (Nxy : ~ (x = a /\ y = b)) by (intros [-> ->]; congruence). unfold here. split.
    - intros [(X & Y & Z0)|[(X & _)|(X & _)]]; [|exact X|exact X]. destruct X as [X1 X2].
      apply (occ_old ms); try assumption; [apply (s_new p), X1|apply (s_new (p + len x)), X2|]. split; [split; assumption|]. split.
      + intros W. apply Y. split; [|exact W]. destruct (M_in ms s a b G Lc Adj _ W) as [_ W2]. replace (p - len a + len a) with p in W2 by lia.
        assert (x = b) by congruence. subst x. apply (Rc (p - len a)); [exact W|]. replace (p - len a + len a + len b) with (p + len b) by lia. exact X2.
      + intros W. apply Z0. split; [|exact W]. destruct (M_in ms s a b G Lc Adj _ W) as [W1 _]. assert (y = a) by congruence. subst y. apply (Lcm p); assumption.
    - intros X. destruct (eqb_spec x ab) as [->|Nx].
      + right. left. split; [exact X|]. split; [reflexivity|]. destruct (eqb_spec y ab) as [->|Ny].
        * apply (occ_both ms) in X; [|assumption..]. destruct X as [X1 X2]. apply (Rc p); [exact X1|]. apply (M_in ms s a b G Lc Adj _ X2).
        * apply (occ_left ms) in X; [|assumption..]. destruct X as (X1 & X2 & _). apply (Rc p); assumption.
      + destruct (eqb_spec y ab) as [->|Ny].
        * right. right. split; [exact X|]. split; [exact Nx|]. split; [reflexivity|]. apply (occ_right ms) in X; [|assumption..]. destruct X as (X1 & X2 & _). apply (Lcm p); assumption.
        * left. apply (occ_old ms) in X; try assumption. destruct X as (X & Y & Z0). split; [exact X|]. tauto.
  Qed.
End Merge.

Lemma cleanup_side_spec dps li : NoDup (dkeys li) ->
  NoDup (dkeys (cleanup_side li dps)) /\
  (forall k, lget (cleanup_side li dps) k = lget li k) /\
  (forall k, dget (cleanup_side li dps) k = Some [] -> dget li k = Some [] /\ ~ In k dps) /\
  (forall k, dmem (cleanup_side li dps) k = true -> dmem li k = true).
Proof.
  unfold cleanup_side. revert li. induction dps as [|dp dps IH]; intros li N; [cbn; repeat split; auto|]. cbn [fold_left].
  set (li1 := match lget li dp with [] => ddel li dp | _ => li end).
  assert (H : NoDup (dkeys li1) /\ (forall k, lget li1 k = lget li k) /\ (forall k, dget li1 k = Some [] -> dget li k = Some [] /\ k <> dp) /\
              (forall k, dmem li1 k = true -> dmem li k = true)).
  { unfold li1. destruct (lget li dp) as [|z t] eqn:E.
    - split; [apply ddel_nodup, N|]. split; [|split].
      + intros k. unfold lget at 1. rewrite dget_ddel by exact N. destruct (eqb_spec k dp) as [->|]; [rewrite E; reflexivity|reflexivity].
      + intros k. rewrite dget_ddel by exact N. destruct (eqb_spec k dp); [discriminate|auto].
      + intros k. unfold dmem. rewrite dget_ddel by exact N. destruct (eqb_spec k dp); [discriminate|auto].
    - split; [exact N|]. split; [reflexivity|]. split; [|auto]. intros k K. split; [exact K|]. intros ->. unfold lget in E. rewrite K in E. discriminate. }
  destruct H as (H1 & H2 & H3 & H4). destruct (IH li1 H1) as (J1 & J2 & J3 & J4). split; [exact J1|]. split; [intros k; rewrite J2; apply H2|]. split.
  - intros k K. destruct (J3 k K) as [K1 K2]. destruct (H3 k K1) as [K3 K4]. split; [exact K3|]. intros [X|X]; [congruence|contradiction].
  - intros k K. apply H4, J4, K.
Qed.

Lemma spaced_of g l : increasing l -> (forall p q, In p l -> In q l -> p < q -> p + g <= q) -> spaced g l.
Proof.
  intros S. induction S as [|x l S IH F]; intros H; constructor.
  - apply IH. intros p q X Y. apply H; right; assumption.
  - rewrite Forall_forall in *. intros y Y. apply H; [left; reflexivity|right; exact Y|apply F, Y].
Qed.
Lemma update_location ord ms s a b li ni q0 :
  (forall l, Permutation (ord l) l) ->
  Forall good s -> local ms s -> adjacent s a b ->
  loc_ok li s ->
  (forall k, In k (nget ni (mkp a b) Right) -> exists y, k = mkp b y /\ good y /\ settled ms y) ->
  (forall k, In k (nget ni (mkp a b) Left) -> exists x, k = mkp x a /\ good x /\ settled ms x) ->
  NoDup (nget ni (mkp a b) Right) -> NoDup (nget ni (mkp a b) Left) ->
  (forall p y, occ s a b p -> sym s (p + len a + len b) = Some y -> In (mkp b y) (nget ni (mkp a b) Right)) ->
  (forall p x, sym s p = Some x -> occ s a b (p + len x) -> In (mkp x a) (nget ni (mkp a b) Left)) ->
  (In (mkp a b) (nget ni (mkp a b) Right) -> In (mkp a b) (nget ni (mkp a b) Left)) ->
  qinv q0 -> dget (w_finder q0) (mkp a b) = None -> (forall k, k <> mkp a b -> dget (w_finder q0) k = entry_of (lget li k)) ->
  exists li' ch q, update_location_index ord li ni (mkp a b) = Ok (li', ch) /\
    fold_left (apply_change (mkp a b)) ch (q0, Z.of_nat (length (places 0 s a b))) = (q, n_merged a b s) /\
    qinv q /\ loc_ok li' (merge_text a b s) /\ (forall k, dget (w_finder q) k = entry_of (lget li' k)).
Proof.
  intros Ho G Lc Adj (O1 & O2 & O3 & O4) Vr Vl Nr Nl Cr Cl Self Q0 P0 D0.
  pose proof (Gab ms s a b G Lc Adj) as [Ga Gb]. pose proof (good_len a Ga) as La. pose proof (good_len b Gb) as Lb.
  pose proof (M_sorted ms s a b G Lc Adj) as Sm. pose proof (good_app a b Ga Gb) as Gn.
  set (M := mpos 0 a b s) in *. set (pl := places 0 s a b) in *.
  assert (Spl : increasing pl) by (apply places_sorted, G).
  assert (Ipl : forall p, In p pl <-> occ s a b p) by (intros p; apply occ_places, G).
  set (d := filter (fun x => zmem (x - len a) M) pl).
  assert (Sd : increasing d) by (apply filter_sorted, Spl).
  assert (Id : forall p, In p d <-> occ s a b p /\ In (p - len a) M) by (intros p; unfold d; rewrite filter_In, zmem_spec, Ipl; reflexivity).
  assert (Mf : M = filter (fun x => negb (zmem (x - len a) M)) pl).
  { apply sorted_eq; [exact Sm|apply filter_sorted, Spl|]. intros p. rewrite filter_In, negb_true_iff, zmem_false, Ipl. apply (M_fix ms); assumption. }
  unfold update_location_index. rewrite (O2 a b Ga Gb). fold pl.
  unfold calc_position_shift. rewrite pfst_mkp by assumption.
  (* the positions that are merged *)
  assert (Ch : exists same, (if mem (mkp a b) (nget ni (mkp a b) Left)
      then let (m, d0) := choose_positions_to_merge pl (len a) in (m, Some d0) else (pl, None)) = (M, same) /\
      (In (mkp a b) (nget ni (mkp a b) Right) -> same = Some d) /\ (~ In (mkp a b) (nget ni (mkp a b) Right) -> d = [])).

  { assert (Dn : ~ In (mkp a b) (nget ni (mkp a b) Right) -> d = []).
    { intros N. apply nil_in. intros p X. apply Id in X. destruct X as [[X1 X2] X3]. destruct (M_in ms s a b G Lc Adj _ X3) as [Y1 Y2].
      apply N. assert (a = b) by (replace (p - len a + len a) with p in Y2 by lia; congruence).
      replace (mkp a b) with (mkp b b) at 1 by congruence. apply (Cr (p - len a)); [split; assumption|].
      replace (p - len a + len a + len b) with (p + len a) by (replace (len b) with (len a) by congruence; lia). exact X2. }
    destruct (mem (mkp a b) (nget ni (mkp a b) Left)) eqn:Em.
    - assert (Sp : spaced (len a) pl).
      { apply spaced_of; [exact Spl|]. intros p q X Y L. apply Ipl in X, Y. destruct X as [X _]. destruct Y as [Y _]. apply (sym_apart s p q a a G X Y L). }
      pose proof (C60_choose pl (len a) La Sp) as H. destruct (choose_positions_to_merge pl (len a)) as [m d0]. destruct H as (H1 & H2 & H3).
      specialize (H3 M Mf). subst m. exists (Some d0). split; [reflexivity|]. split; [|exact Dn]. intros _. f_equal. exact H2.
    - apply mem_not_in in Em. assert (Ed : d = []).
      { apply nil_in. intros p X. apply Id in X. destruct X as [[X1 X2] X3]. destruct (M_in ms s a b G Lc Adj _ X3) as [Y1 Y2].
        replace (p - len a + len a) with p in Y2 by lia. assert (a = b) by congruence. apply Em.
        replace (mkp a b) with (mkp a a) by congruence. replace (mkp a a) with (mkp a b) at 2 by congruence.
        apply (Cl (p - len a)); [exact Y1|]. replace (p - len a + len a) with p by lia. split; assumption. }
      exists None. split; [|split; [intros X; destruct (Em (Self X))|exact Dn]]. f_equal. rewrite Mf. symmetry. unfold d in Ed. clear -Ed.
      revert Ed. generalize M. intros M0. induction pl as [|x l IH]; [reflexivity|]. cbn [filter]. destruct (zmem (x - len a) M0); cbn [negb]; [discriminate|].
      intros Ed. f_equal. apply IH, Ed. }
  destruct Ch as (same & -> & Sa & Dn).
  set (R := ord (nget ni (mkp a b) Right)). set (L := ord (nget ni (mkp a b) Left)).
  assert (PR : forall k, In k R <-> In k (nget ni (mkp a b) Right)) by (intros k; split; apply Permutation_in; [|symmetry]; apply Ho).
  assert (PL : forall k, In k L <-> In k (nget ni (mkp a b) Left)) by (intros k; split; apply Permutation_in; [|symmetry]; apply Ho).
  assert (NR : NoDup R) by (eapply Permutation_NoDup; [symmetry; apply Ho|exact Nr]).
  assert (NL : NoDup L) by (eapply Permutation_NoDup; [symmetry; apply Ho|exact Nl]).
  assert (I0 : linv s a b d q0 (Z.of_nat (length pl)) [] [] li []).
  { split; [exact O1|]. split; [|split; [|split; [intros k K; destruct (O3 k K)|split; [exact O4|]]]].
    - intros k. destruct (dget li k) as [l|] eqn:E; [|unfold lget; rewrite E; constructor].
      assert (W : wf k) by (apply O4; unfold dmem; rewrite E; reflexivity). destruct W as (x & y & Gx & Gy & ->). rewrite O2 by assumption. apply places_sorted, G.
    - intros x y p Gx Gy Nk. rewrite O2 by assumption. rewrite occ_places by exact G. unfold here. split.
      + intros X. left. split; [exact X|]. split; intros [[] _].
      + intros [[X _]|[(_ & _ & [])|(_ & _ & _ & [])]]. exact X.
    - exists q0. eexists. split; [reflexivity|]. split; [exact Q0|]. split; [exact P0|]. split; [exact D0|]. cbn. lia. }
  destruct (right_all ms s a b G Lc Adj d Sd Id q0 (Z.of_nat (length pl)) same R [] li []) as (li1 & ch1 & E1 & I1); try assumption.
  { intros k K. apply PR, Vr in K. destruct K as (y & K1 & K2 & K3). exists y. split; [exact K1|]. split; [exact K2|]. apply (ab_new ms s a b Lc Adj), K3. }
  { intros k _ []. }
  { intros X. apply Sa, PR, X. }
  rewrite app_nil_r in I1.
  destruct (left_all ms s a b G Lc Adj d q0 (Z.of_nat (length pl)) same (rev R) L [] li1 ch1) as (li2 & ch2 & E2 & I2); try assumption.
  { intros p y X Y. rewrite <- in_rev. apply PR. apply (Cr p); [|exact Y]. apply (M_in ms s a b G Lc Adj p X). }
  { intros k K. apply PL, Vl in K. destruct K as (y & K1 & K2 & K3). exists y. split; [exact K1|]. split; [exact K2|]. apply (ab_new ms s a b Lc Adj), K3. }
  { intros k _ []. }
  rewrite app_nil_r in I2. unfold M in E1, E2 |- *. rewrite E1. cbn [bind]. rewrite E2. cbn [bind fst snd].
  destruct I2 as (K1 & K2 & K3 & K4 & K5 & q & o & K6 & K7 & K8 & K9 & K10).
  exists (cleanup_location_index li2 (mkp a b) R L), ch2, q. split; [reflexivity|].
  destruct (cleanup_side_spec R li2 K1) as (C1 & C2 & C3 & C4). destruct (cleanup_side_spec L (cleanup_side li2 R) C1) as (D1 & D2 & D3 & D4).
  assert (LG : forall k, lget (cleanup_location_index li2 (mkp a b) R L) k = if eqb k (mkp a b) then [] else lget li2 k).
  { intros k. unfold cleanup_location_index. unfold lget at 1. rewrite dget_ddel by exact D1. destruct (eqb k (mkp a b)); [reflexivity|].
    rewrite <- C2, <- D2. reflexivity. }
  split.
  { rewrite K6. f_equal. rewrite K10, n_merged_mpos. fold M. rewrite Mf. rewrite (filter_split (fun x => zmem (x - len a) M) pl). fold d.
    destruct (mem (mkp a b) (rev R)) eqn:Em; [lia|]. apply mem_not_in in Em. rewrite Dn; [cbn; lia|]. intros X. apply Em.
    rewrite <- in_rev. apply PR, X. }
  split; [exact K7|]. split.
  - split; [apply ddel_nodup, D1|]. split; [|split].
    + intros x y Gx Gy. rewrite LG. destruct (eqb_spec (mkp x y) (mkp a b)) as [E|N].
      * apply mkp_inj in E; [|assumption..]. destruct E as [-> ->]. symmetry. apply nil_in. intros p X. apply occ_places in X; [|apply merge_good; assumption].
        apply (occ_gone ms) in X; assumption.
      * apply sorted_eq; [apply K2|apply places_sorted, merge_good; assumption|]. intros p. rewrite K3 by assumption. rewrite occ_places by (apply merge_good; assumption).
        apply (here_all ms); try assumption.
        -- intros p' y' X Y. rewrite <- in_rev. apply PR. apply (Cr p'); [|exact Y]. apply (M_in ms s a b G Lc Adj p' X).
        -- intros p' x' X Y. rewrite <- in_rev. apply PL. apply (Cl p'); [exact X|]. apply (M_in ms s a b G Lc Adj _ Y).
    + intros k. unfold cleanup_location_index. rewrite dget_ddel by exact D1. destruct (eqb_spec k (mkp a b)); [discriminate|]. intros X. apply D3 in X.
      destruct X as [X XL]. apply C3 in X. destruct X as [X XR]. apply K4 in X. rewrite <- !in_rev in X. tauto.
    + intros k. unfold cleanup_location_index, dmem. rewrite dget_ddel by exact D1. destruct (eqb_spec k (mkp a b)); [discriminate|]. intros X.
      apply K5, C4, D4. exact X.
  - intros k. rewrite LG. destruct (eqb_spec k (mkp a b)) as [->|N]; [exact K8|]. apply K9, N.
Qed.
