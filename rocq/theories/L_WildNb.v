(** update_neighbour_index makes an index that knows all neighbours in the merged text, for C84. *)
From Verif Require Import M_Base L_Base M_Wild M_WildRun P_Wild L_WildText L_WildLoc L_WildQueue L_WildStep.
From Coq Require Import Lia Sorting.Sorted Sorting.Permutation.
Local Open Scope Z_scope.

Definition side_eqb (s t : side) : bool := match s, t with Right, Right | Left, Left => true | _, _ => false end.
Lemma nget_nadd ni k s x k' s' : nget (nadd ni k s x) k' s' = if eqb k' k && side_eqb s' s then sadd x (nget ni k s) else nget ni k' s'.
Proof.
  unfold nadd. unfold nget at 1. rewrite dget_dset. destruct (eqb_spec k' k) as [->|N]; [|reflexivity].
  destruct s, s'; cbn [side_eqb andb]; reflexivity.
Qed.
Lemma in_sadd x l y : In y (sadd x l) <-> y = x \/ In y l.
Proof.
  unfold sadd. destruct (mem x l) eqn:E; [apply mem_in in E; split; [auto|intros [->|]; assumption]|]. rewrite in_app_iff. cbn. intuition congruence.
Qed.
Lemma sadd_nodup x l : NoDup l -> NoDup (sadd x l).
Proof.
  intros N. unfold sadd. destruct (mem x l) eqn:E; [exact N|]. apply mem_not_in in E. eapply Permutation_NoDup; [apply Permutation_cons_append|]. constructor; assumption.
Qed.
Lemma opp_opp s : opposite (opposite s) = s.
Proof. destruct s; reflexivity. Qed.

(** ** Pairs seen from one side *)
Definition outer (sd : side) (k : str) : str := match sd with Right => psnd k | Left => pfst k end.
Definition mk (sd : side) (i o : str) : str := match sd with Right => mkp i o | Left => mkp o i end.
Lemma mk_opp sd i o : mk (opposite sd) i o = mk sd o i.
Proof. destruct sd; reflexivity. Qed.
Lemma outer_mk sd i o : good i -> good o -> outer sd (mk sd i o) = o.
Proof. intros I O. destruct sd; [apply psnd_mkp|apply pfst_mkp]; assumption. Qed.
Lemma inner_mk sd i o : good i -> good o -> outer (opposite sd) (mk sd i o) = i.
Proof. intros I O. destruct sd; [apply pfst_mkp|apply psnd_mkp]; assumption. Qed.
Lemma can_mk main k sd : can_be_concat main k sd = eqb (outer sd main) (outer (opposite sd) k).
Proof. destruct sd; reflexivity. Qed.
Lemma mk_inj sd a b c d : good a -> good b -> good c -> good d -> mk sd a b = mk sd c d -> a = c /\ b = d.
Proof. intros A B C D E. destruct sd; cbn in E; apply mkp_inj in E; tauto. Qed.

(** the index knows that the three symbols follow each other *)
Definition link (ni : nb_index) (u v w : str) : Prop := In (mkp v w) (nget ni (mkp u v) Right) /\ In (mkp u v) (nget ni (mkp v w) Left).
Definition slink (sd : side) (ni : nb_index) (i m o : str) : Prop := match sd with Right => link ni i m o | Left => link ni o m i end.
Lemma slink_of sd ni i m o : In (mk sd m o) (nget ni (mk sd i m) sd) -> In (mk sd i m) (nget ni (mk sd m o) (opposite sd)) -> slink sd ni i m o.
Proof. destruct sd; cbn; unfold link; auto. Qed.
Definition grows (n1 n2 : nb_index) : Prop := forall k sd x, In x (nget n1 k sd) -> In x (nget n2 k sd).
Lemma slink_grows sd n1 n2 i m o : grows n1 n2 -> slink sd n1 i m o -> slink sd n2 i m o.
Proof. intros H. destruct sd; cbn; unfold link; intros [X Y]; split; apply H; assumption. Qed.

Lemma grows_nadd ni k sd x : grows ni (nadd ni k sd x).
Proof.
  intros k' sd' y Y. rewrite nget_nadd. destruct (eqb_spec k' k) as [->|_]; [|exact Y]. destruct sd, sd'; cbn [side_eqb andb]; try exact Y; apply in_sadd; auto.
Qed.
Definition sane (ms : pair_list) (k : str) : Prop := exists u v, k = mkp u v /\ good u /\ good v /\ settled ms u /\ settled ms v.
Lemma sane_mk ms sd u v : good u -> good v -> settled ms u -> settled ms v -> sane ms (mk sd u v).
Proof. intros. destruct sd; [exists u, v|exists v, u]; cbn; auto. Qed.
Lemma sane_view ms sd k : sane ms k -> exists i o, k = mk sd i o /\ good i /\ good o /\ settled ms i /\ settled ms o.
Proof. intros (u & v & -> & H). destruct sd; [exists u, v|exists v, u]; cbn; tauto. Qed.

(** the neighbour index of a text *)
Definition nb_wf (ms : pair_list) (ni : nb_index) : Prop :=
  NoDup (dkeys ni) /\
  (forall k sd x, In x (nget ni k sd) -> can_be_concat k x sd = true /\ sane ms k /\ sane ms x) /\
  (forall k sd, NoDup (nget ni k sd)) /\
  (forall k, In k (nget ni k Right) <-> In k (nget ni k Left)).
Definition nb_ok (ms : pair_list) (s : list str) (ni : nb_index) : Prop :=
  nb_wf ms ni /\
  forall p u v w, sym s p = Some u -> sym s (p + len u) = Some v -> sym s (p + len u + len v) = Some w -> link ni u v w.

Lemma nadd_nodup ni k s x : NoDup (dkeys ni) -> NoDup (dkeys (nadd ni k s x)).
Proof. apply dset_nodup. Qed.
Lemma add_both_wf ms ni p1 p2 sd : nb_wf ms ni -> can_be_concat p1 p2 sd = true -> sane ms p1 -> sane ms p2 ->
  nb_wf ms (nadd (nadd ni p1 sd p2) p2 (opposite sd) p1).
Proof.
  intros (W1 & W2 & W3 & W4) C S1 S2.
  assert (C2 : can_be_concat p2 p1 (opposite sd) = true).
  { rewrite can_mk, opp_opp. rewrite can_mk in C. apply (proj2 (eqb_eq _ _)). apply (proj1 (eqb_eq _ _)) in C. symmetry. exact C. }
  split; [apply nadd_nodup, nadd_nodup, W1|]. split; [|split].
  - intros k sd' x. rewrite nget_nadd. destruct (eqb_spec k p2) as [->|N].
    + destruct (side_eqb sd' (opposite sd)) eqn:Es; cbn [andb].
      * rewrite in_sadd. assert (sd' = opposite sd) by (destruct sd, sd'; cbn in *; congruence). subst sd'. intros [->|X]; [auto|].
        rewrite nget_nadd in X. destruct (eqb p2 p1 && side_eqb (opposite sd) sd) eqn:Z0; [destruct sd; rewrite andb_false_r in Z0; discriminate|]. apply W2, X.
      * rewrite nget_nadd. destruct (eqb_spec p2 p1) as [->|N2]; cbn [andb]; [|apply W2]. destruct (side_eqb sd' sd) eqn:Es2; [|apply W2].
        rewrite in_sadd. assert (sd' = sd) by (destruct sd, sd'; cbn in *; congruence). subst sd'. intros [->|X]; [auto|apply W2, X].
    + cbn [andb]. rewrite nget_nadd. destruct (eqb_spec k p1) as [->|N2]; cbn [andb]; [|apply W2]. destruct (side_eqb sd' sd) eqn:Es2; [|apply W2].
      rewrite in_sadd. assert (sd' = sd) by (destruct sd, sd'; cbn in *; congruence). subst sd'. intros [->|X]; [auto|apply W2, X].
  - intros k sd'. rewrite !nget_nadd. destruct (eqb k p2 && side_eqb sd' (opposite sd)); destruct (eqb k p1 && side_eqb sd' sd);
      destruct (eqb p2 p1 && side_eqb (opposite sd) sd); repeat apply sadd_nodup; apply W3.
  - intros k. rewrite !nget_nadd. destruct (eqb_spec k p2) as [->|N]; cbn [andb].
    + destruct (eqb_spec p2 p1) as [->|N2]; cbn [andb].
      * destruct sd; cbn [side_eqb opposite andb]; rewrite !in_sadd; intuition.
      * destruct sd; cbn [side_eqb opposite andb]; rewrite ?in_sadd, W4; intuition congruence.
    + destruct (eqb_spec k p1) as [->|N2]; cbn [andb]; [|apply W4]. destruct sd; cbn [side_eqb opposite andb]; rewrite ?in_sadd, W4; intuition congruence.
Qed.

Section Nb.
  Variables (ord : list str -> list str) (ms : pair_list) (s : list str) (a b : str) (li : loc_index) (ni0 : nb_index).
  Hypothesis Ho : forall l, Permutation (ord l) l.
  Hypothesis G : Forall good s.
  Hypothesis Lc : local ms s.
  Hypothesis Adj : adjacent s a b.
  Notation ab := (a ++ b).
  Notation s' := (merge_text a b s).
  Notation pr := (mkp a b).
  Notation ms' := (ms ++ [(a, b)]).
  Hypothesis N0 : nb_ok ms s ni0.
  Hypothesis Lpr : dmem li pr = false.
  Hypothesis Lli : forall p x y, occ s' x y p -> dmem li (mkp x y) = true.

  Let Ga : good a := proj1 (Gab ms s a b G Lc Adj).
  Let Gb : good b := proj2 (Gab ms s a b G Lc Adj).
  Let Gn : good ab := good_app a b Ga Gb.
  Let Na : a <> ab := a_ab ms s a b Lc Adj.
  Let Nb : b <> ab := b_ab ms s a b Lc Adj.
  Lemma new_settled : settled ms' ab.
  Proof.
    apply (settled_symbol ms' s'); [apply local_step, Lc|]. pose proof (M_some ms s a b G Lc Adj) as N. destruct (mpos 0 a b s) as [|p t] eqn:E; [congruence|].
    apply (sym_in s' p). apply (sym_after_new ms); try assumption. rewrite E. left. reflexivity.
  Qed.
  Let Sa : settled ms a := proj1 (a_old ms s a b Lc Adj).
  Let Sb : settled ms b := proj2 (a_old ms s a b Lc Adj).

  Definition e (sd : side) : str := match sd with Right => b | Left => a end.
  Lemma pr_mk sd : pr = mk sd (e (opposite sd)) (e sd).
  Proof. destruct sd; reflexivity. Qed.
  Lemma e_good sd : good (e sd).
  Proof. destruct sd; [exact Gb|exact Ga]. Qed.
  Lemma e_settled sd : settled ms (e sd).
  Proof. destruct sd; [exact Sb|exact Sa]. Qed.
  Lemma e_new sd : e sd <> ab.
  Proof. destruct sd; [exact Nb|exact Na]. Qed.
  Lemma outer_pr sd : outer sd pr = e sd.
  Proof. rewrite (pr_mk sd). apply outer_mk; apply e_good. Qed.
  Lemma concat_mk sd z : good z -> concat_pairs pr (mk sd (e sd) z) sd = Ok (mk sd ab z).
  Proof.
    intros Gz. unfold concat_pairs. rewrite can_mk, outer_pr, inner_mk, eqb_refl by (try assumption; apply e_good). f_equal. rewrite merge_mkp by assumption.
    destruct sd; cbn [mk]; f_equal; [apply psnd_mkp|apply pfst_mkp]; assumption.
  Qed.
  Lemma double_mk sd : double_pair pr = mk sd ab ab.
  Proof. unfold double_pair. rewrite merge_mkp by assumption. destruct sd; reflexivity. Qed.
  Lemma new_not_pr sd i o : good i -> good o -> i = ab \/ o = ab -> mk sd i o <> pr.
  Proof.
    intros I O H E. rewrite (pr_mk sd) in E. apply mk_inj in E; try assumption; try apply e_good. destruct E as [-> ->].
    destruct H as [H|H]; exact (e_new _ H).
  Qed.

  Definition ninv (ni : nb_index) : Prop := nb_wf ms' ni /\ grows ni0 ni /\ forall sd, nget ni pr sd = nget ni0 pr sd.
  Definition okp (x : str) : Prop := good x /\ settled ms' x.
  Lemma okp_old x : good x -> settled ms x -> okp x.
  Proof. intros. split; [assumption|apply settled_step; assumption]. Qed.
  Lemma okp_ab : okp ab.
  Proof. split; [exact Gn|exact new_settled]. Qed.
  Lemma grows_refl n : grows n n.
  Proof. intros k sd x X. exact X. Qed.
  Lemma grows_trans n1 n2 n3 : grows n1 n2 -> grows n2 n3 -> grows n1 n3.
  Proof. intros X Y k sd x Z0. apply Y, X, Z0. Qed.

  (** add_pairs: what is known is kept, and the two pairs become neighbours *)
  Lemma add_pairs_spec sd i m o ni : ninv ni -> okp i -> okp m -> okp o -> i = ab \/ m = ab ->
    exists ni', add_pairs li (mk sd i m) (mk sd m o) sd ni = Ok ni' /\ ninv ni' /\ grows ni ni' /\
      (forall k, k <> mk sd i m -> nget ni' k sd = nget ni k sd) /\
      (dmem li (mk sd m o) = true -> slink sd ni' i m o).
  Proof.
    intros (W & Gr & K) [Gi Si] [Gm Sm] [Go So] New. unfold add_pairs.
    assert (C : can_be_concat (mk sd i m) (mk sd m o) sd = true).
    { rewrite can_mk, outer_mk, inner_mk by assumption. apply eqb_refl. }
    rewrite C. pose proof (new_not_pr sd i m Gi Gm New) as Np. destruct (dmem li (mk sd m o)) eqn:D.
    - assert (Np2 : mk sd m o <> pr) by congruence. eexists. split; [reflexivity|]. split; [split; [|split]|split; [|split]].
      + apply add_both_wf; [exact W|exact C| |]; apply sane_mk; assumption.
      + intros k sd' x X. apply grows_nadd, grows_nadd, Gr, X.
      + intros sd'. rewrite !nget_nadd. destruct (eqb_spec pr (mk sd m o)); [congruence|]. destruct (eqb_spec pr (mk sd i m)); [congruence|]. cbn [andb]. apply K.
      + intros k sd' x X. apply grows_nadd, grows_nadd, X.
      + intros k Nk. rewrite !nget_nadd. destruct (eqb_spec k (mk sd i m)); [congruence|]. cbn [andb].
        destruct (eqb k (mk sd m o)); destruct sd; reflexivity.
      + intros _. apply slink_of.
        * rewrite nget_nadd. replace (eqb (mk sd i m) (mk sd m o) && side_eqb sd (opposite sd)) with false by (destruct sd; rewrite andb_false_r; reflexivity).
          rewrite nget_nadd, eqb_refl. replace (side_eqb sd sd) with true by (destruct sd; reflexivity). cbn [andb]. apply in_sadd. auto.
        * rewrite nget_nadd, eqb_refl. replace (side_eqb (opposite sd) (opposite sd)) with true by (destruct sd; reflexivity). cbn [andb]. apply in_sadd. auto.
    - exists ni. split; [reflexivity|]. split; [split; [exact W|split; assumption]|]. split; [apply grows_refl|]. split; [reflexivity|]. congruence.
  Qed.

  (** going through a set that does not change *)
  Lemma for_set_spec (E : str -> nb_index -> Prop) k sd body ni :
    (forall x n1 n2, grows n1 n2 -> E x n1 -> E x n2) ->
    (forall x n1, In x (nget ni k sd) -> ninv n1 -> grows ni n1 -> nget n1 k sd = nget ni k sd ->
       exists n2, body x n1 = Ok n2 /\ ninv n2 /\ grows n1 n2 /\ nget n2 k sd = nget ni k sd /\ E x n2) ->
    ninv ni ->
    exists ni', for_set ord k sd body ni = Ok ni' /\ ninv ni' /\ grows ni ni' /\ nget ni' k sd = nget ni k sd /\ forall x, In x (nget ni k sd) -> E x ni'.
  Proof.
    intros Em Hb I. unfold for_set.
    assert (L : forall todo n1, (forall x, In x todo -> In x (nget ni k sd)) -> ninv n1 -> grows ni n1 -> nget n1 k sd = nget ni k sd ->
      exists ni', for_loop k sd (length (nget ni k sd)) body todo n1 = Ok ni' /\ ninv ni' /\ grows n1 ni' /\ nget ni' k sd = nget ni k sd /\
        forall x, In x todo -> E x ni').
    { induction todo as [|x t IH]; intros n1 T I1 G1 K1.
      - exists n1. split; [reflexivity|]. split; [exact I1|]. split; [apply grows_refl|]. split; [exact K1|]. intros x [].
      - destruct (Hb x n1 (T x (or_introl eq_refl)) I1 G1 K1) as (n2 & E2 & I2 & G2 & K2 & X2). cbn [for_loop]. rewrite E2. cbn [bind]. rewrite K2, Nat.eqb_refl.
        destruct (IH n2) as (n3 & E3 & I3 & G3 & K3 & X3); [intros y Y; apply T; right; exact Y|exact I2|apply (grows_trans _ n1); assumption|exact K2|].
        exists n3. split; [exact E3|]. split; [exact I3|]. split; [apply (grows_trans _ n2); assumption|]. split; [exact K3|].
        intros y [<-|Y]; [apply (Em x n2); assumption|apply X3, Y]. }
    destruct (L (ord (nget ni k sd)) ni) as (n' & E' & I' & G' & K' & X'); [|exact I|apply grows_refl|reflexivity|].
    - intros x X. eapply Permutation_in; [apply Ho|exact X].
    - exists n'. split; [exact E'|]. split; [exact I'|]. split; [exact G'|]. split; [exact K'|]. intros x X. apply X'. eapply Permutation_in; [symmetry; apply Ho|exact X].
  Qed.

  (** neighbours of the merged pair *)
  Lemma pr_nb sd k : In k (nget ni0 pr sd) -> exists z, k = mk sd (e sd) z /\ good z /\ settled ms z.
  Proof.
    intros H. destruct N0 as ((_ & V & _) & _). apply V in H. destruct H as (C & _ & S). apply (sane_view ms sd) in S. destruct S as (i & o & -> & Gi & Go & _ & So).
    rewrite can_mk, outer_pr, inner_mk in C by assumption. apply (proj1 (eqb_eq _ _)) in C. subst i. exists o. auto.
  Qed.

  Lemma double_body_spec sd z ni : ninv ni -> good z -> settled ms z ->
    exists ni', double_body li pr sd (mk sd (e sd) z) ni = Ok ni' /\ ninv ni' /\ grows ni ni' /\
      (dmem li (mk sd ab z) = true -> slink sd ni' ab ab z) /\ (z = e (opposite sd) -> dmem li (mk sd ab ab) = true -> slink sd ni' ab ab ab).
  Proof.
    intros I Gz Sz. unfold double_body. rewrite concat_mk by exact Gz. cbn [bind]. rewrite (double_mk sd).
    destruct (add_pairs_spec sd ab ab z ni I okp_ab okp_ab (okp_old z Gz Sz) (or_introl eq_refl)) as (n1 & E1 & I1 & G1 & _ & X1). rewrite E1. cbn [bind].
    rewrite can_mk, outer_pr, opp_opp, outer_mk by assumption. destruct (eqb_spec (e (opposite sd)) z) as [Ez|Nz].
    - assert (Ec : concat_pairs pr (mk sd ab z) (opposite sd) = Ok (mk sd ab ab)).
      { rewrite <- Ez. rewrite <- mk_opp. rewrite concat_mk by exact Gn. f_equal. apply mk_opp. }
      rewrite Ec. cbn [bind]. destruct (add_pairs_spec sd ab ab ab n1 I1 okp_ab okp_ab okp_ab (or_introl eq_refl)) as (n2 & E2 & I2 & G2 & _ & X2).
      exists n2. split; [exact E2|]. split; [exact I2|]. split; [apply (grows_trans _ n1); assumption|]. split; [|auto].
      intros D. apply (slink_grows sd n1); [exact G2|auto].
    - exists n1. split; [reflexivity|]. split; [exact I1|]. split; [exact G1|]. split; [exact X1|]. congruence.
  Qed.

  Lemma next_body_spec sd z w ni : ninv ni -> good z -> settled ms z -> okp w ->
    exists ni', next_body li pr (mk sd ab z) sd (mk sd z w) ni = Ok ni' /\ ninv ni' /\ grows ni ni' /\
      nget ni' (mk sd (e sd) z) sd = nget ni (mk sd (e sd) z) sd /\
      (dmem li (mk sd z w) = true -> slink sd ni' ab z w) /\ (w = e (opposite sd) -> dmem li (mk sd z ab) = true -> slink sd ni' ab z ab).
  Proof.
    intros I Gz Sz Ow. pose proof (proj1 Ow) as Gw. unfold next_body.
    assert (Fr : mk sd (e sd) z <> mk sd ab z).
    { intros E. apply mk_inj in E; try assumption; [|apply e_good]. exact (e_new sd (proj1 E)). }
    destruct (add_pairs_spec sd ab z w ni I okp_ab (okp_old z Gz Sz) Ow (or_introl eq_refl)) as (n1 & E1 & I1 & G1 & F1 & X1). rewrite E1. cbn [bind].
    rewrite can_mk, outer_pr, opp_opp, outer_mk by assumption. destruct (eqb_spec (e (opposite sd)) w) as [Ew|Nw].
    - assert (Ec : concat_pairs pr (mk sd z w) (opposite sd) = Ok (mk sd z ab)).
      { rewrite <- Ew. rewrite <- mk_opp. rewrite concat_mk by exact Gz. f_equal. apply mk_opp. }
      rewrite Ec. cbn [bind]. destruct (add_pairs_spec sd ab z ab n1 I1 okp_ab (okp_old z Gz Sz) okp_ab (or_introl eq_refl)) as (n2 & E2 & I2 & G2 & F2 & X2).
      exists n2. split; [exact E2|]. split; [exact I2|]. split; [apply (grows_trans _ n1); assumption|]. split; [rewrite F2, F1 by exact Fr; reflexivity|]. split; [|auto].
      intros D. apply (slink_grows sd n1); [exact G2|auto].
    - exists n1. split; [reflexivity|]. split; [exact I1|]. split; [exact G1|]. split; [apply F1, Fr|]. split; [exact X1|]. congruence.
  Qed.

  Lemma other_body_spec sd z x ni : ninv ni -> good z -> settled ms z -> good x -> settled ms x ->
    exists ni', other_body li pr (mk sd ab z) (opposite sd) (mk (opposite sd) (e (opposite sd)) x) ni = Ok ni' /\ ninv ni' /\ grows ni ni' /\
      (dmem li (mk (opposite sd) ab x) = true -> slink (opposite sd) ni' z ab x).
  Proof.
    intros I Gz Sz Gx Sx. unfold other_body. rewrite concat_mk by exact Gx. cbn [bind].
    rewrite <- (mk_opp sd z ab). set (o := opposite sd).
    destruct (add_pairs_spec o z ab x ni I (okp_old z Gz Sz) okp_ab (okp_old x Gx Sx) (or_intror eq_refl)) as (n1 & E1 & I1 & G1 & _ & X1). rewrite E1. cbn [bind].
    rewrite can_mk, outer_pr, opp_opp, outer_mk by assumption. destruct (eqb_spec (e (opposite o)) x) as [Ex|Nx].
    - assert (Ec : concat_pairs pr (mk o ab x) (opposite o) = Ok (mk o ab ab)).
      { rewrite <- Ex. rewrite <- mk_opp. rewrite concat_mk by exact Gn. f_equal. apply mk_opp. }
      rewrite Ec. cbn [bind]. destruct (add_pairs_spec o z ab ab n1 I1 (okp_old z Gz Sz) okp_ab okp_ab (or_intror eq_refl)) as (n2 & E2 & I2 & G2 & _ & X2).
      exists n2. split; [exact E2|]. split; [exact I2|]. split; [apply (grows_trans _ n1); assumption|].
      intros D. apply (slink_grows o n1); [exact G2|auto].
    - exists n1. split; [reflexivity|]. split; [exact I1|]. split; [exact G1|]. exact X1.
  Qed.

  (** what one neighbour of the merged pair contributes *)
  Definition done (sd : side) (dp : str) (ni : nb_index) : Prop :=
    forall z, good z -> dp = mk sd (e sd) z ->
      (z = e (opposite sd) -> dmem li (mk sd ab ab) = true -> forall z2, good z2 -> In (mk sd (e sd) z2) (nget ni0 pr sd) ->
         (dmem li (mk sd ab z2) = true -> slink sd ni ab ab z2) /\ (z2 = e (opposite sd) -> slink sd ni ab ab ab)) /\
      (dmem li (mk sd ab z) = true ->
         (forall w, good w -> In (mk sd z w) (nget ni0 dp sd) ->
            (dmem li (mk sd z w) = true -> slink sd ni ab z w) /\ (w = e (opposite sd) -> dmem li (mk sd z ab) = true -> slink sd ni ab z ab)) /\
         (forall x, good x -> In (mk (opposite sd) (e (opposite sd)) x) (nget ni0 pr (opposite sd)) -> dmem li (mk (opposite sd) ab x) = true ->
            slink (opposite sd) ni z ab x)).
  Lemma done_grows sd dp n1 n2 : grows n1 n2 -> done sd dp n1 -> done sd dp n2.
  Proof.
    intros Gr D z Gz Ez. destruct (D z Gz Ez) as [D1 D2]. split.
    - intros X Y z2 G2 I2. destruct (D1 X Y z2 G2 I2) as [U V]. split; intros; (eapply slink_grows; [exact Gr|auto]).
    - intros X. destruct (D2 X) as [U V]. split.
      + intros w Gw Iw. destruct (U w Gw Iw) as [U1 U2]. split; intros; (eapply slink_grows; [exact Gr|auto]).
      + intros x Gx Ix Dx. eapply slink_grows; [exact Gr|auto].
  Qed.
  Lemma neighbour_body_spec sd dp ni : ninv ni -> In dp (nget ni0 pr sd) ->
    exists ni', neighbour_body ord li pr sd dp ni = Ok ni' /\ ninv ni' /\ grows ni ni' /\ done sd dp ni'.
  Proof.
    intros I Hdp. destruct (pr_nb sd dp Hdp) as (z & -> & Gz & Sz). unfold neighbour_body.
    rewrite can_mk, outer_mk by (try assumption; apply e_good). rewrite outer_pr.
    (* the double pair *)
    assert (S1 : exists n1, (if eqb z (e (opposite sd)) && dmem li (double_pair pr) then for_set ord pr sd (double_body li pr sd) ni else Ok ni) = Ok n1 /\
        ninv n1 /\ grows ni n1 /\
        (z = e (opposite sd) -> dmem li (mk sd ab ab) = true -> forall z2, good z2 -> In (mk sd (e sd) z2) (nget ni0 pr sd) ->
         (dmem li (mk sd ab z2) = true -> slink sd n1 ab ab z2) /\ (z2 = e (opposite sd) -> slink sd n1 ab ab ab))).
    { rewrite (double_mk sd). destruct (eqb_spec z (e (opposite sd))) as [Ez|Nz]; cbn [andb].
      2:{ exists ni. split; [reflexivity|]. split; [exact I|]. split; [apply grows_refl|]. congruence. }
      destruct (dmem li (mk sd ab ab)) eqn:D.
      2:{ exists ni. split; [reflexivity|]. split; [exact I|]. split; [apply grows_refl|]. congruence. }
      destruct (for_set_spec (fun k n => forall z2, good z2 -> k = mk sd (e sd) z2 ->
          (dmem li (mk sd ab z2) = true -> slink sd n ab ab z2) /\ (z2 = e (opposite sd) -> slink sd n ab ab ab)) pr sd (double_body li pr sd) ni)
        as (n1 & E1 & I1 & G1 & _ & X1); [| |exact I|].
      - intros x n1 n2 Gr H z2 G2 E2. destruct (H z2 G2 E2) as [U V]. split; intros; (eapply slink_grows; [exact Gr|auto]).
      - intros x n1 Hx J1 _ K1. destruct I as (_ & _ & K). rewrite K in Hx. destruct (pr_nb sd x Hx) as (z2 & -> & G2 & S2).
        destruct (double_body_spec sd z2 n1 J1 G2 S2) as (n2 & E2 & J2 & Gr2 & U & V). exists n2. split; [exact E2|]. split; [exact J2|]. split; [exact Gr2|]. split.
        + destruct J2 as (_ & _ & K2). rewrite K2, K. reflexivity.
        + intros z3 G3 E3. apply mk_inj in E3; try assumption; try apply e_good. destruct E3 as [_ <-]. split; [exact U|auto].
      - exists n1. split; [exact E1|]. split; [exact I1|]. split; [exact G1|]. intros _ _ z2 G2 I2. destruct I as (_ & _ & K). rewrite <- K in I2. apply (X1 _ I2 z2 G2 eq_refl). }
    destruct S1 as (n1 & -> & I1 & G1 & X1). cbn [bind]. rewrite concat_mk by exact Gz. cbn [bind].
    assert (Fin : forall n, grows n1 n ->
      (dmem li (mk sd ab z) = true ->
         (forall w, good w -> In (mk sd z w) (nget ni0 (mk sd (e sd) z) sd) ->
            (dmem li (mk sd z w) = true -> slink sd n ab z w) /\ (w = e (opposite sd) -> dmem li (mk sd z ab) = true -> slink sd n ab z ab)) /\
         (forall x, good x -> In (mk (opposite sd) (e (opposite sd)) x) (nget ni0 pr (opposite sd)) -> dmem li (mk (opposite sd) ab x) = true ->
            slink (opposite sd) n z ab x)) -> done sd (mk sd (e sd) z) n).
    { intros n Gr H z' Gz' Ez'. apply mk_inj in Ez'; try assumption; try apply e_good. destruct Ez' as [_ <-]. split; [|exact H].
      intros U V z2 G2 I2. destruct (X1 U V z2 G2 I2) as [W1 W2]. split; intros; (eapply slink_grows; [exact Gr|auto]). }
    destruct (dmem li (mk sd ab z)) eqn:D.
    2:{ exists n1. split; [reflexivity|]. split; [exact I1|]. split; [exact G1|]. apply Fin; [apply grows_refl|discriminate]. }
    destruct (for_set_spec (fun k n => forall w, good w -> k = mk sd z w ->
          (dmem li (mk sd z w) = true -> slink sd n ab z w) /\ (w = e (opposite sd) -> dmem li (mk sd z ab) = true -> slink sd n ab z ab))
        (mk sd (e sd) z) sd (next_body li pr (mk sd ab z) sd) n1) as (n2 & E2 & I2 & G2 & _ & X2); [| |exact I1|].
    { intros x m1 m2 Gr H w Gw Ew. destruct (H w Gw Ew) as [U V]. split; intros; (eapply slink_grows; [exact Gr|auto]). }
    { intros x m1 Hx J1 Gr1 K1. destruct I1 as ((_ & V & _) & _ & _). apply V in Hx. destruct Hx as (C & _ & S). apply (sane_view ms' sd) in S.
      destruct S as (i & w & -> & Gi & Gw & _ & Sw). rewrite can_mk, outer_mk, inner_mk in C by (try assumption; apply e_good). apply (proj1 (eqb_eq _ _)) in C. subst i.
      destruct (next_body_spec sd z w m1 J1 Gz Sz (conj Gw Sw)) as (m2 & E2 & J2 & Gr2 & F2 & U & U2). exists m2. split; [exact E2|]. split; [exact J2|]. split; [exact Gr2|].
      split; [rewrite F2; exact K1|]. intros w' Gw' Ew. apply mk_inj in Ew; try assumption. destruct Ew as [_ <-]. auto. }
    rewrite E2. cbn [bind].
    destruct (for_set_spec (fun k n => forall x, good x -> k = mk (opposite sd) (e (opposite sd)) x -> dmem li (mk (opposite sd) ab x) = true ->
            slink (opposite sd) n z ab x) pr (opposite sd) (other_body li pr (mk sd ab z) (opposite sd)) n2) as (n3 & E3 & I3 & G3 & _ & X3); [| |exact I2|].
    { intros x m1 m2 Gr H x' Gx' Ex' D'. eapply slink_grows; [exact Gr|]. apply (H x' Gx' Ex' D'). }
    { intros x m1 Hx J1 _ K1. destruct I2 as (_ & _ & K). rewrite K in Hx. destruct (pr_nb (opposite sd) x Hx) as (z2 & -> & Gz2 & Sz2).
      destruct (other_body_spec sd z z2 m1 J1 Gz Sz Gz2 Sz2) as (m2 & E3 & J2 & Gr2 & U). exists m2. split; [exact E3|]. split; [exact J2|]. split; [exact Gr2|]. split.
      - destruct J2 as (_ & _ & K2). rewrite K2, K. reflexivity.
      - intros x' Gx' Ex' D'. apply mk_inj in Ex'; try assumption; try apply e_good. destruct Ex' as [_ <-]. apply U, D'. }
    exists n3. split; [exact E3|]. split; [exact I3|]. split; [apply (grows_trans _ n1); [exact G1|apply (grows_trans _ n2); assumption]|].
    apply Fin; [apply (grows_trans _ n2); assumption|]. intros _. split.
    - intros w Gw Iw. assert (Iw2 : In (mk sd z w) (nget n1 (mk sd (e sd) z) sd)) by (destruct I1 as (_ & Gr & _); apply Gr, Iw).
      destruct (X2 _ Iw2 w Gw eq_refl) as [U V]. split; intros; (eapply slink_grows; [exact G3|auto]).
    - intros x Gx Ix Dx. destruct I2 as (_ & _ & K). rewrite <- K in Ix. apply (X3 _ Ix x Gx eq_refl Dx).
  Qed.

  Lemma one_side sd ni : ninv ni ->
    exists ni', for_set ord pr sd (neighbour_body ord li pr sd) ni = Ok ni' /\ ninv ni' /\ grows ni ni' /\ forall dp, In dp (nget ni0 pr sd) -> done sd dp ni'.
  Proof.
    intros I. destruct (for_set_spec (done sd) pr sd (neighbour_body ord li pr sd) ni) as (n' & E' & I' & G' & K' & X').
    - intros x n1 n2. apply done_grows.
    - intros x n1 Hx J1 _ K1. pose proof I as (_ & _ & K). rewrite K in Hx. destruct (neighbour_body_spec sd x n1 J1 Hx) as (n2 & E2 & J2 & Gr2 & D2).
      exists n2. split; [exact E2|]. split; [exact J2|]. split; [exact Gr2|]. split; [|exact D2]. destruct J2 as (_ & _ & K2). rewrite K2, K. reflexivity.
    - exact I.
    - exists n'. split; [exact E'|]. split; [exact I'|]. split; [exact G'|]. intros dp Hdp. apply X'. destruct I as (_ & _ & K). rewrite K. exact Hdp.
  Qed.

  (** the entries that are deleted *)
  Lemma cleanup_nb_spec ni sd : NoDup (dkeys ni) ->
    NoDup (dkeys (cleanup_nb_side ord li pr sd ni)) /\
    forall k, dget (cleanup_nb_side ord li pr sd ni) k = dget ni k \/ (dget (cleanup_nb_side ord li pr sd ni) k = None /\ dmem li k = false).
  Proof.
    unfold cleanup_nb_side. generalize (ord (nget ni pr sd)). intros l. revert ni. induction l as [|dp l IH]; intros ni N; [cbn; auto|]. cbn [fold_left].
    set (n1 := if negb (dmem li dp) && dmem ni dp then ddel ni dp else ni).
    assert (H : NoDup (dkeys n1) /\ forall k, dget n1 k = dget ni k \/ (dget n1 k = None /\ dmem li k = false)).
    { unfold n1. destruct (dmem li dp) eqn:D; cbn [negb andb]; [auto|]. destruct (dmem ni dp); [|auto]. split; [apply ddel_nodup, N|]. intros k. rewrite dget_ddel by exact N.
      destruct (eqb_spec k dp) as [->|]; auto. }
    destruct H as [H1 H2]. destruct (IH n1 H1) as [J1 J2]. split; [exact J1|]. intros k. destruct (J2 k) as [X|X]; [|right; exact X]. rewrite X. apply H2.
  Qed.
  Lemma cleanup_spec ni : nb_wf ms' ni ->
    nb_wf ms' (cleanup_neighbour_index ord li ni pr) /\
    forall k sd, dmem li k = true -> nget (cleanup_neighbour_index ord li ni pr) k sd = nget ni k sd.
  Proof.
    intros (W1 & W2 & W3 & W4). unfold cleanup_neighbour_index.
    destruct (cleanup_nb_spec ni Right W1) as [A1 A2]. destruct (cleanup_nb_spec (cleanup_nb_side ord li pr Right ni) Left A1) as [B1 B2].
    set (n2 := cleanup_nb_side ord li pr Left (cleanup_nb_side ord li pr Right ni)) in *.
    assert (H : forall k, dget (ddel n2 pr) k = dget ni k \/ (dget (ddel n2 pr) k = None /\ dmem li k = false)).
    { intros k. rewrite dget_ddel by exact B1. destruct (eqb_spec k pr) as [->|]; [auto|]. destruct (B2 k) as [X|X]; [|auto]. rewrite X. apply A2. }
    assert (H2 : forall k, (forall sd, nget (ddel n2 pr) k sd = nget ni k sd) \/ ((forall sd, nget (ddel n2 pr) k sd = []) /\ dmem li k = false)).
    { intros k. destruct (H k) as [X|[X Y]]; [left|right; split; [|exact Y]]; intros sd; unfold nget; rewrite X; reflexivity. }
    split.
    - split; [apply ddel_nodup, B1|]. split; [|split].
      + intros k sd x. destruct (H2 k) as [X|[X _]]; rewrite X; [apply W2|intros []].
      + intros k sd. destruct (H2 k) as [X|[X _]]; rewrite X; [apply W3|constructor].
      + intros k. destruct (H2 k) as [X|[X _]]; rewrite !X; [apply W4|tauto].
    - intros k sd D. destruct (H2 k) as [X|[_ X]]; [apply X|congruence].
  Qed.

  Lemma nb_wf_step ni : nb_wf ms ni -> nb_wf ms' ni.
  Proof.
    intros (W1 & W2 & W3 & W4). split; [exact W1|]. split; [|split; assumption]. intros k sd x X. destruct (W2 k sd x X) as (U & (u & v & -> & V1 & V2 & V3 & V4) & (u2 & v2 & -> & V5 & V6 & V7 & V8)).
    split; [exact U|]. split; [exists u, v|exists u2, v2]; repeat (split; [reflexivity || assumption || (apply settled_step; assumption)|]); apply settled_step; assumption.
  Qed.

  Lemma update_neighbours : exists ni', update_neighbour_index ord li ni0 pr = Ok ni' /\ nb_ok ms' s' ni'.
  Proof.
    unfold update_neighbour_index. destruct N0 as [W0 C0].
    assert (I0 : ninv ni0) by (split; [apply nb_wf_step, W0|split; [apply grows_refl|reflexivity]]).
    destruct (one_side Right ni0 I0) as (n1 & E1 & I1 & G1 & X1). rewrite E1. cbn [bind].
    destruct (one_side Left n1 I1) as (n2 & E2 & I2 & G2 & X2). rewrite E2. cbn [bind].
    eexists. split; [reflexivity|]. destruct I2 as (W2 & Gr2 & _). destruct (cleanup_spec n2 W2) as [W3 K3]. split; [exact W3|].
    intros p u v w U V W.
    assert (D1 : dmem li (mkp u v) = true) by (apply (Lli p); split; assumption).
    assert (D2 : dmem li (mkp v w) = true) by (apply (Lli (p + len u)); split; assumption).
    assert (Goal : link n2 u v w).
    2:{ unfold link. rewrite !K3 by assumption. exact Goal. }
    assert (X1' : forall dp, In dp (nget ni0 pr Right) -> done Right dp n2) by (intros dp H; apply (done_grows _ _ n1); [exact G2|auto]).
    (* symbols of the merged text in the old one *)
    assert (G' : Forall good s') by (apply merge_good; assumption).
    pose proof (sym_good _ _ _ G' U) as Gu. pose proof (sym_good _ _ _ G' V) as Gv. pose proof (sym_good _ _ _ G' W) as Gw.
    assert (Old : forall q x, x <> ab -> sym s' q = Some x -> sym s q = Some x).
    { intros q x Nx H. apply (sym_after_old ms) in H; tauto. }
    assert (New : forall q, sym s' q = Some ab -> sym s q = Some a /\ sym s (q + len a) = Some b).
    { intros q H. apply (sym_after_new ms) in H; try assumption. apply (M_in ms); assumption. }
    (* neighbours known before *)
    assert (NR : forall q y, sym s q = Some a -> sym s (q + len a) = Some b -> sym s (q + len a + len b) = Some y -> In (mkp b y) (nget ni0 pr Right)).
    { intros q y A B C. apply (C0 q a b y A B C). }
    assert (NL : forall q x, sym s q = Some x -> sym s (q + len x) = Some a -> sym s (q + len x + len a) = Some b -> In (mkp x a) (nget ni0 pr Left)).
    { intros q x A B C. apply (C0 q x a b A B C). }
    assert (Lab : len ab = len a + len b) by apply len_app.
    destruct (eqb_spec u ab) as [Eu|Nu]; destruct (eqb_spec v ab) as [Ev|Nv]; destruct (eqb_spec w ab) as [Ew|Nw]; subst.
    - (* ab ab ab *)
      destruct (New _ U) as [U1 U2]. destruct (New _ V) as [V1 V2]. rewrite Lab, Z.add_assoc in V1, V2.
      assert (I : In (mkp b a) (nget ni0 pr Right)) by (apply (NR p); assumption).
      destruct (X1' _ I a Ga eq_refl) as [H _]. destruct (H eq_refl D1 a Ga I) as [_ H2]. apply H2. reflexivity.
    - (* ab ab w *)
      destruct (New _ U) as [U1 U2]. destruct (New _ V) as [V1 V2]. rewrite Lab, Z.add_assoc in V1, V2. apply Old in W; [|exact Nw]. rewrite !Lab, !Z.add_assoc in W.
      assert (I : In (mkp b a) (nget ni0 pr Right)) by (apply (NR p); assumption).
      assert (I2' : In (mkp b w) (nget ni0 pr Right)) by (apply (NR (p + len a + len b)); assumption).
      destruct (X1' _ I a Ga eq_refl) as [H _]. destruct (H eq_refl D1 w Gw I2') as [H2 _]. apply H2, D2.
    - (* ab v ab *)
      destruct (New _ U) as [U1 U2]. apply Old in V; [|exact Nv]. rewrite Lab, Z.add_assoc in V. destruct (New _ W) as [W1 W1']. rewrite Lab, Z.add_assoc in W1.
      assert (I : In (mkp b v) (nget ni0 pr Right)) by (apply (NR p); assumption).
      destruct (X1' _ I v Gv eq_refl) as [_ H]. destruct (H D1) as [H2 _].
      assert (J : In (mkp v a) (nget ni0 (mkp b v) Right)).
      { apply (C0 (p + len a) b v a); assumption. }
      destruct (H2 a Ga J) as [_ H3]. apply H3; [reflexivity|exact D2].
    - (* ab v w *)
      destruct (New _ U) as [U1 U2]. apply Old in V; [|exact Nv]. apply Old in W; [|exact Nw]. rewrite Lab, Z.add_assoc in V, W.
      assert (I : In (mkp b v) (nget ni0 pr Right)) by (apply (NR p); assumption).
      destruct (X1' _ I v Gv eq_refl) as [_ H]. destruct (H D1) as [H2 _].
      assert (J : In (mkp v w) (nget ni0 (mkp b v) Right)).
      { apply (C0 (p + len a) b v w); assumption. }
      destruct (H2 w Gw J) as [H3 _]. apply H3, D2.
    - (* u ab ab *)
      apply Old in U; [|exact Nu]. destruct (New _ V) as [V1 V2]. destruct (New _ W) as [W1 W1']. rewrite Lab, Z.add_assoc in W1, W1'.
      assert (I : In (mkp b a) (nget ni0 pr Left)) by (apply (NL (p + len u + len a)); assumption).
      assert (I2' : In (mkp u a) (nget ni0 pr Left)) by (apply (NL p); assumption).
      destruct (X2 _ I b Gb eq_refl) as [H _]. destruct (H eq_refl D2 u Gu I2') as [H2 _]. apply H2, D1.
    - (* u ab w *)
      apply Old in U; [|exact Nu]. destruct (New _ V) as [V1 V2]. apply Old in W; [|exact Nw]. rewrite Lab, Z.add_assoc in W.
      assert (I : In (mkp b w) (nget ni0 pr Right)) by (apply (NR (p + len u)); assumption).
      assert (I2' : In (mkp u a) (nget ni0 pr Left)) by (apply (NL p); assumption).
      destruct (X1' _ I w Gw eq_refl) as [_ H]. destruct (H D2) as [_ H2]. apply (H2 u Gu I2' D1).
    - (* u v ab *)
      apply Old in U; [|exact Nu]. apply Old in V; [|exact Nv]. destruct (New _ W) as [W1 W1'].
      assert (I : In (mkp v a) (nget ni0 pr Left)) by (apply (NL (p + len u)); assumption).
      destruct (X2 _ I v Gv eq_refl) as [_ H]. destruct (H D2) as [H2 _].
      assert (J : In (mkp u v) (nget ni0 (mkp v a) Left)).
      { apply (C0 p u v a); assumption. }
      destruct (H2 u Gu J) as [H3 _]. apply H3, D1.
    - (* u v w *)
      apply Old in U; [|exact Nu]. apply Old in V; [|exact Nv]. apply Old in W; [|exact Nw]. destruct (C0 p u v w U V W) as [H1 H2].
      split; apply Gr2; assumption.
  Qed.
End Nb.
