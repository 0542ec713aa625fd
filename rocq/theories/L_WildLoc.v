(** How merging one pair changes the positions of all pairs, for C84. *)
From Verif Require Import M_Base L_Base M_Wild M_WildRun P_Wild L_WildText.
From Coq Require Import Lia Sorting.Sorted Sorting.Permutation.
Local Open Scope Z_scope.

Definition occ (s : list str) (x y : str) (p : Z) : Prop := sym s p = Some x /\ sym s (p + len x) = Some y.
Lemma occ_places s x y p : Forall good s -> In p (places 0 s x y) <-> occ s x y p.
Proof. intros G. rewrite in_places by exact G. rewrite Z.sub_0_r. reflexivity. Qed.
Lemma spaced_mono g h l : h <= g -> spaced g l -> spaced h l.
Proof. intros L H. induction H as [|x l H IH F]; constructor; [exact IH|]. eapply Forall_impl; [|exact F]. cbv beta. intros. lia. Qed.
Lemma filter_split {A} (f : A -> bool) l : length l = (length (filter f l) + length (filter (fun x => negb (f x)) l))%nat.
Proof. induction l as [|x l IH]; [reflexivity|]. cbn. destruct (f x); cbn; lia. Qed.
Lemma filter_all {A} (f : A -> bool) l : (forall x, f x = true) -> filter f l = l.
Proof. intros H. induction l as [|x l IH]; cbn; [reflexivity|]. rewrite H, IH. reflexivity. Qed.
Lemma filter_same {A} (f : A -> bool) l : length (filter f l) = length l -> filter f l = l.
Proof.
  assert (L : forall l : list A, (length (filter f l) <= length l)%nat) by (clear; induction l as [|x l IH]; cbn; [lia|destruct (f x); cbn; lia]).
  induction l as [|x l IH]; cbn; [reflexivity|]. specialize (L l). destruct (f x); cbn; intros H; [f_equal; apply IH; lia|lia].
Qed.
Lemma map_sorted (f : Z -> Z) l : (forall x y, x < y -> f x < f y) -> increasing l -> increasing (map f l).
Proof.
  intros F H. induction H as [|x l H IH Fx]; cbn; constructor; [exact IH|]. rewrite Forall_forall in *. intros y Hy. apply in_map_iff in Hy.
  destruct Hy as (z & <- & Hz). apply F, Fx, Hz.
Qed.

Section Merge.
  Variables (ms : pair_list) (s : list str) (a b : str).
  Hypothesis G : Forall good s.
  Hypothesis Lc : local ms s.
  Hypothesis Adj : adjacent s a b.

  Notation M := (mpos 0 a b s).
  Notation ab := (a ++ b).
  Notation s' := (merge_text a b s).

  Lemma Gab : good a /\ good b.
  Proof. destruct Adj as (A & B & E). rewrite E in G. apply Forall_app in G. destruct G as [_ G1]. inversion G1 as [|? ? ? G2]; subst. inversion G2; subst. auto. Qed.
  Let Ga := proj1 Gab.
  Let Gb := proj2 Gab.
  Let La := good_len a Ga.
  Let Lb := good_len b Gb.
  Lemma ab_new x : settled ms x -> x <> ab.
  Proof. apply (new_symbol ms s a b x Lc Adj). Qed.
  Lemma sym_old p x : sym s p = Some x -> settled ms x.
  Proof. intros H. apply (settled_symbol ms s x Lc). apply (sym_in _ _ _ H). Qed.
  Lemma sym_new p x : sym s p = Some x -> x <> ab.
  Proof. intros H. apply ab_new, (sym_old p x H). Qed.
  Lemma a_old : settled ms a /\ settled ms b.
  Proof. destruct Adj as (A & B & E). split; apply (settled_symbol ms s _ Lc); rewrite E; apply in_or_app; right; cbn; auto. Qed.
  Lemma a_ab : a <> ab.
  Proof. apply ab_new, a_old. Qed.
  Lemma b_ab : b <> ab.
  Proof. apply ab_new, a_old. Qed.

  Lemma M_in p : In p M -> sym s p = Some a /\ sym s (p + len a) = Some b.
  Proof. intros H. apply mpos_facts in H; [|assumption..]. destruct H as [H _]. apply occ_places in H; [exact H|assumption]. Qed.
  Lemma M_prev p : In p M -> ~ In (p - len a) M.
  Proof. intros H. apply mpos_facts in H; [|assumption..]. tauto. Qed.
  Lemma M_next p : In p M -> ~ In (p + len a) M.
  Proof. intros H I. apply M_prev in I. replace (p + len a - len a) with p in I by lia. exact (I H). Qed.
  Lemma M_over p : sym s p = Some a -> sym s (p + len a) = Some b -> ~ In p M -> In (p - len a) M.
  Proof.
    intros X Y N. destruct (in_dec Z.eq_dec (p - len a) M) as [I|I]; [exact I|]. exfalso. apply N. apply mpos_facts; [assumption..|].
    split; [apply occ_places; [assumption|split; assumption]|exact I].
  Qed.
  Lemma M_fix p : In p M <-> occ s a b p /\ ~ In (p - len a) M.
  Proof. rewrite <- occ_places by assumption. apply mpos_facts; assumption. Qed.
  Lemma M_sorted : increasing M.
  Proof. apply (spaced_lt (len a + len b)); [lia|]. apply mpos_spaced; assumption. Qed.
  Lemma M_some : M <> [].
  Proof.
    destruct (proj1 (adjacent_sym s a b G) Adj) as (p & X & Y). intros E. assert (I : ~ In p M) by (rewrite E; intros []).
    apply (M_over p X Y) in I. rewrite E in I. destruct I.
  Qed.

  Lemma sym_after q : sym s' q = if zmem q M then Some ab else if zmem (q - len a) M then None else sym s q.
  Proof. apply sym_merge; assumption. Qed.
  Lemma sym_after_new q : sym s' q = Some ab <-> In q M.
  Proof.
    rewrite sym_after. destruct (zmem q M) eqn:E; [apply zmem_spec in E; tauto|]. apply zmem_false in E.
    split; [|tauto]. destruct (zmem (q - len a) M); [discriminate|]. intros H. apply sym_new in H. congruence.
  Qed.
  Lemma sym_after_old q x : x <> ab -> sym s' q = Some x <-> sym s q = Some x /\ ~ In q M /\ ~ In (q - len a) M.
  Proof.
    intros N. rewrite sym_after. destruct (zmem q M) eqn:E.
    - apply zmem_spec in E. split; [congruence|tauto].
    - apply zmem_false in E. destruct (zmem (q - len a) M) eqn:E2.
      + apply zmem_spec in E2. split; [discriminate|tauto].
      + apply zmem_false in E2. tauto.
  Qed.
  (** a symbol cannot end together with the first half of a merged pair *)
  Lemma end_a p x : sym s p = Some x -> In (p + len x - len a) M -> In p M.
  Proof.
    intros X I. pose proof (M_in _ I) as [A _]. pose proof (sym_end s p (p + len x - len a) x a G X A ltac:(lia)) as E. rewrite E. exact I.
  Qed.
  Lemma end_b p : In p M -> ~ In (p + len a + len b - len a) M.
  Proof.
    intros I J. pose proof (M_in _ I) as [_ B]. pose proof (end_a (p + len a) b B J) as K. exact (M_next p I K).
  Qed.

  Lemma occ_old x y p : x <> ab -> y <> ab -> ~ (x = a /\ y = b) ->
    occ s' x y p <-> occ s x y p /\ ~ In (p - len a) M /\ ~ In (p + len x) M.
  Proof.
    intros Nx Ny Np. unfold occ. rewrite sym_after_old by exact Nx. rewrite sym_after_old by exact Ny. split; [tauto|].
    intros ((X & Y) & N1 & N2). assert (N3 : ~ In p M).
    { intros I. apply M_in in I. destruct I as [I1 I2]. assert (x = a) by congruence. subst x. apply Np. split; [reflexivity|congruence]. }
    split; [tauto|]. split; [assumption|]. split; [assumption|]. intros I. apply N3. apply (end_a p x X I).
  Qed.
  Lemma occ_left y p : y <> ab -> occ s' ab y p <-> In p M /\ sym s (p + len a + len b) = Some y /\ ~ In (p + len a + len b) M.
  Proof.
    intros Ny. unfold occ. rewrite sym_after_new. rewrite sym_after_old by exact Ny. rewrite len_app, Z.add_assoc. split; [tauto|].
    intros (I & Y & N). split; [assumption|]. split; [assumption|]. split; [assumption|]. apply end_b, I.
  Qed.
  Lemma occ_both p : occ s' ab ab p <-> In p M /\ In (p + len a + len b) M.
  Proof. unfold occ. rewrite !sym_after_new. rewrite len_app, Z.add_assoc. reflexivity. Qed.
  Lemma occ_right x p : x <> ab -> occ s' x ab p <-> sym s p = Some x /\ In (p + len x) M /\ ~ In p M /\ ~ In (p - len a) M.
  Proof. intros Nx. unfold occ. rewrite sym_after_old by exact Nx. rewrite sym_after_new. tauto. Qed.
  Lemma occ_gone p : ~ occ s' a b p.
  Proof.
    intros [X Y]. apply sym_after_old in X; [|apply a_ab]. apply sym_after_old in Y; [|apply b_ab]. destruct X as (X & N1 & N2). destruct Y as (Y & _).
    exact (N2 (M_over p X Y N1)).
  Qed.

  (** ** The right neighbours *)
  Definition goal_right (pr dp y : str) (l0 : list Z) (li : loc_index) (ch : list change) (r : res (loc_index * list change)) : Prop :=
    exists app1 l1 app2 l2,
      increasing app1 /\ increasing app2 /\ increasing l2 /\
      (forall p, In p app1 <-> y = a /\ occ s' ab ab p) /\
      (forall p, In p app2 <-> occ s' ab y p) /\
      (forall p, In p l2 <-> In p l0 /\ ~ In (p - len a) M) /\
      length l0 = (length app1 + length l1)%nat /\ length l1 = (length app2 + length l2)%nat /\
      (exists f, l1 = filter f l0) /\ (exists f, l2 = filter f l1) /\
      r = Ok (let (li1, ch1) := record_changes li ch (mkp ab ab) dp app1 l1 in
              let (li2, ch2) := record_changes li1 ch1 (mkp ab y) dp app2 l2 in
              (dset li2 dp l2, ch2)).
  Lemma right_step (same : option (list Z)) y li ch l0 :
    good y -> y <> ab ->
    (if eqb (mkp a b) (mkp b y) then same = Some l0 else l0 = lget li (mkp b y)) ->
    increasing l0 ->
    (forall p, In p l0 <-> occ s b y p /\ (mkp a b = mkp b y -> In (p - len a) M)) ->
    goal_right (mkp a b) (mkp b y) y l0 li ch (location_body (mkp a b) M same Right (mkp b y) (li, ch)).
  Proof.
    intros Gy Ny H0 S0 I0. unfold location_body. cbn [is_right negb opposite]. rewrite andb_false_r.
    assert (E0 : (if eqb (mkp a b) (mkp b y) then of_option NameError same else Ok (lget li (mkp b y))) = Ok l0).
    { destruct (eqb (mkp a b) (mkp b y)); [rewrite H0|rewrite <- H0]; reflexivity. }
    rewrite E0. cbn [bind]. clear E0.
    unfold can_be_concat at 1. rewrite psnd_mkp, pfst_mkp by assumption. rewrite andb_true_r.
    unfold concat_pairs, can_be_concat. rewrite psnd_mkp, pfst_mkp by assumption. rewrite eqb_refl.
    unfold calc_position_shift, double_pair. rewrite !merge_mkp, !pfst_mkp, !psnd_mkp by assumption.
    (* the positions in the middle of two merged ones *)
    assert (J : exists app1 l1, increasing app1 /\ increasing l1 /\ (forall p, In p app1 <-> y = a /\ occ s' ab ab p) /\
              (forall p, In p l1 <-> In p l0 /\ ~ (y = a /\ In (p - len a) M /\ In (p + len b) M)) /\
              length l0 = (length app1 + length l1)%nat /\ (exists f, l1 = filter f l0) /\
              (if eqb y a then '(l1, app) <- merge_lists_both M l0 (len a, - len b) ;;
                               Ok (l1, record_changes li ch (mkp ab ab) (mkp b y) app l1)
               else Ok (l0, (li, ch))) = Ok (l1, record_changes li ch (mkp ab ab) (mkp b y) app1 l1)).
    { destruct (eqb_spec y a) as [->|Na].
      - assert (NE : M <> l0).
        { intros E. destruct M as [|m t] eqn:EM; [apply M_some, EM|]. assert (I : In m l0) by (rewrite <- E; left; reflexivity). apply I0 in I.
          destruct I as [[I1 I2] I3]. assert (Im : In m M) by (rewrite EM; left; reflexivity). destruct (M_in m Im) as [X1 X2].
          assert (a = b) by congruence. assert (Eb : mkp a b = mkp b a) by congruence. apply I3 in Eb. rewrite <- EM in Eb. exact (M_prev m Im Eb). }
        rewrite (C60_both M l0 (len a) (- len b)); [|lia|lia| |exact S0|exact NE].
        2:{ replace (len a - - len b) with (len a + len b) by lia. apply mpos_spaced; assumption. }
        cbn [bind]. eexists. eexists. split; [|split; [|split; [|split; [|split; [|split; [|reflexivity]]]]]].
        + apply filter_sorted, M_sorted.
        + apply filter_sorted, S0.
        + intros p. rewrite filter_In, andb_true_iff, !zmem_spec, occ_both, I0. replace (p + len a - - len b) with (p + len a + len b) by lia.
          split; [tauto|]. intros (_ & I & J). repeat split; try assumption.
          * apply (M_in p I).
          * apply (M_in _ J).
          * intros _. replace (p + len a - len a) with p by lia. exact I.
        + intros p. rewrite filter_In, negb_true_iff, andb_false_iff, !zmem_false. replace (p - - len b) with (p + len b) by lia.
          split.
          * intros [I [N|N]]; split; try assumption; tauto.
          * intros [I N]. split; [exact I|]. destruct (in_dec Z.eq_dec (p - len a) M) as [J|J]; [right; tauto|left; exact J].
        + rewrite (filter_split (fun x => zmem (x - len a) M && zmem (x - - len b) M) l0). f_equal.
          rewrite <- (map_length (fun x => x - len a)). f_equal. apply sorted_eq.
          * apply map_sorted; [intros; lia|]. apply filter_sorted, S0.
          * apply filter_sorted, M_sorted.
          * intros p. rewrite in_map_iff, filter_In, andb_true_iff, !zmem_spec. split.
            -- intros (x & <- & I). apply filter_In in I. rewrite andb_true_iff, !zmem_spec in I.
               replace (x - len a + len a) with x by lia. tauto.
            -- intros (I1 & I2 & I3). exists (p + len a). split; [lia|]. apply filter_In. rewrite andb_true_iff, !zmem_spec.
               replace (p + len a - len a) with p by lia. tauto.
        + eexists. reflexivity.
      - exists [], l0. split; [constructor|]. split; [exact S0|]. split; [cbn; tauto|]. split; [tauto|]. split; [reflexivity|]. split; [|reflexivity].
        exists (fun _ => true). symmetry. apply filter_all. auto. }
    destruct J as (app1 & l1 & A1 & A2 & A3 & A4 & A5 & A6 & ->). cbn [bind].
    destruct (record_changes li ch (mkp ab ab) (mkp b y) app1 l1) as [li1 ch1] eqn:E1. cbn [bind].
    rewrite (C60_merge M l1 (len a) M_sorted A2).
    match goal with |- context [record_changes li1 ch1 _ _ ?app ?l] => set (app2 := app); set (l2 := l) end.
    exists app1, l1, app2, l2. split; [exact A1|]. split.
    { unfold app2. erewrite map_ext; [apply (map_sorted (fun x => x - len a)); [intros; lia|apply filter_sorted, A2]|]. intros x. cbv beta. lia. }
    split; [apply filter_sorted, A2|]. split; [exact A3|]. split.
    { intros p. rewrite occ_left by exact Ny. unfold app2. rewrite in_map_iff. split.
      - intros (x & E & I). apply filter_In in I. rewrite zmem_spec in I. destruct I as [I1 I2]. assert (Ep : p = x - len a) by lia. clear E. subst p.
        split; [exact I2|]. apply A4 in I1. destruct I1 as [I1 N]. apply I0 in I1. destruct I1 as [[X Y] _].
        replace (x - len a + len a + len b) with (x + len b) by lia. split; [exact Y|]. intros J. apply N. destruct (M_in _ J) as [Z1 _].
        split; [congruence|]. split; assumption.
      - intros (I & Y & N). exists (p + len a). split; [lia|]. apply filter_In. rewrite zmem_spec. replace (p + len a - len a) with p by lia.
        split; [|exact I]. apply A4. rewrite I0. replace (p + len a - len a) with p by lia. repeat split; try tauto. apply (M_in p I). }
    split.
    { intros p. unfold l2. rewrite filter_In, negb_true_iff, zmem_false, A4. split; [tauto|]. intros [I N]. tauto. }
    split; [exact A5|]. split.
    { unfold app2, l2. rewrite map_length. apply filter_split. }
    split; [exact A6|]. split; [eexists; reflexivity|].
    rewrite E1. destruct (record_changes li1 ch1 (mkp ab y) (mkp b y) app2 l2) as [li2 ch2]. reflexivity.
  Qed.

  (** ** The left neighbours *)
  Lemma left_step (same : option (list Z)) x li ch l0 :
    good x -> x <> ab -> mkp a b <> mkp x a -> l0 = lget li (mkp x a) -> increasing l0 ->
    (forall p, In p l0 <-> occ s x a p /\ ~ In (p - len a) M) ->
    exists app l2,
      increasing app /\ increasing l2 /\
      (forall p, In p app <-> occ s' x ab p) /\
      (forall p, In p l2 <-> In p l0 /\ ~ In (p + len x) M) /\
      length l0 = (length app + length l2)%nat /\ (exists f, l2 = filter f l0) /\
      location_body (mkp a b) M same Left (mkp x a) (li, ch) =
        Ok (let (li2, ch2) := record_changes li ch (mkp x ab) (mkp x a) app l2 in (dset li2 (mkp x a) l2, ch2)).
  Proof.
    intros Gx Nx Np -> S0 I0. unfold location_body. cbn [is_right negb opposite]. destruct (eqb_spec (mkp a b) (mkp x a)) as [E|_]; [contradiction|].
    cbn [andb bind]. rewrite andb_false_r. cbn [bind].
    unfold concat_pairs, can_be_concat. rewrite psnd_mkp, pfst_mkp by assumption. rewrite eqb_refl. cbn [bind].
    unfold calc_position_shift. rewrite merge_mkp, !pfst_mkp by assumption.
    rewrite (C60_merge M _ (- len x) M_sorted S0). pose proof (good_len x Gx) as Lx.
    match goal with |- context [record_changes li ch _ _ ?app ?l] => set (app2 := app); set (l2 := l) end.
    exists app2, l2. split.
    { unfold app2. erewrite map_ext; [apply (map_sorted (fun x => x)); [auto|apply filter_sorted, S0]|]. intros z. cbv beta. lia. }
    split; [apply filter_sorted, S0|]. split.
    { intros p. rewrite occ_right by exact Nx. unfold app2. rewrite in_map_iff. split.
      - intros (z & E & I). apply filter_In in I. rewrite zmem_spec in I. destruct I as [I1 I2]. assert (Ep : p = z) by lia. subst z. clear E.
        replace (p - - len x) with (p + len x) in I2 by lia. apply I0 in I1. destruct I1 as [[X Y] N]. repeat split; try assumption.
        intros J. destruct (M_in _ J) as [J1 J2]. assert (x = a) by congruence. subst x. exact (M_next p J I2).
      - intros (X & I & N1 & N2). exists p. split; [lia|]. apply filter_In. rewrite zmem_spec. replace (p - - len x) with (p + len x) by lia. split; [|exact I].
        apply I0. split; [|exact N2]. split; [exact X|]. apply (M_in _ I). }
    split.
    { intros p. unfold l2. rewrite filter_In, negb_true_iff, zmem_false. replace (p - - len x) with (p + len x) by lia. reflexivity. }
    split; [unfold app2, l2; rewrite map_length; apply filter_split|]. split; [eexists; reflexivity|].
    destruct (record_changes li ch (mkp x ab) (mkp x a) app2 l2). reflexivity.
  Qed.
End Merge.
