(** C83: all stages use the same complete list of files. *)
From Verif Require Import M_Base L_Base M_FileList.
From Coq Require Import Lia.

Lemma fin_mid {A} (x p : A) l1 l2 : In x (l1 ++ p :: l2) <-> x = p \/ In x (l1 ++ l2).
Proof. rewrite !in_app_iff. cbn. intuition congruence. Qed.

Definition fdone (p : fproc) : Prop := exists r, p = FDone r.
(** at most one call is active *)
Definition only_one (ps : list fproc) : Prop := forall l1 p l2, ps = l1 ++ p :: l2 -> fdone p \/ forall q, In q (l1 ++ l2) -> fdone q.

Lemma split_two {A} (l1 : list A) p l2 k1 q k2 : l1 ++ p :: l2 = k1 ++ q :: k2 ->
  (p = q /\ l1 = k1 /\ l2 = k2) \/ (exists m, l1 = k1 ++ q :: m /\ k2 = m ++ p :: l2) \/ (exists m, k1 = l1 ++ p :: m /\ l2 = m ++ q :: k2).
Proof.
  intros E. destruct (app_eq_app _ _ _ _ E) as (l & [[E1 E2]|[E1 E2]]).
  - destruct l as [|x l]; cbn in E2; injection E2 as E3 E4.
    + left. rewrite app_nil_r in E1. auto.
    + right. left. subst. eauto.
  - destruct l as [|x l]; cbn in E2; injection E2 as E3 E4.
    + left. rewrite app_nil_r in E1. auto.
    + right. right. subst. eauto.
Qed.
Lemma only_one_others l1 p l2 : only_one (l1 ++ p :: l2) -> ~ fdone p -> forall q, In q (l1 ++ l2) -> fdone q.
Proof. intros O N. destruct (O l1 p l2 eq_refl) as [X|X]; [contradiction|exact X]. Qed.
Lemma only_one_intro l1 p l2 : (forall q, In q (l1 ++ l2) -> fdone q) -> only_one (l1 ++ p :: l2).
Proof.
  intros A k1 q k2 E. destruct (split_two _ _ _ _ _ _ E) as [(-> & -> & ->)|[(m & -> & ->)|(m & -> & ->)]].
  - right. exact A.
  - left. apply A. apply in_or_app. left. apply in_elt.
  - left. apply A. apply in_or_app. right. apply in_elt.
Qed.

(** What holds when calls follow each other. *)
Record SI (s0 s : fstate) : Prop := {
  si_one : only_one (l_procs s);
  si_mark : forall m, l_mark s = Some (Some m) ->
    (exists l, l_folder s = Some (l, m) /\ In l (l_walks s)) /\ forall p, In p (l_procs s) -> fdone p \/ exists c, p = FStart c;
  si_marking : forall got, In (FMark got) (l_procs s) \/ In (FMark2 got) (l_procs s) ->
    In got (l_walks s) /\ exists t, l_folder s = Some (got, t);
  si_results : forall l, In (FDone (Some l)) (l_procs s) -> In l (l_walks s)
}.

Ltac cases H := apply fin_mid in H; destruct H as [H|H].

Lemma not_marked fo m : need_scan fo m = true -> forall t, m = Some (Some t) -> ~ exists l, fo = Some (l, t).
Proof. intros N t -> (l & ->). cbn in N. rewrite Nat.eqb_refl in N. discriminate. Qed.

Lemma si_step s0 s s' : SI s0 s -> fstep s s' -> SI s0 s'.
Proof.
  intros [SO SM SG SR] S. destruct S as [now ds l t w c l1 l2|now ds fo m w c l1 l2 HN|now ds fo m w c l1 l2|now ds fo m w c got f rest l1 l2
    |now ds fo m w c got rest l1 l2|now ds fo m w c got rest l1 l2|now ds fo m w c got l1 l2|now ds fo m w got l1 l2|now ds l t m w got l1 l2|now ds fo m w ps];
    cbn [l_procs l_mark l_folder l_walks] in *.
  1,2,3,4,5,6,7,8,9: match type of SO with only_one (?a ++ ?p :: ?b) =>
    assert (OV : forall q, In q (a ++ b) -> fdone q) by (apply (only_one_others a p b SO); intros [r X]; discriminate) end.
  - constructor; cbn [l_procs l_mark l_folder l_walks].
    + apply only_one_intro, OV.
    + intros m E. destruct (SM m E) as [X Y]. split; [exact X|]. intros p H. cases H; [left; eexists; exact H|left; apply OV, H].
    + intros got H. apply SG. destruct H as [H|H]; cases H; try discriminate; [left|right]; apply fin_mid; auto.
    + intros l' H. cases H; [|apply SR, fin_mid; auto]. injection H as ->. destruct (SM t eq_refl) as [(l' & E & I) _]. injection E as <-. exact I.
  - constructor; cbn [l_procs l_mark l_folder l_walks].
    + apply only_one_intro, OV.
    + intros t E. exfalso. destruct (SM t E) as [(l & X & _) _]. apply (not_marked fo m HN t E). eauto.
    + intros got H. apply SG. destruct H as [H|H]; cases H; try discriminate; [left|right]; apply fin_mid; auto.
    + intros l' H. cases H; [discriminate|]. apply SR, fin_mid; auto.
  - constructor; cbn [l_procs l_mark l_folder l_walks].
    + apply only_one_intro, OV.
    + intros t E. exfalso. destruct (SM t E) as [_ X]. destruct (X (FNeed c)) as [[r Y]|[c' Y]]; [apply fin_mid; auto|discriminate|discriminate].
    + intros got H. exfalso. destruct H as [H|H]; cases H; try discriminate; destruct (OV _ H) as [r X]; discriminate.
    + intros l' H. cases H; [discriminate|]. apply SR, fin_mid; auto.
  - constructor; cbn [l_procs l_mark l_folder l_walks].
    + apply only_one_intro, OV.
    + intros t E. exfalso. destruct (SM t E) as [_ X]. destruct (X (FScanning c got (f :: rest))) as [[r Y]|[c' Y]]; [apply fin_mid; auto|discriminate|discriminate].
    + intros got' H. exfalso. destruct H as [H|H]; cases H; try discriminate; destruct (OV _ H) as [r X]; discriminate.
    + intros l' H. cases H; [discriminate|]. apply SR, fin_mid; auto.
  - constructor; cbn [l_procs l_mark l_folder l_walks].
    + apply only_one_intro, OV.
    + intros t E. exfalso. destruct (SM t E) as [_ X]. destruct (X (FScanning c got rest)) as [[r Y]|[c' Y]]; [apply fin_mid; auto|discriminate|discriminate].
    + intros got' H. exfalso. destruct H as [H|H]; cases H; try discriminate; destruct (OV _ H) as [r X]; discriminate.
    + intros l' H. cases H; [discriminate|]. apply SR, fin_mid; auto.
  - constructor; cbn [l_procs l_mark l_folder l_walks].
    + apply only_one_intro, OV.
    + intros t E. exfalso. destruct (SM t E) as [_ X]. destruct (X (FScanning c got rest)) as [[r Y]|[c' Y]]; [apply fin_mid; auto|discriminate|discriminate].
    + intros got' H. exfalso. destruct H as [H|H]; cases H; try discriminate; destruct (OV _ H) as [r X]; discriminate.
    + intros l' H. cases H; [discriminate|]. apply SR, fin_mid; auto.
  - constructor; cbn [l_procs l_mark l_folder l_walks].
    + apply only_one_intro, OV.
    + intros t E. exfalso. destruct (SM t E) as [_ X]. destruct (X (FScanning c got [])) as [[r Y]|[c' Y]]; [apply fin_mid; auto|discriminate|discriminate].
    + intros got' H. assert (E : got' = got).
      { destruct H as [H|H]; cases H; try (exfalso; destruct (OV _ H) as [r X]; discriminate); destruct c; try discriminate; congruence. }
      subst got'. split; [left; reflexivity|eauto].
    + intros l' H. cases H; [destruct c; [discriminate|]; injection H as ->; left; reflexivity|]. right. apply SR, fin_mid; auto.
  - destruct (SG got (or_introl (in_elt _ l1 l2))) as [G1 G2]. constructor; cbn [l_procs l_mark l_folder l_walks].
    + apply only_one_intro, OV.
    + discriminate.
    + intros got' H. assert (E : got' = got).
      { destruct H as [H|H]; cases H; try (exfalso; destruct (OV _ H) as [r X]; discriminate); try discriminate; congruence. }
      subst got'. auto.
    + intros l' H. cases H; [discriminate|]. apply SR, fin_mid; auto.
  - destruct (SG got (or_intror (in_elt _ l1 l2))) as [G1 (t' & G2)]. injection G2 as -> <-. constructor; cbn [l_procs l_mark l_folder l_walks].
    + apply only_one_intro, OV.
    + intros t' E. injection E as <-. split; [eauto|]. intros p H. left. cases H; [eexists; exact H|apply OV, H].
    + intros got' H. exfalso. destruct H as [H|H]; cases H; try discriminate; destruct (OV _ H) as [r X]; discriminate.
    + intros l' H. cases H; [injection H as ->; exact G1|]. apply SR, fin_mid; auto.
  - constructor; cbn [l_procs l_mark l_folder l_walks]; auto.
Qed.

Lemma rescanned_done ps ps' : Forall2 rescanned ps ps' ->
  (only_one ps -> only_one ps') /\ (forall p', In p' ps' -> exists p, In p ps /\ rescanned p p').
Proof.
  intros F. split.
  - intros O l1 p l2 ->. apply Forall2_app_inv_r in F. destruct F as (k1 & k2 & F1 & F2 & ->).
    inversion F2 as [|q ? k2' ? Q F3]; subst. destruct (O k1 q k2' eq_refl) as [[r ->]|X].
    + left. inversion Q; subst. eexists. reflexivity.
    + right. intros z Hz. apply in_app_or in Hz. assert (exists z0, In z0 (k1 ++ k2') /\ rescanned z0 z) as (z0 & H0 & R0).
      { destruct Hz as [Hz|Hz].
        - clear -F1 Hz. induction F1 as [|a b l l' R F IH]; [destruct Hz|]. destruct Hz as [<-|Hz]; [exists a; split; [left; reflexivity|exact R]|].
          destruct (IH Hz) as (z0 & H1 & H2). exists z0. split; [right; exact H1|exact H2].
        - clear -F3 Hz. assert (G : exists z0, In z0 k2' /\ rescanned z0 z).
          { induction F3 as [|a b l l' R F IH]; [destruct Hz|]. destruct Hz as [<-|Hz]; [exists a; split; [left; reflexivity|exact R]|].
            destruct (IH Hz) as (z0 & H1 & H2). exists z0. split; [right; exact H1|exact H2]. }
          destruct G as (z0 & H1 & H2). exists z0. split; [apply in_or_app; auto|exact H2]. }
      destruct (X z0 H0) as [r ->]. inversion R0; subst. eexists. reflexivity.
  - intros p' H. induction F as [|a b l l' R F IH]; [destruct H|]. destruct H as [<-|H]; [exists a; split; [left; reflexivity|exact R]|].
    destruct (IH H) as (z0 & H1 & H2). exists z0. split; [right; exact H1|exact H2].
Qed.

Lemma si_seq ch now ds s : f_seq ch (f_init now ds) s -> SI (f_init now ds) s.
Proof.
  induction 1 as [|c s R [SO SM SG SR] D|s s' R IH S|s s' R [SO SM SG SR] K|s s' Hc R [SO SM SG SR] K].
  - constructor; cbn; try discriminate; try tauto. intros l1 p l2 E. destruct l1; discriminate.
  - constructor; cbn [f_started l_procs l_mark l_folder l_walks].
    + apply only_one_intro. rewrite app_nil_r. exact D.
    + intros m E. destruct (SM m E) as [X Y]. split; [exact X|]. intros p H. apply in_app_or in H. destruct H as [H|[<-|[]]]; [auto|right; eauto].
    + intros got H. apply SG. destruct H as [H|H]; apply in_app_or in H; destruct H as [H|[H|[]]]; try discriminate; auto.
    + intros l H. apply in_app_or in H. destruct H as [H|[H|[]]]; [apply SR, H|discriminate].
  - apply (si_step _ s s' IH S).
  - destruct K as [now' ds' fo m w p l1 l2 Np]. cbn [l_procs l_mark l_folder l_walks] in *.
    assert (OV : forall q, In q (l1 ++ l2) -> fdone q) by (apply (only_one_others l1 p l2 SO); intros [r X]; apply (Np r X)).
    constructor; cbn [l_procs l_mark l_folder l_walks].
    + apply only_one_intro, OV.
    + intros t E. destruct (SM t E) as [X Y]. split; [exact X|]. intros q H. left. cases H; [eexists; exact H|apply OV, H].
    + intros got H. apply SG. destruct H as [H|H]; cases H; try discriminate; [left|right]; apply fin_mid; auto.
    + intros l H. cases H; [discriminate|]. apply SR, fin_mid; auto.
  - destruct K as [now' ds1 ds2 fo m w ps ps' F]. cbn [l_procs l_mark l_folder l_walks] in *. destruct (rescanned_done _ _ F) as [F1 F2].
    constructor; cbn [l_procs l_mark l_folder l_walks].
    + apply F1, SO.
    + intros t E. destruct (SM t E) as [X Y]. split; [exact X|]. intros q H. destruct (F2 q H) as (p & H1 & H2).
      destruct (Y p H1) as [[r ->]|[c ->]]; inversion H2; subst; [left; eexists; reflexivity|right; eauto].
    + intros got H. apply SG. destruct H as [H|H]; destruct (F2 _ H) as (p & H1 & H2); inversion H2; subst; auto.
    + intros l H. destruct (F2 _ H) as (p & H1 & H2). inversion H2; subst. apply SR, H1.
Qed.

(** Whatever changes, stops and kills there are: a call that delivers all its files delivers what a scan that was not broken off has found. *)
Theorem C83_complete : forall now ds s l,
  f_seq true (f_init now ds) s -> In (FDone (Some l)) (l_procs s) -> In l (l_walks s).
Proof. intros now ds s l R H. apply (si_results _ _ (si_seq _ _ _ _ R)), H. Qed.

(** Without changes of the dataset a call that delivers all its files delivers exactly the files of the dataset. *)
Definition unchanged (ds : list str) (s : fstate) : Prop :=
  l_ds s = ds /\ (forall c got rest, In (FScanning c got rest) (l_procs s) -> got ++ rest = ds) /\ (forall l, In l (l_walks s) -> l = ds).
Lemma unchanged_seq now ds s : f_seq false (f_init now ds) s -> unchanged ds s.
Proof.
  induction 1 as [|c s R (U1 & U2 & U3) D|s s' R (U1 & U2 & U3) S|s s' R (U1 & U2 & U3) K|s s' Hc R _ K]; [| | | |discriminate].
  - split; [reflexivity|]. split; intros; contradiction.
  - split; [exact U1|]. split; [|exact U3]. cbn. intros c0 got rest H. apply in_app_or in H. destruct H as [H|[H|[]]]; [apply (U2 c0), H|discriminate].
  - destruct S as [now' ds' l t w c l1 l2|now' ds' fo m w c l1 l2 HN|now' ds' fo m w c l1 l2|now' ds' fo m w c got f rest l1 l2
      |now' ds' fo m w c got rest l1 l2|now' ds' fo m w c got rest l1 l2|now' ds' fo m w c got l1 l2|now' ds' fo m w got l1 l2|now' ds' l t m w got l1 l2|now' ds' fo m w ps];
      unfold unchanged; cbn [l_procs l_ds l_walks] in *; subst ds'.
    + split; [reflexivity|]. split; [|exact U3]. intros c0 g r H. cases H; [discriminate|]. apply (U2 c0), fin_mid. auto.
    + split; [reflexivity|]. split; [|exact U3]. intros c0 g r H. cases H; [discriminate|]. apply (U2 c0), fin_mid. auto.
    + split; [reflexivity|]. split; [|exact U3]. intros c0 g r H. cases H; [injection H as -> -> ->; reflexivity|]. apply (U2 c0), fin_mid. auto.
    + split; [reflexivity|]. split; [|exact U3]. intros c0 g r H. cases H.
      * injection H as -> -> ->. rewrite <- app_assoc. apply (U2 c), fin_mid. auto.
      * apply (U2 c0), fin_mid. auto.
    + split; [reflexivity|]. split; [|exact U3]. exact U2.
    + split; [reflexivity|]. split; [|exact U3]. intros c0 g r H. cases H; [discriminate|]. apply (U2 c0), fin_mid. auto.
    + split; [reflexivity|]. split.
      * intros c0 g r H. cases H; [destruct c; discriminate|]. apply (U2 c0), fin_mid. auto.
      * intros l [<-|H]; [|apply U3, H]. rewrite <- (U2 c got []); [symmetry; apply app_nil_r|apply fin_mid; auto].
    + split; [reflexivity|]. split; [|exact U3]. intros c0 g r H. cases H; [discriminate|]. apply (U2 c0), fin_mid. auto.
    + split; [reflexivity|]. split; [|exact U3]. intros c0 g r H. cases H; [discriminate|]. apply (U2 c0), fin_mid. auto.
    + split; [reflexivity|]. split; [exact U2|exact U3].
  - destruct K. unfold unchanged; cbn [l_procs l_ds l_walks] in *. split; [exact U1|]. split; [|exact U3]. intros c0 g r H'. cases H'; [discriminate|]. apply (U2 c0), fin_mid. auto.
Qed.
Theorem C83_exact : forall now ds s l,
  f_seq false (f_init now ds) s -> In (FDone (Some l)) (l_procs s) -> l = ds.
Proof.
  intros now ds s l R H. destruct (unchanged_seq _ _ _ R) as (_ & _ & U). apply U.
  apply (si_results _ _ (si_seq _ _ _ _ R)), H.
Qed.

(** Once a list is marked it is used by all calls that follow, however the dataset changes. *)
Theorem C83_same : forall now ds s m,
  f_seq true (f_init now ds) s -> l_mark s = Some (Some m) -> f_all_done s ->
  exists l, In l (l_walks s) /\
  forall s', f_seq true s s' -> forall k p, nth_error (l_procs s') k = Some p -> length (l_procs s) <= k ->
    p = FDone (Some l) \/ p = FDone None \/ exists c, p = FStart c.
Proof.
  intros now ds s m R0 M D. destruct (si_mark _ _ (si_seq _ _ _ _ R0) m M) as [(l & F & W) _]. exists l. split; [exact W|].
  intros s' R.
  assert (K : l_mark s' = Some (Some m) /\ l_folder s' = Some (l, m) /\ length (l_procs s) <= length (l_procs s') /\
    (forall p, In p (l_procs s') -> fdone p \/ exists c, p = FStart c) /\
    (forall k p, nth_error (l_procs s') k = Some p -> length (l_procs s) <= k -> p = FDone (Some l) \/ p = FDone None \/ exists c, p = FStart c)).
  { induction R as [|c s' R (I1 & I2 & I3 & I4 & I5) D'|s' s'' R (I1 & I2 & I3 & I4 & I5) S|s' s'' R (I1 & I2 & I3 & I4 & I5) K|s' s'' Hc R (I1 & I2 & I3 & I4 & I5) K].
    - split; [exact M|]. split; [exact F|]. split; [lia|]. split; [intros p H; left; apply D, H|].
      intros k p H L. exfalso. assert (k < length (l_procs s)) by (apply nth_error_Some; congruence). lia.
    - cbn [f_started l_mark l_folder l_procs]. split; [exact I1|]. split; [exact I2|]. rewrite app_length. cbn. split; [lia|]. split.
      + intros p H. apply in_app_or in H. destruct H as [H|[<-|[]]]; [apply I4, H|right; eauto].
      + intros k p H L. destruct (Nat.lt_ge_cases k (length (l_procs s'))) as [X|X].
        * rewrite nth_error_app1 in H by exact X. apply (I5 k p H L).
        * rewrite nth_error_app2 in H by exact X. destruct (k - length (l_procs s')) as [|[|?]]; cbn in H; try discriminate. injection H as <-. right. right. eauto.
    - assert (Dn : forall fo m' w q l1 l2 now' ds', s' = {| l_now := now'; l_ds := ds'; l_folder := fo; l_mark := m'; l_walks := w; l_procs := l1 ++ q :: l2 |} ->
                fdone q \/ exists c, q = FStart c) by (intros; subst s'; apply I4; cbn; apply in_elt).
      destruct S as [now' ds' l' t w c l1 l2|now' ds' fo m' w c l1 l2 HN|now' ds' fo m' w c l1 l2|now' ds' fo m' w c got f rest l1 l2
        |now' ds' fo m' w c got rest l1 l2|now' ds' fo m' w c got rest l1 l2|now' ds' fo m' w c got l1 l2|now' ds' fo m' w got l1 l2|now' ds' l' t m' w got l1 l2|now' ds' fo m' w ps];
        try (exfalso; destruct (Dn _ _ _ _ _ _ _ _ eq_refl) as [[r X]|[c' X]]; discriminate); clear Dn;
        cbn [l_mark l_folder l_procs] in *.
      + split; [exact I1|]. split; [exact I2|]. injection I2 as -> ->. split; [rewrite app_length in *; cbn in *; lia|]. split.
        * intros p H. cases H; [left; eexists; exact H|]. apply I4, fin_mid. auto.
        * intros k p H L. destruct (Nat.eq_dec k (length l1)) as [->|Nk].
          -- rewrite nth_error_app2 in H by lia. rewrite Nat.sub_diag in H. injection H as <-. auto.
          -- apply (I5 k p); [|exact L]. destruct (Nat.lt_ge_cases k (length l1)) as [X|X].
             ++ rewrite nth_error_app1 in H |- * by exact X. exact H.
             ++ rewrite nth_error_app2 in H |- * by exact X. destruct (k - length l1) as [|n] eqn:E; [lia|]. exact H.
      + exfalso. subst. cbn in HN. rewrite Nat.eqb_refl in HN. discriminate.
      + auto 10.
    - destruct K as [now' ds' fo m' w q l1 l2 Np]. cbn [l_mark l_folder l_procs] in *. split; [exact I1|]. split; [exact I2|].
      split; [rewrite app_length in *; cbn in *; lia|]. split.
      + intros p H. cases H; [left; eexists; exact H|]. apply I4, fin_mid. auto.
      + intros k p H L. destruct (Nat.eq_dec k (length l1)) as [->|Nk].
        * rewrite nth_error_app2 in H by lia. rewrite Nat.sub_diag in H. injection H as <-. auto.
        * apply (I5 k p); [|exact L]. destruct (Nat.lt_ge_cases k (length l1)) as [X|X].
          -- rewrite nth_error_app1 in H |- * by exact X. exact H.
          -- rewrite nth_error_app2 in H |- * by exact X. destruct (k - length l1) as [|n] eqn:E; [lia|]. exact H.
    - destruct K as [now' ds1 ds2 fo m' w ps ps' F']. cbn [l_mark l_folder l_procs] in *.
      assert (E : ps' = ps).
      { clear -F' I4. induction F' as [|a b k k' Q F IH]; [reflexivity|]. rewrite IH by (intros; apply I4; right; assumption). f_equal.
        destruct (I4 a (or_introl eq_refl)) as [[r ->]|[c ->]]; inversion Q; reflexivity. }
      subst ps'. auto 10. }
  apply K.
Qed.
Print Assumptions C83_complete.
Print Assumptions C83_exact.
Print Assumptions C83_same.

(** With caching suppressed the stages of one command scan anew: a later stage can get a file that no stage before it has seen. *)
Theorem C83_suppressed_refuted : forall now (f : str),
  exists s, f_seq true (f_init now []) s /\ l_mark s = None /\ l_procs s = [FDone (Some []); FDone (Some [f])].
Proof.
  intros now f. eexists. split.
  { eapply fs_step; [|eapply (f_end now [f] _ None [[]] false [f] [FDone (Some [])] [])].
    eapply fs_step; [|eapply (f_deliver now [f] (Some ([], now)) None [[]] false [] f [] [FDone (Some [])] [])].
    eapply fs_step; [|eapply (f_open now [f] (Some ([], now)) None [[]] false [FDone (Some [])] [])].
    eapply fs_step; [|eapply (f_need now [f] (Some ([], now)) None [[]] false [FDone (Some [])] []); reflexivity].
    eapply (fs_start true _ false {| l_now := now; l_ds := [f]; l_folder := Some ([], now); l_mark := None; l_walks := [[]]; l_procs := [FDone (Some [])] |});
      [|intros p [<-|[]]; eauto].
    eapply fs_change; [reflexivity| |eapply (f_change_intro now [] [f] (Some ([], now)) None [[]] [FDone (Some [])]); constructor; [apply rs_other|constructor]].
    eapply fs_step; [|eapply (f_end now [] (Some ([], now)) None [] false [] [] [])].
    eapply fs_step; [|eapply (f_open now [] None None [] false [] [])].
    eapply fs_step; [|eapply (f_need now [] None None [] false [] []); reflexivity].
    eapply (fs_start true _ false (f_init now [])); [apply fs_here|intros p []]. }
  split; reflexivity.
Qed.

(** Two commands at the same time: one has scanned and marked the list, the other one opens it for its own scan in the same second;
    the next stage of the first one gets no files. *)
Theorem C83_at_the_same_time_refuted : forall now (f : str),
  exists s, f_par (f_init now [f]) s /\ l_ds s = [f] /\ l_procs s = [FDone (Some [f]); FScanning true [] [f]; FDone (Some [])].
Proof.
  intros now f. eexists. split.
  { eapply fp_step; [|eapply (f_read now [f] [] now [[f]] true [FDone (Some [f]); FScanning true [] [f]] [])].
    eapply (fp_start _ true {| l_now := now; l_ds := [f]; l_folder := Some ([], now); l_mark := Some (Some now); l_walks := [[f]];
                               l_procs := [FDone (Some [f]); FScanning true [] [f]] |}).
    eapply fp_step; [|eapply (f_open now [f] (Some ([f], now)) (Some (Some now)) [[f]] true [FDone (Some [f])] [])].
    eapply fp_step; [|eapply (f_mark_write now [f] [f] now (Some None) [[f]] [f] [] [FNeed true])].
    eapply fp_step; [|eapply (f_mark_open now [f] (Some ([f], now)) None [[f]] [f] [] [FNeed true])].
    eapply fp_step; [|eapply (f_end now [f] (Some ([], now)) None [] true [f] [] [FNeed true])].
    eapply fp_step; [|eapply (f_deliver now [f] (Some ([], now)) None [] true [] f [] [] [FNeed true])].
    eapply fp_step; [|eapply (f_open now [f] None None [] true [] [FNeed true])].
    eapply fp_step; [|eapply (f_need now [f] None None [] true [FNeed true] []); reflexivity].
    eapply fp_step; [|eapply (f_need now [f] None None [] true [] [FStart true]); reflexivity].
    eapply (fp_start _ true (f_started true (f_init now [f]))). eapply (fp_start _ true (f_init now [f])). apply fp_here. }
  split; reflexivity.
Qed.
Print Assumptions C83_suppressed_refuted.
Print Assumptions C83_at_the_same_time_refuted.

(** A scan that is killed, a complete one, a change of the dataset, and a call that reads the list. *)
Example C83_ex : forall f g : str, exists s, f_seq true (f_init 0 [f; g]) s /\ l_ds s = [f] /\
  l_mark s = Some (Some 1) /\ l_procs s = [FDone None; FDone (Some [f; g]); FDone (Some [f; g])].
Proof.
  intros f g. eexists. split.
  { eapply fs_step; [|eapply (f_read 1 [f] [f; g] 1 [[f; g]] true [FDone None; FDone (Some [f; g])] [])].
    eapply (fs_start true _ true {| l_now := 1; l_ds := [f]; l_folder := Some ([f; g], 1); l_mark := Some (Some 1); l_walks := [[f; g]];
                                    l_procs := [FDone None; FDone (Some [f; g])] |}); [|intros p [<-|[<-|[]]]; eauto].
    eapply fs_change; [reflexivity| |eapply (f_change_intro 1 [f; g] [f] (Some ([f; g], 1)) (Some (Some 1)) [[f; g]] [FDone None; FDone (Some [f; g])]);
      repeat constructor].
    eapply fs_step; [|eapply (f_mark_write 1 [f; g] [f; g] 1 (Some None) [[f; g]] [f; g] [FDone None] [])].
    eapply fs_step; [|eapply (f_mark_open 1 [f; g] (Some ([f; g], 1)) None [[f; g]] [f; g] [FDone None] [])].
    eapply fs_step; [|eapply (f_end 1 [f; g] (Some ([], 1)) None [] true [f; g] [FDone None] [])].
    eapply fs_step; [|eapply (f_deliver 1 [f; g] (Some ([], 1)) None [] true [f] g [] [FDone None] [])].
    eapply fs_step; [|eapply (f_deliver 1 [f; g] (Some ([], 1)) None [] true [] f [g] [FDone None] [])].
    eapply fs_step; [|eapply (f_open 1 [f; g] (Some ([f], 0)) None [] true [FDone None] [])].
    eapply fs_step; [|eapply (f_need 1 [f; g] (Some ([f], 0)) None [] true [FDone None] []); reflexivity].
    eapply (fs_start true _ true {| l_now := 1; l_ds := [f; g]; l_folder := Some ([f], 0); l_mark := None; l_walks := []; l_procs := [FDone None] |});
      [|intros p [<-|[]]; eauto].
    eapply fs_step; [|eapply (f_tick 0 [f; g] (Some ([f], 0)) None [] [FDone None])].
    eapply fs_kill; [|eapply (f_kill_intro 0 [f; g] (Some ([f], 0)) None [] (FScanning true [f] [g]) [] []); discriminate].
    eapply fs_step; [|eapply (f_flush 0 [f; g] (Some ([], 0)) None [] true [f] [g] [] [])].
    eapply fs_step; [|eapply (f_deliver 0 [f; g] (Some ([], 0)) None [] true [] f [g] [] [])].
    eapply fs_step; [|eapply (f_open 0 [f; g] None None [] true [] [])].
    eapply fs_step; [|eapply (f_need 0 [f; g] None None [] true [] []); reflexivity].
    eapply (fs_start true _ true (f_init 0 [f; g])); [apply fs_here|intros p []]. }
  split; [reflexivity|]. split; reflexivity.
Qed.
