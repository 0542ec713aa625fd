(** C105: ids given by learn-bpe commands for different datasets at the same time. *)
From Coq Require Import Permutation Arith Lia.
From Verif Require Import M_Base L_Base M_Registry P_Registry M_Ids.

Section Ids.
  Variable py_int : str -> option Z.
  Variable maxsize : Z.
  Variable strip : str -> str.
  Variable number_of : str -> str -> option str.
  Hypothesis strip_nil : strip [] = [].

  Notation idoes := (idoes py_int maxsize strip number_of).
  Notation istep := (istep py_int maxsize strip number_of).
  Notation i_later := (i_later py_int maxsize strip number_of).
  Notation learned := (learned py_int).

  (** directory [n] has the id [i]: what get_codes_id_by_bpe_path returns, if it is not empty *)
  Definition has (dirs : idirs) (n i : str) : Prop := exists d, dget dirs n = Some d /\ option_map strip (fst d) = Some i /\ i <> [].
  (** there are merges in it *)
  Definition with_merges (dirs : idirs) (n : str) : Prop :=
    exists d m, dget dirs n = Some d /\ learned (snd d) m /\ (0 < m <= maxsize)%Z.
  Definition distinct (dirs : idirs) : Prop := forall n1 n2 i, has dirs n1 i -> has dirs n2 i -> n1 = n2.
  (** no command was killed between writing the id and saving merges *)
  Definition settled (dirs : idirs) : Prop := distinct dirs /\ forall n i, has dirs n i -> with_merges dirs n.

  (** the ids that a command may give: the one of --id; otherwise the name of the dataset, or that with a number *)
  Definition ids_for (c : icmd) (i : str) : Prop :=
    match q_given c with
    | Some (x :: g) => i = x :: g
    | _ => i = id_base (q_base c) (q_suffix c) \/ exists k, i = id_base (q_base c) (q_suffix c) ++ lit "_" ++ dec k
    end.
  (** ids are read as they are written; --id is not in use; the name has no special characters *)
  Definition fine (dirs : idirs) (c : icmd) : Prop :=
    (forall i, ids_for c i -> strip i = i /\ i <> []) /\
    match q_given c with
    | Some (x :: g) => forall n, ~ has dirs n (x :: g)
    | _ => self_matching number_of (id_base (q_base c) (q_suffix c))
    end.
  (** no two of the commands can get the same id *)
  Definition names_apart (cs : list icmd) : Prop :=
    forall c c' i, In c cs -> In c' cs -> ids_for c i -> ids_for c' i -> c = c'.

  Section Run.
    Variable D0 : idirs.
    Variable cs : list icmd.
    Hypothesis HS : settled D0.
    Hypothesis HN : NoDup (map q_name cs).
    Hypothesis HF : Forall (fine D0) cs.
    Hypothesis HA : names_apart cs.

    Definition no_id (dirs : idirs) (n : str) : Prop :=
      exists d, dget dirs n = Some d /\ (option_map strip (fst d) = None \/ option_map strip (fst d) = Some []).
    Definition fresh (i : str) : Prop := forall n, ~ has D0 n i.
    Definition noticed (seen : list bpe_dir) (n : str) (d0 : bpe_dir) : Prop :=
      exists s, In s seen /\ fst s = fst d0 /\ incl (snd d0) (snd s).

    Definition ok (dirs : idirs) (p : iproc) : Prop :=
      match p with
      | IStart _ | IFailed _ _ => True
      | IMade c => exists d, dget dirs (q_name c) = Some d
      | IWants c => no_id dirs (q_name c)
      | IScan c todo seen => no_id dirs (q_name c) /\ (forall x i, q_given c <> Some (x :: i)) /\
          forall n d0 i, dget D0 n = Some d0 -> has D0 n i -> In n todo \/ noticed seen n d0
      | IHalf c todo n id seen => no_id dirs (q_name c) /\ (forall x i, q_given c <> Some (x :: i)) /\
          forall n' d0 i, dget D0 n' = Some d0 -> has D0 n' i -> In n' todo \/ noticed seen n' d0 \/ (n' = n /\ id = fst d0)
      | IHas c i | IOpen c i => no_id dirs (q_name c) /\ ids_for c i /\ fresh i
      | ILearn c => exists i, has dirs (q_name c) i
      | IDone c => (exists i, has dirs (q_name c) i) /\ exists d, dget dirs (q_name c) = Some d /\ In (q_sub c) (snd d)
      end.

    Record inv (s : istate) : Prop := {
      v_cs : map cmd_of (i_procs s) = cs;
      v_keep : forall n d0, dget D0 n = Some d0 -> exists d, dget (i_dirs s) n = Some d /\ incl (snd d0) (snd d) /\
                 (forall i, has D0 n i -> fst d = fst d0);
      v_own : forall n d i, dget (i_dirs s) n = Some d -> option_map strip (fst d) = Some i -> i <> [] ->
                has D0 n i \/ exists c, In c cs /\ q_name c = n /\ ids_for c i /\ fresh i;
      v_ok : Forall (ok (i_dirs s)) (i_procs s)
    }.

    Lemma ok_frame dirs dirs' p : (forall d, dget dirs (q_name (cmd_of p)) = Some d -> dget dirs' (q_name (cmd_of p)) = Some d) ->
      ok dirs p -> ok dirs' p.
    Proof.
      intros H. assert (Hn : no_id dirs (q_name (cmd_of p)) -> no_id dirs' (q_name (cmd_of p))) by (intros (d & Hd & K); exists d; auto).
      assert (Hh : forall i, has dirs (q_name (cmd_of p)) i -> has dirs' (q_name (cmd_of p)) i) by (intros i (d & Hd & K); exists d; auto).
      destruct p; cbn [ok cmd_of] in *; try tauto.
      - intros (d & Hd). exists d. auto.
      - intros (i & Hi). eauto.
      - intros ((i & Hi) & d & Hd & Hs). split; eauto.
    Qed.

    Lemma made_keeps dirs n m d : dget dirs m = Some d -> dget (made dirs n) m = Some d.
    Proof.
      intros H. unfold made, dmem. destruct (dget dirs n) eqn:E; [exact H|]. rewrite dget_dset_neq; [exact H|]. intros ->. congruence.
    Qed.
    Lemma made_get dirs n m d : dget (made dirs n) m = Some d -> dget dirs m = Some d \/ (m = n /\ d = (None, [])).
    Proof.
      unfold made, dmem. destruct (dget dirs n) eqn:E; [auto|]. destruct (eqb_spec (n : str) m) as [->|Hne].
      - rewrite dget_dset_eq. intros [= <-]. auto.
      - rewrite dget_dset_neq by exact Hne. auto.
    Qed.
    Lemma made_there dirs n : exists d, dget (made dirs n) n = Some d.
    Proof. unfold made, dmem. destruct (dget dirs n) eqn:E; [eauto|]. rewrite dget_dset_eq. eauto. Qed.

    (** a new id is none of those that were there *)
    Lemma new_is_fresh c seen i : In c cs -> (forall x g, q_given c <> Some (x :: g)) ->
      (forall n d0 j, dget D0 n = Some d0 -> has D0 n j -> noticed seen n d0) ->
      create_new_id py_int maxsize strip number_of (q_base c) (q_suffix c) seen = Ok i -> ids_for c i /\ fresh i.
    Proof.
      intros Hc Hg Hs E. rewrite Forall_forall in HF. destruct (HF c Hc) as [_ Hm].
      assert (Hm' : self_matching number_of (id_base (q_base c) (q_suffix c))).
      { destruct (q_given c) as [[|x g]|]; try exact Hm. destruct (Hg x g eq_refl). }
      split.
      - assert (Hi : i = id_base (q_base c) (q_suffix c) \/ exists k, i = id_base (q_base c) (q_suffix c) ++ lit "_" ++ dec k).
        { unfold create_new_id in E. destruct (mem _ _); [|injection E as <-; auto].
          apply bind_ok in E. destruct E as (ns & _ & [= <-]). right. eexists. reflexivity. }
        unfold ids_for. destruct (q_given c) as [[|x g]|]; try exact Hi. destruct (Hg x g eq_refl).
      - intros n Hh. apply (C36_new_id _ _ _ _ _ _ _ _ Hm' E). pose proof Hh as (d0 & Hd & Hi & Hne).
        destruct (Hs n d0 i Hd Hh) as ([id subs] & Hin & Ef & Hinc). cbn [fst snd] in *. subst id.
        unfold existing_ids. apply in_flat_map. exists (fst d0, subs). split; [exact Hin|]. unfold codes_id. cbn [fst snd]. rewrite Hi.
        destruct HS as [_ HW]. destruct (HW _ _ Hh) as (d1 & m & Hd1 & (x & Hx & Hp) & Hm1). assert (d1 = d0) by congruence. subst d1.
        pose proof (C35_max py_int subs maxsize) as M. assert (L : learned subs m) by (exists x; auto).
        destruct (get_max_merges py_int subs maxsize) as [mm|].
        + destruct M as (_ & M & _). destruct (eqb_spec (i : str) []); [contradiction|]. destruct (Z.eqb_spec mm 0); [lia|]. left. reflexivity.
        + specialize (M _ L). lia.
    Qed.

    Lemma in_middle {A} (l1 : list A) x l2 y : In y (l1 ++ x :: l2) <-> y = x \/ In y (l1 ++ l2).
    Proof. rewrite !in_app_iff. cbn [In]. intuition congruence. Qed.

    (** if only the directory of [c] changes, and it keeps its merges, only [c] and its id matter *)
    Lemma change_one s l1 l2 p p' d d' : inv s -> i_procs s = l1 ++ p :: l2 -> cmd_of p' = cmd_of p ->
      dget (i_dirs s) (q_name (cmd_of p)) = Some d -> incl (snd d) (snd d') ->
      (forall i, has D0 (q_name (cmd_of p)) i -> fst d' = fst d) ->
      (forall i, option_map strip (fst d') = Some i -> i <> [] -> fst d' = fst d \/ (ids_for (cmd_of p) i /\ fresh i)) ->
      ok (dset (i_dirs s) (q_name (cmd_of p)) d') p' ->
      inv {| i_dirs := dset (i_dirs s) (q_name (cmd_of p)) d'; i_procs := l1 ++ p' :: l2 |}.
    Proof.
      intros I E Ep Hd Hinc Hkeep Hnew Hok. pose proof (v_cs _ I) as Ec. rewrite E, map_app in Ec. cbn [map] in Ec.
      assert (Hcin : In (cmd_of p) cs) by (rewrite <- Ec; apply in_middle; auto).
      split; cbn [i_dirs i_procs].
      - rewrite map_app. cbn [map]. rewrite Ep. exact Ec.
      - intros n d0 H0. destruct (v_keep _ I n d0 H0) as (d1 & H1 & H2 & H3).
        destruct (eqb_spec (q_name (cmd_of p) : str) n) as [<-|Hne].
        + rewrite dget_dset_eq. assert (d1 = d) by congruence. subst d1. exists d'. split; [reflexivity|].
          split; [intros x Hx; apply Hinc, H2, Hx|]. intros i Hi. rewrite (Hkeep i Hi). exact (H3 i Hi).
        + rewrite dget_dset_neq by exact Hne. eauto.
      - intros n d1 i H1 H2 H3. destruct (eqb_spec (q_name (cmd_of p) : str) n) as [<-|Hne].
        + rewrite dget_dset_eq in H1. injection H1 as <-. destruct (Hnew i H2 H3) as [K|[K1 K2]].
          * rewrite K in H2. exact (v_own _ I _ _ _ Hd H2 H3).
          * right. exists (cmd_of p). auto.
        + rewrite dget_dset_neq in H1 by exact Hne. exact (v_own _ I _ _ _ H1 H2 H3).
      - pose proof (v_ok _ I) as O. rewrite E in O. apply Forall_app in O. destruct O as [O1 O2]. inversion O2 as [|? ? O3 O4]; subst.
        assert (Hother : forall q, In q (l1 ++ l2) -> q_name (cmd_of p) <> q_name (cmd_of q)).
        { intros q Hq Heq. pose proof HN as Nd. rewrite <- Ec, map_app in Nd. cbn [map] in Nd. apply NoDup_remove_2 in Nd. apply Nd.
          rewrite <- map_app, <- map_app, Heq. apply in_map, in_map, Hq. }
        assert (Fr : forall q, In q (l1 ++ l2) -> ok (i_dirs s) q -> ok (dset (i_dirs s) (q_name (cmd_of p)) d') q).
        { intros q Hq. apply ok_frame. intros x Hx. rewrite dget_dset_neq by (apply Hother, Hq). exact Hx. }
        apply Forall_app. rewrite Forall_forall in O1, O4. split; [|constructor; [exact Hok|]]; apply Forall_forall; intros q Hq;
          (apply Fr; [apply in_or_app; auto|auto]).
    Qed.

    Lemma same_dirs s l1 l2 p p' : inv s -> i_procs s = l1 ++ p :: l2 -> cmd_of p' = cmd_of p -> ok (i_dirs s) p' ->
      inv {| i_dirs := i_dirs s; i_procs := l1 ++ p' :: l2 |}.
    Proof.
      intros I E Ep Hok. split; cbn [i_dirs i_procs].
      - rewrite <- (v_cs _ I), E, !map_app. cbn [map]. rewrite Ep. reflexivity.
      - apply (v_keep _ I).
      - apply (v_own _ I).
      - pose proof (v_ok _ I) as O. rewrite E in O. apply Forall_app in O. destruct O as [O1 O2]. inversion O2; subst.
        apply Forall_app. split; [assumption|constructor; assumption].
    Qed.

    Lemma inv_made s n : inv s -> inv {| i_dirs := made (i_dirs s) n; i_procs := i_procs s |}.
    Proof.
      intros I. split; cbn [i_dirs i_procs].
      - apply (v_cs _ I).
      - intros m d0 H0. destruct (v_keep _ I m d0 H0) as (d & Hd & K). exists d. split; [apply made_keeps, Hd|exact K].
      - intros m d i H1 H2 H3. apply made_get in H1. destruct H1 as [H1|[_ ->]]; [|discriminate]. exact (v_own _ I _ _ _ H1 H2 H3).
      - eapply Forall_impl; [|exact (v_ok _ I)]. intros p. apply ok_frame. intros d. apply made_keeps.
    Qed.

    Lemma ids_at_get dirs n d : dget dirs n = Some d -> ids_at dirs n = fst d /\ subs_at dirs n = snd d.
    Proof. intros H. unfold ids_at, subs_at. rewrite H. auto. Qed.

    Lemma inv_step s s' : inv s -> istep s s' -> inv s'.
    Proof.
      intros I H. destruct H as [dirs dirs' p p' l1 l2 H|dirs n l]; [|exact (inv_made _ n I)].
      set (s := {| i_dirs := dirs; i_procs := l1 ++ p :: l2 |}) in *.
      assert (E : i_procs s = l1 ++ p :: l2) by reflexivity.
      pose proof (v_ok _ I) as O. rewrite E in O. apply Forall_app in O. destruct O as [O1 O2]. inversion O2 as [|? ? O3 O4]; subst.
      assert (Hcin : In (cmd_of p) cs) by (rewrite <- (v_cs _ I), E; apply in_map, in_middle; auto).
      change (i_dirs s) with dirs in *.
      assert (Hno : forall n, no_id dirs n -> forall i, ~ has D0 n i).
      { intros n (d & Hd & K) i Hi. pose proof Hi as (d0 & H0 & H1 & H2). destruct (v_keep _ I n d0 H0) as (d1 & Hd1 & _ & K1).
        change (i_dirs s) with dirs in Hd1. assert (d1 = d) by congruence. subst d1. rewrite (K1 i Hi), H1 in K. intuition congruence. }
      destruct H as [c|c|c x g Hg|c names Hg HP|c n todo seen|c n todo id seen|c seen|c i|c i|c]; cbn [cmd_of ok] in *.
      - pose proof (inv_made s (q_name c) I) as I'. apply (same_dirs _ l1 l2 (IStart c) (IMade c) I' E eq_refl). cbn [ok i_dirs s]. apply made_there.
      - destruct O3 as (d & Hd). destruct (ids_at_get _ _ _ Hd) as [Ei _]. rewrite Ei. unfold codes_id. cbn [fst].
        destruct (option_map strip (fst d)) as [[|x i]|] eqn:Eo.
        + apply (same_dirs s l1 l2 (IMade c) (IWants c) I E eq_refl). exists d. auto.
        + apply (same_dirs s l1 l2 (IMade c) (ILearn c) I E eq_refl). exists (x :: i), d. repeat split; [exact Hd|exact Eo|discriminate].
        + apply (same_dirs s l1 l2 (IMade c) (IWants c) I E eq_refl). exists d. auto.
      - apply (same_dirs s l1 l2 (IWants c) (IHas c (x :: g)) I E eq_refl). cbn [ok]. split; [exact O3|].
        split; [unfold ids_for; rewrite Hg; reflexivity|]. rewrite Forall_forall in HF. destruct (HF c Hcin) as [_ K]. rewrite Hg in K. exact K.
      - apply (same_dirs s l1 l2 (IWants c) (IScan c names []) I E eq_refl). cbn [ok]. split; [exact O3|]. split; [exact Hg|].
        intros n d0 i H0 _. left. destruct (v_keep _ I n d0 H0) as (d & Hd & _).
        eapply Permutation_in; [apply Permutation_sym, HP|]. eapply dget_some_key, Hd.
      - apply (same_dirs s l1 l2 _ (IHalf c todo n (ids_at dirs n) seen) I E eq_refl). cbn [ok]. destruct O3 as (K1 & K2 & K3).
        split; [exact K1|]. split; [exact K2|]. intros n' d0 i H0 Hh. destruct (K3 n' d0 i H0 Hh) as [[<-|K]|K]; [|auto|auto].
        right. right. split; [reflexivity|]. destruct (v_keep _ I n d0 H0) as (d & Hd & _ & Hf). change (i_dirs s) with dirs in Hd.
        destruct (ids_at_get _ _ _ Hd) as [-> _]. exact (Hf i Hh).
      - apply (same_dirs s l1 l2 _ (IScan c todo (seen ++ [(id, subs_at dirs n)])) I E eq_refl). cbn [ok]. destruct O3 as (K1 & K2 & K3).
        split; [exact K1|]. split; [exact K2|]. intros n' d0 i H0 Hh. destruct (K3 n' d0 i H0 Hh) as [K|[(e & Ke & K)|[-> ->]]]; [auto| |].
        + right. exists e. split; [apply in_or_app; auto|exact K].
        + right. exists (fst d0, subs_at dirs n). split; [apply in_or_app; right; left; reflexivity|]. split; [reflexivity|].
          destruct (v_keep _ I n d0 H0) as (d & Hd & Hi & _). change (i_dirs s) with dirs in Hd.
          destruct (ids_at_get _ _ _ Hd) as [_ ->]. exact Hi.
      - destruct O3 as (K1 & K2 & K3). destruct (create_new_id _ _ _ _ _ _ _) as [i|e] eqn:En.
        + apply (same_dirs s l1 l2 _ (IHas c i) I E eq_refl). cbn [ok]. split; [exact K1|].
          apply (new_is_fresh c seen i Hcin K2); [|exact En]. intros n d0 j H0 Hh. destruct (K3 n d0 j H0 Hh) as [[]|K]; exact K.
        + apply (same_dirs s l1 l2 _ (IFailed c e) I E eq_refl). exact Logic.I.
      - destruct O3 as (K1 & K2 & K3). pose proof K1 as (d & Hd & _). destruct (ids_at_get _ _ _ Hd) as [_ ->].
        apply (change_one s l1 l2 (IHas c i) (IOpen c i) d (Some [], snd d) I E eq_refl Hd); cbn [fst snd cmd_of].
        + intros y Hy; exact Hy.
        + intros j Hj. destruct (Hno _ K1 j Hj).
        + intros j Ej Hj. cbn [option_map] in Ej. rewrite strip_nil in Ej. congruence.
        + cbn [ok]. split; [|auto]. change (i_dirs s) with dirs. exists (Some [], snd d). rewrite dget_dset_eq. split; [reflexivity|].
          cbn [fst option_map]. rewrite strip_nil. auto.
      - destruct O3 as (K1 & K2 & K3). pose proof K1 as (d & Hd & _). destruct (ids_at_get _ _ _ Hd) as [_ ->].
        rewrite Forall_forall in HF. destruct (HF c Hcin) as [Kst _]. destruct (Kst i K2) as [S1 S2].
        apply (change_one s l1 l2 (IOpen c i) (ILearn c) d (Some i, snd d) I E eq_refl Hd); cbn [fst snd cmd_of].
        + intros y Hy; exact Hy.
        + intros j Hj. destruct (Hno _ K1 j Hj).
        + intros j Ej Hj. cbn [option_map] in Ej. right. assert (j = i) by congruence. subst j. auto.
        + cbn [ok]. change (i_dirs s) with dirs. exists i, (Some i, snd d). rewrite dget_dset_eq. cbn [fst option_map]. rewrite S1. auto.
      - destruct O3 as (i & d & Hd & Hi & Hne). destruct (ids_at_get _ _ _ Hd) as [-> ->].
        apply (change_one s l1 l2 (ILearn c) (IDone c) d (fst d, snd d ++ [q_sub c]) I E eq_refl Hd); cbn [fst snd cmd_of].
        + intros y Hy. apply in_or_app. auto.
        + auto.
        + auto.
        + cbn [ok]. change (i_dirs s) with dirs. split.
          * exists i, (fst d, snd d ++ [q_sub c]). rewrite dget_dset_eq. auto.
          * eexists. rewrite dget_dset_eq. split; [reflexivity|]. cbn [snd]. apply in_or_app. right. left. reflexivity.
    Qed.

    Lemma inv_begin : inv (i_begin D0 cs).
    Proof.
      split; cbn [i_begin i_dirs i_procs].
      - rewrite map_map. cbn [cmd_of]. apply map_id.
      - intros n d0 H. exists d0. split; [exact H|]. split; [intros x Hx; exact Hx|reflexivity].
      - intros n d i H1 H2 H3. left. exists d. auto.
      - apply Forall_map, Forall_forall. intros c _. exact Logic.I.
    Qed.
    Lemma inv_later s : i_later (i_begin D0 cs) s -> inv s.
    Proof. induction 1 as [|s1 s2 _ IH H]; [apply inv_begin|eapply inv_step; eassumption]. Qed.
    Lemma inv_from s s' : inv s -> i_later s s' -> inv s'.
    Proof. intros I. induction 1 as [|s1 s2 _ IH H]; [exact I|eapply inv_step; eassumption]. Qed.

    (** At every moment no two datasets have the same id *)
    Lemma inv_distinct s : inv s -> distinct (i_dirs s).
    Proof.
      intros I n1 n2 i (d1 & H1 & K1 & N1) (d2 & H2 & K2 & N2).
      destruct (v_own _ I _ _ _ H1 K1 N1) as [A|(c & Hc & E & A & B)]; destruct (v_own _ I _ _ _ H2 K2 N2) as [A'|(c' & Hc' & E' & A' & B')].
      - destruct HS as [HD _]. exact (HD _ _ _ A A').
      - destruct (B' _ A).
      - destruct (B _ A').
      - rewrite <- E, <- E'. f_equal. exact (HA _ _ _ Hc Hc' A A').
    Qed.

    (** an id is not changed *)
    Lemma step_keeps_id s s' n i : inv s -> istep s s' -> has (i_dirs s) n i -> has (i_dirs s') n i.
    Proof.
      intros I H (d & Hd & Hi & Hne). destruct H as [dirs dirs' p p' l1 l2 H|dirs m l]; cbn [i_dirs] in *.
      2:{ exists d. split; [apply made_keeps, Hd|auto]. }
      pose proof (v_ok _ I) as O. cbn [i_procs i_dirs] in O. apply Forall_app in O. destruct O as [_ O]. inversion O as [|? ? O3 _]; subst.
      destruct H; try (exists d; split; [first [exact Hd|apply made_keeps, Hd]|auto]; fail); cbn [ok] in O3.
      - destruct O3 as ((d1 & Hd1 & K) & _). destruct (eqb_spec (q_name c : str) n) as [<-|Hx].
        + assert (d1 = d) by congruence. subst d1. rewrite Hi in K. intuition congruence.
        + exists d. rewrite dget_dset_neq by exact Hx. auto.
      - destruct O3 as ((d1 & Hd1 & K) & _). destruct (eqb_spec (q_name c : str) n) as [<-|Hx].
        + assert (d1 = d) by congruence. subst d1. rewrite Hi in K. intuition congruence.
        + exists d. rewrite dget_dset_neq by exact Hx. auto.
      - destruct (eqb_spec (q_name c : str) n) as [<-|Hx].
        + eexists. rewrite dget_dset_eq. split; [reflexivity|]. cbn [fst]. destruct (ids_at_get _ _ _ Hd) as [-> _]. auto.
        + exists d. rewrite dget_dset_neq by exact Hx. auto.
    Qed.
    Lemma later_keeps_id s s' n i : inv s -> i_later s s' -> has (i_dirs s) n i -> has (i_dirs s') n i.
    Proof. intros I H Hh. induction H as [|s1 s2 L IH H]; [exact Hh|]. eapply step_keeps_id; [eapply inv_from; eassumption|exact H|exact IH]. Qed.
  End Run.

  (** Commands for different datasets whose names cannot give the same id, at the same time in any interleaving, any of them killed at
      any moment: never do two datasets have the same id; *)
  Theorem C105_distinct : forall D cs s, settled D -> NoDup (map q_name cs) -> Forall (fine D) cs -> names_apart cs ->
    i_later (i_begin D cs) s -> distinct (i_dirs s).
  Proof. intros D cs s HS HN HF HA H. eapply inv_distinct; try eassumption. eapply inv_later; eassumption. Qed.

  (** an id that a dataset has never changes and is never lost; *)
  Theorem C105_stays : forall D cs s s' n i, settled D -> NoDup (map q_name cs) -> Forall (fine D) cs -> names_apart cs ->
    i_later (i_begin D cs) s -> i_later s s' -> has (i_dirs s) n i -> has (i_dirs s') n i.
  Proof. intros D cs s s' n i HS HN HF HA H H' Hh. eapply later_keeps_id; try eassumption. eapply inv_later; eassumption. Qed.

  (** and a command that has come to learning has an id for its dataset: that which it had, or one that is made of its name or given for it, and
      that no dataset had. *)
  Theorem C105_given : forall D cs s p, settled D -> NoDup (map q_name cs) -> Forall (fine D) cs -> names_apart cs ->
    i_later (i_begin D cs) s -> In p (i_procs s) -> (p = ILearn (cmd_of p) \/ p = IDone (cmd_of p)) ->
    exists i, has (i_dirs s) (q_name (cmd_of p)) i /\
      (has D (q_name (cmd_of p)) i \/ ids_for (cmd_of p) i /\ (forall n, ~ has D n i)).
  Proof.
    intros D cs s p HS HN HF HA H Hp Hk. pose proof (inv_later D cs HS HN HF s H) as I.
    pose proof (v_ok _ _ _ I) as O. rewrite Forall_forall in O. specialize (O p Hp).
    assert (Hh : exists i, has (i_dirs s) (q_name (cmd_of p)) i) by (destruct Hk as [-> | ->] in O |- *; [exact O|exact (proj1 O)]).
    destruct Hh as (i & Hi). exists i. split; [exact Hi|]. destruct Hi as (d & Hd & K & N1).
    destruct (v_own _ _ _ I _ _ _ Hd K N1) as [A|(c & Hc & E & A & B)]; [auto|right].
    assert (c = cmd_of p).
    { assert (Hc' : In (cmd_of p) cs) by (rewrite <- (v_cs _ _ _ I); apply in_map, Hp).
      clear -HN Hc Hc' E. induction cs as [|x l IH]; [destruct Hc|]. cbn [map] in HN. inversion HN as [|? ? H1 H2]; subst.
      destruct Hc as [->|Hc]; destruct Hc' as [->|Hc']; [reflexivity| | |auto].
      - destruct H1. rewrite E. apply in_map, Hc'.
      - destruct H1. rewrite <- E. apply in_map, Hc. }
    subst c. split; [exact A|exact B].
  Qed.

  (** If each command comes to its end (and saves a list of a number of merges) all is as before, and commands can be started again. *)
  Theorem C105_again : forall D cs s, settled D -> NoDup (map q_name cs) -> Forall (fine D) cs -> names_apart cs ->
    Forall (fun c => exists m, py_int (q_sub c) = Some m /\ (0 < m <= maxsize)%Z) cs ->
    i_later (i_begin D cs) s -> Forall (fun p => p = IDone (cmd_of p)) (i_procs s) -> settled (i_dirs s).
  Proof.
    intros D cs s HS HN HF HA HM H HE. split; [eapply C105_distinct; eassumption|].
    pose proof (inv_later D cs HS HN HF s H) as I. intros n i (d & Hd & K & N1).
    destruct (v_own _ _ _ I _ _ _ Hd K N1) as [A|(c & Hc & E & _)].
    - destruct HS as [_ HW]. destruct (HW _ _ A) as (d0 & m & H0 & (x & Hx & Hm) & B).
      destruct (v_keep _ _ _ I _ _ H0) as (d1 & H1 & Hinc & _). exists d1, m. split; [exact H1|]. split; [exists x; auto|exact B].
    - rewrite <- (v_cs _ _ _ I) in Hc. apply in_map_iff in Hc. destruct Hc as (p & <- & Hp). rewrite Forall_forall in HE.
      pose proof (v_ok _ _ _ I) as O. rewrite Forall_forall in O. specialize (O p Hp). rewrite (HE p Hp) in O. destruct O as [_ (d1 & H1 & H2)].
      rewrite Forall_forall in HM. destruct (HM (cmd_of p)) as (m & M1 & M2); [rewrite <- (v_cs _ _ _ I); apply in_map, Hp|].
      subst n. exists d1, m. split; [exact H1|]. split; [exists (q_sub (cmd_of p)); auto|exact M2].
  Qed.

  (** No command waits for another: it has ended, could not make an id, or can go on *)
  Theorem C105_progress : forall s l1 p l2, i_procs s = l1 ++ p :: l2 ->
    p = IDone (cmd_of p) \/ (exists e, p = IFailed (cmd_of p) e) \/
    exists dirs' p', istep s {| i_dirs := dirs'; i_procs := l1 ++ p' :: l2 |} /\ cmd_of p' = cmd_of p.
  Proof.
    intros [dirs procs] l1 p l2 E. cbn [i_procs] in E. subst procs.
    assert (G : forall dirs' p', idoes dirs p dirs' p' -> cmd_of p' = cmd_of p ->
      exists dirs' p', istep {| i_dirs := dirs; i_procs := l1 ++ p :: l2 |} {| i_dirs := dirs'; i_procs := l1 ++ p' :: l2 |} /\ cmd_of p' = cmd_of p).
    { intros dirs' p' H Hc. exists dirs', p'. split; [constructor; exact H|exact Hc]. }
    destruct p as [c|c|c|c todo seen|c todo n id seen|c i|c i|c|c|c e]; [| | | | | | | |left; reflexivity|right; left; exists e; reflexivity]; right; right.
    - eapply G; [apply id_make|reflexivity].
    - eapply G; [apply id_look|]. destruct (codes_id _ _) as [[|]|]; reflexivity.
    - destruct (q_given c) as [[|x g]|] eqn:Eg; [eapply G; [apply id_walk; [congruence|apply Permutation_refl]|reflexivity]| |].
      + eapply G; [apply id_given; exact Eg|reflexivity].
      + eapply G; [apply id_walk; [congruence|apply Permutation_refl]|reflexivity].
    - destruct todo as [|n todo]; [eapply G; [apply id_new|destruct (create_new_id _ _ _ _ _ _ _); reflexivity]|].
      eapply G; [apply id_read|reflexivity].
    - eapply G; [apply id_merges|reflexivity].
    - eapply G; [apply id_open|reflexivity].
    - eapply G; [apply id_write|reflexivity].
    - eapply G; [apply id_learn|reflexivity].
  Qed.
End Ids.
Print Assumptions C105_distinct.
Print Assumptions C105_stays.
Print Assumptions C105_given.
Print Assumptions C105_again.
Print Assumptions C105_progress.

(** ** Cases *)
(** one order: directories are listed as they are kept *)
Definition inext (dirs : idirs) (p : iproc) : idirs * iproc :=
  match p with
  | IStart c => (made dirs (q_name c), IMade c)
  | IMade c => (dirs, match codes_id (fun s => s) (ids_at dirs (q_name c), []) with Some (_ :: _) => ILearn c | _ => IWants c end)
  | IWants c => (dirs, match q_given c with Some (x :: i) => IHas c (x :: i) | _ => IScan c (dkeys dirs) [] end)
  | IScan c (n :: todo) seen => (dirs, IHalf c todo n (ids_at dirs n) seen)
  | IHalf c todo n id seen => (dirs, IScan c todo (seen ++ [(id, subs_at dirs n)]))
  | IScan c [] seen => (dirs, match create_new_id ascii_int 5000 (fun s => s) literal_number (q_base c) (q_suffix c) seen with
                              | Ok i => IHas c i | Err e => IFailed c e end)
  | IHas c i => (dset dirs (q_name c) (Some [], subs_at dirs (q_name c)), IOpen c i)
  | IOpen c i => (dset dirs (q_name c) (Some i, subs_at dirs (q_name c)), ILearn c)
  | ILearn c => (dset dirs (q_name c) (ids_at dirs (q_name c), subs_at dirs (q_name c) ++ [q_sub c]), IDone c)
  | IDone _ | IFailed _ _ => (dirs, p)
  end.
(** two commands; [true]: the first makes a step *)
Fixpoint two (dirs : idirs) (p q : iproc) (w : list bool) : istate :=
  match w with
  | [] => {| i_dirs := dirs; i_procs := [p; q] |}
  | true :: w' => let (d, p') := inext dirs p in two d p' q w'
  | false :: w' => let (d, q') := inext dirs q in two d p q' w'
  end.
Notation ex_later := (i_later ascii_int 5000 (fun s => s) literal_number).
Notation ex_does := (idoes ascii_int 5000 (fun s => s) literal_number).
Notation ex_has := (has (fun s => s)).

Lemma inext_does dirs p : inext dirs p = (dirs, p) \/ ex_does dirs p (fst (inext dirs p)) (snd (inext dirs p)).
Proof.
  destruct p as [c|c|c|c [|n todo] seen|c todo n id seen|c i|c i|c|c|c e]; cbn [inext fst snd]; auto; right; try constructor.
  destruct (q_given c) as [[|x g]|] eqn:E; [apply id_walk|apply id_given; exact E|apply id_walk]; try apply Permutation_refl; congruence.
Qed.
Lemma later_trans s1 s2 s3 : ex_later s1 s2 -> ex_later s2 s3 -> ex_later s1 s3.
Proof. intros H. induction 1; [exact H|econstructor; eassumption]. Qed.
Lemma two_later w : forall dirs p q, ex_later {| i_dirs := dirs; i_procs := [p; q] |} (two dirs p q w).
Proof.
  induction w as [|[|] w IH]; intros dirs p q; cbn [two]; [constructor| |].
  - destruct (inext_does dirs p) as [E|H]; [rewrite E; apply IH|]. destruct (inext dirs p) as [d p']. cbn [fst snd] in H.
    eapply later_trans; [|apply IH]. eapply il_step; [constructor|]. exact (i_step _ _ _ _ dirs d p p' [] [q] H).
  - destruct (inext_does dirs q) as [E|H]; [rewrite E; apply IH|]. destruct (inext dirs q) as [d q']. cbn [fst snd] in H.
    eapply later_trans; [|apply IH]. eapply il_step; [constructor|]. exact (i_step _ _ _ _ dirs d q q' [p] [] H).
Qed.

Definition ex_cmd (n b : string) : icmd := {| q_name := lit n; q_base := lit b; q_suffix := []; q_given := None; q_sub := lit "100" |}.
Fixpoint turns (n : nat) : list bool := match n with 0%nat => [] | S k => true :: false :: turns k end.

Lemma ex_ids n b : forall i, ids_for (ex_cmd n b) i -> lit b <> [] -> i <> [].
Proof.
  intros i Hi H. change (i = lit b \/ exists k, i = lit b ++ lit "_" ++ dec k) in Hi.
  destruct Hi as [-> |(k & ->)]; [exact H|]. destruct (lit b); [congruence|discriminate].
Qed.
Lemma ex_fine D n b : lit b <> [] -> fine (fun s => s) literal_number D (ex_cmd n b).
Proof.
  intros H. split; [|exact (literal_self _)]. intros i Hi. split; [reflexivity|]. eapply ex_ids; eassumption.
Qed.

(** [proj] was learned before from somewhere else, and a command for the second dataset of that name was killed when its id file was empty *)
Definition ex_dirs : idirs := [(lit "a_proj", (Some (lit "proj"), [lit "1000"])); (lit "b_proj", (Some [], []))].

Lemma ex_dirs_has n i : ex_has ex_dirs n i -> n = lit "a_proj" /\ i = lit "proj".
Proof.
  intros (d & H & K & N1). unfold ex_dirs in H. cbn [dget] in H.
  destruct (eqb_spec n (lit "a_proj")) as [-> |]; [injection H as <-; injection K as <-; auto|].
  destruct (eqb_spec n (lit "b_proj")) as [-> |]; [injection H as <-; injection K as <-; congruence|discriminate H].
Qed.
Example C105_ex :
  let cs := [ex_cmd "b_proj" "proj"; ex_cmd "c_web" "web"] in
  let s := two ex_dirs (IStart (ex_cmd "b_proj" "proj")) (IStart (ex_cmd "c_web" "web")) (turns 14) in
  settled ascii_int 5000 (fun s => s) ex_dirs /\ NoDup (map q_name cs) /\ Forall (fine (fun s => s) literal_number ex_dirs) cs /\ names_apart cs /\
  Forall (fun c => exists m, ascii_int (q_sub c) = Some m /\ (0 < m <= 5000)%Z) cs /\
  ex_later (i_begin ex_dirs cs) s /\ Forall (fun p => p = IDone (cmd_of p)) (i_procs s) /\
  ex_has (i_dirs s) (lit "b_proj") (lit "proj_1") /\ ex_has (i_dirs s) (lit "c_web") (lit "web").
Proof.
  intros cs s. split; [split|split; [|split; [|split; [|split; [|split; [|split; [|split]]]]]]].
  - intros n1 n2 i H1 H2. apply ex_dirs_has in H1, H2. destruct H1 as [-> _], H2 as [-> _]. reflexivity.
  - intros n i H. apply ex_dirs_has in H. destruct H as [-> ->]. exists (Some (lit "proj"), [lit "1000"]), 1000%Z.
    split; [reflexivity|]. split; [exists (lit "1000"); split; [left|]; reflexivity|lia].
  - repeat constructor; cbn; intuition discriminate.
  - constructor; [apply ex_fine; discriminate|constructor; [apply ex_fine; discriminate|constructor]].
  - intros c c' i [<-|[<-|[]]] [<-|[<-|[]]] H H'; try reflexivity; exfalso;
      destruct H as [-> |(k & ->)]; destruct H' as [E|(k' & E)]; discriminate.
  - constructor; [|constructor; [|constructor]]; exists 100%Z; (split; [reflexivity|lia]).
  - apply two_later.
  - vm_compute. repeat constructor.
  - eexists. split; [vm_compute; reflexivity|]. split; [reflexivity|discriminate].
  - eexists. split; [vm_compute; reflexivity|]. split; [reflexivity|discriminate].
Qed.

(** Not so for datasets of the same name: if each lists the ids before the other has saved merges, they get the same id. *)
Theorem C105_same_name_refuted : exists D cs s, settled ascii_int 5000 (fun s => s) D /\ NoDup (map q_name cs) /\
  Forall (fine (fun s => s) literal_number D) cs /\ ex_later (i_begin D cs) s /\ Forall (fun p => p = IDone (cmd_of p)) (i_procs s) /\
  ~ distinct (fun s => s) (i_dirs s).
Proof.
  exists [], [ex_cmd "a_proj" "proj"; ex_cmd "b_proj" "proj"],
    (two [] (IStart (ex_cmd "a_proj" "proj")) (IStart (ex_cmd "b_proj" "proj")) (turns 14)).
  split; [split; [intros n1 n2 i (d & H & _); discriminate|intros n i (d & H & _); discriminate]|].
  split; [repeat constructor; cbn; intuition discriminate|]. split; [constructor; [apply ex_fine; discriminate|constructor; [apply ex_fine; discriminate|constructor]]|].
  split; [apply two_later|]. split; [vm_compute; repeat constructor|].
  intros H. assert (E : lit "a_proj" = lit "b_proj").
  { apply (H _ _ (lit "proj")); (eexists; split; [vm_compute; reflexivity|]; split; [reflexivity|discriminate]). }
  discriminate.
Qed.

(** Two commands for one dataset: one that looked for the id before the other wrote it replaces it, after the other has ended and its id is
    in use. *)
Theorem C105_same_dataset_refuted : exists c s s', let cs := [c; c] in
  settled ascii_int 5000 (fun s => s) [] /\ Forall (fine (fun s => s) literal_number []) cs /\ names_apart cs /\
  ex_later (i_begin [] cs) s /\ ex_later s s' /\ In (IDone c) (i_procs s) /\
  ex_has (i_dirs s) (q_name c) (lit "proj") /\ ex_has (i_dirs s') (q_name c) (lit "proj_1").
Proof.
  set (c := ex_cmd "a_proj" "proj").
  set (w := turns 2 ++ repeat true 12).
  assert (E : exists d q, two [] (IStart c) (IStart c) w = {| i_dirs := d; i_procs := [IDone c; q] |}
    /\ ex_has d (q_name c) (lit "proj") /\ ex_has (i_dirs (two d (IDone c) q (repeat false 12))) (q_name c) (lit "proj_1")).
  { eexists. eexists. split; [vm_compute; reflexivity|].
    split; (eexists; split; [vm_compute; reflexivity|]; split; [reflexivity|discriminate]). }
  destruct E as (d & q & E & H1 & H2).
  exists c, {| i_dirs := d; i_procs := [IDone c; q] |}, (two d (IDone c) q (repeat false 12)). cbv zeta.
  split; [split; [intros n1 n2 i (x & H & _); discriminate|intros n i (x & H & _); discriminate]|].
  split; [constructor; [apply ex_fine; discriminate|constructor; [apply ex_fine; discriminate|constructor]]|].
  split; [intros a b i [<-|[<-|[]]] [<-|[<-|[]]] _ _; reflexivity|].
  split; [rewrite <- E; apply two_later|]. split; [apply two_later|]. split; [left; reflexivity|]. auto.
Qed.
Print Assumptions C105_same_name_refuted.
Print Assumptions C105_same_dataset_refuted.
