(** C108: commands with different options for the same dataset may run at the same time. *)
From Verif Require Import M_Base L_Base M_Shared.
From Coq Require Import Lia.

Lemma nth_update {A} (l : list A) : forall i x j, nth_error (update l i x) j = if Nat.eqb i j then match nth_error l j with Some _ => Some x | None => None end else nth_error l j.
Proof. induction l as [|y l IH]; intros [|i] x [|j]; cbn; try reflexivity; [destruct (Nat.eqb i j); reflexivity|apply IH]. Qed.
Lemma in_update {A} (l : list A) i x y : In y (update l i x) -> y = x \/ In y l.
Proof. revert i. induction l as [|z l IH]; intros [|i]; cbn; [tauto|tauto|intuition auto|]. intros [->|H]; [auto|]. destruct (IH _ H); auto. Qed.

Section Shared.
  Variable files : list nat.
  Variable tokens : Type.
  Variable parse : nat -> tokens.
  Variable to_repr : nat -> tokens -> str.
  Notation parsed := (parsed tokens).
  Notation world := (world tokens).
  Notation advance := (advance files tokens parse to_repr).
  Notation happen := (happen files tokens parse to_repr).
  Notation happened := (happened files tokens parse to_repr).
  Notation patient := (patient files tokens parse to_repr).
  Notation stamp_of := (stamp_of files tokens).
  Notation Parsed := (Build_parsed tokens).

  Definition right_files (d : parsed) : Prop := forall f t x, pfile _ d f = Some (t, x) -> x = parse f.
  Definition right_output (c : command) : Prop := forall f s, out c f = Some s -> s = to_repr (opt c) (parse f).
  Definition all_output (c : command) : Prop := forall f, In f files -> exists s, out c f = Some s.
  Definition covered (c : command) : Prop :=
    match at_ c with
    | QPrep r => forall f, In f files -> In f r \/ exists s, out c f = Some s
    | QDone => all_output c
    | _ => True
    end.
  Definition sound (w : world) : Prop := right_files (w_parsed _ w) /\ forall c, In c (w_commands _ w) -> right_output c /\ covered c.

  Lemma advance_sound d c : right_files d -> right_output c -> covered c -> right_files (fst (advance d c)) /\ right_output (snd (advance d c)) /\ covered (snd (advance d c)).
  Proof.
    intros F R C. unfold M_Shared.advance, covered, right_files, right_output in *. destruct c as [o p u]. cbn [opt at_ out moved] in *.
    assert (K : forall f, In f files -> In f files \/ exists s, u f = Some s) by auto.
    destruct p as [| | | |[|f r]|f r| |s|[|f r]| | |]; cbn [fst snd at_ out opt moved]; try (split; [exact F|split; [exact R|try exact Logic.I; try exact C]]).
    - destruct (pdir _ d); [destruct (pmark _ d)|]; exact Logic.I.
    - destruct (pdir _ d); [|exact Logic.I]. destruct (pmark _ d) as [m|]; [|exact Logic.I]. destruct (match m with Some _ => _ | None => _ end); [exact K|exact Logic.I].
    - destruct (pdir _ d); cbn [fst snd]; (split; [|split; [exact R|exact Logic.I]]); [discriminate|exact F].
    - destruct (pmark _ d); cbn [fst snd]; (split; [exact F|split; [exact R|exact Logic.I]]).
    - destruct (pfile _ d f); exact Logic.I.
    - destruct (pdir _ d); cbn [fst snd pfile]; (split; [|split; [exact R|exact Logic.I]]); [|exact F].
      intros g t x. destruct (Nat.eqb_spec g f) as [->|_]; [congruence|apply F].
    - destruct (pdir _ d); exact Logic.I.
    - exact K.
    - intros f Hf. destruct (C f Hf) as [[]|H]. exact H.
    - split; [exact F|]. destruct (pfile _ d f) as [[t x]|] eqn:E; cbn [opt at_ out moved]; (split; [|try exact Logic.I]).
      + intros g s. destruct (Nat.eqb_spec g f) as [->|_]; [|apply R]. intros H. injection H as <-. rewrite (F _ _ _ E). reflexivity.
      + intros g Hg. destruct (Nat.eqb_spec g f) as [->|D]; [right; eauto|]. destruct (C g Hg) as [[->|H]|H]; [congruence|auto|auto].
      + exact R.
  Qed.
  Lemma happen_sound w e : sound w -> sound (happen w e).
  Proof.
    intros [F C]. destruct e as [|o|i|i]; cbn [M_Shared.happen].
    - split; [exact F|exact C].
    - split; [exact F|]. cbn [w_commands]. intros c H. apply in_app_or in H. destruct H as [H|[<-|[]]]; [apply C, H|]. split; [intros f s H; discriminate|exact Logic.I].
    - destruct (nth_error (w_commands _ w) i) as [c|] eqn:E; [|split; assumption]. pose proof (nth_error_In _ _ E) as H. destruct (C _ H) as [R K].
      pose proof (advance_sound _ _ F R K) as (F' & R' & K'). destruct (advance (w_parsed _ w) c) as [d' c']. cbn [fst snd] in *.
      split; [exact F'|]. cbn [w_commands]. intros x Hx. apply in_update in Hx. destruct Hx as [->|Hx]; [auto|apply C, Hx].
    - destruct (nth_error (w_commands _ w) i) as [c|] eqn:E; [|split; assumption]. destruct (over (at_ c)); [split; assumption|].
      split; [exact F|]. cbn [w_commands]. intros x Hx. apply in_update in Hx. destruct Hx as [->|Hx]; [|apply C, Hx].
      destruct (C _ (nth_error_In _ _ E)) as [R _]. split; [exact R|exact Logic.I].
  Qed.
  Lemma happened_sound es : forall w, sound w -> sound (happened es w).
  Proof. induction es as [|e es IH]; intros w S; [exact S|]. cbn. apply IH, happen_sound, S. Qed.

  (** Whatever commands do at the same time, and whenever they are killed, no output file is wrong, and a command that has ended regularly
      has all of them. *)
  Theorem C108_right : forall d es, (forall f t x, pfile _ d f = Some (t, x) -> x = parse f) ->
    forall c, In c (w_commands _ (happened es (Build_world _ d []))) ->
    (forall f s, out c f = Some s -> s = to_repr (opt c) (parse f)) /\ (at_ c = QDone -> forall f, In f files -> out c f = Some (to_repr (opt c) (parse f))).
  Proof.
    intros d es F c H. destruct (happened_sound es (Build_world _ d [])) as [_ C]; [split; [exact F|intros x []]|].
    destruct (C c H) as [R K]. split; [exact R|]. intros E f Hf. unfold covered in K. rewrite E in K. destruct (K f Hf) as [s Hs]. rewrite Hs. f_equal. apply R, Hs.
  Qed.

  (** ** A dataset that has been parsed *)
  Definition complete (d : parsed) : Prop := forall f, In f files -> pfile _ d f <> None.
  Definition harmless (p : pc) : bool := match p with QStart | QReady | QPrep _ | QDone | QKilled => true | _ => false end.
  Definition opened (w : world) : Prop :=
    pdir _ (w_parsed _ w) = true /\ complete (w_parsed _ w) /\ pmark _ (w_parsed _ w) = Some (Some (stamp_of (w_parsed _ w))) /\
    forall c, In c (w_commands _ w) -> harmless (at_ c) = true /\ match at_ c with QPrep r => incl r files | _ => True end.

  Lemma opened_advance d c : pdir _ d = true -> complete d -> pmark _ d = Some (Some (stamp_of d)) -> harmless (at_ c) = true ->
    match at_ c with QPrep r => incl r files | _ => True end ->
    fst (advance d c) = d /\ harmless (at_ (snd (advance d c))) = true /\ match at_ (snd (advance d c)) with QPrep r => incl r files | _ => True end.
  Proof.
    intros P C M H I'. unfold M_Shared.advance. destruct c as [o p u]. cbn [at_] in *.
    destruct p as [| | | |[|f r]|f r| |s|[|f r]| | |]; try discriminate; cbn [fst snd at_ moved]; try (split; [reflexivity|split; [reflexivity|exact Logic.I]]).
    - rewrite P, M. auto.
    - rewrite P, M, N.eqb_refl. split; [reflexivity|]. split; [reflexivity|]. apply incl_refl.
    - destruct (pfile _ d f) as [[t x]|] eqn:E; [|destruct (C f (I' f (or_introl eq_refl)) E)]. cbn [at_]. split; [reflexivity|]. split; [reflexivity|].
      intros g Hg. apply I'. right. exact Hg.
  Qed.
  Lemma opened_happen w e : opened w -> opened (happen w e) /\ pfile _ (w_parsed _ (happen w e)) = pfile _ (w_parsed _ w).
  Proof.
    intros (P & C & M & H). destruct e as [|o|i|i]; cbn [M_Shared.happen].
    - repeat split; try assumption; apply (H _ H0).
    - split; [|reflexivity]. split; [reflexivity|]. split; [exact C|]. split; [exact M|]. cbn [w_commands]. intros c Hc. apply in_app_or in Hc.
      destruct Hc as [Hc|[<-|[]]]; [apply H, Hc|split; [reflexivity|exact Logic.I]].
    - destruct (nth_error (w_commands _ w) i) as [c|] eqn:E; [|split; [repeat split; try assumption; apply (H _ H0)|reflexivity]].
      destruct (H _ (nth_error_In _ _ E)) as [H1 H2]. pose proof (opened_advance _ _ P C M H1 H2) as (A1 & A2 & A3).
      destruct (advance (w_parsed _ w) c) as [d' c']. cbn [fst snd] in *. subst d'. split; [|reflexivity]. split; [exact P|]. split; [exact C|]. split; [exact M|].
      cbn [w_commands]. intros x Hx. apply in_update in Hx. destruct Hx as [->|Hx]; [auto|apply H, Hx].
    - destruct (nth_error (w_commands _ w) i) as [c|] eqn:E; [|split; [repeat split; try assumption; apply (H _ H0)|reflexivity]].
      destruct (over (at_ c)); [split; [repeat split; try assumption; apply (H _ H0)|reflexivity]|].
      split; [|reflexivity]. split; [exact P|]. split; [exact C|]. split; [exact M|].
      cbn [w_commands]. intros x Hx. apply in_update in Hx. destruct Hx as [->|Hx]; [split; [reflexivity|exact Logic.I]|apply H, Hx].
  Qed.
  Lemma opened_happened es : forall w, opened w -> opened (happened es w) /\ pfile _ (w_parsed _ (happened es w)) = pfile _ (w_parsed _ w).
  Proof.
    induction es as [|e es IH]; intros w O; [auto|]. change (happened (e :: es) w) with (happened es (happen w e)). destruct (opened_happen w e O) as [O' E]. destruct (IH _ O') as [O2 E2]. split; [exact O2|]. rewrite E2. exact E.
  Qed.

  (** Once a dataset has been parsed, any number of commands with any options may be started at any time and killed at any time: none fails,
      and the parsed files stay. *)
  Theorem C108_parsed : forall d es, pdir _ d = true -> (forall f, In f files -> pfile _ d f <> None) -> pmark _ d = Some (Some (stamp_of d)) ->
    let w := happened es (Build_world _ d []) in
    (forall c, In c (w_commands _ w) -> at_ c <> QFailed) /\ forall f, pfile _ (w_parsed _ w) f = pfile _ d f.
  Proof.
    intros d es P C M w. destruct (opened_happened es (Build_world _ d [])) as [(_ & _ & _ & H) E]; [repeat split; try assumption; destruct H|].
    split; [|intros f; unfold w; rewrite E; reflexivity]. intros c Hc F. destruct (H c Hc) as [X _]. rewrite F in X. discriminate.
  Qed.

  (** ** A dataset in any state *)
  Hypothesis some : files <> [].
  Definition timed (d : parsed) : Prop := (0 < now _ d)%N /\ forall f t x, pfile _ d f = Some (t, x) -> (0 < t)%N.
  Definition marked_ok (d : parsed) : Prop := forall s, pmark _ d = Some (Some s) -> (0 < s)%N /\ (s = stamp_of d -> complete d).
  Definition left (d : parsed) (r : list nat) : Prop := forall f, In f files -> In f r \/ pfile _ d f <> None.
  Definition fact (d : parsed) (p : pc) : Prop :=
    match p with
    | QStart => pdir _ d = true
    | QReady | QArchive => pdir _ d = true /\ pmark _ d <> None
    | QArchive2 => pdir _ d = false /\ pmark _ d <> None
    | QParse r => pmark _ d = None /\ (pdir _ d = true \/ r <> []) /\ left d r
    | QWrite f r => pmark _ d = None /\ pdir _ d = true /\ left d (f :: r)
    | QMark => pmark _ d = Some None /\ pdir _ d = true /\ complete d
    | QMarkAt s => pmark _ d = Some None /\ pdir _ d = true /\ complete d /\ s = stamp_of d
    | QPrep _ | QDone | QFailed => False
    | QKilled => True
    end.
  Definition closed (w : world) : Prop :=
    forall i c, nth_error (w_commands _ w) i = Some c -> at_ c <> QKilled ->
      fact (w_parsed _ w) (at_ c) /\ forall j c', nth_error (w_commands _ w) j = Some c' -> j <> i -> at_ c' = QKilled.
  Definition inv (w : world) : Prop := timed (w_parsed _ w) /\ marked_ok (w_parsed _ w) /\ (opened w \/ closed w).

  Lemma stamp_positive d : timed d -> complete d -> (0 < stamp_of d)%N.
  Proof.
    intros [_ T] C. unfold M_Shared.stamp_of. unfold complete in C. destruct files as [|f r]; [congruence|]. cbn [fold_right].
    destruct (pfile _ d f) as [[t x]|] eqn:E; [|destruct (C f (or_introl eq_refl) E)]. pose proof (T _ _ _ E). lia.
  Qed.
  Lemma stamp_none d : (forall f, pfile _ d f = None) -> stamp_of d = 0%N.
  Proof. intros E. unfold M_Shared.stamp_of. clear some. induction files as [|f r IH]; [reflexivity|]. cbn [fold_right]. rewrite E. exact IH. Qed.

  (** one step of the only command that is parsing *)
  Lemma closed_advance d c : timed d -> marked_ok d -> at_ c <> QKilled -> fact d (at_ c) ->
    let d' := fst (advance d c) in let p := at_ (snd (advance d c)) in
    timed d' /\ marked_ok d' /\ ((pdir _ d' = true /\ complete d' /\ pmark _ d' = Some (Some (stamp_of d')) /\ p = QPrep files) \/ fact d' p).
  Proof.
    intros T M K F. unfold M_Shared.advance. destruct c as [o p u]. cbn [at_] in *.
    destruct p as [| | | |[|f r]|f r| |s|[|f r]| | |]; cbn [fact] in F; try contradiction; cbn [fst snd at_ moved].
    - rewrite F. destruct (pmark _ d) as [m|] eqn:E; (split; [exact T|split; [exact M|right; cbn [fact]]]); [rewrite E; split; [exact F|discriminate]|].
      split; [exact E|]. split; [auto|]. intros g Hg. auto.
    - destruct F as [P N']. rewrite P. destruct (pmark _ d) as [m|] eqn:E; [|congruence]. split; [exact T|]. split; [exact M|].
      destruct m as [s|]; [|right; cbn [fact]; rewrite E; auto]. destruct (N.eqb_spec s (stamp_of d)) as [->|D]; [|right; cbn [fact]; rewrite E; auto].
      left. destruct (M _ E) as [_ Q]. split; [first [exact P|reflexivity]|]. split; [apply Q; reflexivity|]. split; [first [exact E|reflexivity]|reflexivity].
    - destruct F as [P N']. rewrite P. cbn [fst snd at_ moved]. split; [split; [apply T|discriminate]|]. split.
      + intros s E. cbn [pmark] in E. destruct (M _ E) as [S _]. split; [exact S|]. rewrite stamp_none by reflexivity. lia.
      + right. split; [reflexivity|exact N'].
    - destruct F as [P N']. destruct (pmark _ d) as [m|] eqn:E; [|congruence]. cbn [fst snd at_ moved]. split; [exact T|]. split; [discriminate|].
      right. cbn [fact with_mark pmark pdir]. split; [reflexivity|]. split; [right; exact some|]. intros g Hg. auto.
    - destruct F as (N' & [P|P] & L); [|congruence]. split; [exact T|]. split; [discriminate|]. right. cbn [fact with_mark pmark pdir]. split; [reflexivity|]. split; [exact P|].
      intros g Hg. destruct (L g Hg) as [[]|H]. exact H.
    - destruct F as (N' & _ & L). split; [exact T|]. split; [intros s E; cbn [pmark] in E; congruence|]. right.
      destruct (pfile _ d f) as [y|] eqn:E; cbn [fact pmark pdir].
      + split; [exact N'|]. split; [auto|]. intros g Hg. destruct (L g Hg) as [[->|H]|H]; [right; cbn [pfile]; congruence|auto|auto].
      + split; [exact N'|]. split; [reflexivity|]. exact L.
    - destruct F as (N' & P & L). rewrite P. cbn [fst snd at_ moved]. split; [|split].
      + split; [apply T|]. intros g t x. cbn [pfile]. destruct (Nat.eqb g f); [|apply T]. intros H. injection H as <- _. apply T.
      + intros s E. cbn [pmark] in E. congruence.
      + right. cbn [fact pmark pdir]. split; [exact N'|]. split; [auto|]. intros g Hg. cbn [pfile]. destruct (Nat.eqb_spec g f) as [->|D]; [right; discriminate|].
        destruct (L g Hg) as [[->|H]|H]; [congruence|auto|auto].
    - destruct F as (N' & P & L). rewrite P. split; [exact T|]. split; [exact M|]. right. cbn [fact]. auto.
    - destruct F as (N' & P & L & ->). split; [exact T|]. split.
      + intros s E. cbn [with_mark pmark] in E. injection E as <-. split; [apply stamp_positive; assumption|]. intros _. exact L.
      + left. split; [exact P|]. split; [exact L|]. split; reflexivity.
  Qed.

  Lemma inv_happen w e : inv w -> (forall o, e = EStart o -> forall c, In c (w_commands _ w) -> parsing (at_ c) = false) -> inv (happen w e).
  Proof.
    intros (T & M & [O|C]) S.
    - destruct (opened_happen w e O) as [O' E]. pose proof O' as (P' & C' & M' & _). destruct O as (P & C & M0 & _).
      assert (T' : timed (w_parsed _ (happen w e))).
      { split; [|rewrite E; apply T]. destruct e as [|o|i|i]; cbn [M_Shared.happen]; try (apply T); cbn [w_parsed now].
        - destruct T. lia.
        - destruct (nth_error _ i); [|apply T]. unfold M_Shared.advance. destruct c as [o p u]. cbn [at_].
          destruct p as [| | | |[|f r]|f r| |s|[|f r]| | |]; cbn [w_parsed with_mark now]; try apply T.
          + destruct (pdir _ (w_parsed _ w)); apply T.
          + destruct (pmark _ (w_parsed _ w)); apply T.
          + destruct (pdir _ (w_parsed _ w)); apply T.
        - destruct (nth_error _ i); [|apply T]. destruct (over _); apply T. }
      split; [exact T'|]. split; [|left; exact O']. intros s Es. rewrite M' in Es. injection Es as <-. split; [apply stamp_positive; assumption|auto].
    - destruct e as [|o|i|i]; cbn [M_Shared.happen].
      + split; [split; [cbn; destruct T; lia|apply T]|]. split; [exact M|]. right. intros i c E K. destruct (C i c E K) as [F U]. split; [exact F|exact U].
      + specialize (S o eq_refl). assert (Q : forall i c, nth_error (w_commands _ w) i = Some c -> at_ c = QKilled).
        { intros i c E. pose proof (S _ (nth_error_In _ _ E)) as Hp. destruct (at_ c) eqn:A; try discriminate; try reflexivity;
            destruct (C i c E) as [F _]; try congruence; rewrite A in F; destruct F. }
        split; [exact T|]. split; [exact M|]. right. intros i c E K. cbn [w_commands] in E.
        destruct (Nat.lt_ge_cases i (length (w_commands _ w))) as [L|L]; [rewrite nth_error_app1 in E by exact L; destruct K; exact (Q _ _ E)|].
        rewrite nth_error_app2 in E by exact L. destruct (i - length (w_commands _ w)) as [|k] eqn:Ek; [|destruct k; discriminate]. injection E as <-.
        split; [reflexivity|]. intros j c' E' D. cbn [w_commands] in E'.
        destruct (Nat.lt_ge_cases j (length (w_commands _ w))) as [L'|L']; [rewrite nth_error_app1 in E' by exact L'; exact (Q _ _ E')|].
        rewrite nth_error_app2 in E' by exact L'. destruct (j - length (w_commands _ w)) as [|k] eqn:Ej; [lia|destruct k; discriminate].
      + destruct (nth_error (w_commands _ w) i) as [c|] eqn:E; [|split; [exact T|split; [exact M|right; exact C]]].
        assert (Dec : {at_ c = QKilled} + {at_ c <> QKilled}) by (destruct (at_ c); (left; reflexivity) || (right; discriminate)).
        destruct Dec as [K|K].
        * assert (A : advance (w_parsed _ w) c = (w_parsed _ w, c)) by (unfold M_Shared.advance; rewrite K; reflexivity). rewrite A.
          split; [exact T|]. split; [exact M|]. right. intros j c' E' K'. cbn [w_commands w_parsed] in *. rewrite nth_update in E'.
          assert (E1 : nth_error (w_commands _ w) j = Some c') by (destruct (Nat.eqb_spec i j) as [<-|_]; [rewrite E in E'; congruence|exact E']).
          destruct (C j c' E1 K') as [F U]. split; [exact F|]. intros k c2 E2 D. rewrite nth_update in E2. destruct (Nat.eqb_spec i k) as [<-|_]; [rewrite E in E2; congruence|eapply U; eassumption].
        * destruct (C i c E K) as [F U]. pose proof (closed_advance _ _ T M K F) as A. cbv zeta in A. destruct (advance (w_parsed _ w) c) as [d' c'] eqn:Ea. cbn [fst snd] in A.
          destruct A as (T' & M' & [(P' & C' & K' & Q)|F']); (split; [exact T'|split; [exact M'|]]).
          -- left. split; [exact P'|]. split; [exact C'|]. split; [exact K'|]. cbn [w_commands]. intros x Hx. apply In_nth_error in Hx. destruct Hx as [j Hj]. rewrite nth_update in Hj.
             destruct (Nat.eqb_spec i j) as [Ej|D]; [rewrite <- Ej, E in Hj; injection Hj as <-; rewrite Q; split; [reflexivity|apply incl_refl]|].
             rewrite (U j x Hj) by congruence. split; [reflexivity|exact Logic.I].
          -- right. intros j x Hj Kj. cbn [w_commands w_parsed] in *. rewrite nth_update in Hj. destruct (Nat.eqb_spec i j) as [<-|D].
             ++ rewrite E in Hj. injection Hj as <-. split; [exact F'|]. intros k y Hy Dk. rewrite nth_update in Hy. destruct (Nat.eqb_spec i k); [congruence|]. exact (U k y Hy Dk).
             ++ destruct Kj. apply (U j x Hj). congruence.
      + destruct (nth_error (w_commands _ w) i) as [c|] eqn:E; [|split; [exact T|split; [exact M|right; exact C]]].
        destruct (over (at_ c)); [split; [exact T|split; [exact M|right; exact C]]|]. split; [exact T|]. split; [exact M|]. right.
        intros j x Hj Kj. cbn [w_commands w_parsed] in *. rewrite nth_update in Hj. destruct (Nat.eqb_spec i j) as [<-|D]; [rewrite E in Hj; injection Hj as <-; destruct Kj; reflexivity|].
        destruct (C j x Hj Kj) as [F U]. split; [exact F|]. intros k y Hy Dk. rewrite nth_update in Hy. destruct (Nat.eqb_spec i k) as [<-|_]; [rewrite E in Hy; injection Hy as <-; reflexivity|].
        exact (U k y Hy Dk).
  Qed.
  Lemma inv_happened es : forall w, inv w -> patient es w = true -> inv (happened es w).
  Proof.
    induction es as [|e es IH]; intros w V P; [exact V|]. cbn [M_Shared.patient M_Shared.happened fold_left] in *. apply andb_prop in P. destruct P as [P1 P2].
    apply IH; [|exact P2]. apply inv_happen; [exact V|]. intros o -> c Hc. rewrite forallb_forall in P1. specialize (P1 _ Hc). destruct (parsing (at_ c)); [discriminate|reflexivity].
  Qed.

  (** If a command is started only when no other command is still parsing, none fails, whatever was left by earlier commands, whenever
      commands are killed, and however their preprocessing overlaps. *)
  Theorem C108_patient : forall d es, (0 < now _ d)%N -> (forall f t x, pfile _ d f = Some (t, x) -> (0 < t)%N) ->
    (forall s, pmark _ d = Some (Some s) -> (0 < s)%N /\ (s = stamp_of d -> forall f, In f files -> pfile _ d f <> None)) ->
    patient es (Build_world _ d []) = true ->
    forall c, In c (w_commands _ (happened es (Build_world _ d []))) -> at_ c <> QFailed.
  Proof.
    intros d es H1 H2 H3 P c Hc F. destruct (inv_happened es (Build_world _ d [])) as (_ & _ & [(_ & _ & _ & O)|C]); [|exact P| |].
    - split; [split; assumption|]. split; [exact H3|]. right. intros [|i] x E; discriminate.
    - destruct (O c Hc) as [X _]. rewrite F in X. discriminate.
    - destruct (In_nth_error _ _ Hc) as [i E]. destruct (C i c E) as [X _]; [congruence|]. rewrite F in X. exact X.
  Qed.

  (** ... and each of them comes to its end with all its output files, if it is not killed. *)
  Definition work (p : pc) : nat :=
    let n := length files in
    match p with
    | QStart => 3 * n + 8 | QReady => 3 * n + 7 | QArchive => 3 * n + 6 | QArchive2 => 3 * n + 5
    | QParse r => n + 4 + 2 * length r | QWrite _ r => n + 5 + 2 * length r | QMark => n + 3 | QMarkAt _ => n + 2
    | QPrep r => 1 + length r | QDone | QFailed | QKilled => 0
    end.
  Lemma advance_work d c : over (at_ c) = false -> work (at_ (snd (advance d c))) < work (at_ c) /\ at_ (snd (advance d c)) <> QKilled.
  Proof.
    intros O. unfold M_Shared.advance. destruct c as [o p u]. cbn [at_] in *.
    destruct p as [| | | |[|f r]|f r| |s|[|f r]| | |]; try discriminate; cbn [snd at_ moved].
    - destruct (pdir _ d); [destruct (pmark _ d)|]; cbn [work]; (split; [lia|discriminate]).
    - destruct (pdir _ d); [|cbn; split; [lia|discriminate]]. destruct (pmark _ d) as [m|]; [|cbn; split; [lia|discriminate]].
      destruct (match m with Some _ => _ | None => _ end); cbn [work]; (split; [lia|discriminate]).
    - destruct (pdir _ d); cbn [snd at_ moved work]; (split; [lia|discriminate]).
    - destruct (pmark _ d); cbn [snd at_ moved work]; (split; [lia|discriminate]).
    - cbn [work length]. split; [lia|discriminate].
    - destruct (pfile _ d f); cbn [work length]; (split; [lia|discriminate]).
    - destruct (pdir _ d); cbn [snd at_ moved work length]; (split; [lia|discriminate]).
    - destruct (pdir _ d); cbn [work length]; (split; [lia|discriminate]).
    - cbn [work length]. split; [lia|discriminate].
    - cbn [work length]. split; [lia|discriminate].
    - destruct (pfile _ d f) as [[t x]|]; cbn [at_ moved work length]; (split; [lia|discriminate]).
  Qed.
  Lemma goes_on i : forall n w c, nth_error (w_commands _ w) i = Some c -> at_ c <> QKilled -> work (at_ c) <= n ->
    exists k c', nth_error (w_commands _ (happened (repeat (EStep i) k) w)) i = Some c' /\ opt c' = opt c /\ (at_ c' = QDone \/ at_ c' = QFailed).
  Proof.
    induction n as [|n IH]; intros w c E K W.
    - exists 0, c. split; [exact E|]. split; [reflexivity|]. destruct (at_ c); cbn [work] in W; try lia; [auto|auto|congruence].
    - destruct (over (at_ c)) eqn:O.
      + exists 0, c. split; [exact E|]. split; [reflexivity|]. destruct (at_ c); try discriminate; [auto|auto|congruence].
      + destruct (advance_work (w_parsed _ w) c O) as [L K']. destruct (advance (w_parsed _ w) c) as [d' c'] eqn:A. cbn [snd] in *.
        assert (Op : opt c' = opt c).
        { apply (f_equal snd) in A. cbn [snd] in A. subst c'. unfold M_Shared.advance. destruct (at_ c) as [| | | |[|f r]|f r| |s|[|f r]| | |]; try reflexivity.
          - destruct (pdir _ (w_parsed _ w)); reflexivity.
          - destruct (pmark _ (w_parsed _ w)); reflexivity.
          - destruct (pdir _ (w_parsed _ w)); reflexivity.
          - cbn [snd]. destruct (pfile _ (w_parsed _ w) f) as [[t x]|]; reflexivity. }
        destruct (IH (happen w (EStep i)) c') as (k & c2 & E2 & Op2 & D2); [|exact K'|lia|].
        { cbn [M_Shared.happen]. rewrite E, A. cbn [w_commands]. rewrite nth_update, Nat.eqb_refl, E. reflexivity. }
        exists (S k), c2. split; [exact E2|]. split; [congruence|exact D2].
  Qed.
  Lemma patient_app es : forall es' w, patient (es ++ es') w = patient es w && patient es' (happened es w).
  Proof. induction es as [|e es IH]; intros es' w; [reflexivity|]. cbn [app M_Shared.patient]. rewrite IH, andb_assoc. reflexivity. Qed.
  Lemma patient_steps i k : forall w, patient (repeat (EStep i) k) w = true.
  Proof. induction k as [|k IH]; intros w; [reflexivity|]. cbn [repeat M_Shared.patient]. apply IH. Qed.

  Theorem C108_ends : forall d es, (0 < now _ d)%N -> (forall f t x, pfile _ d f = Some (t, x) -> (0 < t)%N /\ x = parse f) ->
    (forall s, pmark _ d = Some (Some s) -> (0 < s)%N /\ (s = stamp_of d -> forall f, In f files -> pfile _ d f <> None)) ->
    patient es (Build_world _ d []) = true ->
    forall i c, nth_error (w_commands _ (happened es (Build_world _ d []))) i = Some c -> at_ c <> QKilled ->
    exists k c', nth_error (w_commands _ (happened (es ++ repeat (EStep i) k) (Build_world _ d []))) i = Some c' /\ at_ c' = QDone /\
      forall f, In f files -> out c' f = Some (to_repr (opt c) (parse f)).
  Proof.
    intros d es H1 H2 H3 P i c E K. destruct (goes_on i _ _ _ E K (le_n _)) as (k & c' & E' & Op & D). exists k, c'.
    assert (App : happened (es ++ repeat (EStep i) k) (Build_world _ d []) = happened (repeat (EStep i) k) (happened es (Build_world _ d []))) by (apply fold_left_app).
    rewrite App. split; [exact E'|].
    assert (Dn : at_ c' = QDone).
    { destruct D as [D|D]; [exact D|]. exfalso. apply (C108_patient d (es ++ repeat (EStep i) k) H1) with (c := c'); [intros f t x L; apply (H2 _ _ _ L)|exact H3| | |exact D].
      - rewrite patient_app, P, patient_steps. reflexivity.
      - rewrite App. exact (nth_error_In _ _ E'). }
    split; [exact Dn|]. intros f Hf. rewrite <- Op. apply (C108_right d (es ++ repeat (EStep i) k)); [intros g t x L; apply (H2 _ _ _ L)| |exact Dn|exact Hf].
    rewrite App. exact (nth_error_In _ _ E').
  Qed.
End Shared.
Print Assumptions C108_right.
Print Assumptions C108_parsed.
Print Assumptions C108_patient.
Print Assumptions C108_ends.

(** ** Examples: two files; 0 and 1 are options *)
Definition ex_files := [0; 1].
Definition ex_parse (f : nat) : list nat := [f; f].
Definition ex_repr (o : nat) (x : list nat) : str := map N.of_nat (o :: x).
Definition ex_new : parsed (list nat) := Build_parsed _ 5%N false (fun _ => None) None.
Definition ex_happened es := happened ex_files (list nat) ex_parse ex_repr es (Build_world _ ex_new []).
Definition ex_steps (i k : nat) := repeat (EStep i) k.
(** the second command is started when the first one preprocesses; the first one is killed, the third one changes nothing *)
Definition ex_es := EStart 0 :: ex_steps 0 8 ++ [ETick; EStart 1] ++ ex_steps 1 4 ++ [EStep 0; EKill 0; EStart 2] ++ ex_steps 2 2.
Example C108_patient_example : patient ex_files (list nat) ex_parse ex_repr ex_es (Build_world _ ex_new []) = true /\
  map (fun c => (at_ c, map (out c) ex_files)) (w_commands _ (ex_happened ex_es))
  = [(QKilled, [Some [0; 0; 0]%N; None]); (QPrep [], [Some [1; 0; 0]%N; Some [1; 1; 1]%N]); (QPrep [0; 1], [None; None])].
Proof. split; vm_compute; reflexivity. Qed.
Example C108_ends_example : exists k c', nth_error (w_commands _ (ex_happened (ex_es ++ repeat (EStep 2) k))) 2 = Some c' /\ at_ c' = QDone /\
  forall f, In f ex_files -> out c' f = Some (ex_repr 2 (ex_parse f)).
Proof.
  destruct (nth_error (w_commands _ (ex_happened ex_es)) 2) as [c|] eqn:E; [|vm_compute in E; discriminate].
  assert (O : opt c = 2 /\ at_ c = QPrep [0; 1]) by (vm_compute in E; injection E as <-; split; reflexivity). destruct O as [O A].
  enough (X : exists k c', nth_error (w_commands _ (ex_happened (ex_es ++ repeat (EStep 2) k))) 2 = Some c' /\ at_ c' = QDone /\
    forall f, In f ex_files -> out c' f = Some (ex_repr (opt c) (ex_parse f))) by (rewrite O in X; exact X).
  apply (C108_ends ex_files _ ex_parse ex_repr) with (c := c).
  - discriminate.
  - reflexivity.
  - intros f t x H. discriminate.
  - intros s H. discriminate.
  - vm_compute. reflexivity.
  - exact E.
  - rewrite A. discriminate.
Qed.
Example C108_parsed_example : let d := w_parsed _ (ex_happened ex_es) in
  pdir _ d = true /\ (forall f, In f ex_files -> pfile _ d f <> None) /\ pmark _ d = Some (Some (stamp_of ex_files _ d)) /\
  map (fun c => at_ c) (w_commands _ (happened ex_files (list nat) ex_parse ex_repr ([EStart 0; EStart 1; EStep 0; EStep 1; EStep 1; EKill 0] ++ ex_steps 1 3) (Build_world _ d []))) = [QKilled; QDone].
Proof. split; [vm_compute; reflexivity|]. split; [|split; vm_compute; reflexivity]. intros f [<-|[<-|[]]]; vm_compute; discriminate. Qed.

(** Without waiting commands can fail: the second one finds the marker of the first one before the time is written into it, takes the
    parsed dataset for outdated and moves it away; the first one then fails. *)
Theorem C108_refuted : exists files parse to_repr (d : parsed (list nat)) es c,
  files <> [] /\ (0 < now _ d)%N /\ (forall f, pfile _ d f = None) /\ pmark _ d = None /\
  In c (w_commands _ (happened files _ parse to_repr es (Build_world _ d []))) /\ at_ c = QFailed /\
  (forall i, ~ In (EKill i) es) /\ length (w_commands _ (happened files _ parse to_repr es (Build_world _ d []))) = 2.
Proof.
  exists ex_files, ex_parse, ex_repr, ex_new, (EStart 0 :: ex_steps 0 6 ++ [EStart 1] ++ ex_steps 1 3 ++ [EStep 0]).
  eexists. split; [discriminate|]. split; [reflexivity|]. split; [reflexivity|]. split; [reflexivity|].
  split; [left; vm_compute; reflexivity|]. split; [reflexivity|]. split; [|vm_compute; reflexivity].
  intros i H. cbv [ex_steps repeat app In] in H. intuition discriminate.
Qed.
Print Assumptions C108_refuted.
(** And with three commands a command that is preprocessing can fail: the second one, which had found a file missing, writes it again after the first one
    has set its marker, and the third one moves the parsed dataset away. *)
Theorem C108_reading_refuted : exists files parse to_repr (d : parsed (list nat)) es c,
  files <> [] /\ (0 < now _ d)%N /\ (forall f, pfile _ d f = None) /\ pmark _ d = None /\
  nth_error (w_commands _ (happened files _ parse to_repr es (Build_world _ d []))) 0 = Some c /\ at_ c = QPrep files /\
  (exists c', nth_error (w_commands _ (happened files _ parse to_repr (es ++ [EStep 0]) (Build_world _ d []))) 0 = Some c' /\ at_ c' = QFailed) /\
  (forall i, ~ In (EKill i) es).
Proof.
  exists ex_files, ex_parse, ex_repr, ex_new, (EStart 0 :: EStart 1 :: ex_steps 1 2 ++ ex_steps 0 8 ++ [ETick; EStep 1; EStart 2] ++ ex_steps 2 3).
  eexists. split; [discriminate|]. split; [reflexivity|]. split; [reflexivity|]. split; [reflexivity|].
  split; [vm_compute; reflexivity|]. split; [reflexivity|]. split; [eexists; split; vm_compute; reflexivity|].
  intros i H. cbv [ex_steps repeat app In] in H. intuition discriminate.
Qed.
Print Assumptions C108_reading_refuted.
