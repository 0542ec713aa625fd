(** C109: files that disappear while a command is running are left out and do no harm.
    C111: a file that cannot be read does not keep the other ones from being processed, and does no lasting harm. *)
From Verif Require Import M_Base L_Base M_Missing.

Section Missing.
  Variable content tokens : Type.
  Variable files : list nat.
  Variable parse : nat -> content -> tokens.
  Variable to_repr : tokens -> str.
  Notation results := (results tokens).
  Notation run := (run content tokens files parse to_repr).
  Notation runs := (runs content tokens files parse to_repr).
  Notation after_parsing := (after_parsing content tokens files parse).
  Notation parse_files := (parse_files content tokens parse).
  Notation parse_one := (parse_one content tokens parse).
  Notation prep_files := (prep_files tokens to_repr).
  Notation prep_one := (prep_one tokens to_repr).
  Notation nothing := (nothing tokens).
  Notation stopped := (stopped content tokens files).
  Definition found (r : reading content) : Prop := exists b, r = Found b.

  Lemma parse_one_at src p f g : parse_one src p f g = match p g with Some t => Some t | None => if Nat.eqb g f then match src g with Found b => Some (parse g b) | _ => None end else None end.
  Proof.
    unfold M_Missing.parse_one, put. destruct (p f) as [t|] eqn:E.
    - destruct (p g) as [t'|] eqn:G; [reflexivity|]. destruct (Nat.eqb_spec g f) as [->|_]; [congruence|reflexivity].
    - destruct (src f) as [b| |] eqn:S; destruct (Nat.eqb_spec g f) as [->|_]; rewrite ?E, ?S; try reflexivity; destruct (p g); reflexivity.
  Qed.
  Lemma parse_files_at src g : forall fs p, parse_files src fs p g = match p g with
    | Some t => Some t | None => if existsb (Nat.eqb g) fs then match src g with Found b => Some (parse g b) | _ => None end else None end.
  Proof.
    induction fs as [|f fs IH]; intros p; cbn [M_Missing.parse_files fold_left existsb]; [destruct (p g); reflexivity|].
    change (fold_left (parse_one src) fs (parse_one src p f)) with (parse_files src fs (parse_one src p f)).
    rewrite IH, parse_one_at. destruct (p g); [reflexivity|]. destruct (Nat.eqb g f); cbn [orb]; [|reflexivity]. destruct (src g); [reflexivity|destruct (existsb _ fs); reflexivity..].
  Qed.
  Lemma prep_files_at p g : forall fs o o', prep_files p fs o = Some o' -> o' g = match o g with
    | Some x => Some x | None => if existsb (Nat.eqb g) fs then match p g with Some t => Some (to_repr t) | None => None end else None end.
  Proof.
    induction fs as [|f fs IH]; intros o o' E; cbn [M_Missing.prep_files existsb] in *; [injection E as <-; destruct (o g); reflexivity|].
    unfold M_Missing.prep_one in E. destruct (o f) as [x|] eqn:F.
    - rewrite (IH _ _ E). destruct (o g) eqn:G; [reflexivity|]. destruct (Nat.eqb_spec g f) as [->|_]; [congruence|reflexivity].
    - destruct (p f) as [t|] eqn:P; [|discriminate]. rewrite (IH _ _ E). unfold put. destruct (Nat.eqb_spec g f) as [->|_]; [rewrite F, P; reflexivity|reflexivity].
  Qed.
  Lemma prep_files_some p : forall fs o, (forall f, In f fs -> o f <> None \/ p f <> None) -> exists o', prep_files p fs o = Some o'.
  Proof.
    induction fs as [|f fs IH]; intros o H; cbn [M_Missing.prep_files]; [eauto|]. unfold M_Missing.prep_one. destruct (o f) as [x|] eqn:F.
    - apply IH. intros g G. apply H. right. exact G.
    - destruct (p f) as [t|] eqn:P.
      + apply IH. intros g G. unfold put. destruct (Nat.eqb g f); [left; discriminate|]. apply H. right. exact G.
      + destruct (H f (or_introl eq_refl)); congruence.
  Qed.
  Lemma prep_files_all p : forall fs o o', prep_files p fs o = Some o' -> forall f, In f fs -> o' f <> None.
  Proof.
    induction fs as [|f fs IH]; intros o o' E g G; [destruct G|]. pose proof (prep_files_at p g (f :: fs) o o' E) as A. cbn [M_Missing.prep_files] in E.
    destruct (prep_one p o f) as [o1|] eqn:O; [|discriminate]. destruct G as [->|G]; [|eapply IH; eassumption].
    rewrite A. destruct (o g) eqn:Og; [discriminate|]. cbn [existsb]. rewrite Nat.eqb_refl. cbn [orb]. unfold M_Missing.prep_one in O. rewrite Og in O. destruct (p g); discriminate.
  Qed.
  Lemma existsb_in g fs : existsb (Nat.eqb g) fs = true <-> In g fs.
  Proof.
    rewrite existsb_exists. split; [intros (x & H & E); apply Nat.eqb_eq in E; subst; exact H|]. intros H. exists g. split; [exact H|apply Nat.eqb_refl].
  Qed.

  (** ** What is there is right *)
  Definition read_by (h : list ((nat -> reading content) * outcome)) (f : nat) (b : content) : Prop := exists src k, In (src, k) h /\ src f = Found b.
  Definition known (h : list ((nat -> reading content) * outcome)) (s : results) : Prop :=
    (forall f t, r_parsed _ s f = Some t -> exists b, read_by h f b /\ t = parse f b) /\
    (forall f x, r_out _ s f = Some x -> exists b, read_by h f b /\ x = to_repr (parse f b)) /\
    (r_omark _ s = true -> r_pmark _ s = true /\ forall f, In f files -> r_out _ s f <> None).
  Lemma read_more h h' f b : read_by h f b -> read_by (h ++ h') f b.
  Proof. intros (src & k & H & E). exists src, k. split; [apply in_or_app; auto|exact E]. Qed.
  Lemma parsed_known h src k s fs : known h s -> forall f t, parse_files src fs (r_parsed _ s) f = Some t -> exists b, read_by (h ++ [(src, k)]) f b /\ t = parse f b.
  Proof.
    intros (K & _) f t H. rewrite parse_files_at in H. destruct (r_parsed _ s f) as [t'|] eqn:P.
    - injection H as ->. destruct (K _ _ P) as (b & B & E). exists b. split; [apply read_more, B|exact E].
    - destruct (existsb _ fs); [|discriminate]. destruct (src f) as [b| |] eqn:S; [|discriminate..]. injection H as <-. exists b. split; [|reflexivity].
      exists src, k. split; [apply in_or_app; right; left; reflexivity|exact S].
  Qed.
  Lemma after_known h src k s : known h s -> known (h ++ [(src, k)]) (after_parsing src s) /\ r_pmark _ (after_parsing src s) = true.
  Proof.
    intros K. unfold M_Missing.after_parsing. destruct (r_pmark _ s) eqn:P.
    - split; [|exact P]. destruct K as (K1 & K2 & K3). split; [|split; [|exact K3]].
      + intros f t H. destruct (K1 _ _ H) as (b & B & E). exists b. split; [apply read_more, B|exact E].
      + intros f x H. destruct (K2 _ _ H) as (b & B & E). exists b. split; [apply read_more, B|exact E].
    - split; [|reflexivity]. split; [apply parsed_known, K|]. destruct K as (K1 & K2 & K3). split.
      + intros f x H. destruct (K2 _ _ H) as (b & B & E). exists b. split; [apply read_more, B|exact E].
      + intros H. split; [reflexivity|]. apply K3, H.
  Qed.
  Lemma run_known h src k s s' : known h s -> run src s k s' -> known (h ++ [(src, k)]) s'.
  Proof.
    intros K R. destruct R as [fs P I'|fs f P I' F B|fs o NS s1 O I' E|fs f o NS s1 O I' E F|o NS s1 O E|NS s1 O].
    1, 2: split; [apply parsed_known, K|]; destruct K as (K1 & K2 & K3); split;
      [intros g x H; destruct (K2 _ _ H) as (b & B' & E); exists b; split; [apply read_more, B'|exact E]|cbn [r_omark]; intros H; destruct (K3 H); congruence].
    - destruct (after_known h src Killed s K) as [(K1 & K2 & K3) _]. split; [exact K1|]. split; [|discriminate].
      intros g x H. cbn [r_out] in H. rewrite (prep_files_at _ g _ _ _ E) in H. fold s1 in K1, K2. destruct (r_out _ s1 g) eqn:G; [apply K2; congruence|].
      destruct (existsb _ fs); [|discriminate]. destruct (r_parsed _ s1 g) as [t|] eqn:T; [|discriminate]. injection H as <-. destruct (K1 _ _ T) as (b & B & ->). eauto.
    - destruct (after_known h src Failed s K) as [(K1 & K2 & K3) _]. split; [exact K1|]. split; [|discriminate].
      intros g x H. cbn [r_out] in H. rewrite (prep_files_at _ g _ _ _ E) in H. fold s1 in K1, K2. destruct (r_out _ s1 g) eqn:G; [apply K2; congruence|].
      destruct (existsb _ fs); [|discriminate]. destruct (r_parsed _ s1 g) as [t|] eqn:T; [|discriminate]. injection H as <-. destruct (K1 _ _ T) as (b & B & ->). eauto.
    - destruct (after_known h src Ended s K) as [(K1 & K2 & K3) _]. split; [exact K1|]. split.
      + intros g x H. cbn [r_out] in H. rewrite (prep_files_at _ g _ _ _ E) in H. fold s1 in K1, K2. destruct (r_out _ s1 g) eqn:G; [apply K2; congruence|].
        destruct (existsb _ files); [|discriminate]. destruct (r_parsed _ s1 g) as [t|] eqn:T; [|discriminate]. injection H as <-. destruct (K1 _ _ T) as (b & B & ->). eauto.
      + intros _. split; [reflexivity|]. exact (prep_files_all _ _ _ _ E).
    - apply after_known, K.
  Qed.
  Lemma run_ended_all h src s s' : known h s -> run src s Ended s' -> forall f, In f files -> r_out _ s' f <> None.
  Proof.
    intros K R. inversion R as [| | | |o NS s1 O E|NS s1 O]; subst; [exact (prep_files_all _ _ _ _ E)|].
    destruct (after_known h src Ended s K) as [(_ & _ & K3) _]. apply K3. exact O.
  Qed.
  Lemma runs_known h : forall s s' h', known h s -> runs s h' s' -> known (h ++ h') s'.
  Proof.
    intros s s' h' K R. revert h K. induction R as [s|s src k s1 h' s2 R1 R2 IH]; intros h K; [rewrite app_nil_r; exact K|].
    change ((src, k) :: h') with ([(src, k)] ++ h'). rewrite app_assoc. apply IH, (run_known _ _ _ _ _ K R1).
  Qed.
  Lemma known_nothing : known [] nothing.
  Proof. split; [discriminate|]. split; discriminate. Qed.

  (** In every history of runs, with files that come and go and kills, every output file belongs to what some run has read; and when a run has
      ended regularly, there is one for every file of the list. *)
  Theorem C109_right : forall h s, runs nothing h s ->
    (forall f x, r_out _ s f = Some x -> exists src k b, In (src, k) h /\ src f = Found b /\ x = to_repr (parse f b)) /\
    forall src s', run src s Ended s' -> forall f, In f files -> exists src' k b, In (src', k) (h ++ [(src, Ended)]) /\ src' f = Found b /\ r_out _ s' f = Some (to_repr (parse f b)).
  Proof.
    intros h s R. pose proof (runs_known [] _ _ _ known_nothing R) as K. cbn [app] in K. split.
    - intros f x H. destruct K as (_ & K & _). destruct (K _ _ H) as (b & (src & k & B & E) & ->). exists src, k, b. auto.
    - intros src s' R' f Hf. pose proof (run_ended_all _ _ _ _ K R' f Hf) as A. destruct (run_known _ _ _ _ _ K R') as (_ & K' & _).
      destruct (r_out _ s' f) as [x|] eqn:X; [|congruence]. destruct (K' _ _ X) as (b & (src' & k & B & E) & ->). exists src', k, b. auto.
  Qed.

  (** ** Runs that do not fail *)
  Definition whole (s : results) : Prop := r_pmark _ s = true -> forall f, In f files -> r_parsed _ s f <> None.
  Lemma after_whole src s : whole s -> ~ stopped src s -> (forall f, In f files -> r_pmark _ s = false -> r_parsed _ s f = None -> src f <> Gone) ->
    forall f, In f files -> r_parsed _ (after_parsing src s) f <> None.
  Proof.
    intros W NS S f Hf. unfold M_Missing.after_parsing. destruct (r_pmark _ s) eqn:P; [apply W; auto|]. cbn [r_parsed]. rewrite parse_files_at.
    destruct (r_parsed _ s f) eqn:F; [discriminate|]. rewrite (proj2 (existsb_in f files) Hf). specialize (S f Hf eq_refl F). destruct (src f) eqn:B; [discriminate|congruence|].
    exfalso. apply NS. split; [exact P|]. exists f. auto.
  Qed.
  Lemma run_whole src k s s' : whole s -> (forall f, In f files -> r_pmark _ s = false -> r_parsed _ s f = None -> src f <> Gone) ->
    run src s k s' -> whole s' /\ (k = Failed -> stopped src s).
  Proof.
    intros W Sx R. destruct R as [fs P I'|fs f P I' F B|fs o NS s1 O I' E|fs f o NS s1 O I' E F|o NS s1 O E|NS s1 O].
    - split; [intros H; discriminate|discriminate].
    - split; [intros H; discriminate|]. intros _. split; [exact P|]. exists f. split; [apply I'; left; reflexivity|auto].
    - split; [|discriminate]. intros _. apply after_whole; assumption.
    - exfalso. assert (A := after_whole src s W NS Sx). unfold M_Missing.prep_one in F. destruct (o f); [discriminate|].
      destruct (r_parsed _ s1 f) eqn:T; [discriminate|]. apply (A f (I' f (or_introl eq_refl))). exact T.
    - split; [|discriminate]. intros _. apply after_whole; assumption.
    - split; [|discriminate]. intros _. apply after_whole; assumption.
  Qed.
  Lemma run_possible src s : whole s -> ~ stopped src s -> (forall f, In f files -> r_pmark _ s = false -> r_parsed _ s f = None -> src f <> Gone) ->
    exists s', run src s Ended s'.
  Proof.
    intros W NS S. pose proof (after_whole src s W NS S) as A. destruct (r_omark _ (after_parsing src s)) eqn:O.
    - eexists. apply run_nothing; [exact NS|exact O].
    - destruct (prep_files_some (r_parsed _ (after_parsing src s)) files (r_out _ (after_parsing src s))) as [o E]; [intros f Hf; right; apply A, Hf|].
      eexists. apply run_ended; [exact NS|exact O|exact E].
  Qed.
  Lemma runs_whole h : forall s s', whole s -> runs s h s' -> (forall src k f, In (src, k) h -> In f files -> src f <> Gone) ->
    whole s' /\ forall src, In (src, Failed) h -> exists f, In f files /\ src f = Broken.
  Proof.
    intros s s' W R. revert W. induction R as [s|s src k s1 h s2 R1 R2 IH]; intros W S; [split; [exact W|intros ? []]|].
    destruct (run_whole src k s s1 W) as [W' F]; [intros f Hf _ _; apply (S src k); [left; reflexivity|exact Hf]|exact R1|].
    destruct (IH W') as [W2 G]; [intros src' k' f H; apply (S src' k'); right; exact H|]. split; [exact W2|].
    intros src' [E|H]; [|apply G, H]. injection E as <- ->. destruct (F eq_refl) as (_ & f & Hf & _ & B). exists f. auto.
  Qed.
  Lemma whole_nothing : whole nothing.
  Proof. intros H. discriminate. Qed.
  Lemma good_run src s : whole s -> (forall f, In f files -> r_pmark _ s = false -> r_parsed _ s f = None -> found (src f)) ->
    (exists s', run src s Ended s') /\ forall s', ~ run src s Failed s'.
  Proof.
    intros W S.
    assert (NS : ~ stopped src s) by (intros (P & f & Hf & F & B); destruct (S f Hf P F) as [b E]; congruence).
    assert (NG : forall f, In f files -> r_pmark _ s = false -> r_parsed _ s f = None -> src f <> Gone) by (intros f Hf P F; destruct (S f Hf P F) as [b ->]; discriminate).
    split; [apply run_possible; assumption|]. intros s' R. destruct (run_whole src Failed s s' W NG R) as [_ X]. apply NS, X. reflexivity.
  Qed.
  (** If every file of the list is found whenever it is to be parsed, no run fails, whatever was killed before, and a run that is not killed ends
      with an output for every file. *)
  Theorem C109_all_found : forall h s, runs nothing h s -> (forall src k f, In (src, k) h -> In f files -> found (src f)) ->
    (forall src k, In (src, k) h -> k <> Failed) /\
    forall src, (forall f, In f files -> found (src f)) -> (exists s', run src s Ended s') /\ forall s', ~ run src s Failed s'.
  Proof.
    intros h s R S. destruct (runs_whole h _ _ whole_nothing R) as [W F]; [intros src k f H Hf E; destruct (S src k f H Hf) as [b B]; congruence|]. split.
    - intros src k H ->. destruct (F src H) as (f & Hf & B). destruct (S src Failed f H Hf) as [b E]. congruence.
    - intros src Sx. apply good_run; [exact W|]. intros f Hf _ _. apply Sx, Hf.
  Qed.
  (** A file that is missing does not matter as long as all runs that miss it are killed while parsing. *)
  Theorem C109_comes_back : forall h s, runs nothing h s -> r_pmark _ s = false -> forall src, (forall f, In f files -> r_parsed _ s f = None -> found (src f)) ->
    (exists s', run src s Ended s') /\ forall s', ~ run src s Failed s'.
  Proof. intros h s _ P src S. apply good_run; [intros H; congruence|]. intros f Hf _ F. apply S; assumption. Qed.

  (** ** Files that cannot be read *)

  (** Runs fail only because of files that cannot be read in them.  After any number of such runs and of kills the next one in which all files
      can be read does not fail and can end. *)
  Theorem C111_recovers : forall h s, runs nothing h s -> (forall src k f, In (src, k) h -> In f files -> src f <> Gone) ->
    (forall src, In (src, Failed) h -> exists f, In f files /\ src f = Broken) /\
    forall src, (forall f, In f files -> found (src f)) -> (exists s', run src s Ended s') /\ forall s', ~ run src s Failed s'.
  Proof.
    intros h s R S. destruct (runs_whole h _ _ whole_nothing R S) as [W F]. split; [exact F|]. intros src Sx. apply good_run; [exact W|]. intros f Hf _ _. apply Sx, Hf.
  Qed.
  (** What has been parsed and written stays, also when runs fail or are killed: the files are not read again. *)
  Theorem C111_kept : forall h s s', runs s h s' ->
    (forall f t, r_parsed _ s f = Some t -> r_parsed _ s' f = Some t) /\ forall f x, r_out _ s f = Some x -> r_out _ s' f = Some x.
  Proof.
    intros h s s' R. induction R as [s|s src k s1 h s2 R1 R2 [IH1 IH2]]; [auto|].
    assert (PK : forall fs f t, r_parsed _ s f = Some t -> parse_files src fs (r_parsed _ s) f = Some t) by (intros fs f t E; rewrite parse_files_at, E; reflexivity).
    assert (AK : (forall f t, r_parsed _ s f = Some t -> r_parsed _ (after_parsing src s) f = Some t) /\ r_out _ (after_parsing src s) = r_out _ s)
      by (unfold M_Missing.after_parsing; destruct (r_pmark _ s); cbn [r_parsed r_out]; auto).
    destruct AK as [AK1 AK2].
    assert (OK : forall fs o f x, prep_files (r_parsed _ (after_parsing src s)) fs (r_out _ (after_parsing src s)) = Some o -> r_out _ s f = Some x -> o f = Some x)
      by (intros fs o f x E H; rewrite (prep_files_at _ f _ _ _ E), AK2, H; reflexivity).
    destruct R1 as [fs P I'|fs g P I' F B|fs o NS t O I' E|fs g o NS t O I' E F|o NS t O E|NS t O]; cbn [r_parsed r_out] in *; split; intros f x H;
      solve [apply IH1; eauto|apply IH2; eauto|apply IH2; unfold t; rewrite AK2; exact H].
  Qed.
  (** While there is one file that cannot be read, no run ends, and there is no output for any of the other files. *)
  Theorem C111_others_refuted : forall f h s, In f files -> runs nothing h s -> (forall src k, In (src, k) h -> src f = Broken) ->
    (forall src k, In (src, k) h -> k <> Ended) /\ (forall g, r_out _ s g = None) /\
    forall src, src f = Broken -> (exists s', run src s Failed s') /\ forall s', ~ run src s Ended s'.
  Proof.
    intros f h s Hf R S.
    assert (G : forall s0 k src s1, r_pmark _ s0 = false -> r_parsed _ s0 f = None -> src f = Broken -> run src s0 k s1 ->
              k <> Ended /\ r_pmark _ s1 = false /\ r_parsed _ s1 f = None /\ r_out _ s1 = r_out _ s0).
    { intros s0 k src s1 P F B R1. assert (X : stopped src s0) by (split; [exact P|]; exists f; auto).
      destruct R1 as [fs P' I'|fs g P' I' F' B'|fs o NS t O I' E|fs g o NS t O I' E F'|o NS t O E|NS t O]; try contradiction;
        (split; [discriminate|]); cbn [r_pmark r_parsed r_out]; (split; [reflexivity|]); (split; [|reflexivity]);
        rewrite parse_files_at, F, B; destruct (existsb _ fs); reflexivity. }
    assert (K : forall s0, runs s0 h s -> r_pmark _ s0 = false -> r_parsed _ s0 f = None -> (forall g, r_out _ s0 g = None) ->
              (forall src k, In (src, k) h -> k <> Ended) /\ (forall g, r_out _ s g = None) /\ r_pmark _ s = false /\ r_parsed _ s f = None).
    { clear R. induction h as [|[src k] h IH]; intros s0 R P F O; inversion R as [|xs xsrc xk s1 xh xs2 R1 R2]; subst; [split; [intros ? ? []|auto]|].
      destruct (G _ _ _ _ P F (S src k (or_introl eq_refl)) R1) as (E1 & E2 & E3 & E4).
      destruct (IH ltac:(intros src' k' H; apply (S src' k'); right; exact H) s1 R2 E2 E3) as (H1 & H2 & H3); [intros g; rewrite E4; apply O|].
      split; [|split; [exact H2|exact H3]]. intros src' k' [E|H]; [injection E as <- <-; exact E1|eapply H1; exact H]. }
    destruct (K nothing R eq_refl eq_refl (fun _ => eq_refl)) as (K1 & K2 & K3 & K4). split; [exact K1|]. split; [exact K2|]. intros src B. split.
    - eexists. apply (run_parse_failed _ _ _ _ _ _ _ [] f); auto. intros g [<-|[]]. exact Hf.
    - intros s' R'. destruct (G _ _ _ _ K3 K4 B R') as (X & _). congruence.
  Qed.

  (** ** The full claim is not true *)
  Lemma stuck f : forall h s s', r_pmark _ s = true -> r_parsed _ s f = None -> r_out _ s f = None -> r_omark _ s = false -> In f files -> runs s h s' ->
    (forall src k, In (src, k) h -> k <> Ended) /\ r_out _ s' f = None.
  Proof.
    intros h s s' P F O M Hf R. revert P F O M. induction R as [s|s src k s1 h s2 R1 R2 IH]; intros P F O M; [split; [intros ? ? []|exact O]|].
    assert (A : after_parsing src s = s) by (unfold M_Missing.after_parsing; rewrite P; reflexivity).
    assert (Q : forall fs o, prep_files (r_parsed _ s) fs (r_out _ s) = Some o -> o f = None).
    { intros fs o E. rewrite (prep_files_at _ f _ _ _ E), O, F. destruct (existsb _ fs); reflexivity. }
    assert (X : k <> Ended /\ r_pmark _ s1 = true /\ r_parsed _ s1 f = None /\ r_out _ s1 f = None /\ r_omark _ s1 = false).
    { inversion R1 as [fs P' I'|fs g P' I' G B|fs o NS t O' I' E|fs g o NS t O' I' E G|o NS t O' E|NS t O']; subst; try (unfold t in *); rewrite ?A in *; try congruence; cbn [r_pmark r_parsed r_out r_omark].
      - split; [discriminate|]. eauto.
      - split; [discriminate|]. eauto.
      - exfalso. apply (prep_files_all _ _ _ _ E f Hf). eapply Q; eassumption. }
    destruct X as (X1 & X2 & X3 & X4 & X5). destruct (IH X2 X3 X4 X5) as [H1 H2]. split; [|exact H2]. intros src' k' [E|H]; [injection E as <- <-; exact X1|eapply H1; exact H].
  Qed.
  (** If one file of the list is missing when it is to be parsed, the run fails after the parsing although the message says that the file is ignored,
      and no later run ever ends, also if the file is there again. *)
  Theorem C109_missing_refuted : forall f src, In f files -> src f = Gone -> (forall g, In g files -> src g <> Broken) ->
    (exists s', run src nothing Failed s') /\ (forall s', ~ run src nothing Ended s') /\
    forall s', run src nothing Failed s' -> forall h s2, runs s' h s2 -> (forall src' k, In (src', k) h -> k <> Ended) /\ r_out _ s2 f = None.
  Proof.
    intros f src Hf S NB.
    assert (NS : ~ stopped src nothing) by (intros (_ & g & Hg & _ & B); exact (NB g Hg B)).
    assert (A : r_parsed _ (after_parsing src nothing) f = None) by (cbn; rewrite parse_files_at, S; cbn; destruct (existsb _ files); reflexivity).
    assert (Q : forall fs o, prep_files (r_parsed _ (after_parsing src nothing)) fs (r_out _ (after_parsing src nothing)) = Some o -> o f = None).
    { intros fs o E. rewrite (prep_files_at _ f _ _ _ E), A. cbn. destruct (existsb _ fs); reflexivity. }
    split; [|split].
    - eexists. apply (run_failed _ _ _ _ _ _ _ [] f (fun _ => None)); [exact NS|reflexivity|intros g [<-|[]]; exact Hf|reflexivity|]. unfold M_Missing.prep_one. rewrite A. reflexivity.
    - intros s' R. inversion R as [| | | |o NS' t O' E|NS' t O']; subst; [|discriminate]. apply (prep_files_all _ _ _ _ E f Hf). eapply Q. exact E.
    - intros s' R h s2 H. inversion R as [|fs g P' I' G B| |fs g o NS' t O' I' E G| |]; subst; [destruct (NB g (I' g (or_introl eq_refl)) B)|]. eapply stuck; [| | | | |exact H]; cbn [r_pmark r_parsed r_out r_omark]; try reflexivity; [exact A|eapply Q; exact E|exact Hf].
  Qed.
End Missing.
Print Assumptions C109_right.
Print Assumptions C109_all_found.
Print Assumptions C109_comes_back.
Print Assumptions C109_missing_refuted.
Print Assumptions C111_recovers.
Print Assumptions C111_kept.
Print Assumptions C111_others_refuted.

(** ** Examples: two files; the second one is missing at first *)
Definition ex_run := run str str [0; 1] (fun f b => N.of_nat f :: b) (fun t => t ++ lit "!").
Definition ex_runs := runs str str [0; 1] (fun f b => N.of_nat f :: b) (fun t => t ++ lit "!").
Definition ex_missing (f : nat) : reading str := match f with 0 => Found (lit "a") | _ => Gone end.
Definition ex_found (f : nat) : reading str := match f with 0 => Found (lit "A") | _ => Found (lit "b") end.
Definition ex_broken (f : nat) : reading str := match f with 0 => Found (lit "a") | _ => Broken end.
Lemma ex_found_ok f : found str (ex_found f).
Proof. destruct f; eexists; reflexivity. Qed.
Lemma not_stopped src s : (forall f, src f <> Broken) -> ~ stopped str str [0; 1] src s.
Proof. intros H (_ & f & _ & _ & B). exact (H f B). Qed.
Lemma ex_found_readable f : ex_found f <> Broken.
Proof. destruct f; discriminate. Qed.
Lemma ex_missing_readable f : ex_missing f <> Broken.
Proof. destruct f; discriminate. Qed.
(** parsing is killed after both files; then everything is found, and the first file stays as it was parsed first *)
Example C109_comes_back_example : exists s s', ex_runs (nothing str) [(ex_missing, Killed)] s /\ r_pmark _ s = false /\
  (forall f, In f [0; 1] -> r_parsed _ s f = None -> found str (ex_found f)) /\ ex_run ex_found s Ended s' /\ map (r_out _ s') [0; 1] = [Some (0%N :: lit "a!"); Some (1%N :: lit "b!")].
Proof.
  eexists. eexists. split; [eapply runs_more; [apply (run_parse_killed _ _ _ _ _ _ _ [0; 1]); [reflexivity|apply incl_refl]|apply runs_none]|].
  split; [reflexivity|]. split; [intros f _ _; apply ex_found_ok|]. split; [apply run_ended; [apply not_stopped, ex_found_readable|reflexivity|reflexivity]|reflexivity].
Qed.
Example C109_all_found_example : exists s s', ex_runs (nothing str) [(ex_found, Killed)] s /\ (forall src k f, In (src, k) [(ex_found, Killed)] -> In f [0; 1] -> found str (src f)) /\
  ex_run ex_found s Ended s' /\ map (r_out _ s') [0; 1] = [Some (0%N :: lit "A!"); Some (1%N :: lit "b!")].
Proof.
  eexists. eexists. split; [eapply runs_more; [eapply (run_prep_killed _ _ _ _ _ _ _ [1]); [apply not_stopped, ex_found_readable|reflexivity|intros f [<-|[]]; cbn; auto|reflexivity]|apply runs_none]|].
  split; [intros src k f [E|[]] _; injection E as <- <-; apply ex_found_ok|]. split; [apply run_ended; [apply not_stopped, ex_found_readable|reflexivity|reflexivity]|reflexivity].
Qed.
(** ... and if it fails, then never, although it has the output of the first file *)
Example C109_missing_example : exists s', ex_run ex_missing (nothing str) Failed s' /\ map (r_out _ s') [0; 1] = [Some (0%N :: lit "a!"); None] /\
  forall h s2, ex_runs s' h s2 -> (forall src k, In (src, k) h -> k <> Ended) /\ r_out _ s2 1 = None.
Proof.
  assert (R : exists s', ex_run ex_missing (nothing str) Failed s' /\ map (r_out _ s') [0; 1] = [Some (0%N :: lit "a!"); None]).
  { eexists. split; [eapply (run_failed _ _ _ _ _ _ _ [0] 1); [apply not_stopped, ex_missing_readable|reflexivity|intros f [<-|[<-|[]]]; cbn; auto|reflexivity|reflexivity]|reflexivity]. }
  destruct R as (s' & R & O). exists s'. split; [exact R|]. split; [exact O|]. intros h s2 H.
  eapply (C109_missing_refuted str str [0; 1] _ _ 1 ex_missing); [cbn; auto|reflexivity|intros g _; apply ex_missing_readable|exact R|exact H].
Qed.
(** the second file cannot be read: the run fails, with the first file parsed; then it can be read *)
Example C111_recovers_example : exists s s', ex_runs (nothing str) [(ex_broken, Failed)] s /\
  (forall src k f, In (src, k) [(ex_broken, Failed)] -> In f [0; 1] -> src f <> Gone) /\ r_parsed _ s 0 = Some (0%N :: lit "a") /\
  map (r_out _ s) [0; 1] = [None; None] /\ ex_run ex_found s Ended s' /\ map (r_out _ s') [0; 1] = [Some (0%N :: lit "a!"); Some (1%N :: lit "b!")].
Proof.
  eexists. eexists. split; [eapply runs_more; [apply (run_parse_failed _ _ _ _ _ _ _ [0] 1); [reflexivity|intros f [<-|[<-|[]]]; cbn; auto|reflexivity|reflexivity]|apply runs_none]|].
  split; [intros src k f [E|[]] _; injection E as <- <-; destruct f; discriminate|]. split; [reflexivity|]. split; [reflexivity|].
  split; [apply run_ended; [apply not_stopped, ex_found_readable|reflexivity|reflexivity]|reflexivity].
Qed.
