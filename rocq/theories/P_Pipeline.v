(** C50, C52: interrupted and repeated corpus preprocessing. *)
From Verif Require Import M_Base L_Base M_Literal L_Literal M_Pipeline.
From Coq Require Import Lia.

Lemma mapM_in_ok {A B} (f : A -> res B) l r x y : mapM f l = Ok r -> In x l -> f x = Ok y -> In y r.
Proof.
  revert r. induction l as [|a l IH]; intros r H [].
  - subst a. intros E. simpl in H. rewrite E in H. simpl in H. destruct (mapM f l); [|discriminate]. injection H as <-. left. reflexivity.
  - intros E. simpl in H. destruct (f a) as [b|]; [|discriminate]. simpl in H. destruct (mapM f l) as [t|]; [|discriminate].
    injection H as <-. right. apply IH; auto.
Qed.
Lemma mapM_in {A B} (f : A -> res B) l r y : mapM f l = Ok r -> In y r -> exists x, In x l /\ f x = Ok y.
Proof.
  revert r. induction l as [|a l IH]; intros r H Hin; simpl in H.
  - injection H as <-. destruct Hin.
  - destruct (f a) as [b|] eqn:E; [|discriminate]. simpl in H. destruct (mapM f l) as [t|]; [|discriminate]. injection H as <-.
    destruct Hin as [<-|Hin]; [exists a; split; [left; reflexivity|exact E]|]. destruct (IH t eq_refl Hin) as (x & Hx & Ex).
    exists x. split; [right; exact Hx|exact Ex].
Qed.
Lemma mapM_total {A B} (f : A -> res B) l : (forall x, In x l -> exists y, f x = Ok y) -> exists r, mapM f l = Ok r.
Proof.
  induction l as [|a l IH]; intros H; [exists []; reflexivity|]. destruct (H a (or_introl eq_refl)) as [b Eb].
  destruct IH as [r Er]; [intros x Hx; apply H; right; exact Hx|]. exists (b :: r). simpl. rewrite Eb. simpl. rewrite Er. reflexivity.
Qed.
(** a part that has been written completely is read back *)
Lemma load_part tokens : Forall valid_str tokens -> load_vocab_set (part_file tokens) = Ok tokens.
Proof.
  intros H. unfold load_vocab_set, part_file. rewrite file_lines_write.
  - induction H as [|a l Ha Hl IH]; [reflexivity|]. simpl. rewrite non_literal_literal by exact Ha. simpl. rewrite IH. reflexivity.
  - apply Forall_map, Forall_forall. intros x _. apply literal_no_char. unfold printable. lia.
  - apply Forall_map, Forall_forall. intros x _. apply literal_no_char. unfold printable. lia.
Qed.

Section Inv.
  Variable content : Type.
  Variable n : nat.
  Variable src : nat -> option content.
  Variable parse repr : content -> content.
  Variable nonprocessable : content -> list str.
  Variable placeholder_tokens : list str.
  Variable base_bpe : bool.
  (** strings contain code points *)
  Hypothesis tokens_valid : forall c, Forall valid_str (nonprocessable c).

  Local Notation state := (state content).
  Local Notation stage := (stage content).
  Local Notation step_at := (step_at content n src parse repr nonprocessable placeholder_tokens base_bpe).
  Local Notation step := (step content n src parse repr nonprocessable placeholder_tokens base_bpe).
  Local Notation restart := (restart content nonprocessable).
  Local Notation modified := (modified content).
  Local Notation reach := (reach content n src parse repr nonprocessable placeholder_tokens base_bpe).
  Local Notation reach_mod := (reach_mod content n src parse repr nonprocessable placeholder_tokens base_bpe).
  Local Notation dest := (dest content).
  Local Notation temp := (temp content).
  Local Notation mark := (mark content).
  Local Notation stamp := (stamp content).
  Local Notation parsed := (parsed content).
  Local Notation prep := (prep content).
  Local Notation clock := (clock content).
  Local Notation ph := (ph content).
  Local Notation wk := (wk content).
  Local Notation parts := (parts content).
  Local Notation nonbpe := (nonbpe content).
  Local Notation collect := (collect content).

  (** what the output files have to be *)
  Definition good_parsed (i : nat) (c : content) : Prop := exists x, src i = Some x /\ c = parse x.
  Definition good_prep (i : nat) (c : content) : Prop := exists x, src i = Some x /\ c = repr (parse x).

  (** every file is missing or right *)
  Definition ok_files (good : nat -> content -> Prop) (d : stage) : Prop :=
    forall i, i < n -> dest d i = Missing \/ exists c, dest d i = Full c /\ good i c.
  Definition complete (need : nat -> Prop) (d : stage) : Prop :=
    forall i, i < n -> need i -> exists_file (dest d i) = true.
  Definition stage_ok (good : nat -> content -> Prop) (need : nat -> Prop) (d : stage) : Prop :=
    match mark d with
    | None => ok_files good d
    | Some m => m = Some (stamp d) -> ok_files good d /\ complete need d
    end.
  Definition finished (good : nat -> content -> Prop) (need : nat -> Prop) (d : stage) : Prop :=
    mark d = Some (Some (stamp d)) /\ ok_files good d /\ complete need d.
  (** without a marker, if caching was suppressed *)
  Definition settled (good : nat -> content -> Prop) (need : nat -> Prop) (d : stage) : Prop :=
    (mark d = None \/ mark d = Some (Some (stamp d))) /\ ok_files good d /\ complete need d.
  Definition has_source (i : nat) : Prop := src i <> None.
  Definition every (i : nat) : Prop := True.

  Definition times_ok (s : state) (d : stage) : Prop :=
    (stamp d <= clock s)%N /\ forall m, mark d = Some (Some m) -> (m <= clock s)%N.

  Definition saved (s : state) (i : nat) : Prop :=
    exists c, good_parsed i c /\ In (part_file (nonprocessable c)) (parts s i).
  Definition vocab_ok (v : list str) : Prop :=
    incl placeholder_tokens v /\ forall i x, i < n -> src i = Some x -> incl (nonprocessable (parse x)) v.
  Definition readable (s : state) : Prop := exists ls, mapM load_vocab_set (flat_map (parts s) (seq 0 n)) = Ok ls.
  Definition nb_ok (s : state) : Prop :=
    match nonbpe s with
    | Missing => base_bpe = true -> mark (prep s) = None /\ forall i, i < n -> exists_file (dest (prep s) i) = true -> saved s i
    | Partial => ph s = Gathering -> forall i, i < n -> saved s i
    | Full v => vocab_ok v
    end.

  Definition workers_parse (s : state) : Prop := forall i, i < n ->
    match wk s i with
    | Idle | Opened => True
    | Written => exists c, temp (parsed s) i = Full c /\ good_parsed i c
    | Saved => False
    | Finished => exists_file (dest (parsed s) i) = true \/ src i = None
    end.
  Definition workers_prep (s : state) : Prop := forall i, i < n ->
    match wk s i with
    | Idle => True
    | Opened => has_source i
    | Written => exists c, temp (prep s) i = Full c /\ good_prep i c
    | Saved => (exists c, temp (prep s) i = Full c /\ good_prep i c) /\ (collect s = true -> saved s i)
    | Finished => exists_file (dest (prep s) i) = true
    end.

  Definition phase_ok (s : state) : Prop :=
    match ph s with
    | Start => stage_ok good_parsed has_source (parsed s) /\ stage_ok good_prep every (prep s)
    | MovedParsed => (exists m, mark (parsed s) = Some m) /\ (forall i, dest (parsed s) i = Missing) /\ stage_ok good_prep every (prep s)
    | Parsing => mark (parsed s) = None /\ ok_files good_parsed (parsed s) /\ workers_parse s /\ stage_ok good_prep every (prep s)
    | MarkParsed => mark (parsed s) = Some None /\ ok_files good_parsed (parsed s) /\ complete has_source (parsed s)
                    /\ stage_ok good_prep every (prep s)
    | PrepCheck => settled good_parsed has_source (parsed s) /\ stage_ok good_prep every (prep s)
    | MovedPrep => settled good_parsed has_source (parsed s) /\ (exists m, mark (prep s) = Some m) /\ (forall i, dest (prep s) i = Missing)
    | Prepping => settled good_parsed has_source (parsed s) /\ mark (prep s) = None /\ ok_files good_prep (prep s) /\ workers_prep s
                  /\ collect s = (base_bpe && negb (exists_file (nonbpe s)))%bool
    | Gathering => settled good_parsed has_source (parsed s) /\ mark (prep s) = None /\ ok_files good_prep (prep s)
                   /\ (forall i, i < n -> exists_file (dest (prep s) i) = true) /\ nonbpe s <> Missing /\ readable s
    | MarkPrep => settled good_parsed has_source (parsed s) /\ mark (prep s) = Some None /\ ok_files good_prep (prep s)
                  /\ complete every (prep s)
    | Done => settled good_parsed has_source (parsed s) /\ finished good_prep every (prep s)
    | Failed => settled good_parsed has_source (parsed s) /\ mark (prep s) = None /\ ok_files good_prep (prep s)
                /\ ((exists i, i < n /\ src i = None) \/ ~ readable s)
    end.

  Definition INV (s : state) : Prop :=
    times_ok s (parsed s) /\ times_ok s (prep s) /\ nb_ok s /\ phase_ok s.

  Lemma upd_same {A} (f : nat -> A) i v : upd f i v i = v.
  Proof. unfold upd. rewrite Nat.eqb_refl. reflexivity. Qed.
  Lemma upd_other {A} (f : nat -> A) i v j : j <> i -> upd f i v j = f j.
  Proof. intros H. unfold upd. destruct (Nat.eqb_spec j i); [contradiction|reflexivity]. Qed.

  Lemma inv_initial t : INV (initial content t).
  Proof.
    split; [|split; [|split]].
    - split; [simpl; lia|]. simpl. discriminate.
    - split; [simpl; lia|]. simpl. discriminate.
    - simpl. intros _. split; [reflexivity|]. simpl. discriminate.
    - simpl. unfold stage_ok. simpl. split; intros i _; left; reflexivity.
  Qed.

  (** the same stage at a later time *)
  Lemma times_later s d t : times_ok s d -> (clock s <= t)%N -> forall s', clock s' = t -> times_ok s' d.
  Proof.
    intros [H1 H2] Ht s' E. split; [lia|]. intros m Hm. specialize (H2 m Hm). lia.
  Qed.

  Lemma ok_files_dest good d i c t : ok_files good d -> good i c ->
    forall v, v = Full c -> ok_files good (set_dest content d i v t).
  Proof.
    intros H Hg v -> j Hj. cbn [set_dest M_Pipeline.dest]. destruct (Nat.eq_dec j i) as [->|Hn].
    - rewrite upd_same. right. eauto.
    - rewrite upd_other by exact Hn. apply H. exact Hj.
  Qed.
  Lemma complete_dest need d i v t : complete need d -> exists_file v = true -> complete need (set_dest content d i v t).
  Proof.
    intros H Hv j Hj Hs. cbn [set_dest M_Pipeline.dest]. destruct (Nat.eq_dec j i) as [->|Hn].
    - rewrite upd_same. exact Hv.
    - rewrite upd_other by exact Hn. apply H; assumption.
  Qed.
  Lemma exists_dest d i j v t : exists_file v = true -> exists_file (dest d j) = true ->
    exists_file (dest (set_dest content d i v t) j) = true.
  Proof.
    intros Hv Hj. cbn [set_dest M_Pipeline.dest]. destruct (Nat.eq_dec j i) as [->|Hn].
    - rewrite upd_same. exact Hv.
    - rewrite upd_other by exact Hn. exact Hj.
  Qed.

  Ltac fields := cbn [set_ph set_parsed set_prep set_wk set_parts set_nonbpe set_collect set_clock
    M_Pipeline.clock M_Pipeline.ph M_Pipeline.parsed M_Pipeline.prep M_Pipeline.wk M_Pipeline.parts
    M_Pipeline.nonbpe M_Pipeline.collect] in *.
  Ltac dfields := cbn [set_dest set_temp set_mark moved M_Pipeline.dest M_Pipeline.temp M_Pipeline.mark M_Pipeline.stamp] in *.

  Ltac if_collect s := try match goal with |- context [if collect s then _ else _] => destruct (collect s) end.

  Lemma saved_mono (s s' : state) i : (forall l, In l (parts s i) -> In l (parts s' i)) -> saved s i -> saved s' i.
  Proof. intros H (c & Hc & Hin). exists c. auto. Qed.

  Lemma nb_same s s' : nb_ok s -> nonbpe s' = nonbpe s -> mark (prep s') = mark (prep s) \/ mark (prep s') = None ->
    (forall i, i < n -> exists_file (dest (prep s') i) = true -> exists_file (dest (prep s) i) = true \/ saved s' i \/ base_bpe = false) ->
    (forall i l, In l (parts s i) -> In l (parts s' i)) -> ph s' <> Gathering -> nb_ok s'.
  Proof.
    intros H En Em Hd Hp Hph. unfold nb_ok in *. rewrite En. destruct (nonbpe s) as [| |v].
    - intros Hb. destruct (H Hb) as [H1 H2]. split; [destruct Em; congruence|]. intros i Hi He.
      destruct (Hd i Hi He) as [X|[X|X]]; [|exact X|congruence].
      apply (saved_mono s); [intros l; apply Hp|]. apply H2; assumption.
    - intros E. contradiction.
    - exact H.
  Qed.

  Lemma stage_ok_none good need d : stage_ok good need d -> is_ready content d = false -> mark d = None /\ ok_files good d.
  Proof. unfold stage_ok, is_ready. destruct (mark d); [discriminate|auto]. Qed.
  Lemma stage_ok_uptodate good need d : stage_ok good need d -> is_ready content d = true -> outdated content d = false ->
    finished good need d.
  Proof.
    unfold stage_ok, is_ready, outdated, finished. destruct (mark d) as [[m|]|]; try discriminate. intros H _ Ho.
    apply negb_false_iff, N.eqb_eq in Ho. subst m. destruct (H eq_refl). auto.
  Qed.
  Lemma ready_mark d : is_ready content d = true -> exists m, mark d = Some m.
  Proof. unfold is_ready. destruct (mark d); [eauto|discriminate]. Qed.
  Lemma times_mark s d : times_ok s d -> forall s', (clock s <= clock s')%N ->
    times_ok s' (set_mark content d (Some (Some (stamp d)))).
  Proof.
    intros [H1 H2] s' Hc. split; dfields; [lia|]. intros m E. injection E as <-. lia.
  Qed.
  Lemma times_unmark s d m0 : times_ok s d -> m0 = None \/ m0 = Some None ->
    forall s', (clock s <= clock s')%N -> times_ok s' (set_mark content d m0).
  Proof. intros [H1 H2] [-> | ->] s' Hc; (split; dfields; [lia|discriminate]). Qed.
  Lemma times_write s d d' : times_ok s d -> forall s', (clock s <= clock s')%N ->
    mark d' = mark d -> (stamp d' <= clock s')%N -> times_ok s' d'.
  Proof.
    intros [H1 H2] s' Hc Em Es. split; [lia|]. intros m E. rewrite Em in E. specialize (H2 m E). lia.
  Qed.
  Lemma times_clock s d : times_ok s d -> forall s', (clock s <= clock s')%N -> times_ok s' d.
  Proof. intros [H1 H2] s' Hc. split; [lia|]. intros m E. specialize (H2 m E). lia. Qed.

  Lemma ok_temp good d i v t : ok_files good d -> ok_files good (set_temp content d i v t).
  Proof. intros H. exact H. Qed.

  Lemma inv_step s s' : INV s -> step s s' -> INV s'.
  Proof.
    intros (T1 & T2 & NB & PH) Hst. destruct Hst as [s t s' Ht Hst].
    unfold phase_ok in PH.
    destruct Hst as [Hp Hr|Hp Hr Ho|Hp|Hp Hr Ho|i Hp Hi Hw He|i u Hu Hp Hi Hw He|i c u Hu Hp Hi Hw Hc|i Hp Hi Hw Hc|i u Hu Hp Hi Hw|Hp Ha|Hp|Hp Ha
      |Hp Hr|Hp Hr Ho|Hp|Hp Hr Ho|i Hp Hi Hw He|i c u Hu Hp Hi Hw He Hc|i Hp Hi Hw He Hc|i c u Hu Hp Hi Hw Hc|i c Hp Hi Hw Hc|i u Hu Hp Hi Hw
      |Hp Ha Hco|ls Hp Ha Hco Hls|e Hp Ha Hco He|ls Hp Hn Hls|v Hp Hn|Hp];
      rewrite Hp in PH; unfold INV.
    - destruct PH as [P1 P2]. destruct (stage_ok_none _ _ _ P1 Hr) as [M1 O1].
      split; [apply (times_clock s); [exact T1|exact Ht]|]. split; [apply (times_clock s); [exact T2|exact Ht]|].
      split; [apply (nb_same s); fields; auto; discriminate|]. unfold phase_ok. fields.
      split; [exact M1|]. split; [exact O1|]. split; [|exact P2]. intros j Hj. fields. exact Logic.I.
    - destruct PH as [P1 P2].
      split; [apply (times_write s (parsed s)); try assumption; try exact Ht; try reflexivity; try exact Hu; simpl; lia|]. split; [apply (times_clock s); [exact T2|exact Ht]|].
      split; [apply (nb_same s); fields; auto; discriminate|]. unfold phase_ok. fields.
      split; [dfields; apply ready_mark; exact Hr|]. split; [reflexivity|exact P2].
    - destruct PH as (P1 & P2 & P3).
      split; [apply (times_unmark s); [exact T1|auto|exact Ht]|]. split; [apply (times_clock s); [exact T2|exact Ht]|].
      split; [apply (nb_same s); fields; auto; discriminate|]. unfold phase_ok. fields.
      split; [reflexivity|]. split; [intros j Hj; left; apply P2|]. split; [|exact P3]. intros j Hj. fields. exact Logic.I.
    - destruct PH as [P1 P2].
      split; [apply (times_clock s); [exact T1|exact Ht]|]. split; [apply (times_clock s); [exact T2|exact Ht]|].
      split; [apply (nb_same s); fields; auto; discriminate|]. unfold phase_ok. fields.
      split; [|exact P2]. destruct (stage_ok_uptodate _ _ _ P1 Hr Ho) as (X & Y & Z). split; [right; exact X|split; assumption].
    - destruct PH as (P1 & P2 & P3 & P4).
      split; [apply (times_clock s); [exact T1|exact Ht]|]. split; [apply (times_clock s); [exact T2|exact Ht]|].
      split; [apply (nb_same s); fields; auto; congruence|]. unfold phase_ok. fields. rewrite Hp.
      split; [exact P1|]. split; [exact P2|]. split; [|exact P4]. intros j Hj. fields. specialize (P3 j Hj).
      destruct (Nat.eq_dec j i) as [->|Hji]; [rewrite upd_same; auto|rewrite upd_other by exact Hji; exact P3].
    - destruct PH as (P1 & P2 & P3 & P4).
      split; [apply (times_write s (parsed s)); try assumption; try exact Ht; try reflexivity; try exact Hu; simpl; lia|]. split; [apply (times_clock s); [exact T2|exact Ht]|].
      split; [apply (nb_same s); fields; auto; congruence|]. unfold phase_ok. fields. rewrite Hp.
      split; [exact P1|]. split; [exact P2|]. split; [|exact P4]. intros j Hj. fields. specialize (P3 j Hj).
      destruct (Nat.eq_dec j i) as [->|Hji]; [rewrite upd_same; exact Logic.I|rewrite upd_other by exact Hji].
      dfields. destruct (wk s j); auto. rewrite upd_other by exact Hji. exact P3.
    - destruct PH as (P1 & P2 & P3 & P4).
      split; [apply (times_write s (parsed s)); try assumption; try exact Ht; try reflexivity; try exact Hu; simpl; lia|]. split; [apply (times_clock s); [exact T2|exact Ht]|].
      split; [apply (nb_same s); fields; auto; congruence|]. unfold phase_ok. fields. rewrite Hp.
      split; [exact P1|]. split; [exact P2|]. split; [|exact P4]. intros j Hj. fields. specialize (P3 j Hj). dfields.
      destruct (Nat.eq_dec j i) as [->|Hji].
      + rewrite !upd_same. exists (parse c). split; [reflexivity|]. exists c. auto.
      + rewrite !upd_other by exact Hji. exact P3.
    - destruct PH as (P1 & P2 & P3 & P4).
      split; [apply (times_clock s); [exact T1|exact Ht]|]. split; [apply (times_clock s); [exact T2|exact Ht]|].
      split; [apply (nb_same s); fields; auto; congruence|]. unfold phase_ok. fields. rewrite Hp.
      split; [exact P1|]. split; [exact P2|]. split; [|exact P4]. intros j Hj. fields. specialize (P3 j Hj).
      destruct (Nat.eq_dec j i) as [->|Hji]; [rewrite upd_same; auto|rewrite upd_other by exact Hji; exact P3].
    - destruct PH as (P1 & P2 & P3 & P4).
      pose proof (P3 i Hi) as Pi. rewrite Hw in Pi. destruct Pi as (c & Ec & Hg).
      split; [apply (times_write s (parsed s)); try assumption; try exact Ht; try reflexivity; try exact Hu; simpl; lia|]. split; [apply (times_clock s); [exact T2|exact Ht]|].
      split; [apply (nb_same s); fields; auto; congruence|]. unfold phase_ok. fields. rewrite Hp.
      split; [exact P1|]. split; [eapply ok_files_dest; eauto|]. split; [|exact P4]. intros j Hj. fields. specialize (P3 j Hj).
      destruct (Nat.eq_dec j i) as [->|Hji].
      + rewrite upd_same. left. dfields. rewrite upd_same, Ec. reflexivity.
      + rewrite upd_other by exact Hji. dfields. rewrite !upd_other by exact Hji. exact P3.
    - destruct PH as (P1 & P2 & P3 & P4).
      split; [apply (times_unmark s); [exact T1|auto|exact Ht]|]. split; [apply (times_clock s); [exact T2|exact Ht]|].
      split; [apply (nb_same s); fields; auto; discriminate|]. unfold phase_ok. fields.
      split; [reflexivity|]. split; [exact P2|]. split; [|exact P4]. intros j Hj Hs. specialize (P3 j Hj). rewrite (Ha j Hj) in P3.
      destruct P3 as [X|X]; [exact X|contradiction].
    - destruct PH as (P1 & P2 & P3 & P4).
      split; [apply (times_mark s); [exact T1|exact Ht]|]. split; [apply (times_clock s); [exact T2|exact Ht]|].
      split; [apply (nb_same s); fields; auto; discriminate|]. unfold phase_ok. fields.
      split; [|exact P4]. split; [right; reflexivity|]. split; [exact P2|exact P3].
    - destruct PH as (P1 & P2 & P3 & P4).
      split; [apply (times_clock s); [exact T1|exact Ht]|]. split; [apply (times_clock s); [exact T2|exact Ht]|].
      split; [apply (nb_same s); fields; auto; discriminate|]. unfold phase_ok. fields.
      split; [|exact P4]. split; [left; exact P1|]. split; [exact P2|]. intros j Hj Hs. specialize (P3 j Hj). rewrite (Ha j Hj) in P3.
      destruct P3 as [X|X]; [exact X|contradiction].
    - destruct PH as [P1 P2]. destruct (stage_ok_none _ _ _ P2 Hr) as [M1 O1].
      split; [apply (times_clock s); [exact T1|exact Ht]|]. split; [apply (times_clock s); [exact T2|exact Ht]|].
      split; [apply (nb_same s); fields; auto; discriminate|]. unfold phase_ok. fields.
      split; [exact P1|]. split; [exact M1|]. split; [exact O1|]. split; [|reflexivity]. intros j Hj. fields. exact Logic.I.
    - destruct PH as [P1 P2].
      split; [apply (times_clock s); [exact T1|exact Ht]|]. split; [apply (times_write s (prep s)); try assumption; try exact Ht; try reflexivity; try exact Hu; simpl; lia|].
      split; [apply (nb_same s); fields; auto; [|discriminate]; intros j Hj E; discriminate E|]. unfold phase_ok. fields.
      split; [exact P1|]. split; [dfields; apply ready_mark; exact Hr|reflexivity].
    - destruct PH as (P1 & P2 & P3).
      split; [apply (times_clock s); [exact T1|exact Ht]|]. split; [apply (times_unmark s); [exact T2|auto|exact Ht]|].
      split; [apply (nb_same s); fields; auto; discriminate|]. unfold phase_ok. fields.
      split; [exact P1|]. split; [reflexivity|]. split; [intros j Hj; left; apply P3|]. split; [|reflexivity].
      intros j Hj. fields. exact Logic.I.
    - destruct PH as [P1 P2].
      split; [apply (times_clock s); [exact T1|exact Ht]|]. split; [apply (times_clock s); [exact T2|exact Ht]|].
      split; [apply (nb_same s); fields; auto; discriminate|]. unfold phase_ok. fields.
      split; [exact P1|]. apply stage_ok_uptodate; assumption.
    - destruct PH as (P1 & P2 & P3 & P4 & P5).
      split; [apply (times_clock s); [exact T1|exact Ht]|]. split; [apply (times_clock s); [exact T2|exact Ht]|].
      split; [apply (nb_same s); fields; auto; congruence|]. unfold phase_ok. fields. rewrite Hp.
      split; [exact P1|]. split; [exact P2|]. split; [exact P3|]. split; [|exact P5]. intros j Hj. fields. specialize (P4 j Hj).
      destruct (Nat.eq_dec j i) as [->|Hji]; [rewrite upd_same; auto|rewrite upd_other by exact Hji; exact P4].
    - destruct PH as (P1 & P2 & P3 & P4 & P5).
      split; [apply (times_clock s); [exact T1|exact Ht]|]. split; [apply (times_write s (prep s)); try assumption; try exact Ht; try reflexivity; try exact Hu; simpl; lia|].
      split; [apply (nb_same s); fields; auto; congruence|]. unfold phase_ok. fields. rewrite Hp.
      split; [exact P1|]. split; [exact P2|]. split; [exact P3|]. split; [|exact P5]. intros j Hj. fields. specialize (P4 j Hj).
      destruct (Nat.eq_dec j i) as [->|Hji].
      { rewrite upd_same. destruct P1 as (_ & O & _). destruct (O i Hi) as [E|(c' & E & x & Ex & _)]; [congruence|]. unfold has_source. congruence. }
      rewrite upd_other by exact Hji.
      dfields. destruct (wk s j); auto; rewrite upd_other by exact Hji; exact P4.
    - destruct PH as (P1 & P2 & P3 & P4 & P5).
      split; [apply (times_clock s); [exact T1|exact Ht]|]. split; [apply (times_clock s); [exact T2|exact Ht]|].
      split; [apply (nb_same s); fields; auto; discriminate|]. unfold phase_ok. fields.
      split; [exact P1|]. split; [exact P2|]. split; [exact P3|]. left. exists i. split; [exact Hi|].
      destruct P1 as (_ & O1 & C1). destruct (src i) as [x|] eqn:Ex; [exfalso|reflexivity].
      assert (has_source i) as Hs by (unfold has_source; congruence). specialize (C1 i Hi Hs).
      destruct (O1 i Hi) as [E|(c & E & _)]; [rewrite E in C1; discriminate|exact (Hc c E)].
    - destruct PH as (P1 & P2 & P3 & P4 & P5).
      assert (Hg : good_parsed i c).
      { destruct P1 as (_ & O & _). destruct (O i Hi) as [E|(c' & E & G)]; congruence. }
      split; [apply (times_clock s); [exact T1|exact Ht]|]. split; [apply (times_write s (prep s)); try assumption; try exact Ht; try reflexivity; try exact Hu; simpl; lia|].
      split; [apply (nb_same s); fields; auto; congruence|]. unfold phase_ok. fields. rewrite Hp.
      split; [exact P1|]. split; [exact P2|]. split; [exact P3|]. split; [|exact P5]. intros j Hj. fields. specialize (P4 j Hj).
      dfields. destruct (Nat.eq_dec j i) as [->|Hji].
      + rewrite !upd_same. exists (repr c). split; [reflexivity|]. destruct Hg as (x & Ex & ->). exists x. auto.
      + rewrite !upd_other by exact Hji. exact P4.
    - destruct PH as (P1 & P2 & P3 & P4 & P5).
      assert (Hg : good_parsed i c).
      { destruct P1 as (_ & O & _). destruct (O i Hi) as [E|(c' & E & G)]; congruence. }
      pose proof (P4 i Hi) as Pi. rewrite Hw in Pi.
      destruct (collect s) eqn:Hco.
      + split; [apply (times_clock s); [exact T1|exact Ht]|]. split; [apply (times_clock s); [exact T2|exact Ht]|].
        assert (Hin : forall j l, In l (parts s j) -> In l (upd (parts s) i (part_file (nonprocessable c) :: parts s i) j)).
        { intros j l Hl. destruct (Nat.eq_dec j i) as [->|Hji]; [rewrite upd_same; right; exact Hl|rewrite upd_other by exact Hji; exact Hl]. }
        split; [apply (nb_same s); fields; auto; congruence|]. unfold phase_ok. fields. rewrite Hp.
        split; [exact P1|]. split; [exact P2|]. split; [exact P3|]. split; [|congruence]. intros j Hj. fields. specialize (P4 j Hj).
        destruct (Nat.eq_dec j i) as [->|Hji].
        * rewrite upd_same. split; [exact Pi|]. intros _. exists c. split; [exact Hg|]. fields. rewrite upd_same. left. reflexivity.
        * rewrite upd_other by exact Hji. destruct (wk s j); auto. destruct P4 as [Q1 Q2]. split; [exact Q1|].
          intros _. apply (saved_mono s); [|auto]. intros l Hl. fields. apply Hin. exact Hl.
      + split; [apply (times_clock s); [exact T1|exact Ht]|]. split; [apply (times_clock s); [exact T2|exact Ht]|].
        split; [apply (nb_same s); fields; auto; congruence|]. unfold phase_ok. fields. rewrite Hp.
        split; [exact P1|]. split; [exact P2|]. split; [exact P3|]. split; [|congruence]. intros j Hj. fields. specialize (P4 j Hj).
        destruct (Nat.eq_dec j i) as [->|Hji].
        * rewrite upd_same. split; [exact Pi|]. congruence.
        * rewrite upd_other by exact Hji. destruct (wk s j); auto.
    - destruct PH as (P1 & P2 & P3 & P4 & P5).
      pose proof (P4 i Hi) as Pi. rewrite Hw in Pi. destruct Pi as ((c & Ec & Hg) & Hsv).
      split; [apply (times_clock s); [exact T1|exact Ht]|]. split; [apply (times_write s (prep s)); try assumption; try exact Ht; try reflexivity; try exact Hu; simpl; lia|].
      split.
      { unfold nb_ok in *. fields. dfields. destruct (nonbpe s) as [| |v] eqn:En.
        - intros Hb. destruct (NB Hb) as [N1 N2]. split; [exact N1|]. intros j Hj. destruct (Nat.eq_dec j i) as [->|Hji].
          + intros _. apply (saved_mono s); [auto|]. apply Hsv. rewrite P5, Hb. reflexivity.
          + rewrite upd_other by exact Hji. intros E. apply (saved_mono s); [auto|]. apply N2; assumption.
        - congruence.
        - exact NB. }
      unfold phase_ok. fields. rewrite Hp.
      split; [exact P1|]. split; [exact P2|]. split; [eapply ok_files_dest; eauto|]. split; [|exact P5]. intros j Hj. fields. specialize (P4 j Hj).
      destruct (Nat.eq_dec j i) as [->|Hji].
      + rewrite upd_same. dfields. rewrite upd_same, Ec. reflexivity.
      + rewrite upd_other by exact Hji. dfields. rewrite !upd_other by exact Hji. exact P4.
    - destruct PH as (P1 & P2 & P3 & P4 & P5).
      split; [apply (times_clock s); [exact T1|exact Ht]|]. split; [apply (times_unmark s); [exact T2|auto|exact Ht]|].
      split.
      { unfold nb_ok in *. fields. dfields. destruct (nonbpe s) as [| |v] eqn:En; [|discriminate|exact NB].
        intros Hb. rewrite Hb, Hco in P5. discriminate. }
      unfold phase_ok. fields. split; [exact P1|]. split; [reflexivity|]. split; [exact P3|].
      intros j Hj _. specialize (P4 j Hj). rewrite (Ha j Hj) in P4. exact P4.
    - destruct PH as (P1 & P2 & P3 & P4 & P5).
      assert (Hall : forall j, j < n -> exists_file (dest (prep s) j) = true).
      { intros j Hj. specialize (P4 j Hj). rewrite (Ha j Hj) in P4. exact P4. }
      split; [apply (times_clock s); [exact T1|exact Ht]|]. split; [apply (times_clock s); [exact T2|exact Ht]|].
      split.
      { unfold nb_ok. fields. intros _ j Hj. rewrite Hco in P5. symmetry in P5. apply andb_true_iff in P5. destruct P5 as [Hb Hm].
        unfold nb_ok in NB. destruct (nonbpe s) as [| |v]; [|discriminate|discriminate].
        apply (saved_mono s); [auto|]. apply (NB Hb); auto. }
      unfold phase_ok. fields. split; [exact P1|]. split; [exact P2|]. split; [exact P3|]. split; [exact Hall|]. split; [discriminate|]. exists ls. exact Hls.
    - destruct PH as (P1 & P2 & P3 & P4 & P5).
      split; [apply (times_clock s); [exact T1|exact Ht]|]. split; [apply (times_clock s); [exact T2|exact Ht]|].
      split; [apply (nb_same s); fields; auto; discriminate|]. unfold phase_ok. fields.
      split; [exact P1|]. split; [exact P2|]. split; [exact P3|]. right. intros [ls E]. fields. congruence.
    - destruct PH as (P1 & P2 & P3 & P4 & _ & P5). unfold nb_ok in NB. rewrite Hn in NB. specialize (NB Hp).
      split; [apply (times_clock s); [exact T1|exact Ht]|]. split; [apply (times_clock s); [exact T2|exact Ht]|].
      split.
      { unfold nb_ok. fields. split; [apply incl_appr, incl_refl|]. intros j x Hj Ex l Hl. apply in_app_iff. left.
        destruct (NB j Hj) as (c & (y & Ey & ->) & Hin).
        apply in_concat. exists (nonprocessable (parse y)). split; [|congruence].
        apply (mapM_in_ok _ _ _ (part_file (nonprocessable (parse y))) (nonprocessable (parse y)) Hls); [|apply load_part; apply tokens_valid].
        apply in_flat_map. exists j. split; [apply in_seq; lia|exact Hin]. }
      unfold phase_ok. fields. rewrite Hp. split; [exact P1|]. split; [exact P2|]. split; [exact P3|]. split; [exact P4|]. split; [discriminate|apply P5].
    - destruct PH as (P1 & P2 & P3 & P4 & P5).
      split; [apply (times_clock s); [exact T1|exact Ht]|]. split; [apply (times_unmark s); [exact T2|auto|exact Ht]|].
      split; [unfold nb_ok in *; fields; rewrite Hn in *; exact NB|].
      unfold phase_ok. fields. split; [exact P1|]. split; [reflexivity|]. split; [exact P3|]. intros j Hj _. apply P4. exact Hj.
    - destruct PH as (P1 & P2 & P3 & P4).
      split; [apply (times_clock s); [exact T1|exact Ht]|]. split; [apply (times_mark s); [exact T2|exact Ht]|].
      split.
      { unfold nb_ok in *. fields. dfields. destruct (nonbpe s) as [| |v] eqn:En; [|discriminate|exact NB].
        intros Hb. destruct (NB Hb). congruence. }
      unfold phase_ok. fields. split; [exact P1|]. split; [reflexivity|]. split; [exact P3|exact P4].
  Qed.

  Lemma finished_ok good need d : finished good need d -> stage_ok good need d.
  Proof. intros (H1 & H2 & H3). unfold stage_ok. rewrite H1. auto. Qed.

  Lemma settled_ok good need d : settled good need d -> stage_ok good need d.
  Proof. intros (M & O & C). unfold stage_ok. destruct M as [-> | ->]; auto. Qed.
  Lemma inv_restart s s' : INV s -> restart s s' -> INV s'.
  Proof.
    intros (T1 & T2 & NB & PH) Hr. destruct Hr as [s t junk Ht Hj].
    assert (Hle : (clock s <= t)%N) by lia.
    assert (X1 : times_ok (set_clock content s t) (recreated content (phase_eqb (ph s) MovedParsed) (parsed s) t)).
    { unfold recreated. destruct (phase_eqb (ph s) MovedParsed); [|apply (times_clock s); [exact T1|exact Hle]].
      apply (times_write s (parsed s)); [exact T1|exact Hle|reflexivity|simpl; lia]. }
    assert (X2 : times_ok (set_clock content s t) (recreated content (phase_eqb (ph s) MovedPrep) (prep s) t)).
    { unfold recreated. destruct (phase_eqb (ph s) MovedPrep); [|apply (times_clock s); [exact T2|exact Hle]].
      apply (times_write s (prep s)); [exact T2|exact Hle|reflexivity|simpl; lia]. }
    split; [exact X1|]. split; [exact X2|]. clear X1 X2. split.
    - apply (nb_same s); fields; auto.
      + left. unfold recreated. destruct (phase_eqb (ph s) MovedPrep); reflexivity.
      + intros i Hi He. left. revert He. unfold recreated. destruct (phase_eqb (ph s) MovedPrep); auto.
      + intros i l Hl. apply in_app_iff. auto.
      + discriminate.
    - unfold phase_ok. fields.
      assert (Out : forall d m, times_ok s d -> mark d = Some (Some m) -> m = t -> False).
      { intros d m [_ H] Hm ->. specialize (H _ Hm). lia. }
      unfold phase_ok in PH. destruct (ph s) eqn:Hp; cbn [phase_eqb recreated] in *.
      + exact PH.
      + destruct PH as ((m & Hm) & Hd & P3). split; [|exact P3]. unfold stage_ok. dfields. rewrite Hm.
        intros ->. exfalso. exact (Out (parsed s) t T1 Hm eq_refl).
      + destruct PH as (P1 & P2 & P3 & P4). split; [|exact P4]. unfold stage_ok. rewrite P1. exact P2.
      + destruct PH as (P1 & P2 & P3 & P4). split; [|exact P4]. unfold stage_ok. rewrite P1. discriminate.
      + destruct PH as (P1 & P2). split; [apply settled_ok; exact P1|exact P2].
      + destruct PH as (P1 & (m & Hm) & Hd). split; [apply settled_ok; exact P1|]. unfold stage_ok. dfields. rewrite Hm.
        intros ->. exfalso. exact (Out (prep s) t T2 Hm eq_refl).
      + destruct PH as (P1 & P2 & P3 & P4 & P5). split; [apply settled_ok; exact P1|]. unfold stage_ok. rewrite P2. exact P3.
      + destruct PH as (P1 & P2 & P3 & P4 & P5). split; [apply settled_ok; exact P1|]. unfold stage_ok. rewrite P2. exact P3.
      + destruct PH as (P1 & P2 & P3 & P4). split; [apply settled_ok; exact P1|]. unfold stage_ok. rewrite P2. discriminate.
      + destruct PH as (P1 & P2). split; [apply settled_ok; exact P1|apply finished_ok; exact P2].
      + destruct PH as (P1 & P2 & P3 & _). split; [apply settled_ok; exact P1|]. unfold stage_ok. rewrite P2. exact P3.
  Qed.

  Lemma fewer_ok good need d d' : fewer content d d' -> stage_ok good need d -> stage_ok good need d'.
  Proof.
    intros (Hf & Hm & Ho) H. unfold stage_ok. rewrite Hm. intros i Hi. destruct (Hf i) as [[E|E] _]; [|auto].
    destruct Ho as [Ho|Ho]; [|auto]. rewrite E. unfold stage_ok in H. unfold outdated in Ho.
    destruct (mark d) as [[m|]|] eqn:Em; [|discriminate|apply H, Hi].
    apply negb_false_iff, N.eqb_eq in Ho. subst m. destruct (H eq_refl) as [H1 _]. apply H1, Hi.
  Qed.
  Lemma inv_modified s s' : INV s -> modified s s' -> INV s'.
  Proof.
    intros (T1 & T2 & NB & PH) Hm.
    destruct Hm as [s d t Hp Hf Ht Hst|s d t Hp Hf Ht Hst|s m d t Hp Hm Hd Hs Ht Hst|s m d t Hp Hm Hd Hs Ht Hst].
    - unfold phase_ok in PH. rewrite Hp in PH. destruct PH as [P1 P2].
      split; [split; fields; [exact Hst|]; intros m' E; destruct Hf as (_ & Hd & _); congruence|].
      split; [apply (times_clock s); [exact T2|exact Ht]|].
      split; [apply (nb_same s); fields; auto; congruence|].
      unfold phase_ok. fields. rewrite Hp. split; [|exact P2]. apply (fewer_ok _ _ _ _ Hf P1).
    - unfold phase_ok in PH. rewrite Hp in PH. destruct PH as [P1 P2].
      split; [apply (times_clock s); [exact T1|exact Ht]|].
      split; [split; fields; [exact Hst|]; intros m' E; destruct Hf as (_ & Hd & _); congruence|].
      split.
      { unfold nb_ok in *. fields. destruct (nonbpe s) as [| |v]; [|congruence|exact NB].
        intros Hb. destruct (NB Hb) as [_ Hsv]. destruct Hf as (Hf & Hd & _). split; [exact Hd|]. intros i Hi He. apply Hsv; [exact Hi|].
        destruct (Hf i) as [[E|E] _]; rewrite E in He; [exact He|discriminate]. }
      unfold phase_ok. fields. rewrite Hp. split; [exact P1|]. apply (fewer_ok _ _ _ _ Hf P2).
    - unfold phase_ok in PH. rewrite Hp in PH. destruct PH as [P1 P2].
      split; [split; fields; [exact Hst|]; intros m' E; destruct T1 as [_ T1]; rewrite Hd in E; rewrite E in Hm; specialize (T1 m' Hm); lia|].
      split; [apply (times_clock s); [exact T2|exact Ht]|].
      split; [apply (nb_same s); fields; auto; congruence|].
      unfold phase_ok. fields. rewrite Hp. split; [|exact P2]. unfold stage_ok. rewrite Hd. intros E. congruence.
    - unfold phase_ok in PH. rewrite Hp in PH. destruct PH as [P1 P2].
      split; [apply (times_clock s); [exact T1|exact Ht]|].
      split; [split; fields; [exact Hst|]; intros m' E; destruct T2 as [_ T2]; rewrite Hd in E; rewrite E in Hm; specialize (T2 m' Hm); lia|].
      split.
      { unfold nb_ok in *. fields. destruct (nonbpe s) as [| |v]; [|congruence|exact NB].
        intros Hb. destruct (NB Hb). congruence. }
      unfold phase_ok. fields. rewrite Hp. split; [exact P1|]. unfold stage_ok. rewrite Hd. intros E. congruence.
  Qed.

  Lemma inv_reach_mod s : reach_mod s -> INV s.
  Proof.
    induction 1 as [t|s s' _ IH H|s s' _ IH H|s s' _ IH H]; [apply inv_initial|eapply inv_step; eauto|eapply inv_restart; eauto|eapply inv_modified; eauto].
  Qed.

  (** without modifications all files are right at any time *)
  Lemma files_step s s' : INV s -> step s s' ->
    ok_files good_parsed (parsed s) /\ ok_files good_prep (prep s) ->
    ok_files good_parsed (parsed s') /\ ok_files good_prep (prep s').
  Proof.
    intros (T1 & T2 & NB & PH) Hst [F1 F2]. destruct Hst as [s t s' Ht Hst]. unfold phase_ok in PH.
    destruct Hst as [Hp Hr|Hp Hr Ho|Hp|Hp Hr Ho|i Hp Hi Hw He|i u Hu Hp Hi Hw He|i c u Hu Hp Hi Hw Hc|i Hp Hi Hw Hc|i u Hu Hp Hi Hw|Hp Ha|Hp|Hp Ha
      |Hp Hr|Hp Hr Ho|Hp|Hp Hr Ho|i Hp Hi Hw He|i c u Hu Hp Hi Hw He Hc|i Hp Hi Hw He Hc|i c u Hu Hp Hi Hw Hc|i c Hp Hi Hw Hc|i u Hu Hp Hi Hw
      |Hp Ha Hco|ls Hp Ha Hco Hls|e Hp Ha Hco He|ls Hp Hn Hls|v Hp Hn|Hp];
      rewrite Hp in PH; fields; try (split; [exact F1|exact F2]).
    - split; [|exact F2]. intros j Hj. left. reflexivity.
    - split; [|exact F2]. destruct PH as (_ & _ & P3 & _). specialize (P3 i Hi). rewrite Hw in P3. destruct P3 as (c & Ec & Hg).
      apply (ok_files_dest good_parsed (parsed s) i c); assumption.
    - split; [exact F1|]. intros j Hj. left. reflexivity.
    - destruct (collect s); split; [exact F1|exact F2|exact F1|exact F2].
    - split; [exact F1|]. destruct PH as (_ & _ & _ & P4 & _). specialize (P4 i Hi). rewrite Hw in P4. destruct P4 as ((c & Ec & Hg) & _).
      apply (ok_files_dest good_prep (prep s) i c); assumption.
  Qed.
  Lemma files_reach s : reach s -> INV s /\ ok_files good_parsed (parsed s) /\ ok_files good_prep (prep s).
  Proof.
    induction 1 as [t|s s' _ [I F] H|s s' _ [I F] H].
    - split; [apply inv_initial|]. split; intros i _; left; reflexivity.
    - split; [eapply inv_step; eauto|eapply files_step; eauto].
    - split; [eapply inv_restart; eauto|]. destruct H as [s t junk Ht Hj]. fields. unfold recreated.
      destruct (phase_eqb (ph s) MovedParsed), (phase_eqb (ph s) MovedPrep); exact F.
  Qed.

  (** C50: At any time every output file is missing or has exactly the content belonging to its source file. *)
  Theorem C50_atomic s i : reach s -> i < n ->
    (dest (parsed s) i = Missing \/ exists x, src i = Some x /\ dest (parsed s) i = Full (parse x)) /\
    (dest (prep s) i = Missing \/ exists x, src i = Some x /\ dest (prep s) i = Full (repr (parse x))).
  Proof.
    intros H Hi. destruct (files_reach s H) as (_ & F1 & F2). split.
    - destruct (F1 i Hi) as [E|(c & E & x & Ex & ->)]; eauto.
    - destruct (F2 i Hi) as [E|(c & E & x & Ex & ->)]; eauto.
  Qed.

  (** C50, C52: When a run ends regularly, after any history of interrupted runs and noticeable changes of the
      output directories, all output files are there and right. *)
  Theorem C50_result s i : reach_mod s -> ph s = Done -> i < n ->
    exists x, src i = Some x /\ dest (parsed s) i = Full (parse x) /\ dest (prep s) i = Full (repr (parse x)).
  Proof.
    intros H Hd Hi. destruct (inv_reach_mod s H) as (_ & _ & _ & PH). unfold phase_ok in PH. rewrite Hd in PH.
    destruct PH as ((_ & O1 & C1) & (_ & O2 & C2)). specialize (C2 i Hi Logic.I).
    destruct (O2 i Hi) as [E|(c & E & x & Ex & ->)]; [rewrite E in C2; discriminate|]. exists x. split; [exact Ex|]. split; [|exact E].
    assert (has_source i) as Hs by (unfold has_source; congruence). specialize (C1 i Hi Hs).
    destruct (O1 i Hi) as [E1|(c1 & E1 & x1 & Ex1 & ->)]; [rewrite E1 in C1; discriminate|]. congruence.
  Qed.

  (** temporary files: there is none beside a finished file *)
  Definition tidy (d : stage) : Prop := forall i, exists_file (dest d i) = true -> temp d i = Missing.
  Definition at_work (w : worker) : bool := match w with Idle | Finished => false | _ => true end.
  Definition TIDY (s : state) : Prop :=
    tidy (parsed s) /\ tidy (prep s) /\
    (ph s = Parsing -> forall i, at_work (wk s i) = true -> exists_file (dest (parsed s) i) = false) /\
    (ph s = Prepping -> forall i, at_work (wk s i) = true -> exists_file (dest (prep s) i) = false).
  Lemma tidy_temp d i v t : tidy d -> exists_file (dest d i) = false -> tidy (set_temp content d i v t).
  Proof.
    intros H E j Hj. dfields. unfold upd. destruct (Nat.eqb_spec j i) as [->|]; [congruence|]. apply H, Hj.
  Qed.
  Lemma tidy_dest d i v t : tidy d -> tidy (set_dest content d i v t).
  Proof.
    intros H j. dfields. unfold upd. destruct (Nat.eqb_spec j i) as [E|E]; [reflexivity|]. apply H.
  Qed.
  Lemma at_work_upd (w : nat -> worker) (P : nat -> Prop) i v :
    (forall j, at_work (w j) = true -> P j) -> (at_work v = true -> P i) -> forall j, at_work (upd w i v j) = true -> P j.
  Proof. intros H Hv j. unfold upd. destruct (Nat.eqb_spec j i) as [->|]; auto. Qed.
  Lemma at_work_dest (w : nat -> worker) d i v t :
    (forall j, at_work (w j) = true -> exists_file (dest d j) = false) ->
    forall j, at_work (upd w i Finished j) = true -> exists_file (dest (set_dest content d i v t) j) = false.
  Proof. intros H j. dfields. unfold upd. destruct (Nat.eqb_spec j i) as [->|]; [discriminate|auto]. Qed.
  Lemma tidy_step s s' : TIDY s -> step s s' -> TIDY s'.
  Proof.
    intros (T1 & T2 & B1 & B2) Hst. destruct Hst as [s t s' Ht Hst].
    destruct Hst as [Hp Hr|Hp Hr Ho|Hp|Hp Hr Ho|i Hp Hi Hw He|i u Hu Hp Hi Hw He|i c u Hu Hp Hi Hw Hc|i Hp Hi Hw Hc|i u Hu Hp Hi Hw|Hp Ha|Hp|Hp Ha
      |Hp Hr|Hp Hr Ho|Hp|Hp Hr Ho|i Hp Hi Hw He|i c u Hu Hp Hi Hw He Hc|i Hp Hi Hw He Hc|i c u Hu Hp Hi Hw Hc|i c Hp Hi Hw Hc|i u Hu Hp Hi Hw
      |Hp Ha Hco|ls Hp Ha Hco Hls|e Hp Ha Hco He|ls Hp Hn Hls|v Hp Hn|Hp];
      unfold TIDY; fields;
      try (split; [first [exact T1|intros j Hj; reflexivity]|]; split; [first [exact T2|intros j Hj; reflexivity]|]; split;
           first [discriminate|intros _ j Hj; discriminate Hj]; fail).
    - split; [exact T1|]. split; [exact T2|]. split; [intros _|rewrite Hp; discriminate]. apply at_work_upd; [auto|discriminate].
    - split; [apply tidy_temp; assumption|]. split; [exact T2|]. split; [intros _|rewrite Hp; discriminate]. apply at_work_upd; [exact (B1 Hp)|intros _; exact He].
    - assert (E : exists_file (dest (parsed s) i) = false) by (apply (B1 Hp); rewrite Hw; reflexivity).
      split; [apply tidy_temp; assumption|]. split; [exact T2|]. split; [intros _|rewrite Hp; discriminate]. apply at_work_upd; [exact (B1 Hp)|intros _; exact E].
    - split; [exact T1|]. split; [exact T2|]. split; [intros _|rewrite Hp; discriminate]. apply at_work_upd; [auto|discriminate].
    - split; [apply tidy_dest; assumption|]. split; [exact T2|]. split; [intros _|rewrite Hp; discriminate]. apply at_work_dest. exact (B1 Hp).
    - split; [exact T1|]. split; [exact T2|]. split; [rewrite Hp; discriminate|intros _]. apply at_work_upd; [auto|discriminate].
    - split; [exact T1|]. split; [apply tidy_temp; assumption|]. split; [rewrite Hp; discriminate|intros _]. apply at_work_upd; [exact (B2 Hp)|intros _; exact He].
    - assert (E : exists_file (dest (prep s) i) = false) by (apply (B2 Hp); rewrite Hw; reflexivity).
      split; [exact T1|]. split; [apply tidy_temp; assumption|]. split; [rewrite Hp; discriminate|intros _]. apply at_work_upd; [exact (B2 Hp)|intros _; exact E].
    - assert (E : exists_file (dest (prep s) i) = false) by (apply (B2 Hp); rewrite Hw; reflexivity).
      destruct (collect s); fields; (split; [exact T1|]; split; [exact T2|]; split; [rewrite Hp; discriminate|intros _]; apply at_work_upd; [exact (B2 Hp)|intros _; exact E]).
    - split; [exact T1|]. split; [apply tidy_dest; assumption|]. split; [rewrite Hp; discriminate|intros _]. apply at_work_dest. exact (B2 Hp).
    - split; [exact T1|]. split; [exact T2|]. split; rewrite Hp; discriminate.
  Qed.
  Lemma tidy_reach s : reach s -> TIDY s.
  Proof.
    induction 1 as [t|s s' _ IH H|s s' _ IH H].
    - split; [intros i _; reflexivity|]. split; [intros i _; reflexivity|]. split; discriminate.
    - eapply tidy_step; eassumption.
    - destruct IH as (T1 & T2 & _). destruct H as [s t junk Ht Hj]. unfold TIDY. fields. unfold recreated.
      split; [destruct (phase_eqb (ph s) MovedParsed); exact T1|]. split; [destruct (phase_eqb (ph s) MovedPrep); exact T2|]. split; discriminate.
  Qed.

  (** C50: What interrupted runs have left half written is gone when a run ends regularly. *)
  Theorem C50_no_temporary s i : reach s -> ph s = Done -> i < n ->
    temp (parsed s) i = Missing /\ temp (prep s) i = Missing.
  Proof.
    intros H Hd Hi. destruct (tidy_reach s H) as (T1 & T2 & _). destruct (files_reach s H) as [(_ & _ & _ & PH) _].
    unfold phase_ok in PH. rewrite Hd in PH. destruct PH as ((_ & _ & C1) & (_ & O2 & C2)). specialize (C2 i Hi Logic.I).
    destruct (O2 i Hi) as [E|(c & E & x & Ex & _)]; [rewrite E in C2; discriminate|].
    assert (has_source i) as Hs by (unfold has_source; congruence). split; [apply T1, (C1 i Hi Hs)|apply T2, C2].
  Qed.

  (** C50: If a file disappeared, the run cannot end regularly: the missing parsed file is an exception. *)
  Theorem C50_missing_refuted s i : reach_mod s -> i < n -> src i = None -> ph s <> Done.
  Proof. intros H Hi Hs Hd. destruct (C50_result s i H Hd Hi) as (x & Ex & _). congruence. Qed.

  (** Termination *)
  Definition work (w : worker) : nat := match w with Idle => 4 | Opened => 3 | Written => 2 | Saved => 1 | Finished => 0 end.
  Definition total (w : nat -> worker) : nat := list_sum (map (fun i => work (w i)) (seq 0 n)).
  Definition level (p : phase) : nat :=
    match p with Start => 9 | MovedParsed => 8 | Parsing => 7 | MarkParsed => 6 | PrepCheck => 5 | MovedPrep => 4 | Prepping => 3
    | Gathering => 2 | MarkPrep => 1 | Done => 0 | Failed => 0 end.
  Definition extra (s : state) : nat :=
    match ph s with
    | Parsing | Prepping => total (wk s)
    | Gathering => match nonbpe s with Partial => 1 | _ => 0 end
    | _ => 0
    end.
  Definition measure (s : state) : nat := level (ph s) * (4 * n + 2) + extra s.

  Lemma total_le_aux (w : nat -> worker) l : list_sum (map (fun i => work (w i)) l) <= 4 * List.length l.
  Proof. induction l as [|a l IH]; simpl; [lia|]. destruct (w a); simpl; lia. Qed.
  Lemma total_le w : total w <= 4 * n.
  Proof. unfold total. pose proof (total_le_aux w (seq 0 n)) as H. rewrite seq_length in H. exact H. Qed.
  Lemma total_upd_aux (w : nat -> worker) i v l : NoDup l ->
    list_sum (map (fun j => work (upd w i v j)) l) + (if in_dec Nat.eq_dec i l then work (w i) else 0)
    = list_sum (map (fun j => work (w j)) l) + (if in_dec Nat.eq_dec i l then work v else 0).
  Proof.
    induction 1 as [|a l Ha Hl IH]; [reflexivity|]. cbn [map list_sum fold_right].
    destruct (Nat.eq_dec i a) as [<-|Hn].
    - rewrite upd_same. destruct (in_dec Nat.eq_dec i l) as [X|_]; [contradiction|].
      destruct (in_dec Nat.eq_dec i (i :: l)) as [_|X]; [|exfalso; apply X; left; reflexivity].
      change (fold_right Nat.add 0) with list_sum. lia.
    - rewrite upd_other by congruence. change (fold_right Nat.add 0) with list_sum.
      destruct (in_dec Nat.eq_dec i l) as [X|X]; destruct (in_dec Nat.eq_dec i (a :: l)) as [Y|Y].
      + lia.
      + exfalso. apply Y. right. exact X.
      + destruct Y; [congruence|contradiction].
      + lia.
  Qed.
  Lemma total_upd w i v : i < n -> total (upd w i v) + work (w i) = total w + work v.
  Proof.
    intros Hi. pose proof (total_upd_aux w i v (seq 0 n) (seq_NoDup n 0)) as H.
    destruct (in_dec Nat.eq_dec i (seq 0 n)) as [_|X]; [exact H|]. exfalso. apply X. apply in_seq. lia.
  Qed.

  Lemma measure_step s s' : step s s' -> measure s' < measure s.
  Proof.
    intros Hst. destruct Hst as [s t s' Ht Hst].
    pose proof (total_le (wk s)) as Ls. pose proof (total_le all_idle) as Li.
    destruct Hst as [Hp Hr|Hp Hr Ho|Hp|Hp Hr Ho|i Hp Hi Hw He|i u Hu Hp Hi Hw He|i c u Hu Hp Hi Hw Hc|i Hp Hi Hw Hc|i u Hu Hp Hi Hw|Hp Ha|Hp|Hp Ha
      |Hp Hr|Hp Hr Ho|Hp|Hp Hr Ho|i Hp Hi Hw He|i c u Hu Hp Hi Hw He Hc|i Hp Hi Hw He Hc|i c u Hu Hp Hi Hw Hc|i c Hp Hi Hw Hc|i u Hu Hp Hi Hw
      |Hp Ha Hco|ls Hp Ha Hco Hls|e Hp Ha Hco He|ls Hp Hn Hls|v Hp Hn|Hp];
      unfold measure, extra; rewrite ?Hp; fields; rewrite ?Hp; cbn [level];
      try (pose proof (total_upd (wk s) i Finished Hi)); try (pose proof (total_upd (wk s) i Opened Hi));
      try (pose proof (total_upd (wk s) i Written Hi)); try (pose proof (total_upd (wk s) i Saved Hi));
      rewrite ?Hw in *; cbn [work] in *; try lia.
    - destruct (collect s); fields; rewrite ?Hp; cbn [level]; lia.
    - rewrite Hn. lia.
  Qed.

  (** C50: Every uninterrupted run ends. *)
  Theorem C50_terminates s : Acc (fun a b => step b a) s.
  Proof.
    remember (measure s) as k eqn:Hk. revert s Hk. induction (lt_wf k) as [k _ IH]. intros s ->.
    constructor. intros s' Hst. apply (IH (measure s')); [|reflexivity]. apply measure_step. exact Hst.
  Qed.

  Lemma stuck s : reach_mod s -> (forall s', ~ step s s') ->
    ph s = Done \/ ph s = Failed /\ ((exists i, i < n /\ src i = None) \/ ~ readable s).
  Proof.
    intros H Hno. destruct (inv_reach_mod s H) as (_ & _ & NB & PH). unfold phase_ok in PH.
    assert (No : forall s', ~ step_at (clock s) s s').
    { intros s' X. apply (Hno (set_clock content s' (clock s))). constructor; [lia|exact X]. }
    destruct (ph s) eqn:Hp; [exfalso|exfalso|exfalso|exfalso|exfalso|exfalso|exfalso|exfalso|exfalso|left; reflexivity|right].
    + destruct (is_ready content (parsed s)) eqn:Hr; [|eapply No, parsed_not_ready; eauto].
      destruct (outdated content (parsed s)) eqn:Ho; [eapply No, parsed_outdated; eauto|eapply No, parsed_up_to_date; eauto].
    + eapply No, parsed_marker_moved; eauto.
    + assert (forall i, i < n -> wk s i = Finished) as Hall.
      { intros i Hi. destruct PH as (_ & _ & P3 & _). specialize (P3 i Hi). destruct (wk s i) eqn:Hw; [exfalso|exfalso|exfalso|contradiction|reflexivity].
        - destruct (exists_file (dest (parsed s) i)) eqn:He; [eapply No, parse_skip; eauto|eapply No; eapply parse_open with (u := clock s); eauto; lia].
        - destruct (src i) as [x|] eqn:Ex; [eapply No; eapply parse_write with (u := clock s); eauto; lia|eapply No, parse_no_source; eauto].
        - eapply No; eapply parse_rename with (u := clock s); eauto; lia. }
      eapply No, parse_end; eauto.
    + eapply No, parse_marked; eauto.
    + destruct (is_ready content (prep s)) eqn:Hr; [|eapply No, prep_not_ready; eauto].
      destruct (outdated content (prep s)) eqn:Ho; [eapply No, prep_outdated; eauto|eapply No, prep_up_to_date; eauto].
    + eapply No, prep_marker_moved; eauto.
    + destruct PH as ((_ & O1 & C1) & _ & O2 & P4 & _).
      assert (forall i, i < n -> has_source i -> exists c, dest (parsed s) i = Full c) as Hpar.
      { intros i Hi Hs. specialize (C1 i Hi Hs). destruct (O1 i Hi) as [E|(c & E & _)]; [rewrite E in C1; discriminate|eauto]. }
      assert (forall i, i < n -> wk s i = Finished) as Hall.
      { intros i Hi. specialize (P4 i Hi). destruct (wk s i) eqn:Hw; [exfalso|exfalso|exfalso|exfalso|reflexivity].
        - destruct (exists_file (dest (prep s) i)) eqn:He; [eapply No, prep_skip; eauto|].
          destruct (O1 i Hi) as [E|(c & E & _)]; [eapply No, prep_unreadable; eauto; intros c; rewrite E; discriminate|].
          eapply No; eapply prep_open with (u := clock s); eauto; lia.
        - destruct (Hpar i Hi P4) as [c E]. eapply No; eapply prep_write with (u := clock s); eauto; lia.
        - destruct P4 as (c & _ & x & Ex & _). assert (has_source i) as Hs by (unfold has_source; congruence).
          destruct (Hpar i Hi Hs) as [c' E]. eapply No, prep_save; eauto.
        - eapply No; eapply prep_rename with (u := clock s); eauto; lia. }
      destruct (collect s) eqn:Hco; [|eapply No, prep_end; eauto].
      destruct (mapM load_vocab_set (flat_map (parts s) (seq 0 n))) eqn:El; [eapply No, prep_gather; eauto|eapply No, prep_gather_error; eauto].
    + destruct PH as (_ & _ & _ & _ & Hnb & ls & Hls). destruct (nonbpe s) as [| |v] eqn:En; [contradiction|eapply No, gather_write; eauto|eapply No, gather_end; eauto].
    + eapply No, prep_marked; eauto.
    + destruct PH as (_ & _ & _ & E). auto.
  Qed.

  (** runs that were never killed while a part of the non-bpe vocabulary was being written *)
  Inductive reach_clean : state -> Prop :=
  | clean_initial t : reach_clean (initial content t)
  | clean_step s s' : reach_clean s -> step s s' -> reach_clean s'
  | clean_restart s s' : reach_clean s -> restart s s' -> (forall i, parts s' i = parts s i) -> reach_clean s'
  | clean_modified s s' : reach_clean s -> modified s s' -> reach_clean s'.

  Definition parts_good (s : state) : Prop :=
    forall i f, In f (parts s i) -> i < n /\ exists x, src i = Some x /\ f = part_file (nonprocessable (parse x)).
  Lemma clean_reach s : reach_clean s -> reach_mod s.
  Proof. induction 1; [apply reach_mod_initial|eapply reach_mod_step; eauto|eapply reach_mod_restart; eauto|eapply reach_mod_modified; eauto]. Qed.
  Lemma step_parts s s' : INV s -> step s s' -> forall i f, In f (parts s' i) -> In f (parts s i) \/
    i < n /\ exists x, src i = Some x /\ f = part_file (nonprocessable (parse x)).
  Proof.
    intros (T1 & T2 & NB & PH) Hst. destruct Hst as [s t s' Ht Hst]. unfold phase_ok in PH.
    destruct Hst as [Hp Hr|Hp Hr Ho|Hp|Hp Hr Ho|i Hp Hi Hw He|i u Hu Hp Hi Hw He|i c u Hu Hp Hi Hw Hc|i Hp Hi Hw Hc|i u Hu Hp Hi Hw|Hp Ha|Hp|Hp Ha
      |Hp Hr|Hp Hr Ho|Hp|Hp Hr Ho|i Hp Hi Hw He|i c u Hu Hp Hi Hw He Hc|i Hp Hi Hw He Hc|i c u Hu Hp Hi Hw Hc|i c Hp Hi Hw Hc|i u Hu Hp Hi Hw
      |Hp Ha Hco|ls Hp Ha Hco Hls|e Hp Ha Hco He|ls Hp Hn Hls|v Hp Hn|Hp];
      rewrite Hp in PH; fields; intros j f Hf; auto.
    - destruct (collect s); fields; auto. destruct (Nat.eq_dec j i) as [->|Hji].
      + rewrite upd_same in Hf. destruct Hf as [<-|Hf]; [|auto]. right. split; [exact Hi|].
        destruct PH as ((_ & O1 & _) & _). destruct (O1 i Hi) as [E|(c' & E & x & Ex & ->)]; [congruence|].
        exists x. split; [exact Ex|]. congruence.
      + rewrite upd_other in Hf by exact Hji. auto.
    - contradiction.
  Qed.
  Lemma clean_parts s : reach_clean s -> parts_good s.
  Proof.
    induction 1 as [t|s s' Hc IH H|s s' Hc IH H Hpa|s s' Hc IH H].
    - intros i f [].
    - intros i f Hf. destruct (step_parts s s' (inv_reach_mod s (clean_reach s Hc)) H i f Hf) as [X|X]; [apply IH; exact X|exact X].
    - intros i f Hf. rewrite Hpa in Hf. apply IH. exact Hf.
    - destruct H; intros i f Hf; apply IH; exact Hf.
  Qed.
  Lemma clean_readable s : reach_clean s -> readable s.
  Proof.
    intros H. apply mapM_total. intros f Hf. apply in_flat_map in Hf. destruct Hf as (i & _ & Hf).
    destruct (clean_parts s H i f Hf) as (_ & x & _ & ->). eexists. apply load_part. apply tokens_valid.
  Qed.

  (** C50: ... and with all source files there it ends regularly, after any number of interrupted runs. *)
  Theorem C50_finish s : reach_clean s -> (forall i, i < n -> src i <> None) -> (forall s', ~ step s s') -> ph s = Done.
  Proof.
    intros H Hs Hno. destruct (stuck s (clean_reach s H) Hno) as [X|[_ [(i & Hi & E)|X]]]; [exact X|destruct (Hs i Hi E)|].
    destruct (X (clean_readable s H)).
  Qed.

  (** C52: A second run on finished output changes nothing, if caching was not suppressed. *)
  Inductive run : state -> state -> Prop :=
  | run_nil s : run s s
  | run_step s s1 s2 : run s s1 -> step s1 s2 -> run s s2.

  Theorem C52_second_run s s1 s2 : reach_mod s -> ph s = Done -> mark (parsed s) <> None -> restart s s1 -> run s1 s2 ->
    parsed s2 = parsed s /\ prep s2 = prep s /\ nonbpe s2 = nonbpe s /\ forall i, parts s2 i = parts s i.
  Proof.
    intros H Hd Hmk Hr Hrun. destruct (inv_reach_mod s H) as (_ & _ & _ & PH). unfold phase_ok in PH. rewrite Hd in PH.
    destruct PH as (([M1|M1] & _) & (M2 & _)); [contradiction|].
    enough ((ph s2 = Start \/ ph s2 = PrepCheck \/ ph s2 = Done) /\
            parsed s2 = parsed s /\ prep s2 = prep s /\ nonbpe s2 = nonbpe s /\ forall i, parts s2 i = parts s i) by tauto.
    induction Hrun as [s1|s1 sa sb Hrun IH Hst].
    - destruct Hr as [s t junk Ht Hj]. fields. rewrite Hd. cbn [phase_eqb recreated]. repeat split; auto.
      intros i. destruct (Hj i) as [->|(E & _)]; [reflexivity|congruence].
    - specialize (IH Hr). destruct IH as (Hp0 & E1 & E2 & E3 & E4). destruct Hst as [sa t sb Ht Hst].
      assert (R1 : is_ready content (parsed sa) = true /\ outdated content (parsed sa) = false).
      { rewrite E1. unfold is_ready, outdated. rewrite M1. rewrite N.eqb_refl. auto. }
      assert (R2 : is_ready content (prep sa) = true /\ outdated content (prep sa) = false).
      { rewrite E2. unfold is_ready, outdated. rewrite M2. rewrite N.eqb_refl. auto. }
      destruct R1 as [R1 R1']. destruct R2 as [R2 R2'].
      destruct Hst as [Hp ?|Hp ? ?|Hp|Hp ? ?|i Hp|i u Hu Hp|i c u Hu Hp|i Hp|i u Hu Hp|Hp|Hp|Hp
        |Hp ?|Hp ? ?|Hp|Hp ? ?|i Hp|i c u Hu Hp|i Hp|i c u Hu Hp|i c Hp|i u Hu Hp|Hp|ls Hp|e Hp|ls Hp|v Hp|Hp];
        rewrite Hp in Hp0; destruct Hp0 as [X|[X|X]]; try discriminate X; try congruence; fields; auto 7.
  Qed.

  (** C81: After a run that ended regularly no run computes anything for any file, whether caching is suppressed in
      any of them or not. *)
  Theorem C81_reused_refuted s s1 s2 : reach_mod s -> ph s = Done -> restart s s1 -> run s1 s2 ->
    (forall i, i < n -> dest (parsed s2) i = dest (parsed s) i /\ (wk s2 i = Idle \/ wk s2 i = Finished \/ ph s2 = Start \/ ph s2 = PrepCheck \/ ph s2 = Done))
    /\ prep s2 = prep s /\ nonbpe s2 = nonbpe s /\ ph s2 <> Prepping /\ ph s2 <> Gathering.
  Proof.
    intros H Hd Hr Hrun. destruct (inv_reach_mod s H) as (_ & _ & _ & PH). unfold phase_ok in PH. rewrite Hd in PH.
    destruct PH as ((M1 & O1 & C1) & (M2 & O2 & C2)).
    assert (Ex : forall i, i < n -> exists_file (dest (parsed s) i) = true).
    { intros i Hi. destruct (C50_result s i H Hd Hi) as (x & _ & E & _). rewrite E. reflexivity. }
    enough (J : (ph s2 = Start \/ ph s2 = PrepCheck \/ ph s2 = Done \/
                (ph s2 = Parsing \/ ph s2 = MarkParsed) /\ forall i, i < n -> wk s2 i = Idle \/ wk s2 i = Finished) /\
            (forall i, i < n -> dest (parsed s2) i = dest (parsed s) i) /\ prep s2 = prep s /\ nonbpe s2 = nonbpe s /\
            (ph s2 <> MarkParsed -> mark (parsed s2) = None \/ mark (parsed s2) = Some (Some (stamp (parsed s2))))).
    { destruct J as (P & D & E2 & E3 & _). split; [|split; [exact E2|split; [exact E3|split; intuition congruence]]].
      intros i Hi. split; [apply D, Hi|]. destruct P as [P|[P|[P|[_ W]]]]; auto. destruct (W i Hi); auto. }
    induction Hrun as [s1|s1 sa sb Hrun IH Hst].
    - destruct Hr as [s t junk Ht Hj]. fields. rewrite Hd. cbn [phase_eqb recreated]. split; [auto|]. split; [auto|]. split; [auto|]. split; [auto|].
      intros _. exact M1.
    - specialize (IH Hr). destruct IH as (Hp0 & E1 & E2 & E3 & E4). destruct Hst as [sa t sb Ht Hst].
      assert (R2 : is_ready content (prep sa) = true /\ outdated content (prep sa) = false).
      { rewrite E2. unfold is_ready, outdated. rewrite M2. rewrite N.eqb_refl. auto. }
      destruct R2 as [R2 R2'].
      assert (U : ph sa <> MarkParsed -> outdated content (parsed sa) = false).
      { intros X. unfold outdated. destruct (E4 X) as [-> | ->]; [reflexivity|rewrite N.eqb_refl; reflexivity]. }
      destruct Hst as [Hp Hr2|Hp Hr2 Ho|Hp|Hp Hr2 Ho|i Hp Hi Hw He|i u Hu Hp Hi Hw He|i c u Hu Hp Hi Hw Hc|i Hp Hi Hw Hc|i u Hu Hp Hi Hw|Hp Ha|Hp|Hp Ha
        |Hp Hr2|Hp Hr2 Ho|Hp|Hp Hr2 Ho|i Hp|i c u Hu Hp|i Hp|i c u Hu Hp|i c Hp|i u Hu Hp|Hp|ls Hp|e Hp|ls Hp|v Hp|Hp];
        rewrite Hp in Hp0, E4, U;
        (destruct Hp0 as [X|[X|[X|[[X|X] W]]]]; try discriminate X);
        try (rewrite U in Ho by discriminate; discriminate Ho); try congruence; fields.
      + split; [right; right; right; split; [auto|]; intros j Hj; left; reflexivity|]. split; [exact E1|]. split; [exact E2|]. split; [exact E3|]. intros _. apply E4. discriminate.
      + split; [auto|]. split; [exact E1|]. split; [exact E2|]. split; [exact E3|]. intros _. apply E4. discriminate.
      + split; [right; right; right; split; [rewrite Hp; auto|]|].
        { intros j Hj. destruct (Nat.eq_dec j i) as [->|Hji]; [rewrite upd_same; auto|rewrite upd_other by exact Hji; apply W, Hj]. }
        split; [exact E1|]. split; [exact E2|]. split; [exact E3|]. intros _. apply E4. discriminate.
      + exfalso. rewrite (E1 i Hi), (Ex i Hi) in He. discriminate.
      + exfalso. destruct (W i Hi); congruence.
      + exfalso. destruct (W i Hi); congruence.
      + exfalso. destruct (W i Hi); congruence.
      + split; [right; right; right; split; [auto|]; intros j Hj; right; apply Ha, Hj|]. split; [exact E1|]. split; [exact E2|]. split; [exact E3|]. intros Z. congruence.
      + split; [auto|]. split; [exact E1|]. split; [exact E2|]. split; [exact E3|]. intros _. right. reflexivity.
      + split; [auto|]. split; [exact E1|]. split; [exact E2|]. split; [exact E3|]. intros _. apply E4. discriminate.
      + split; [auto|]. split; [exact E1|]. split; [exact E2|]. split; [exact E3|]. intros _. apply E4. discriminate.
  Qed.

  (** C81: Whether a run with suppressed caching ends or another one: all files are there and right, of any mixture of runs. *)
  Theorem C81_result s i : reach_mod s -> ph s = Done -> i < n ->
    (mark (parsed s) = None \/ mark (parsed s) = Some (Some (stamp (parsed s)))) /\ mark (prep s) = Some (Some (stamp (prep s))) /\
    exists x, src i = Some x /\ dest (parsed s) i = Full (parse x) /\ dest (prep s) i = Full (repr (parse x)).
  Proof.
    intros H Hd Hi. pose proof (C50_result s i H Hd Hi) as R. destruct (inv_reach_mod s H) as (_ & _ & _ & PH). unfold phase_ok in PH.
    rewrite Hd in PH. destruct PH as ((M1 & _) & (M2 & _)). auto.
  Qed.

  (** While the output file is there, nothing is written for its source again. *)
  Definition busy (w : worker) : Prop := w = Opened \/ w = Written \/ w = Saved.
  Definition quiet (s : state) : Prop := forall i,
    (ph s = Parsing -> busy (wk s i) -> dest (parsed s) i = Missing) /\
    (ph s = Prepping -> busy (wk s i) -> dest (prep s) i = Missing).
  Lemma not_busy_idle : ~ busy Idle.
  Proof. intros [H|[H|H]]; discriminate. Qed.
  Lemma not_busy_finished : ~ busy Finished.
  Proof. intros [H|[H|H]]; discriminate. Qed.
  Lemma not_exists {A} (f : ofile A) : exists_file f = false -> f = Missing.
  Proof. destruct f; [reflexivity|discriminate|discriminate]. Qed.
  Lemma quiet_step s s' : quiet s -> step s s' -> quiet s'.
  Proof.
    intros Q Hst. destruct Hst as [s t s' Ht Hst].
    destruct Hst as [Hp Hr|Hp Hr Ho|Hp|Hp Hr Ho|i Hp Hi Hw He|i u Hu Hp Hi Hw He|i c u Hu Hp Hi Hw Hc|i Hp Hi Hw Hc|i u Hu Hp Hi Hw|Hp Ha|Hp|Hp Ha
      |Hp Hr|Hp Hr Ho|Hp|Hp Hr Ho|i Hp Hi Hw He|i c u Hu Hp Hi Hw He Hc|i Hp Hi Hw He Hc|i c u Hu Hp Hi Hw Hc|i c Hp Hi Hw Hc|i u Hu Hp Hi Hw
      |Hp Ha Hco|ls Hp Ha Hco Hls|e Hp Ha Hco He|ls Hp Hn Hls|v Hp Hn|Hp];
      intros j; pose proof (Q j) as [Q1 Q2]; fields; rewrite ?Hp; split; intros Hph; try discriminate Hph; try congruence; intros Hb; dfields.
    all: try (exfalso; exact (not_busy_idle Hb)).
    all: try (destruct (Nat.eq_dec j i) as [->|Hji]; [|rewrite upd_other in Hb by exact Hji; rewrite ?upd_other by exact Hji]).
    all: try (rewrite upd_same in Hb; exfalso; exact (not_busy_finished Hb)).
    all: auto using not_exists.
    - apply Q1; [exact Hp|]. rewrite Hw. left. reflexivity.
    - apply Q2; [exact Hp|]. rewrite Hw. left. reflexivity.
    - destruct (collect s); fields; congruence.
    - destruct (collect s); fields; congruence.
    - destruct (collect s); fields; apply Q2; auto; rewrite Hw; right; left; reflexivity.
    - destruct (collect s); fields; auto.
  Qed.

  Lemma quiet_reach s : reach_mod s -> quiet s.
  Proof.
    induction 1 as [t|s s' _ IH H|s s' _ IH H|s s' _ IH H].
    - intros i. split; discriminate.
    - eapply quiet_step; eauto.
    - destruct H. intros i. split; discriminate.
    - destruct H; intros i; fields; split; congruence.
  Qed.
  (** C52: An output file that is there is not computed again. *)
  Theorem C52_once s i : reach_mod s ->
    (ph s = Parsing -> dest (parsed s) i <> Missing -> wk s i = Idle \/ wk s i = Finished) /\
    (ph s = Prepping -> dest (prep s) i <> Missing -> wk s i = Idle \/ wk s i = Finished).
  Proof.
    intros H. destruct (quiet_reach s H i) as [Q1 Q2]. unfold busy in *.
    split; intros Hp Hd; [specialize (Q1 Hp)|specialize (Q2 Hp)]; destruct (wk s i); auto; exfalso; apply Hd; auto.
  Qed.

  (** histories in which no run is killed between opening and writing a marker *)
  Inductive calm : state -> Prop :=
  | calm_initial t : calm (initial content t)
  | calm_step s s' : calm s -> step s s' -> calm s'
  | calm_restart s s' : calm s -> ph s <> MarkParsed -> ph s <> MarkPrep -> restart s s' -> calm s'.
  Definition marks_ok (s : state) : Prop :=
    ph s <> MovedParsed /\ ph s <> MovedPrep /\
    (mark (parsed s) = None \/ mark (parsed s) = Some (Some (stamp (parsed s))) \/ ph s = MarkParsed) /\
    (mark (prep s) = None \/ mark (prep s) = Some (Some (stamp (prep s))) \/ ph s = MarkPrep).
  Lemma calm_reach s : calm s -> reach s.
  Proof. induction 1; [apply reach_initial|eapply reach_step; eauto|eapply reach_restart; eauto]. Qed.
  Lemma reach_reach_mod s : reach s -> reach_mod s.
  Proof. induction 1; [apply reach_mod_initial|eapply reach_mod_step; eauto|eapply reach_mod_restart; eauto]. Qed.
  Lemma not_outdated d : mark d = None \/ mark d = Some (Some (stamp d)) -> outdated content d = false.
  Proof. unfold outdated. intros [-> | ->]; [reflexivity|]. rewrite N.eqb_refl. reflexivity. Qed.
  Lemma marks_step s s' : INV s -> marks_ok s -> step s s' -> marks_ok s'.
  Proof.
    intros (_ & _ & _ & PH) (N1 & N2 & M1 & M2) Hst. destruct Hst as [s t s' Ht Hst]. unfold phase_ok in PH.
    destruct Hst as [Hp Hr|Hp Hr Ho|Hp|Hp Hr Ho|i Hp Hi Hw He|i u Hu Hp Hi Hw He|i c u Hu Hp Hi Hw Hc|i Hp Hi Hw Hc|i u Hu Hp Hi Hw|Hp Ha|Hp|Hp Ha
      |Hp Hr|Hp Hr Ho|Hp|Hp Hr Ho|i Hp Hi Hw He|i c u Hu Hp Hi Hw He Hc|i Hp Hi Hw He Hc|i c u Hu Hp Hi Hw Hc|i c Hp Hi Hw Hc|i u Hu Hp Hi Hw
      |Hp Ha Hco|ls Hp Ha Hco Hls|e Hp Ha Hco He|ls Hp Hn Hls|v Hp Hn|Hp];
      rewrite Hp in *; try congruence; unfold marks_ok; if_collect s; fields; dfields;
      try (rewrite not_outdated in Ho by intuition congruence); try (exfalso; discriminate Ho);
      (split; [congruence|split; [congruence|]]); rewrite ?Hp; split; auto;
      try (destruct M1 as [X|[X|X]]; [left; exact X|right; left; exact X|discriminate X]);
      try (destruct M2 as [X|[X|X]]; [left; exact X|right; left; exact X|discriminate X]);
      left; apply PH.
  Qed.
  Lemma calm_marks s : calm s -> marks_ok s.
  Proof.
    induction 1 as [t|s s' Hc IH H|s s' Hc IH H1 H2 H].
    - repeat split; try discriminate; left; reflexivity.
    - eapply marks_step; eauto. apply inv_reach_mod, reach_reach_mod, calm_reach. exact Hc.
    - destruct IH as (N1 & N2 & M1 & M2). destruct H as [s t junk Ht Hj]. unfold marks_ok. fields.
      assert (phase_eqb (ph s) MovedParsed = false) as -> by (destruct (ph s); try reflexivity; congruence).
      assert (phase_eqb (ph s) MovedPrep = false) as -> by (destruct (ph s); try reflexivity; congruence).
      cbn [recreated]. repeat split; try discriminate; tauto.
  Qed.

  (** C52: Finished output files stay as they are: they are neither thrown away nor replaced by something else. *)
  Theorem C52_kept s s' i c : calm s -> calm s' -> step s s' \/ restart s s' -> i < n ->
    (dest (parsed s) i = Full c -> dest (parsed s') i = Full c) /\ (dest (prep s) i = Full c -> dest (prep s') i = Full c).
  Proof.
    intros H H' Hst Hi. destruct (calm_marks s H) as (N1 & N2 & M1 & M2).
    pose proof (quiet_reach s (reach_reach_mod s (calm_reach s H)) i) as [Q1 Q2]. destruct Hst as [Hst|Hr].
    - destruct Hst as [s t s' Ht Hst].
      destruct Hst as [Hp Hr|Hp Hr Ho|Hp|Hp Hr Ho|j Hp Hj Hw He|j u Hu Hp Hj Hw He|j x u Hu Hp Hj Hw Hc|j Hp Hj Hw Hc|j u Hu Hp Hj Hw|Hp Ha|Hp|Hp Ha
        |Hp Hr|Hp Hr Ho|Hp|Hp Hr Ho|j Hp Hj Hw He|j x u Hu Hp Hj Hw He Hc|j Hp Hj Hw He Hc|j x u Hu Hp Hj Hw Hc|j x Hp Hj Hw Hc|j u Hu Hp Hj Hw
        |Hp Ha Hco|ls Hp Ha Hco Hls|e Hp Ha Hco He|ls Hp Hn Hls|v Hp Hn|Hp];
        if_collect s; fields; dfields; auto.
      + rewrite not_outdated in Ho by intuition congruence. discriminate.
      + split; [|auto]. intros E. destruct (Nat.eq_dec i j) as [->|Hij]; [|rewrite upd_other by exact Hij; exact E].
        rewrite Hw in Q1. unfold busy in Q1. rewrite Q1 in E by auto. discriminate.
      + rewrite not_outdated in Ho by intuition congruence. discriminate.
      + split; [auto|]. intros E. destruct (Nat.eq_dec i j) as [->|Hij]; [|rewrite upd_other by exact Hij; exact E].
        rewrite Hw in Q2. unfold busy in Q2. rewrite Q2 in E by auto. discriminate.
    - destruct Hr as [s t junk Ht Hj]. fields. unfold recreated.
      destruct (phase_eqb (ph s) MovedParsed), (phase_eqb (ph s) MovedPrep); auto.
  Qed.

  (** C52: If the output of a stage has been changed noticeably, it is moved away and computed again. *)
  Theorem C52_outdated s s1 s2 i : reach_mod s -> modified s s1 -> run s1 s2 -> ph s2 = Done -> i < n ->
    exists x, src i = Some x /\ dest (parsed s2) i = Full (parse x) /\ dest (prep s2) i = Full (repr (parse x)).
  Proof.
    intros H Hm Hr Hd Hi. apply C50_result; [|exact Hd|exact Hi].
    assert (reach_mod s1) as H1 by (eapply reach_mod_modified; eauto). clear Hd Hm H s. revert H1.
    induction Hr as [s1|s1 sa sb _ IH Hst]; [auto|]. intros H1. eapply reach_mod_step; [apply IH; exact H1|exact Hst].
  Qed.

  (** C62: The non-bpe vocabulary, when it has been written, contains the special tokens of all files, also of the
      files preprocessed in earlier, interrupted runs; without a kill during the writing of a part it contains
      nothing else. *)
  Theorem C62_complete s v : reach_mod s -> nonbpe s = Full v ->
    incl placeholder_tokens v /\ forall i x, i < n -> src i = Some x -> incl (nonprocessable (parse x)) v.
  Proof.
    intros H E. destruct (inv_reach_mod s H) as (_ & _ & NB & _). unfold nb_ok in NB. rewrite E in NB. exact NB.
  Qed.
  Theorem C62_exact s v t : reach_clean s -> nonbpe s = Full v -> In t v ->
    In t placeholder_tokens \/ exists i x, i < n /\ src i = Some x /\ In t (nonprocessable (parse x)).
  Proof.
    intros H. revert v t. induction H as [t0|s s' Hc IH H|s s' Hc IH H Hpa|s s' Hc IH H]; intros v t E Hin.
    - discriminate.
    - pose proof (clean_parts s Hc) as PG. destruct H as [s t1 s' Ht Hst].
      destruct Hst as [Hp Hr|Hp Hr Ho|Hp|Hp Hr Ho|i Hp Hi Hw He|i u Hu Hp Hi Hw He|i c u Hu Hp Hi Hw Hc0|i Hp Hi Hw Hc0|i u Hu Hp Hi Hw|Hp Ha|Hp|Hp Ha
        |Hp Hr|Hp Hr Ho|Hp|Hp Hr Ho|i Hp Hi Hw He|i c u Hu Hp Hi Hw He Hc0|i Hp Hi Hw He Hc0|i c u Hu Hp Hi Hw Hc0|i c Hp Hi Hw Hc0|i u Hu Hp Hi Hw
        |Hp Ha Hco|ls Hp Ha Hco Hls|e Hp Ha Hco He|ls Hp Hn Hls|v0 Hp Hn|Hp];
        if_collect s; fields; try (eapply IH; eauto; fail).
      + destruct (collect s); fields; eapply IH; eauto.
      + discriminate.
      + injection E as <-. apply in_app_iff in Hin. destruct Hin as [Hin|Hin]; [right|left; exact Hin].
        apply in_concat in Hin. destruct Hin as (l & Hl & Hin). destruct (mapM_in _ _ _ _ Hls Hl) as (f & Hf & Ef).
        apply in_flat_map in Hf. destruct Hf as (i & _ & Hf). destruct (PG i f Hf) as (Hi & x & Ex & ->).
        rewrite load_part in Ef by apply tokens_valid. injection Ef as <-. eauto.
    - destruct H. fields. eapply IH; eauto.
    - destruct H; fields; eapply IH; eauto.
  Qed.
  (** ... and it is there after a regular end with base bpe codes, except for a file left by a kill while the
      vocabulary itself was being written. *)
  Theorem C62_there s : reach_mod s -> base_bpe = true -> ph s = Done -> nonbpe s <> Missing.
  Proof.
    intros H Hb Hd E. destruct (inv_reach_mod s H) as (_ & _ & NB & PH). unfold nb_ok in NB. rewrite E in NB.
    unfold phase_ok in PH. rewrite Hd in PH. destruct PH as (_ & M & _). destruct (NB Hb). congruence.
  Qed.

  (** One possible run, for examples *)
  Definition next_worker (w : nat -> worker) : option nat := find (fun i => negb (match w i with Finished => true | _ => false end)) (seq 0 n).
  Definition next_at (s : state) : option state :=
    let t := clock s in
    match ph s with
    | Start => if is_ready content (parsed s)
               then if outdated content (parsed s)
                    then Some (set_parsed content (set_ph content s MovedParsed) (moved content (parsed s) t))
                    else Some (set_ph content s PrepCheck)
               else Some (set_wk content (set_ph content s Parsing) all_idle)
    | MovedParsed => Some (set_parsed content (set_wk content (set_ph content s Parsing) all_idle) (set_mark content (parsed s) None))
    | Parsing => match next_worker (wk s) with
                 | None => Some (set_parsed content (set_ph content s MarkParsed) (set_mark content (parsed s) (Some None)))
                 | Some i => match wk s i with
                   | Idle => if exists_file (dest (parsed s) i) then Some (set_wk content s (upd (wk s) i Finished))
                             else Some (set_wk content (set_parsed content s (set_temp content (parsed s) i Partial t)) (upd (wk s) i Opened))
                   | Opened => match src i with
                               | Some c => Some (set_wk content (set_parsed content s (set_temp content (parsed s) i (Full (parse c)) t)) (upd (wk s) i Written))
                               | None => Some (set_wk content s (upd (wk s) i Finished))
                               end
                   | Written => Some (set_wk content (set_parsed content s (set_dest content (parsed s) i (temp (parsed s) i) t)) (upd (wk s) i Finished))
                   | _ => None
                   end
                 end
    | MarkParsed => Some (set_parsed content (set_ph content s PrepCheck) (set_mark content (parsed s) (Some (Some (stamp (parsed s))))))
    | PrepCheck => if is_ready content (prep s)
                   then if outdated content (prep s)
                        then Some (set_prep content (set_ph content s MovedPrep) (moved content (prep s) t))
                        else Some (set_ph content s Done)
                   else Some (set_collect content (set_wk content (set_ph content s Prepping) all_idle) (base_bpe && negb (exists_file (nonbpe s))))
    | MovedPrep => Some (set_prep content (set_collect content (set_wk content (set_ph content s Prepping) all_idle) (base_bpe && negb (exists_file (nonbpe s))))
                     (set_mark content (prep s) None))
    | Prepping => match next_worker (wk s) with
                  | None => if collect s
                            then match mapM load_vocab_set (flat_map (parts s) (seq 0 n)) with
                                 | Ok _ => Some (set_nonbpe content (set_ph content s Gathering) Partial)
                                 | Err _ => Some (set_ph content s Failed)
                                 end
                            else Some (set_prep content (set_ph content s MarkPrep) (set_mark content (prep s) (Some None)))
                  | Some i => match wk s i with
                    | Idle => if exists_file (dest (prep s) i) then Some (set_wk content s (upd (wk s) i Finished))
                              else match dest (parsed s) i with
                                   | Full _ => Some (set_wk content (set_prep content s (set_temp content (prep s) i Partial t)) (upd (wk s) i Opened))
                                   | _ => Some (set_ph content s Failed)
                                   end
                    | Opened => match dest (parsed s) i with
                                | Full c => Some (set_wk content (set_prep content s (set_temp content (prep s) i (Full (repr c)) t)) (upd (wk s) i Written))
                                | _ => None
                                end
                    | Written => match dest (parsed s) i with
                                 | Full c => Some (set_wk content (if collect s then set_parts content s (upd (parts s) i (part_file (nonprocessable c) :: parts s i)) else s)
                                                    (upd (wk s) i Saved))
                                 | _ => None
                                 end
                    | Saved => Some (set_wk content (set_prep content s (set_dest content (prep s) i (temp (prep s) i) t)) (upd (wk s) i Finished))
                    | Finished => None
                    end
                  end
    | Gathering => match nonbpe s with
                   | Partial => match mapM load_vocab_set (flat_map (parts s) (seq 0 n)) with
                                | Ok ls => Some (set_nonbpe content s (Full (List.concat ls ++ placeholder_tokens)))
                                | Err _ => None
                                end
                   | Full _ => Some (set_prep content (set_parts content (set_ph content s MarkPrep) (fun _ => [])) (set_mark content (prep s) (Some None)))
                   | Missing => None
                   end
    | MarkPrep => Some (set_prep content (set_ph content s Done) (set_mark content (prep s) (Some (Some (stamp (prep s))))))
    | Done | Failed => None
    end.
  Lemma next_at_step s s' : next_at s = Some s' -> step_at (clock s) s s'.
  Proof.
    assert (W : forall w, match next_worker w with Some i => i < n /\ w i <> Finished | None => forall i, i < n -> w i = Finished end).
    { intros w. unfold next_worker. destruct (find _ _) as [i|] eqn:E.
      - apply find_some in E. destruct E as [E1 E2]. apply in_seq in E1. split; [lia|]. intros X. rewrite X in E2. discriminate.
      - intros i Hi. assert (In i (seq 0 n)) as Hin by (apply in_seq; lia). pose proof (find_none _ _ E i Hin) as X. simpl in X.
        destruct (w i); try discriminate. reflexivity. }
    specialize (W (wk s)). unfold next_at. intros E. destruct (ph s) eqn:Hp.
    - destruct (is_ready content (parsed s)) eqn:Hr; [destruct (outdated content (parsed s)) eqn:Ho|]; injection E as <-.
      + apply parsed_outdated; auto.
      + apply parsed_up_to_date; auto.
      + apply parsed_not_ready; auto.
    - injection E as <-. apply parsed_marker_moved; auto.
    - destruct (next_worker (wk s)) as [i|].
      + destruct W as [Hi Hw]. destruct (wk s i) eqn:Hwi; try discriminate.
        * destruct (exists_file (dest (parsed s) i)) eqn:He; injection E as <-; [apply parse_skip; auto|apply parse_open; auto; lia].
        * destruct (src i) as [c|] eqn:Ec; injection E as <-; [eapply parse_write; eauto; lia|apply parse_no_source; auto].
        * injection E as <-. apply parse_rename; auto; lia.
      + injection E as <-. apply parse_end; auto.
    - injection E as <-. apply parse_marked; auto.
    - destruct (is_ready content (prep s)) eqn:Hr; [destruct (outdated content (prep s)) eqn:Ho|]; injection E as <-.
      + apply prep_outdated; auto.
      + apply prep_up_to_date; auto.
      + apply prep_not_ready; auto.
    - injection E as <-. apply prep_marker_moved; auto.
    - destruct (next_worker (wk s)) as [i|].
      + destruct W as [Hi Hw]. destruct (wk s i) eqn:Hwi; try discriminate.
        * destruct (exists_file (dest (prep s) i)) eqn:He; [injection E as <-; apply prep_skip; auto|].
          destruct (dest (parsed s) i) as [| |c] eqn:Ec; injection E as <-.
          -- eapply prep_unreadable; eauto. intros c. rewrite Ec. discriminate.
          -- eapply prep_unreadable; eauto. intros c. rewrite Ec. discriminate.
          -- eapply prep_open; eauto; lia.
        * destruct (dest (parsed s) i) as [| |c] eqn:Ec; try discriminate. injection E as <-. eapply prep_write; eauto; lia.
        * destruct (dest (parsed s) i) as [| |c] eqn:Ec; try discriminate. injection E as <-. eapply prep_save; eauto.
        * injection E as <-. apply prep_rename; auto; lia.
      + destruct (collect s) eqn:Hco.
        * destruct (mapM load_vocab_set (flat_map (parts s) (seq 0 n))) eqn:El; injection E as <-; [eapply prep_gather; eauto|eapply prep_gather_error; eauto].
        * injection E as <-. apply prep_end; auto.
    - destruct (nonbpe s) as [| |v] eqn:En; [discriminate| |].
      + destruct (mapM load_vocab_set (flat_map (parts s) (seq 0 n))) eqn:El; [|discriminate]. injection E as <-. eapply gather_write; eauto.
      + injection E as <-. eapply gather_end; eauto.
    - injection E as <-. apply prep_marked; auto.
    - discriminate.
    - discriminate.
  Qed.
  (** at most k operations, all in the current second *)
  Fixpoint go (k : nat) (s : state) : state :=
    match k with 0 => s | S k => match next_at s with Some s' => go k (set_clock content s' (clock s)) | None => s end end.
  Lemma go_run k s : run s (go k s).
  Proof.
    assert (C : forall a b, step a b -> forall c, run b c -> run a c).
    { intros a b Hab c Hbc. induction Hbc as [b|b x y _ IH Hxy]; [eapply run_step; [apply run_nil|exact Hab]|eapply run_step; [apply IH; exact Hab|exact Hxy]]. }
    revert s. induction k as [|k IH]; intros s; [apply run_nil|]. simpl. destruct (next_at s) as [s'|] eqn:E; [|apply run_nil].
    eapply C; [|apply IH]. constructor; [lia|]. apply next_at_step. exact E.
  Qed.
  Lemma run_reach s s' : run s s' -> reach s -> reach s'.
  Proof. induction 1 as [s|s a b _ IH Hst]; [auto|]. intros H. eapply reach_step; [apply IH; exact H|exact Hst]. Qed.
  (** the kill of all processes and a new start in second t, with the parts given as left over *)
  Definition again (t : N) (junk : nat -> list str) (s : state) : state :=
    set_clock content (set_ph content (set_parts content (set_prep content (set_parsed content s
      (recreated content (phase_eqb (ph s) MovedParsed) (parsed s) t))
      (recreated content (phase_eqb (ph s) MovedPrep) (prep s) t))
      (fun i => junk i ++ parts s i)) Start) t.
  Lemma again_restart t s : (clock s < t)%N -> restart s (again t (fun _ => []) s).
  Proof. intros H. apply restart_intro; [exact H|]. intros i. left. reflexivity. Qed.

  (** everything that can happen later, without changes from outside *)
  Inductive later : state -> state -> Prop :=
  | later_nil s : later s s
  | later_step s s1 s2 : later s s1 -> step s1 s2 -> later s s2
  | later_restart s s1 s2 : later s s1 -> restart s1 s2 -> later s s2.
  Lemma later_inv s s' : later s s' -> INV s -> INV s'.
  Proof.
    induction 1 as [s|s a b _ IH H|s a b _ IH H]; intros I; [exact I|eapply inv_step; [apply IH; exact I|exact H]|eapply inv_restart; [apply IH; exact I|exact H]].
  Qed.
  Lemma partial_forever s s' : later s s' -> INV s -> nonbpe s = Partial -> ph s <> Gathering -> nonbpe s' = Partial /\ ph s' <> Gathering.
  Proof.
    induction 1 as [s|s a b Hl IH H|s a b Hl IH H]; intros I Hn Hp; [auto| |].
    - destruct (IH I Hn Hp) as [Hn' Hp']. pose proof (later_inv s a Hl I) as (_ & _ & _ & PH). destruct H as [sa t sb Ht Hst]. unfold phase_ok in PH.
      destruct Hst as [Hq Hr|Hq Hr Ho|Hq|Hq Hr Ho|i Hq Hi Hw He|i u Hu Hq Hi Hw He|i c u Hu Hq Hi Hw Hc|i Hq Hi Hw Hc|i u Hu Hq Hi Hw|Hq Ha|Hq|Hq Ha
        |Hq Hr|Hq Hr Ho|Hq|Hq Hr Ho|i Hq Hi Hw He|i c u Hu Hq Hi Hw He Hc|i Hq Hi Hw He Hc|i c u Hu Hq Hi Hw Hc|i c Hq Hi Hw Hc|i u Hu Hq Hi Hw
        |Hq Ha Hco|ls Hq Ha Hco Hls|e Hq Ha Hco He|ls Hq Hn2 Hls|v Hq Hn2|Hq]; rewrite Hq in PH; if_collect sa; fields; try (split; [assumption|congruence]).
      + exfalso. destruct PH as (_ & _ & _ & _ & Hc). rewrite Hn' in Hc. simpl in Hc. rewrite andb_false_r in Hc. congruence.
      + congruence.
    - destruct (IH I Hn Hp) as [Hn' _]. destruct H. fields. split; [exact Hn'|discriminate].
  Qed.

  Lemma mapM_all {A B} (f : A -> res B) l r x : mapM f l = Ok r -> In x l -> exists y, f x = Ok y.
  Proof.
    revert r. induction l as [|a l IH]; intros r H []; simpl in H; destruct (f a) as [b|] eqn:E; try discriminate; simpl in H;
      destruct (mapM f l) as [t|]; try discriminate.
    - subst a. eauto.
    - eauto.
  Qed.
  Definition broken (s : state) : Prop :=
    nonbpe s = Missing /\ (exists i f e, i < n /\ In f (parts s i) /\ load_vocab_set f = Err e) /\
    ph s <> Gathering /\ ph s <> MarkPrep /\ ph s <> Done.
  Lemma broken_forever s s' : base_bpe = true -> later s s' -> INV s -> broken s -> broken s'.
  Proof.
    intros Hb Hl I. induction Hl as [s|s a b Hl IH H|s a b Hl IH H]; intros B; [exact B| |].
    - destruct (IH I B) as (Bn & (k & f & e0 & Hk & Hf & He0) & B1 & B2 & B3).
      pose proof (later_inv s a Hl I) as (_ & _ & NB & PH). destruct H as [sa t sb Ht Hst].
      unfold nb_ok in NB. rewrite Bn in NB. destruct (NB Hb) as [M _]. unfold phase_ok in PH.
      assert (X : exists i f e, i < n /\ In f (parts sa i) /\ load_vocab_set f = Err e) by eauto 7.
      destruct Hst as [Hq Hr|Hq Hr Ho|Hq|Hq Hr Ho|i Hq Hi Hw He|i u Hu Hq Hi Hw He|i c u Hu Hq Hi Hw Hc|i Hq Hi Hw Hc|i u Hu Hq Hi Hw|Hq Ha|Hq|Hq Ha
        |Hq Hr|Hq Hr Ho|Hq|Hq Hr Ho|i Hq Hi Hw He|i c u Hu Hq Hi Hw He Hc|i Hq Hi Hw He Hc|i c u Hu Hq Hi Hw Hc|i c Hq Hi Hw Hc|i u Hu Hq Hi Hw
        |Hq Ha Hco|ls Hq Ha Hco Hls|e Hq Ha Hco He|ls Hq Hn2 Hls|v Hq Hn2|Hq]; rewrite Hq in PH; try (exfalso; congruence); unfold broken; fields; rewrite ?Hq;
        try (split; [exact Bn|]; split; [exact X|]; repeat split; congruence).
      + unfold is_ready in Hr. rewrite M in Hr. discriminate.
      + destruct (collect sa); fields; rewrite ?Hq; (split; [exact Bn|]); (split; [|repeat split; congruence]); [|exact X].
        exists k, f, e0. split; [exact Hk|]. split; [|exact He0]. destruct (Nat.eq_dec k i) as [->|Hki].
        * rewrite upd_same. right. exact Hf.
        * rewrite upd_other by exact Hki. exact Hf.
      + exfalso. destruct PH as (_ & _ & _ & _ & Hc). rewrite Hb, Bn in Hc. simpl in Hc. congruence.
      + exfalso. destruct (mapM_all _ _ _ f Hls) as [y Ey]; [|congruence]. apply in_flat_map. exists k. split; [apply in_seq; lia|exact Hf].
    - destruct (IH I B) as (Bn & (k & f & e0 & Hk & Hf & He0) & B1 & B2 & B3). destruct H. unfold broken. fields.
      split; [exact Bn|]. split; [|repeat split; discriminate]. exists k, f, e0. split; [exact Hk|]. split; [|exact He0].
      apply in_app_iff. right. exact Hf.
  Qed.
End Inv.

(** ** Concrete histories: two files, one of them with a backslash token *)
Section Two.
  Definition two_src (i : nat) : option str := match i with 0 => Some (lit "a") | 1 => Some (lit "b") | _ => None end.
  Definition two_parse (c : str) : str := c ++ lit "!".
  Definition two_repr (c : str) : str := c ++ lit "?".
  Definition two_special (c : str) : list str := if eqb c (lit "a!") then [lit "\x"; lit "yy"] else [].
  Definition two_holders : list str := [lit "<p>"].
  Lemma two_special_valid c : Forall valid_str (two_special c).
  Proof.
    unfold two_special. destruct (eqb c (lit "a!")); [|constructor].
    apply Forall_cons; [|apply Forall_cons; [|apply Forall_nil]]; unfold valid_str; simpl;
      repeat (apply Forall_cons; [lia|]); apply Forall_nil.
  Qed.
  Definition two_go := go str 2 two_src two_parse two_repr two_special two_holders true.
  Definition two_again := again str.
  Definition two_start := initial str 5%N.
  Notation reach := (reach str 2 two_src two_parse two_repr two_special two_holders true).
  Notation restart := (restart str two_special).
  Lemma two_reach_go k s : reach s -> reach (two_go k s).
  Proof. apply run_reach, go_run. Qed.
  Lemma two_reach_again t s : reach s -> (clock str s < t)%N -> reach (two_again t (fun _ => []) s).
  Proof. intros H Ht. eapply reach_restart; [exact H|]. apply again_restart. exact Ht. Qed.

  (** killed when the first file has been preprocessed and the second is being written, and started again *)
  Definition two_half := two_go 15 two_start.
  Definition two_whole := two_go 40 (two_again 7%N (fun _ => []) two_half).
  Example C50_example : reach two_whole /\ ph str two_whole = Done /\
    dest str (prep str two_half) 0 = Full (lit "a!?") /\ dest str (prep str two_half) 1 = Missing /\
    temp str (prep str two_half) 1 = Partial /\ dest str (prep str two_whole) 1 = Full (lit "b!?").
  Proof.
    split; [apply two_reach_go, two_reach_again; [apply two_reach_go, reach_initial|vm_compute; reflexivity]|]. vm_compute. auto.
  Qed.
  Example C62_example : nonbpe str two_whole = Full [lit "\x"; lit "yy"; lit "<p>"].
  Proof. vm_compute. reflexivity. Qed.
  Example C52_example : parsed str (two_go 40 (two_again 9%N (fun _ => []) two_whole)) = parsed str two_whole.
  Proof. vm_compute. reflexivity. Qed.

  (** a run with suppressed caching, killed and repeated with suppressed caching *)
  Definition two_uncached s := match ph str s with Parsing => set_ph str s PrepCheck | _ => s end.
  Lemma two_reach_uncached s : reach s -> (forall i, i < 2 -> wk str s i = Finished) -> reach (set_clock str (two_uncached s) (clock str s)).
  Proof.
    intros H W. unfold two_uncached. destruct (ph str s) eqn:Hp; try (destruct s; exact H).
    eapply reach_step; [exact H|]. constructor; [lia|]. apply parse_uncached; assumption.
  Qed.
  Definition two_first := set_clock str (two_uncached (two_go 7 two_start)) 5%N.
  Definition two_second := set_clock str (two_uncached (two_go 3 (two_again 7%N (fun _ => []) (two_go 5 two_first)))) 7%N.
  Example C81_example : reach (two_go 30 two_second) /\ ph str (two_go 30 two_second) = Done
    /\ mark str (parsed str (two_go 30 two_second)) = None /\ dest str (prep str (two_go 5 two_first)) 0 = Full (lit "a!?")
    /\ dest str (prep str (two_go 5 two_first)) 1 = Missing /\ dest str (prep str (two_go 30 two_second)) 1 = Full (lit "b!?").
  Proof.
    assert (F : forall i, i < 2 -> i = 0 \/ i = 1) by lia. split.
    - apply two_reach_go. apply (two_reach_uncached (two_go 3 (two_again 7%N (fun _ => []) (two_go 5 two_first)))).
      + apply two_reach_go, two_reach_again; [|vm_compute; reflexivity]. apply two_reach_go. apply (two_reach_uncached (two_go 7 two_start)).
        * apply two_reach_go, reach_initial.
        * intros i Hi. destruct (F i Hi) as [-> | ->]; vm_compute; reflexivity.
      + intros i Hi. destruct (F i Hi) as [-> | ->]; vm_compute; reflexivity.
    - vm_compute. auto 7.
  Qed.

  Lemma two_reach_inv s : reach s -> INV str 2 two_src two_parse two_repr two_special two_holders true s.
  Proof. intros H. apply (inv_reach_mod str 2 two_src two_parse two_repr two_special two_holders true two_special_valid). apply reach_reach_mod. exact H. Qed.
  Notation later := (later str 2 two_src two_parse two_repr two_special two_holders true).

  (** C52: Killed between opening and writing the marker, everything is thrown away and done again. *)
  Theorem C52_marker_refuted : exists s s1 s2, reach s /\ dest str (parsed str s) 0 = Full (lit "a!") /\
    restart s s1 /\ run str 2 two_src two_parse two_repr two_special two_holders true s1 s2 /\ dest str (parsed str s2) 0 = Missing.
  Proof.
    exists (two_go 8 two_start), (two_again 7%N (fun _ => []) (two_go 8 two_start)), (two_go 1 (two_again 7%N (fun _ => []) (two_go 8 two_start))).
    split; [apply two_reach_go, reach_initial|]. split; [vm_compute; reflexivity|]. split; [apply again_restart; vm_compute; reflexivity|].
    split; [apply go_run|vm_compute; reflexivity].
  Qed.

  (** C62: Killed while the non-bpe vocabulary was being written, the rest of it is never written. *)
  Theorem C62_killed_refuted : exists s, reach s /\ ph str s = Done /\ forall s', later s s' -> nonbpe str s' = Partial.
  Proof.
    set (s := two_go 40 (two_again 7%N (fun _ => []) (two_go 19 two_start))).
    assert (R : reach s). { unfold s. apply two_reach_go, two_reach_again; [apply two_reach_go, reach_initial|vm_compute; reflexivity]. }
    exists s. split; [exact R|]. split; [vm_compute; reflexivity|]. intros s' Hl.
    apply (partial_forever str 2 two_src two_parse two_repr two_special two_holders true two_special_valid s s' Hl (two_reach_inv s R)); [vm_compute; reflexivity|vm_compute; discriminate].
  Qed.

  (** C62: Killed while a part of the non-bpe vocabulary was being written, the truncated token gets into the
      vocabulary. *)
  Definition two_cut k := two_again 7%N (fun i => match i with 0 => [firstn k (part_file (two_special (lit "a!")))] | _ => [] end) (two_go 12 two_start).
  Lemma two_reach_cut k : reach (two_cut k).
  Proof.
    eapply reach_restart; [apply (two_reach_go 12), reach_initial|]. unfold two_cut, two_again, P_Pipeline.again. apply restart_intro; [vm_compute; reflexivity|].
    intros [|i]; [right|left; reflexivity]. split; [vm_compute; reflexivity|]. split; [vm_compute; reflexivity|]. split; [vm_compute; reflexivity|].
    exists (lit "a!"), k. split; [vm_compute; reflexivity|reflexivity].
  Qed.
  Theorem C62_truncated_refuted : exists s v, reach s /\ ph str s = Done /\ nonbpe str s = Full v /\
    In (lit "y") v /\ ~ In (lit "y") two_holders /\ forall i x, two_src i = Some x -> ~ In (lit "y") (two_special (two_parse x)).
  Proof.
    exists (two_go 40 (two_cut 5)). eexists. split; [apply two_reach_go, two_reach_cut|]. split; [vm_compute; reflexivity|].
    split; [vm_compute; reflexivity|]. split; [simpl; auto|]. split; [intros [E|[]]; discriminate E|].
    intros [|[|i]] x E; try discriminate E; injection E as <-; vm_compute; intuition discriminate.
  Qed.

  (** C50: ... and if the truncated token cannot be decoded, no later run ever ends regularly. *)
  Theorem C50_truncated_refuted : exists s, reach s /\ (forall i, i < 2 -> two_src i <> None) /\
    forall s', later s s' -> ph str s' <> Done.
  Proof.
    exists (two_cut 1). split; [apply two_reach_cut|]. split; [intros [|[|i]] H; try discriminate; lia|]. intros s' Hl.
    apply (broken_forever str 2 two_src two_parse two_repr two_special two_holders true two_special_valid (two_cut 1) s' eq_refl Hl (two_reach_inv _ (two_reach_cut 1))).
    split; [vm_compute; reflexivity|]. split; [|vm_compute; repeat split; discriminate].
    exists 0, (firstn 1 (part_file (two_special (lit "a!")))). eexists. split; [lia|]. split; [vm_compute; left; reflexivity|]. vm_compute. reflexivity.
  Qed.
End Two.

(** one traversal of the common invariant instead of one for each theorem *)
Definition interruption_theorems :=
  (C50_atomic, C50_result, C50_no_temporary, C50_missing_refuted, C50_terminates, C50_finish, C50_truncated_refuted,
   (C52_second_run, C52_once, C52_kept, C52_outdated, C52_marker_refuted), (C81_result, C81_reused_refuted),
   (C62_complete, C62_exact, C62_there, C62_killed_refuted, C62_truncated_refuted)).
Print Assumptions interruption_theorems.

(** ** The vocabulary stages: [history] lists the seconds and the vocabularies of the preprocessed dataset of
    successive runs; the result lists which of them calculated the vocabulary *)
Section VocabRuns.
  Variable V : Type.
  Definition no_vocab : vstate V := {| vfile := None; vsize := false; vstamp := 0; vmark := None |}.
  Definition base_runs (history : list (N * V)) : vstate V * list bool :=
    fold_left (fun a h => let r := run_base_bpe_vocab V (fst h) (snd h) (fst a) in (fst r, snd a ++ [snd r])) history (no_vocab, []).
  Definition vocab_runs (history : list (N * V)) : res (vstate V * list bool) :=
    fold_left (fun a h => bind a (fun a => bind (run_vocab V (fst h) (snd h) (fst a)) (fun r => Ok (fst r, snd a ++ [snd r])))) history (Ok (no_vocab, [])).

  Lemma base_runs_spec h history :
    base_runs (h :: history) =
    ({| vfile := Some (snd h); vsize := true; vstamp := fst h; vmark := None |}, true :: repeat false (length history)).
  Proof.
    induction history as [|x l IH] using rev_ind; [reflexivity|]. rewrite app_comm_cons. unfold base_runs in *.
    rewrite fold_left_app, IH, app_length, Nat.add_comm. simpl. rewrite <- repeat_cons. reflexivity.
  Qed.
  Lemma vocab_runs_spec h history :
    vocab_runs (h :: history) =
    Ok ({| vfile := Some (snd h); vsize := true; vstamp := fst h; vmark := None |}, true :: repeat false (length history)).
  Proof.
    induction history as [|x l IH] using rev_ind; [reflexivity|]. rewrite app_comm_cons. unfold vocab_runs in *.
    rewrite fold_left_app, IH, app_length, Nat.add_comm. simpl. rewrite <- repeat_cons. reflexivity.
  Qed.
  (** C52: As long as the preprocessed dataset keeps its vocabulary, both vocabulary stages calculate it in the
      first run only, and the file contains it. *)
  Theorem C52_vocab_once h history : (forall h', In h' history -> snd h' = snd h) ->
    (vfile V (fst (base_runs (h :: history))) = Some (snd (last history h)) /\
     snd (base_runs (h :: history)) = true :: repeat false (length history)) /\
    exists v, vocab_runs (h :: history) = Ok (v, true :: repeat false (length history)) /\
              vfile V v = Some (snd (last history h)).
  Proof.
    intros H. assert (E : snd (last history h) = snd h).
    { clear - H. assert (I : In (last history h) (h :: history)).
      { clear H. induction history as [|x l IH]; [left; reflexivity|]. destruct l as [|y l]; [right; left; reflexivity|].
        change (last (x :: y :: l) h) with (last (y :: l) h). destruct IH as [<-|I]; [left; reflexivity|right; right; exact I]. }
      destruct I as [<-|I]; auto. }
    rewrite base_runs_spec, vocab_runs_spec, E. split; [split; reflexivity|]. eexists. split; reflexivity.
  Qed.
  (** C52: ... but neither stage is executed again when its result is outdated: whatever happens to the
      preprocessed dataset, the files keep the vocabulary of the first run. *)
  Theorem C52_base_vocab_refuted h history :
    vfile V (fst (base_runs (h :: history))) = Some (snd h) /\
    snd (base_runs (h :: history)) = true :: repeat false (length history).
  Proof. rewrite base_runs_spec. split; reflexivity. Qed.
  Theorem C52_vocab_refuted h history : exists v,
    vocab_runs (h :: history) = Ok (v, true :: repeat false (length history)) /\ vfile V v = Some (snd h).
  Proof. rewrite vocab_runs_spec. eexists. split; reflexivity. Qed.
End VocabRuns.
Print Assumptions C52_vocab_once.
Print Assumptions C52_base_vocab_refuted.
Print Assumptions C52_vocab_refuted.
Example C52_vocab_example :
  option_map (fun r => (vfile N (fst r), snd r)) (match vocab_runs N [(5, 1); (9, 2)]%N with Ok r => Some r | Err _ => None end)
  = Some (Some 1%N, [true; false]).
Proof. reflexivity. Qed.
Example C52_vocab_once_example :
  snd (base_runs N [(5, 1); (9, 1)]%N) = [true; false] /\ vfile N (fst (base_runs N [(5, 1); (9, 1)]%N)) = Some 1%N.
Proof. split; reflexivity. Qed.
