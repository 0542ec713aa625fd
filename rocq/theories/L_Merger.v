(** Invariants of the parallel merging of partial vocabularies. *)
From Verif Require Import M_Base L_Base M_Literal M_Learn M_Vocab L_Vocab P_Vocab M_Merger.
From Coq Require Import Lia Permutation.

(** ** Counting *)
Definition b2n (b : bool) : nat := if b then 1 else 0.
Fixpoint cn (c : nat) (l : list nat) : nat := match l with [] => 0 | x :: t => b2n (Nat.eqb x c) + cn c t end.
Lemma cn_app c a b : cn c (a ++ b) = cn c a + cn c b.
Proof. induction a as [|x a IH]; cbn; lia. Qed.
Lemma cn_in c l : In c l -> 1 <= cn c l.
Proof. induction l as [|x l IH]; [intros []|]. intros [->|H]; cbn; [rewrite Nat.eqb_refl; cbn; lia|]. specialize (IH H). lia. Qed.
Lemma cn_zero l : (forall c, cn c l = 0) -> l = [].
Proof. destruct l as [|x l]; [reflexivity|]. intros H. specialize (H x). cbn in H. rewrite Nat.eqb_refl in H. cbn in H. lia. Qed.
Lemma cn_pos c l : 1 <= cn c l -> In c l.
Proof.
  induction l as [|x l IH]; cbn; [lia|]. destruct (Nat.eqb_spec x c) as [->|N]; cbn; [left; reflexivity|].
  intros H. right. apply IH. lia.
Qed.

Definition cs (l : list pvocab) : list nat := map pv_chunk l.
Definition sumf (f : pstate -> nat) (l : list pstate) : nat := fold_right (fun p n => f p + n) 0 l.
Lemma sumf_mid f l1 p l2 : sumf f (l1 ++ p :: l2) = sumf f l1 + f p + sumf f l2.
Proof. unfold sumf. induction l1 as [|x l1 IH]; cbn; [lia|]. rewrite IH. lia. Qed.
Lemma sumf_repeat f p n : sumf f (repeat p n) = n * f p.
Proof. induction n as [|n IH]; cbn; [reflexivity|]. unfold sumf in IH. rewrite IH. lia. Qed.
Lemma sumf_in f l p : In p l -> f p <= sumf f l.
Proof. induction l as [|x l IH]; [intros []|]. intros [->|H]; cbn; [lia|]. specialize (IH H). unfold sumf in IH. lia. Qed.
Lemma sumf_zero f l : (forall p, In p l -> f p = 0) -> sumf f l = 0.
Proof.
  induction l as [|x l IH]; intros H; [reflexivity|]. cbn. rewrite (H x (or_introl eq_refl)).
  apply IH. intros p Hp. apply H. right. exact Hp.
Qed.
Lemma sumf_le f g l : (forall p, f p <= g p) -> sumf f l <= sumf g l.
Proof. intros H. induction l as [|x l IH]; cbn; [lia|]. specialize (H x). unfold sumf in IH. lia. Qed.
Lemma sumf_eq0 f l p : sumf f l = 0 -> In p l -> f p = 0.
Proof. intros H Hp. pose proof (sumf_in f l p Hp). lia. Qed.

(** merges whose result will be put back *)
Definition mg (c : nat) (p : pstate) : nat :=
  match p with PMerge _ _ _ m PutBack => b2n (Nat.eqb (pv_chunk m) c) | _ => 0 end.
Definition wt (c : nat) (p : pstate) : nat := match p with PWant x => b2n (Nat.eqb x c) | _ => 0 end.
Definition wg (p : pstate) : nat := match p with PWant _ | PGot _ _ => 1 | _ => 0 end.
(** vocabularies taken by the process that finishes *)
Definition ft (chunks : list nat) (c : nat) (p : pstate) : nat :=
  match p with
  | PCollect _ acc => cn c (cs acc)
  | PMerge _ _ _ _ (Continue _) | PFin _ _ | PStats _ _ | PVocab _ _ | PRemove | PDone true => cn c chunks
  | _ => 0
  end.
Definition isfin (p : pstate) : nat :=
  match p with
  | PCollect _ _ | PMerge _ _ _ _ (Continue _) | PFin _ _ | PStats _ _ | PVocab _ _ | PRemove | PDone true => 1
  | _ => 0
  end.
Definition past (p : pstate) : nat := match p with PDone false => 1 | _ => isfin p end.
Definition stopped (p : pstate) : nat := match p with PStop => 1 | _ => past p end.

Definition pok (chunks : list nat) (p : pstate) : Prop :=
  match p with
  | PWant c => In c chunks
  | PGot c v => In c chunks /\ pv_chunk v = c
  | PMerge _ _ _ m PutBack => In (pv_chunk m) chunks
  | PCollect cc acc => chunks = cs acc ++ cc
  | _ => True
  end.

Record CI (r : run) (tk : list nat) (k : nat) : Prop := {
  ci_queue : sh_queue (r_shared r) = map Some tk ++ repeat None k;
  ci_chunks : r_chunks r <> [];
  ci_procs : r_procs r <> [];
  ci_tickets : Forall (fun c => In c (r_chunks r)) tk;
  ci_tk : tk = [] \/ k = length (r_procs r);
  ci_count : forall c, cn c (cs (sh_tasks (r_shared r))) + sumf (mg c) (r_procs r) + sumf (ft (r_chunks r) c) (r_procs r)
                       = cn c tk + sumf (wt c) (r_procs r) + cn c (r_chunks r);
  ci_left : sh_left (r_shared r) = length tk + sumf wg (r_procs r);
  ci_stopped : k + sumf stopped (r_procs r) = length (r_procs r);
  ci_past : sh_counter (r_shared r) + sumf past (r_procs r) = length (r_procs r);
  ci_fin : sumf isfin (r_procs r) = match sh_counter (r_shared r) with 0 => 1 | _ => 0 end;
  ci_pok : Forall (pok (r_chunks r)) (r_procs r)
}.

Lemma cs_mid t1 v t2 : cs (t1 ++ v :: t2) = cs t1 ++ pv_chunk v :: cs t2.
Proof. unfold cs. rewrite map_app. reflexivity. Qed.
Lemma cs_app a b : cs (a ++ b) = cs a ++ cs b.
Proof. apply map_app. Qed.
Lemma cn_mid c a x b : cn c (a ++ x :: b) = cn c (a ++ b) + b2n (Nat.eqb x c).
Proof. rewrite !cn_app. cbn. lia. Qed.

Lemma queue_ticket tk k c (q : list (option nat)) : map Some tk ++ repeat None k = Some c :: q ->
  exists t, tk = c :: t /\ q = map Some t ++ repeat None k.
Proof.
  destruct tk as [|x t]; cbn.
  - destruct k; cbn; discriminate.
  - intros E. injection E as -> <-. eauto.
Qed.
Lemma queue_stop tk k (q : list (option nat)) : map Some tk ++ repeat None k = None :: q ->
  exists k', tk = [] /\ k = S k' /\ q = repeat None k'.
Proof.
  destruct tk as [|x t]; cbn; [|discriminate]. destruct k as [|k']; cbn; [discriminate|].
  intros E. injection E as <-. eauto.
Qed.

(** if a process has stopped or finishes, no tickets are left *)
Lemma ci_no_tickets r tk k p : CI r tk k -> In p (r_procs r) -> stopped p = 1 -> tk = [].
Proof.
  intros H Hp Hs. destruct (ci_tk _ _ _ H) as [E|E]; [exact E|]. pose proof (ci_stopped _ _ _ H) as S.
  pose proof (sumf_in stopped _ _ Hp). lia.
Qed.

Lemma past_le p : isfin p <= past p.
Proof. destruct p as [| | |? ? ? ? []| | | | | | |[]]; cbn; lia. Qed.
Lemma stopped_le p : past p <= stopped p.
Proof. destruct p; cbn; lia. Qed.
Lemma stopped_bound p : stopped p <= 1.
Proof. destruct p as [| | |? ? ? ? []| | | | | | |[]]; cbn; lia. Qed.
Lemma sumf_bound f l : (forall p, f p <= 1) -> sumf f l <= length l.
Proof. intros H. induction l as [|x l IH]; cbn; [lia|]. specialize (H x). unfold sumf in IH. lia. Qed.
Lemma sumf_full f l : (forall p, f p <= 1) -> sumf f l = length l -> forall p, In p l -> f p = 1.
Proof.
  intros H. induction l as [|x l IH]; intros E p Hp; [destruct Hp|]. cbn in E.
  pose proof (sumf_bound f l H) as B. unfold sumf in *. pose proof (H x).
  destruct Hp as [->|Hp]; [lia|]. apply IH; [lia|exact Hp].
Qed.
Lemma past_bound p : past p <= 1.
Proof. pose proof (stopped_le p). pose proof (stopped_bound p). lia. Qed.

(** when one process finishes, all others are done *)
Lemma ci_alone r tk k l1 p l2 : CI r tk k -> r_procs r = l1 ++ p :: l2 -> isfin p = 1 ->
  sh_counter (r_shared r) = 0 /\ (forall q, In q (l1 ++ l2) -> q = PDone false) /\ tk = [] /\ k = 0.
Proof.
  intros H E F. pose proof (ci_fin _ _ _ H) as HF. pose proof (ci_past _ _ _ H) as HP. pose proof (ci_stopped _ _ _ H) as HS.
  rewrite E in *. rewrite !sumf_mid in *.
  assert (C : sh_counter (r_shared r) = 0) by (destruct (sh_counter (r_shared r)); [reflexivity|lia]).
  rewrite C in *. split; [reflexivity|]. split; [|split].
  - intros q Hq. assert (Hp : past q = 1).
    { apply (sumf_full past (l1 ++ p :: l2) past_bound); [rewrite sumf_mid; lia|].
      apply in_app_or in Hq. apply in_or_app. destruct Hq; [left|right; right]; assumption. }
    assert (Hi : isfin q = 0).
    { apply in_app_or in Hq. destruct Hq as [Hq|Hq]; pose proof (sumf_in isfin _ _ Hq); lia. }
    destruct q as [| | |? ? ? ? []| | | | | | |[]]; cbn in *; try lia; reflexivity.
  - apply (ci_no_tickets r tk k p H); [rewrite E; apply in_elt|].
    pose proof (past_le p). pose proof (stopped_le p). pose proof (stopped_bound p). lia.
  - pose proof (sumf_le past stopped l1 stopped_le). pose proof (sumf_le past stopped l2 stopped_le).
    pose proof (stopped_le p). lia.
Qed.

Lemma ci_step r r' tk k : CI r tk k -> step r r' -> exists tk' k', CI r' tk' k'.
Proof.
  intros H S. destruct S as [chunks sh sh' l1 p p' l2 P].
  pose proof H as [HQ HC HN HT HK HE HL HS HP HF HO]. cbn [r_chunks r_shared r_procs] in *.
  assert (Hpo : Forall (pok chunks) l1 /\ pok chunks p /\ Forall (pok chunks) l2).
  { apply Forall_app in HO. destruct HO as [O1 O2]. inversion O2; subst. auto. }
  destruct Hpo as (O1 & O & O2). rewrite !sumf_mid in *. rewrite app_length in *. cbn [length] in *.
  assert (HE' : forall c, cn c (cs (sh_tasks sh)) + (sumf (mg c) l1 + mg c p + sumf (mg c) l2)
      + (sumf (ft chunks c) l1 + ft chunks c p + sumf (ft chunks c) l2)
      = cn c tk + (sumf (wt c) l1 + wt c p + sumf (wt c) l2) + cn c chunks).
  { intros c. specialize (HE c). rewrite !sumf_mid in HE. exact HE. }
  clear HE. rename HE' into HE.
  assert (PROCS : forall q : pstate, l1 ++ q :: l2 <> []) by (intros q Z; destruct l1; discriminate).
  assert (POK : forall q, pok chunks q -> Forall (pok chunks) (l1 ++ q :: l2)).
  { intros q Hq. apply Forall_app. split; [exact O1|]. constructor; assumption. }
  assert (ALONE : isfin p = 1 -> tk = [] /\ k = 0).
  { intros F. destruct (ci_alone _ tk k l1 p l2 H eq_refl F) as (_ & _ & ? & ?). auto. }
  destruct P; cbn [pok mg wt wg ft isfin past stopped] in *;
    try (match goal with
         | HQ : sh_queue ?sh = map Some _ ++ _, E : sh_queue ?sh = Some _ :: _ |- _ =>
             rewrite HQ in E; apply queue_ticket in E; destruct E as (t & -> & ->)
         | HQ : sh_queue ?sh = map Some _ ++ _, E : sh_queue ?sh = None :: _ |- _ =>
             rewrite HQ in E; apply queue_stop in E; destruct E as (k' & -> & -> & ->)
         end).
  (* a ticket is taken *)
  - exists t, k. inversion HT; subst. constructor; cbn [r_chunks r_shared r_procs with_queue sh_queue sh_tasks sh_counter sh_left]; try (apply POK; exact I); auto.
    + destruct HK as [HK|HK]; [discriminate|]. right. rewrite app_length. exact HK.
    + intros c0. rewrite !sumf_mid. specialize (HE c0). cbn [cn mg wt ft] in *. lia.
    + rewrite sumf_mid. cbn [wg length] in *. lia.
    + rewrite sumf_mid, app_length. cbn [length stopped past isfin]. lia.
    + rewrite sumf_mid, app_length. cbn [length past isfin]. lia.
    + rewrite sumf_mid. cbn [isfin]. lia.
  (* -1 is taken *)
  - exists [], k'. constructor; cbn [r_chunks r_shared r_procs with_queue sh_queue sh_tasks sh_counter sh_left]; try (apply POK; exact I); auto.
    + intros c0. rewrite !sumf_mid. specialize (HE c0). cbn [cn mg wt ft] in *. lia.
    + rewrite sumf_mid. cbn [wg length] in *. lia.
    + rewrite sumf_mid, app_length. cbn [length stopped past isfin]. lia.
    + rewrite sumf_mid, app_length. cbn [length past isfin]. lia.
    + rewrite sumf_mid. cbn [isfin]. lia.
  (* one of several leaves *)
  - exists tk, k. constructor; cbn [r_chunks r_shared r_procs with_counter sh_queue sh_tasks sh_counter sh_left]; try (apply POK; exact I); auto.
    + rewrite app_length. cbn [length]. exact HK.
    + intros c0. rewrite !sumf_mid. specialize (HE c0). cbn [cn mg wt ft] in *. lia.
    + rewrite sumf_mid. cbn [wg length] in *. lia.
    + rewrite sumf_mid, app_length. cbn [length stopped past isfin]. lia.
    + rewrite sumf_mid, app_length. cbn [length past isfin]. lia.
    + rewrite sumf_mid. cbn [isfin]. rewrite H0 in HF. destruct k0; [congruence|]. lia.
  (* the last one *)
  - exists tk, k. constructor; cbn [r_chunks r_shared r_procs with_counter sh_queue sh_tasks sh_counter sh_left]; try (apply POK; exact I); auto.
    + rewrite app_length. cbn [length]. exact HK.
    + intros c0. rewrite !sumf_mid. specialize (HE c0). cbn [cn mg wt ft cs map] in *. lia.
    + rewrite sumf_mid. cbn [wg length] in *. lia.
    + rewrite sumf_mid, app_length. cbn [length stopped past isfin]. lia.
    + rewrite sumf_mid, app_length. cbn [length past isfin]. lia.
    + rewrite sumf_mid. cbn [isfin]. rewrite H0 in HF. lia.
    + apply POK. reflexivity.
  (* first task *)
  - exists tk, k. constructor; cbn [r_chunks r_shared r_procs with_tasks sh_queue sh_tasks sh_counter sh_left]; try (apply POK; exact I); auto.
    + rewrite app_length. cbn [length]. exact HK.
    + intros c0. rewrite !sumf_mid. specialize (HE c0). rewrite H0, cs_mid, cn_mid in HE.
      unfold cs in *. rewrite map_app. cbn [cn mg wt ft] in *. rewrite H1 in HE. lia.
    + rewrite sumf_mid. cbn [wg length] in *. lia.
    + rewrite sumf_mid, app_length. cbn [length stopped past isfin]. lia.
    + rewrite sumf_mid, app_length. cbn [length past isfin]. lia.
    + rewrite sumf_mid. cbn [isfin]. lia.
    + apply POK. cbn. auto.
  (* second task *)
  - destruct O as [O Oc]. exists tk, k. constructor; cbn [r_chunks r_shared r_procs with_next with_left with_tasks sh_queue sh_tasks sh_counter sh_left]; try (apply POK; exact I); auto.
    + rewrite app_length. cbn [length]. exact HK.
    + intros c0. rewrite !sumf_mid. specialize (HE c0). rewrite H0, cs_mid, cn_mid in HE.
      unfold cs in *. rewrite map_app. cbn [cn mg wt ft pv_chunk add_vocab] in *. rewrite H1 in HE. rewrite Oc. lia.
    + rewrite sumf_mid. cbn [wg length] in *. lia.
    + rewrite sumf_mid, app_length. cbn [length stopped past isfin]. lia.
    + rewrite sumf_mid, app_length. cbn [length past isfin]. lia.
    + rewrite sumf_mid. cbn [isfin]. lia.
    + apply POK. cbn. rewrite Oc. exact O.
  (* stages of a merge *)
  - exists tk, k. constructor; cbn [r_chunks r_shared r_procs with_disk sh_queue sh_tasks sh_counter sh_left]; try (apply POK; exact I); auto.
    + rewrite app_length. cbn [length]. exact HK.
    + intros c0. rewrite !sumf_mid. exact (HE c0).
    + rewrite sumf_mid. exact HL.
    + rewrite sumf_mid, app_length. exact HS.
    + rewrite sumf_mid, app_length. exact HP.
    + rewrite sumf_mid. exact HF.
  - exists tk, k. constructor; cbn [r_chunks r_shared r_procs with_disk sh_queue sh_tasks sh_counter sh_left]; try (apply POK; exact I); auto.
    + rewrite app_length. cbn [length]. exact HK.
    + intros c0. rewrite !sumf_mid. exact (HE c0).
    + rewrite sumf_mid. exact HL.
    + rewrite sumf_mid, app_length. exact HS.
    + rewrite sumf_mid, app_length. exact HP.
    + rewrite sumf_mid. exact HF.
  - exists tk, k. constructor; cbn [r_chunks r_shared r_procs with_disk sh_queue sh_tasks sh_counter sh_left]; try (apply POK; exact I); auto.
    + rewrite app_length. cbn [length]. exact HK.
    + intros c0. rewrite !sumf_mid. exact (HE c0).
    + rewrite sumf_mid. exact HL.
    + rewrite sumf_mid, app_length. exact HS.
    + rewrite sumf_mid, app_length. exact HP.
    + rewrite sumf_mid. exact HF.
  - exists tk, k. constructor; cbn [r_chunks r_shared r_procs with_disk sh_queue sh_tasks sh_counter sh_left]; try (apply POK; exact I); auto.
    + rewrite app_length. cbn [length]. exact HK.
    + intros c0. rewrite !sumf_mid. exact (HE c0).
    + rewrite sumf_mid. exact HL.
    + rewrite sumf_mid, app_length. exact HS.
    + rewrite sumf_mid, app_length. exact HP.
    + rewrite sumf_mid. exact HF.
  - exists tk, k. constructor; cbn [r_chunks r_shared r_procs with_disk sh_queue sh_tasks sh_counter sh_left]; try (apply POK; exact I); auto.
    + rewrite app_length. cbn [length]. exact HK.
    + intros c0. rewrite !sumf_mid. exact (HE c0).
    + rewrite sumf_mid. exact HL.
    + rewrite sumf_mid, app_length. exact HS.
    + rewrite sumf_mid, app_length. exact HP.
    + rewrite sumf_mid. exact HF.
  (* the result is put back *)
  - exists tk, k. constructor; cbn [r_chunks r_shared r_procs with_tasks sh_queue sh_tasks sh_counter sh_left]; try (apply POK; exact I); auto.
    + rewrite app_length. cbn [length]. exact HK.
    + intros c0. rewrite !sumf_mid. specialize (HE c0). unfold cs in *. rewrite map_app, cn_app.
      cbn [map cn mg wt ft] in *. lia.
    + rewrite sumf_mid. cbn [wg length] in *. lia.
    + rewrite sumf_mid, app_length. cbn [length stopped past isfin]. lia.
    + rewrite sumf_mid, app_length. cbn [length past isfin]. lia.
    + rewrite sumf_mid. cbn [isfin]. lia.
  (* the next chunk *)
  - exists tk, k. constructor; cbn [r_chunks r_shared r_procs]; try (apply POK; exact I); auto.
    + rewrite app_length. cbn [length]. exact HK.
    + intros c0. rewrite !sumf_mid. exact (HE c0).
    + rewrite sumf_mid. exact HL.
    + rewrite sumf_mid, app_length. exact HS.
    + rewrite sumf_mid, app_length. exact HP.
    + rewrite sumf_mid. exact HF.
  (* collecting *)
  - exists tk, k. constructor; cbn [r_chunks r_shared r_procs with_tasks sh_queue sh_tasks sh_counter sh_left]; try (apply POK; exact I); auto.
    + rewrite app_length. cbn [length]. exact HK.
    + intros c0. rewrite !sumf_mid. specialize (HE c0). rewrite H0, cs_mid, cn_mid in HE.
      cbn [mg wt ft] in *. rewrite !cs_app, !cn_app in *. cbn [cs map cn]. lia.
    + rewrite sumf_mid. cbn [wg length] in *. lia.
    + rewrite sumf_mid, app_length. cbn [length stopped past isfin]. lia.
    + rewrite sumf_mid, app_length. cbn [length past isfin]. lia.
    + rewrite sumf_mid. cbn [isfin]. lia.
    + apply POK. cbn. unfold cs. rewrite map_app, <- app_assoc. cbn [map app]. rewrite H1. exact O.
  - exists tk, k. constructor; cbn [r_chunks r_shared r_procs]; try (apply POK; exact I); auto.
    + rewrite app_length. cbn [length]. exact HK.
    + intros c0. rewrite !sumf_mid. specialize (HE c0). cbn [mg wt ft] in *. rewrite app_nil_r in O.
      rewrite <- O in HE. lia.
    + rewrite sumf_mid. cbn [wg length] in *. lia.
    + rewrite sumf_mid, app_length. cbn [length stopped past isfin]. lia.
    + rewrite sumf_mid, app_length. cbn [length past isfin]. lia.
    + rewrite sumf_mid. cbn [isfin]. lia.
  (* the next merge of the process that finishes *)
  - exists tk, k. constructor; cbn [r_chunks r_shared r_procs with_next sh_queue sh_tasks sh_counter sh_left]; try (apply POK; exact I); auto.
    + rewrite app_length. cbn [length]. exact HK.
    + intros c0. rewrite !sumf_mid. exact (HE c0).
    + rewrite sumf_mid. exact HL.
    + rewrite sumf_mid, app_length. exact HS.
    + rewrite sumf_mid, app_length. exact HP.
    + rewrite sumf_mid. exact HF.
  (* writing *)
  - exists tk, k; constructor; cbn [r_chunks r_shared r_procs with_size with_vocab with_disk with_ready sh_queue sh_tasks sh_counter sh_left]; try (apply POK; exact I); auto;
    [ rewrite app_length; cbn [length]; exact HK
    | intros c0; rewrite !sumf_mid; exact (HE c0)
    | rewrite sumf_mid; exact HL
    | rewrite sumf_mid, app_length; exact HS
    | rewrite sumf_mid, app_length; exact HP
    | rewrite sumf_mid; exact HF ].
  - exists tk, k; constructor; cbn [r_chunks r_shared r_procs with_size with_vocab with_disk with_ready sh_queue sh_tasks sh_counter sh_left]; try (apply POK; exact I); auto;
    [ rewrite app_length; cbn [length]; exact HK
    | intros c0; rewrite !sumf_mid; exact (HE c0)
    | rewrite sumf_mid; exact HL
    | rewrite sumf_mid, app_length; exact HS
    | rewrite sumf_mid, app_length; exact HP
    | rewrite sumf_mid; exact HF ].
  - exists tk, k; constructor; cbn [r_chunks r_shared r_procs with_size with_vocab with_disk with_ready sh_queue sh_tasks sh_counter sh_left]; try (apply POK; exact I); auto;
    [ rewrite app_length; cbn [length]; exact HK
    | intros c0; rewrite !sumf_mid; exact (HE c0)
    | rewrite sumf_mid; exact HL
    | rewrite sumf_mid, app_length; exact HS
    | rewrite sumf_mid, app_length; exact HP
    | rewrite sumf_mid; exact HF ].
  - exists tk, k; constructor; cbn [r_chunks r_shared r_procs with_size with_vocab with_disk with_ready sh_queue sh_tasks sh_counter sh_left]; try (apply POK; exact I); auto;
    [ rewrite app_length; cbn [length]; exact HK
    | intros c0; rewrite !sumf_mid; exact (HE c0)
    | rewrite sumf_mid; exact HL
    | rewrite sumf_mid, app_length; exact HS
    | rewrite sumf_mid, app_length; exact HP
    | rewrite sumf_mid; exact HF ].
  - exists tk, k; constructor; cbn [r_chunks r_shared r_procs with_size with_vocab with_disk with_ready sh_queue sh_tasks sh_counter sh_left]; try (apply POK; exact I); auto;
    [ rewrite app_length; cbn [length]; exact HK
    | intros c0; rewrite !sumf_mid; exact (HE c0)
    | rewrite sumf_mid; exact HL
    | rewrite sumf_mid, app_length; exact HS
    | rewrite sumf_mid, app_length; exact HP
    | rewrite sumf_mid; exact HF ].
  - exists tk, k; constructor; cbn [r_chunks r_shared r_procs with_size with_vocab with_disk with_ready sh_queue sh_tasks sh_counter sh_left]; try (apply POK; exact I); auto;
    [ rewrite app_length; cbn [length]; exact HK
    | intros c0; rewrite !sumf_mid; exact (HE c0)
    | rewrite sumf_mid; exact HL
    | rewrite sumf_mid, app_length; exact HS
    | rewrite sumf_mid, app_length; exact HP
    | rewrite sumf_mid; exact HF ].
  - exists tk, k; constructor; cbn [r_chunks r_shared r_procs with_size with_vocab with_disk with_ready sh_queue sh_tasks sh_counter sh_left]; try (apply POK; exact I); auto;
    [ rewrite app_length; cbn [length]; exact HK
    | intros c0; rewrite !sumf_mid; exact (HE c0)
    | rewrite sumf_mid; exact HL
    | rewrite sumf_mid, app_length; exact HS
    | rewrite sumf_mid, app_length; exact HP
    | rewrite sumf_mid; exact HF ].
  - exists tk, k; constructor; cbn [r_chunks r_shared r_procs with_size with_vocab with_disk with_ready sh_queue sh_tasks sh_counter sh_left]; try (apply POK; exact I); auto;
    [ rewrite app_length; cbn [length]; exact HK
    | intros c0; rewrite !sumf_mid; exact (HE c0)
    | rewrite sumf_mid; exact HL
    | rewrite sumf_mid, app_length; exact HS
    | rewrite sumf_mid, app_length; exact HP
    | rewrite sumf_mid; exact HF ].
Qed.

(** ** The start of a run *)
Lemma chunks_of_spec l : forall seen, NoDup seen ->
  NoDup (chunks_of l seen) /\ (forall c, In c (chunks_of l seen) <-> In c seen \/ In c (cs l)).
Proof.
  induction l as [|v l IH]; intros seen N; cbn [chunks_of cs map].
  - split; [exact N|]. intros c. cbn. tauto.
  - destruct (existsb (Nat.eqb (pv_chunk v)) seen) eqn:E.
    + destruct (IH seen N) as [N' I]. split; [exact N'|]. intros c. rewrite I. cbn [In].
      apply existsb_exists in E. destruct E as (x & Hx & Ex). apply Nat.eqb_eq in Ex. subst x.
      unfold cs. intuition congruence.
    + assert (N1 : NoDup (seen ++ [pv_chunk v])).
      { apply (Permutation_NoDup (l := pv_chunk v :: seen)); [apply Permutation_cons_append|]. constructor; [|exact N].
        intros Hin. assert (existsb (Nat.eqb (pv_chunk v)) seen = true); [|congruence].
        apply existsb_exists. exists (pv_chunk v). split; [exact Hin|apply Nat.eqb_refl]. }
      destruct (IH _ N1) as [N' I]. split; [exact N'|]. intros c. rewrite I, in_app_iff. cbn [In]. unfold cs. tauto.
Qed.
Lemma cn_repeat c x n : cn c (repeat x n) = n * b2n (Nat.eqb x c).
Proof. induction n as [|n IH]; cbn; [reflexivity|]. rewrite IH. reflexivity. Qed.
Lemma cn_notin c l : ~ In c l -> cn c l = 0.
Proof. intros H. destruct (cn c l) eqn:E; [reflexivity|]. exfalso. apply H, cn_pos. lia. Qed.
Lemma cn_nodup c l : NoDup l -> cn c l <= 1.
Proof.
  induction 1 as [|x l H N IH]; cbn; [lia|]. destruct (Nat.eqb_spec x c) as [->|D]; cbn; [|exact IH].
  rewrite (cn_notin _ _ H). lia.
Qed.
Lemma cn_flat c (f : nat -> nat) l : cn c (flat_map (fun x => repeat x (f x)) l) = cn c l * f c.
Proof.
  induction l as [|x l IH]; [reflexivity|]. cbn [flat_map cn]. rewrite cn_app, cn_repeat, IH.
  destruct (Nat.eqb_spec x c) as [->|D]; cbn; lia.
Qed.
Lemma chunk_size_cn c l : chunk_size c l = cn c (cs l).
Proof.
  unfold chunk_size. induction l as [|v l IH]; [reflexivity|]. cbn [filter cs map cn]. unfold in_chunk at 1.
  destruct (Nat.eqb (pv_chunk v) c); cbn [length b2n]; unfold cs in IH; lia.
Qed.
Lemma tickets_count l c : cn c (cs l) = cn c (chunk_tickets l) + cn c (chunks_of l []).
Proof.
  unfold chunk_tickets. rewrite (cn_flat c (fun x => chunk_size x l - 1)), chunk_size_cn.
  destruct (chunks_of_spec l [] (NoDup_nil _)) as [N I].
  destruct (in_dec Nat.eq_dec c (cs l)) as [H|H].
  - pose proof (cn_in _ _ H). assert (H1 : In c (chunks_of l [])) by (apply I; right; exact H).
    pose proof (cn_in _ _ H1). pose proof (cn_nodup c _ N). replace (cn c (chunks_of l [])) with 1 by lia. lia.
  - rewrite (cn_notin _ _ H). rewrite (cn_notin c (chunks_of l [])); [reflexivity|]. rewrite I. intros [[]|Z]. exact (H Z).
Qed.
Lemma ci_start n l next d size vocab : 1 <= n -> l <> [] -> CI (start_run n l next d size vocab) (chunk_tickets l) n.
Proof.
  intros Hn Hl. destruct (chunks_of_spec l [] (NoDup_nil _)) as [N IC].
  constructor; cbn [start_run r_chunks r_shared r_procs sh_queue sh_tasks sh_counter sh_left]; rewrite ?repeat_length, ?sumf_repeat; auto.
  - destruct l as [|v l]; [congruence|]. intros Z. assert (In (pv_chunk v) (chunks_of (v :: l) [])) as H
      by (apply IC; right; left; reflexivity). rewrite Z in H. destruct H.
  - destruct n; [lia|discriminate].
  - apply Forall_forall. intros c Hc. unfold chunk_tickets in Hc. apply in_flat_map in Hc. destruct Hc as (x & Hx & Hr).
    apply repeat_spec in Hr. subst. exact Hx.
  - intros c. rewrite !sumf_repeat. cbn [mg ft wt]. rewrite tickets_count. lia.
  - cbn [wg]. lia.
  - cbn [stopped past isfin]. lia.
  - cbn [past isfin]. lia.
  - cbn [isfin]. destruct n; lia.
  - apply Forall_forall. intros p Hp. apply repeat_spec in Hp. subst. exact I.
Qed.

(** ** No deadlock *)
Lemma cs_in_split c l : In c (cs l) -> exists t1 v t2, l = t1 ++ v :: t2 /\ pv_chunk v = c.
Proof.
  unfold cs. rewrite in_map_iff. intros (v & E & H). apply in_split in H. destruct H as (t1 & t2 & ->).
  exists t1, v, t2. auto.
Qed.
Lemma cs_in_count c l : 1 <= cn c (cs l) -> exists t1 v t2, l = t1 ++ v :: t2 /\ pv_chunk v = c.
Proof. intros H. apply cs_in_split, cn_pos, H. Qed.

Lemma exists_last_or {A} (l : list A) : l = [] \/ exists a v, l = a ++ [v].
Proof. destruct l as [|x l]; [auto|]. right. destruct (exists_last (l := x :: l)) as (a & v & E); [discriminate|]. eauto. Qed.

(** A process can always move unless it is done, or waits for an element of a queue. *)
Definition blocked (sh : shared) (p : pstate) : Prop :=
  match p with
  | PIdle => sh_queue sh = []
  | PWant c | PCollect (c :: _) _ => ~ In c (cs (sh_tasks sh))
  | PGot c _ => ~ In c (cs (sh_tasks sh)) \/ sh_left sh = 0
  | PStop => sh_counter sh = 0
  | PCollect [] acc => acc = []
  | PStats first true => forall z, vocab_size_line first <> Ok z
  | PDone _ => True
  | _ => False
  end.
Lemma blocked_or_step chunks sh p : blocked sh p \/ exists sh' p', pstep chunks sh p sh' p'.
Proof.
  destruct p as [|c|c v|s v w m k| |[|c cc] acc|first rest|first o|first o| |b]; cbn [blocked].
  - destruct (sh_queue sh) as [|[c|] q] eqn:E; [auto|right..]; do 2 eexists; [apply step_ticket|apply step_stop]; exact E.
  - destruct (in_dec Nat.eq_dec c (cs (sh_tasks sh))) as [H|H]; [right|auto].
    apply cs_in_split in H. destruct H as (t1 & v & t2 & E & Ec). do 2 eexists. eapply step_first; eassumption.
  - destruct (in_dec Nat.eq_dec c (cs (sh_tasks sh))) as [H|H]; [|auto].
    destruct (sh_left sh) as [|l] eqn:El; [auto|right].
    apply cs_in_split in H. destruct H as (t1 & w & t2 & E & Ec). do 2 eexists.
    eapply (step_second chunks sh c v w t1 t2 l (sh_next sh)); [eassumption..|lia].
  - right. destruct s; try (do 2 eexists; constructor). destruct k; do 2 eexists; constructor.
  - destruct (sh_counter sh) as [|[|k]] eqn:E; [auto|right..]; do 2 eexists; [apply step_last; exact E|].
    eapply step_leave; [exact E|lia].
  - destruct (exists_last_or acc) as [->|(a & v & ->)]; [auto|right]. do 2 eexists. apply step_collected.
  - destruct (in_dec Nat.eq_dec c (cs (sh_tasks sh))) as [H|H]; [right|auto].
    apply cs_in_split in H. destruct H as (t1 & v & t2 & E & Ec). do 2 eexists. eapply step_collect; eassumption.
  - right. destruct rest as [|v rest]; do 2 eexists; [apply step_merged|].
    apply (step_next chunks sh first v rest (sh_next sh)). lia.
  - destruct o; [|right; do 2 eexists; constructor].
    destruct (vocab_size_line first) as [z|e] eqn:E; [right; do 2 eexists; apply step_stats; exact E|].
    left. intros z. discriminate.
  - right. destruct o; do 2 eexists; constructor.
  - right. destruct (sh_disk sh) as [|f d] eqn:E; [|do 2 eexists; apply (step_rmtree_file chunks sh [] f d); exact E].
    destruct (sh_ready sh) eqn:R; do 2 eexists; [apply step_rmtree_ready|apply step_rmtree]; assumption.
  - auto.
Qed.

Lemma all_blocked chunks sh l : (forall p, In p l -> blocked sh p) \/
  exists l1 p l2 sh' p', l = l1 ++ p :: l2 /\ pstep chunks sh p sh' p'.
Proof.
  induction l as [|p l [IH|(l1 & q & l2 & sh' & q' & -> & P)]]; [left; intros p []| |].
  - destruct (blocked_or_step chunks sh p) as [B|(sh' & p' & P)].
    + left. intros q [<-|Hq]; auto.
    + right. exists [], p, l, sh', p'. auto.
  - right. exists (p :: l1), q, l2, sh', q'. auto.
Qed.

Lemma ci_progress r tk k : CI r tk k ->
  (forall f, In (PStats f true) (r_procs r) -> exists z, vocab_size_line f = Ok z) ->
  (forall p, In p (r_procs r) -> exists b, p = PDone b) \/ exists r', step r r'.
Proof.
  intros H HS. destruct (all_blocked (r_chunks r) (r_shared r) (r_procs r)) as [B|(l1 & p & l2 & sh' & p' & E & P)].
  2:{ right. destruct r as [ch sh ps]. cbn [r_chunks r_shared r_procs] in *. subst ps. eexists. constructor. exact P. }
  left.
  assert (NOFIN : forall p, In p (r_procs r) -> past p = 0 -> forall q, In q (r_procs r) -> isfin q = 0).
  { intros p Hp Z q Hq. pose proof (ci_fin _ _ _ H) as F. pose proof (ci_past _ _ _ H) as P.
    destruct (sh_counter (r_shared r)) as [|c]; [|apply (sumf_eq0 isfin (r_procs r)); [lia|exact Hq]].
    pose proof (sumf_full past (r_procs r) past_bound ltac:(lia) p Hp). lia. }
  assert (NOFT : (forall q, In q (r_procs r) -> isfin q = 0) -> forall c, sumf (ft (r_chunks r) c) (r_procs r) = 0).
  { intros Z c. apply sumf_zero. intros q Hq. specialize (Z q Hq). destruct q as [| | |? ? ? ? []| | | | | | |[]]; cbn in *; lia. }
  intros p Hp. pose proof (B p Hp) as Bp. pose proof (ci_pok _ _ _ H) as O. rewrite Forall_forall in O. specialize (O p Hp).
  destruct p as [|c|c v|s v w m kk| |[|c cc] acc|first rest|first o|first o| |b]; cbn [blocked pok] in *; try contradiction.
  - pose proof (ci_queue _ _ _ H) as Q. rewrite Bp in Q. destruct tk; [|discriminate]. destruct k; [|discriminate].
    pose proof (ci_stopped _ _ _ H) as S. pose proof (sumf_full stopped (r_procs r) stopped_bound ltac:(lia) PIdle Hp). discriminate.
  - exfalso. apply Bp, cn_pos. pose proof (ci_count _ _ _ H c) as E. rewrite (NOFT (NOFIN _ Hp eq_refl)) in E.
    pose proof (sumf_in (wt c) _ _ Hp) as W. cbn [wt] in W. rewrite Nat.eqb_refl in W. cbn in W.
    assert (M : sumf (mg c) (r_procs r) = 0); [|lia].
    apply sumf_zero. intros q Hq. specialize (B q Hq). destruct q; try reflexivity. destruct B.
  - exfalso. destruct O as [O _]. pose proof (cn_in _ _ O). pose proof (ci_count _ _ _ H c) as E. rewrite (NOFT (NOFIN _ Hp eq_refl)) in E.
    assert (M : sumf (mg c) (r_procs r) = 0).
    { apply sumf_zero. intros q Hq. specialize (B q Hq). destruct q; try reflexivity. destruct B. }
    destruct Bp as [Bp|Bp]; [apply Bp, cn_pos; lia|].
    pose proof (ci_left _ _ _ H) as L. pose proof (sumf_in wg _ _ Hp) as W. cbn [wg] in W. lia.
  - pose proof (ci_past _ _ _ H) as P. rewrite Bp in P.
    pose proof (sumf_full past (r_procs r) past_bound ltac:(lia) PStop Hp). discriminate.
  - subst acc. cbn in O. destruct (ci_chunks _ _ _ H O).
  - exfalso. apply Bp, cn_pos. apply in_split in Hp. destruct Hp as (l1 & l2 & El).
    destruct (ci_alone _ _ _ _ _ _ H El eq_refl) as (_ & A & -> & ->).
    pose proof (ci_count _ _ _ H c) as E. rewrite El, !sumf_mid in E.
    assert (Z : forall f l, (forall q, In q l -> In q (l1 ++ l2)) -> f (PDone false) = 0 -> sumf f l = 0).
    { intros f l I Z. apply sumf_zero. intros q Hq. rewrite (A q (I q Hq)). exact Z. }
    assert (I1 : forall q, In q l1 -> In q (l1 ++ l2)) by (intros; apply in_or_app; auto).
    assert (I2 : forall q, In q l2 -> In q (l1 ++ l2)) by (intros; apply in_or_app; auto).
    rewrite !(Z _ l1 I1 eq_refl), !(Z _ l2 I2 eq_refl) in E. cbn [mg ft wt cn] in E. rewrite O, cn_app in E. cbn [cn] in E.
    rewrite Nat.eqb_refl in E. cbn in E. lia.
  - destruct o; [|contradiction]. destruct (HS _ Hp) as (z & Ez). destruct (Bp z Ez).
  - exists b. reflexivity.
Qed.

(** ** What the directory contains

    A unit is a complete partial vocabulary, or a merge of two at some stage. *)
Inductive dunit :=
| UPlain (v : pvocab)
| UMerge (s : stage) (v w m : pvocab).
Definition triple (v w m : pvocab) (c : option pvocab) : pfile := Triple (pv_id v) (pv_id w) (pv_id m) c.
Definition ufiles (u : dunit) : list pfile :=
  match u with
  | UPlain v => [Plain v]
  | UMerge Start v w m => [Plain v; Plain w]
  | UMerge Dumping v w m => [triple v w m None; Plain v; Plain w]
  | UMerge Dumped v w m => [triple v w m (Some m); Plain v; Plain w]
  | UMerge RemovedFirst v w m => [triple v w m (Some m); Plain w]
  | UMerge RemovedSecond v w m => [triple v w m (Some m)]
  | UMerge Renamed v w m => [Plain m]
  end.
Definition uids (u : dunit) : list N :=
  match u with UPlain v => [pv_id v] | UMerge _ v w m => [pv_id v; pv_id w; pv_id m] end.
Definition uwords (u : dunit) (ws : list str) : Prop :=
  match u with
  | UPlain v => built v ws
  | UMerge _ v w m => exists i wv ww, built v wv /\ built w ww /\ m = add_vocab i v w /\ ws = wv ++ ww
  end.

Definition on_disk (d : list pfile) (us : list dunit) : Prop :=
  Permutation d (flat_map ufiles us) /\ NoDup (flat_map uids us).
Definition has_words (us : list dunit) (ws : list str) : Prop :=
  exists wss, Forall2 uwords us wss /\ Permutation (List.concat wss) ws.
Definition below (next : N) (us : list dunit) : Prop := Forall (fun i => i < next)%N (flat_map uids us).

Lemma on_disk_perm d us us' : Permutation us us' -> on_disk d us -> on_disk d us'.
Proof.
  intros P [H N]. split.
  - rewrite H. apply Permutation_flat_map. exact P.
  - apply (Permutation_NoDup (l := flat_map uids us)); [|exact N]. apply Permutation_flat_map. exact P.
Qed.
Lemma below_perm next us us' : Permutation us us' -> below next us -> below next us'.
Proof. intros P. apply Permutation_Forall, Permutation_flat_map, P. Qed.
Lemma Forall2_perm {A B} (R : A -> B -> Prop) l l' : Permutation l l' -> forall m, Forall2 R l m ->
  exists m', Forall2 R l' m' /\ Permutation m m'.
Proof.
  induction 1 as [|x l l' P IH|x y l|l l' l'' P1 IH1 P2 IH2]; intros m H.
  - inversion H; subst. exists []. auto.
  - inversion H as [|? b ? m0 Hx Hl]; subst. destruct (IH _ Hl) as (m' & H' & P'). exists (b :: m'). auto.
  - inversion H as [|? b ? m0 Hy Hl]; subst. inversion Hl as [|? b' ? m1 Hx Hl']; subst.
    exists (b' :: b :: m1). split; [auto|apply perm_swap].
  - destruct (IH1 _ H) as (m1 & H1 & Q1). destruct (IH2 _ H1) as (m2 & H2 & Q2).
    exists m2. split; [exact H2|]. etransitivity; eassumption.
Qed.
Lemma concat_perm {A} (l l' : list (list A)) : Permutation l l' -> Permutation (List.concat l) (List.concat l').
Proof.
  induction 1; cbn; [constructor|apply Permutation_app_head; assumption| |etransitivity; eassumption].
  rewrite !app_assoc. apply Permutation_app_tail, Permutation_app_comm.
Qed.
Lemma has_words_perm us us' ws : Permutation us us' -> has_words us ws -> has_words us' ws.
Proof.
  intros P (wss & F & E). destruct (Forall2_perm uwords us us' P wss F) as (wss' & F' & P').
  exists wss'. split; [exact F'|]. rewrite <- E. apply concat_perm. symmetry. exact P'.
Qed.
Lemma has_words_cons u us ws : has_words (u :: us) ws <->
  exists wu wus, uwords u wu /\ has_words us wus /\ Permutation (wu ++ wus) ws.
Proof.
  split.
  - intros (wss & F & E). inversion F as [|? wu ? wus Hu Hus]; subst. cbn in E.
    exists wu, (List.concat wus). split; [exact Hu|]. split; [|exact E]. exists wus. auto.
  - intros (wu & wus & Hu & (wss & F & E) & P). exists (wu :: wss). split; [constructor; assumption|].
    cbn. rewrite E. exact P.
Qed.

Lemma plain_others i us : ~ In i (flat_map uids us) -> rm_plain i (flat_map ufiles us) = flat_map ufiles us.
Proof.
  induction us as [|u us IH]; intros H; [reflexivity|]. cbn [flat_map] in *. rewrite in_app_iff in H.
  unfold rm_plain in *. rewrite filter_app, IH by tauto. f_equal.
  assert (E : forall v, In (pv_id v) (uids u) -> negb (is_plain i (Plain v)) = true).
  { intros v Hv. cbn. destruct (N.eqb_spec (pv_id v) i) as [<-|]; [tauto|reflexivity]. }
  destruct u as [v|[] v w m]; cbn [ufiles filter uids In triple is_plain negb] in *; rewrite ?(E v), ?(E w), ?(E m) by tauto;
    try reflexivity.
Qed.
Lemma triple_others a b n us : ~ In n (flat_map uids us) -> rm_triple a b n (flat_map ufiles us) = flat_map ufiles us.
Proof.
  induction us as [|u us IH]; intros H; [reflexivity|]. cbn [flat_map] in *. rewrite in_app_iff in H.
  unfold rm_triple in *. rewrite filter_app, IH by tauto. f_equal.
  assert (E : forall v w m c, In (pv_id m) (uids u) -> negb (is_triple a b n (triple v w m c)) = true).
  { intros v w m c Hm. cbn. destruct (N.eqb_spec (pv_id m) n) as [<-|]; [tauto|]. rewrite andb_false_r. reflexivity. }
  destruct u as [v|[] v w m]; cbn [ufiles filter uids In is_triple negb] in *; rewrite ?E by tauto; reflexivity.
Qed.
Lemma filter_perm {A} (f : A -> bool) l l' : Permutation l l' -> Permutation (filter f l) (filter f l').
Proof.
  induction 1; cbn; [constructor| | |etransitivity; eassumption].
  - destruct (f x); [constructor|]; assumption.
  - destruct (f x), (f y); try constructor; reflexivity.
Qed.
Lemma rm_plain_perm i d d' : Permutation d d' -> Permutation (rm_plain i d) (rm_plain i d').
Proof. apply filter_perm. Qed.
Lemma rm_triple_perm a b n d d' : Permutation d d' -> Permutation (rm_triple a b n d) (rm_triple a b n d').
Proof. apply filter_perm. Qed.

(** one operation of a merge changes one unit *)
Section MergeOps.
  Variable v w m : pvocab.
  Variable us : list dunit.
  Variable d : list pfile.
  Let ids_ok := NoDup ([pv_id v; pv_id w; pv_id m] ++ flat_map uids us).

  Lemma ids_facts : ids_ok -> pv_id v <> pv_id w /\ pv_id v <> pv_id m /\ pv_id w <> pv_id m
    /\ ~ In (pv_id v) (flat_map uids us) /\ ~ In (pv_id w) (flat_map uids us) /\ ~ In (pv_id m) (flat_map uids us).
  Proof.
    intros H. unfold ids_ok in H. cbn [app] in H. inversion H as [|? ? A H1]; subst. inversion H1 as [|? ? B H2]; subst.
    inversion H2 as [|? ? C _]; subst. cbn [In] in *. intuition congruence.
  Qed.

  Ltac unit_op :=
    match goal with
    | |- on_disk _ _ -> on_disk _ _ =>
        intros [P N]; split; [|exact N]; destruct (ids_facts N) as (n1 & n2 & n3 & o1 & o2 & o3)
    end.

  Lemma op_open : on_disk d (UMerge Start v w m :: us) ->
    on_disk (put_triple (pv_id v) (pv_id w) (pv_id m) None d) (UMerge Dumping v w m :: us).
  Proof.
    unit_op. unfold put_triple. rewrite (rm_triple_perm _ _ _ _ _ P). cbn [flat_map].
    unfold rm_triple at 1. rewrite filter_app. fold (rm_triple (pv_id v) (pv_id w) (pv_id m) (flat_map ufiles us)).
    rewrite (triple_others _ _ _ us o3). reflexivity.
  Qed.
  Lemma op_dump : on_disk d (UMerge Dumping v w m :: us) ->
    on_disk (put_triple (pv_id v) (pv_id w) (pv_id m) (Some m) d) (UMerge Dumped v w m :: us).
  Proof.
    unit_op. unfold put_triple. rewrite (rm_triple_perm _ _ _ _ _ P). cbn [flat_map].
    unfold rm_triple at 1. rewrite filter_app. fold (rm_triple (pv_id v) (pv_id w) (pv_id m) (flat_map ufiles us)).
    rewrite (triple_others _ _ _ us o3). cbn [ufiles filter triple is_triple]. rewrite !N.eqb_refl. reflexivity.
  Qed.
  (** also when the file is not there any more *)
  Lemma op_rm_first s : s = Dumped \/ s = RemovedFirst -> on_disk d (UMerge s v w m :: us) ->
    on_disk (rm_plain (pv_id v) d) (UMerge RemovedFirst v w m :: us).
  Proof.
    intros Hs. unit_op. rewrite (rm_plain_perm _ _ _ P). cbn [flat_map].
    unfold rm_plain at 1. rewrite filter_app. fold (rm_plain (pv_id v) (flat_map ufiles us)).
    rewrite (plain_others _ us o1). assert (E : N.eqb (pv_id w) (pv_id v) = false) by (apply N.eqb_neq; congruence).
    destruct Hs as [-> | ->]; cbn [ufiles filter triple is_plain negb]; rewrite ?N.eqb_refl, E; reflexivity.
  Qed.
  Lemma op_rm_second s : s = RemovedFirst \/ s = RemovedSecond -> on_disk d (UMerge s v w m :: us) ->
    on_disk (rm_plain (pv_id w) d) (UMerge RemovedSecond v w m :: us).
  Proof.
    intros Hs. unit_op. rewrite (rm_plain_perm _ _ _ P). cbn [flat_map].
    unfold rm_plain at 1. rewrite filter_app. fold (rm_plain (pv_id w) (flat_map ufiles us)).
    rewrite (plain_others _ us o2).
    destruct Hs as [-> | ->]; cbn [ufiles filter triple is_plain negb]; rewrite ?N.eqb_refl; reflexivity.
  Qed.
  Lemma op_rm_first_again : on_disk d (UMerge RemovedSecond v w m :: us) ->
    on_disk (rm_plain (pv_id v) d) (UMerge RemovedSecond v w m :: us).
  Proof.
    unit_op. rewrite (rm_plain_perm _ _ _ P). cbn [flat_map].
    unfold rm_plain at 1. rewrite filter_app. fold (rm_plain (pv_id v) (flat_map ufiles us)).
    rewrite (plain_others _ us o1). reflexivity.
  Qed.
  Lemma op_rename : on_disk d (UMerge RemovedSecond v w m :: us) ->
    on_disk (rename_triple (pv_id v) (pv_id w) (pv_id m) m d) (UMerge Renamed v w m :: us).
  Proof.
    unit_op. unfold rename_triple. rewrite (rm_plain_perm _ _ _ (rm_triple_perm _ _ _ _ _ P)). cbn [flat_map].
    unfold rm_triple at 1. rewrite filter_app. fold (rm_triple (pv_id v) (pv_id w) (pv_id m) (flat_map ufiles us)).
    rewrite (triple_others _ _ _ us o3). cbn [ufiles filter triple is_triple app]. rewrite !N.eqb_refl. cbn [andb negb app].
    rewrite (plain_others _ us o3). reflexivity.
  Qed.
  Lemma op_rm_triple : on_disk d (UMerge Dumping v w m :: us) ->
    on_disk (rm_triple (pv_id v) (pv_id w) (pv_id m) d) (UMerge Start v w m :: us).
  Proof.
    unit_op. rewrite (rm_triple_perm _ _ _ _ _ P). cbn [flat_map].
    unfold rm_triple at 1. rewrite filter_app. fold (rm_triple (pv_id v) (pv_id w) (pv_id m) (flat_map ufiles us)).
    rewrite (triple_others _ _ _ us o3). cbn [ufiles filter triple is_triple]. rewrite !N.eqb_refl. reflexivity.
  Qed.
  Lemma op_start : on_disk d (UPlain v :: UPlain w :: us) -> ~ In (pv_id m) (flat_map uids (UPlain v :: UPlain w :: us)) ->
    on_disk d (UMerge Start v w m :: us).
  Proof.
    intros [P N] F. split; [exact P|]. cbn [flat_map uids app] in *.
    apply (Permutation_NoDup (l := pv_id m :: pv_id v :: pv_id w :: flat_map uids us)); [|constructor; assumption].
    etransitivity; [apply perm_swap|]. apply perm_skip, perm_swap.
  Qed.
  Lemma op_unstart : on_disk d (UMerge Start v w m :: us) -> on_disk d (UPlain v :: UPlain w :: us).
  Proof.
    intros [P N]. split; [exact P|]. exact (NoDup_remove_1 [pv_id v; pv_id w] _ _ N).
  Qed.
  Lemma op_done : on_disk d (UMerge Renamed v w m :: us) -> on_disk d (UPlain m :: us).
  Proof.
    intros [P N]. split; [exact P|]. cbn [flat_map uids app] in *. inversion N as [|? ? _ N1]; subst. inversion N1; subst. assumption.
  Qed.
  Lemma words_start i ws : m = add_vocab i v w -> has_words (UPlain v :: UPlain w :: us) ws -> forall s, has_words (UMerge s v w m :: us) ws.
  Proof.
    intros E H s. rewrite has_words_cons in H. destruct H as (wv & wr & Hv & H & P). rewrite has_words_cons in H.
    destruct H as (ww & wus & Hw & H & P'). rewrite has_words_cons. exists (wv ++ ww), wus. cbn [uwords] in *. split; [eauto 8|].
    split; [exact H|]. rewrite <- app_assoc, P'. exact P.
  Qed.
  Lemma words_stage s s' ws : has_words (UMerge s v w m :: us) ws -> has_words (UMerge s' v w m :: us) ws.
  Proof. rewrite !has_words_cons. intros H. exact H. Qed.
  Lemma words_done s ws : has_words (UMerge s v w m :: us) ws -> has_words (UPlain m :: us) ws.
  Proof.
    rewrite !has_words_cons. intros (wu & wus & (i & wv & ww & Hv & Hw & -> & ->) & H & P).
    exists (wv ++ ww), wus. split; [constructor; assumption|auto].
  Qed.
  Lemma words_unstart s ws : has_words (UMerge s v w m :: us) ws -> has_words (UPlain v :: UPlain w :: us) ws.
  Proof.
    rewrite has_words_cons. intros (wu & wus & (i & wv & ww & Hv & Hw & -> & ->) & H & P).
    rewrite has_words_cons. exists wv, (ww ++ wus). split; [exact Hv|]. rewrite app_assoc. split; [|exact P].
    rewrite has_words_cons. exists ww, wus. auto.
  Qed.
End MergeOps.

Definition punits (p : pstate) : list dunit :=
  match p with
  | PGot _ v => [UPlain v]
  | PMerge s v w m PutBack => [UMerge s v w m]
  | PMerge s v w m (Continue rest) => UMerge s v w m :: map UPlain rest
  | PCollect _ acc => map UPlain acc
  | PFin f rest => UPlain f :: map UPlain rest
  | PStats f _ | PVocab f _ => [UPlain f]
  | _ => []
  end.
Definition all_units (r : run) : list dunit := map UPlain (sh_tasks (r_shared r)) ++ flat_map punits (r_procs r).
(** the directory is complete: nothing is removed from it yet except in merges *)
Definition kept (next : N) (d : list pfile) (us : list dunit) (ws : list str) : Prop :=
  on_disk d us /\ has_words us ws /\ below next us.
Definition removing (p : pstate) : bool := match p with PRemove | PDone true => true | _ => false end.
Definition DI (r : run) (ws : list str) : Prop :=
  (forall p, In p (r_procs r) -> removing p = false) ->
  kept (sh_next (r_shared r)) (sh_disk (r_shared r)) (all_units r) ws /\ sh_ready (r_shared r) = true.

Lemma kept_perm next d us us' ws : Permutation us us' -> kept next d us ws -> kept next d us' ws.
Proof.
  intros P (A & B & C). split; [|split]; [apply (on_disk_perm d us)|apply (has_words_perm us)|apply (below_perm next us)]; assumption.
Qed.
Lemma units_split t l1 p l2 :
  Permutation (map UPlain t ++ flat_map punits (l1 ++ p :: l2)) (punits p ++ map UPlain t ++ flat_map punits (l1 ++ l2)).
Proof.
  rewrite !flat_map_app. cbn [flat_map]. rewrite !app_assoc. apply Permutation_app_tail.
  etransitivity; [apply Permutation_app_comm|]. rewrite app_assoc. reflexivity.
Qed.
Lemma below_le a b us : (a <= b)%N -> below a us -> below b us.
Proof. intros H. apply Forall_impl. intros i Hi. lia. Qed.
Lemma below_stage next s s' v w m us : below next (UMerge s v w m :: us) -> below next (UMerge s' v w m :: us).
Proof. intros H. exact H. Qed.
Lemma below_done next s v w m us : below next (UMerge s v w m :: us) -> below next (UPlain m :: us).
Proof.
  unfold below. cbn [flat_map uids app]. intros H. inversion H as [|? ? _ H1]; subst. inversion H1; subst. assumption.
Qed.
Lemma below_start next i v w us : (next <= i)%N -> below next (UPlain v :: UPlain w :: us) ->
  below (i + 1) (UMerge Start v w (add_vocab i v w) :: us) /\ ~ In i (flat_map uids (UPlain v :: UPlain w :: us)).
Proof.
  intros Hi H. split.
  - apply (below_le next (i + 1)) in H; [|lia]. unfold below in *. cbn [flat_map uids app] in *.
    inversion H as [|? ? A H1]; subst. inversion H1 as [|? ? B H2]; subst. repeat constructor; try assumption. cbn. lia.
  - intros Hin. unfold below in H. rewrite Forall_forall in H. specialize (H i Hin). lia.
Qed.
Lemma kept_start next i d v w us ws : (next <= i)%N -> kept next d (UPlain v :: UPlain w :: us) ws ->
  kept (i + 1) d (UMerge Start v w (add_vocab i v w) :: us) ws.
Proof.
  intros Hi (A & B & C). destruct (below_start next i v w us Hi C) as [C1 F]. split; [|split].
  - apply op_start; assumption.
  - apply (words_start v w (add_vocab i v w) us i ws eq_refl B).
  - exact C1.
Qed.
Lemma kept_done next d v w m us ws : kept next d (UMerge Renamed v w m :: us) ws -> kept next d (UPlain m :: us) ws.
Proof.
  intros (A & B & C). split; [|split]; [apply (op_done v w m us d A)|apply (words_done v w m us Renamed ws B)|].
  apply (below_done next Renamed v w m us C).
Qed.
Lemma kept_stage next d d' s s' v w m us ws : (on_disk d (UMerge s v w m :: us) -> on_disk d' (UMerge s' v w m :: us)) ->
  kept next d (UMerge s v w m :: us) ws -> kept next d' (UMerge s' v w m :: us) ws.
Proof. intros F (A & B & C). split; [exact (F A)|]. split; [exact (words_stage v w m us s s' ws B)|exact C]. Qed.

Lemma kept_step next d us ws chunks sh p sh' p' : pstep chunks sh p sh' p' ->
  removing p' = false -> next = sh_next sh -> d = sh_disk sh ->
  kept next d (punits p ++ map UPlain (sh_tasks sh) ++ us) ws ->
  kept (sh_next sh') (sh_disk sh') (punits p' ++ map UPlain (sh_tasks sh') ++ us) ws.
Proof.
  intros P R -> ->. destruct P;
    cbn [punits removing app with_queue with_tasks with_counter with_left with_next with_disk with_ready with_size with_vocab
         sh_next sh_disk sh_tasks] in *; try (intros K; exact K); try discriminate.
  - rewrite H, map_app. cbn [map]. apply kept_perm. rewrite <- !app_assoc. cbn [app]. symmetry. rewrite map_app, <- app_assoc. apply Permutation_middle.
  - intros K. apply (kept_start (sh_next sh)); [assumption|]. revert K. rewrite H, map_app. cbn [map]. apply kept_perm.
    apply perm_skip. rewrite map_app, <- !app_assoc. cbn [app]. symmetry. apply Permutation_middle.
  - destruct k; cbn [app]; apply kept_stage, op_open.
  - destruct k; cbn [app]; apply kept_stage, op_dump.
  - destruct k; cbn [app]; apply kept_stage, op_rm_first; auto.
  - destruct k; cbn [app]; apply kept_stage, op_rm_second; auto.
  - destruct k; cbn [app]; apply kept_stage, op_rename; auto.
  - intros K. apply kept_done in K. revert K. apply kept_perm. rewrite map_app. cbn [map]. rewrite <- app_assoc. cbn [app].
    apply Permutation_middle.
  - apply kept_done.
  - rewrite H. apply kept_perm. rewrite !map_app. cbn [map]. rewrite <- !app_assoc. apply Permutation_app_head. cbn [app].
    symmetry. apply Permutation_middle.
  - apply kept_perm. rewrite map_app. cbn [map]. rewrite <- !app_assoc. cbn [app]. symmetry. apply Permutation_middle.
  - apply kept_start. assumption.
Qed.

Lemma di_step r r' ws : DI r ws -> step r r' -> DI r' ws.
Proof.
  intros H S A. destruct S as [chunks sh sh' l1 p p' l2 P]. unfold DI in H. cbn [r_chunks r_shared r_procs] in *.
  assert (Ap' : removing p' = false) by (apply A, in_elt).
  assert (Ap : removing p = false) by (destruct P; cbn in *; congruence).
  destruct H as [K R].
  { intros q Hq. apply in_app_or in Hq. destruct Hq as [Hq|[<-|Hq]]; [|exact Ap|]; apply A, in_or_app; [left|right; right]; exact Hq. }
  split.
  - unfold all_units in *. cbn [r_shared r_procs] in *.
    apply (kept_perm _ _ (punits p' ++ map UPlain (sh_tasks sh') ++ flat_map punits (l1 ++ l2))); [symmetry; apply units_split|].
    apply (kept_step (sh_next sh) (sh_disk sh) _ _ chunks sh p); auto.
    apply (kept_perm _ _ _ _ _ (units_split _ _ _ _) K).
  - destruct P; cbn in *; try discriminate; exact R.
Qed.

(** ** The output files *)
Definition distinct_words (ws : list str) : Z := Z.of_nat (length (nodup str_dec ws)).
Definition right_vocab (ws : list str) (f : ofile str) : Prop := exists d, counts_exactly d ws /\ f = Full (write_vocab d).
Definition pout (ws : list str) (sh : shared) (p : pstate) : Prop :=
  match p with
  | PDone false => True
  | PVocab _ false => sh_size sh = Full (distinct_words ws) /\ sh_vocab sh = Absent
  | PVocab _ true => sh_size sh = Full (distinct_words ws) /\ sh_vocab sh = Part
  | PRemove | PDone true => sh_size sh = Full (distinct_words ws) /\ right_vocab ws (sh_vocab sh)
  | _ => sh_vocab sh = Absent
  end.
Definition INV (r : run) (ws : list str) : Prop :=
  (exists tk k, CI r tk k) /\ DI r ws /\ Forall (pout ws (r_shared r)) (r_procs r).

Lemma fin_tasks r tk k l1 p l2 : CI r tk k -> r_procs r = l1 ++ p :: l2 ->
  (forall c, ft (r_chunks r) c p = cn c (r_chunks r)) -> isfin p = 1 -> sh_tasks (r_shared r) = [].
Proof.
  intros H E F I. destruct (ci_alone _ _ _ _ _ _ H E I) as (_ & A & -> & ->).
  assert (Z : cs (sh_tasks (r_shared r)) = []).
  { apply cn_zero. intros c. pose proof (ci_count _ _ _ H c) as C. rewrite E, !sumf_mid, F in C.
    assert (Z : forall f l, (forall q, In q l -> In q (l1 ++ l2)) -> f (PDone false) = 0 -> sumf f l = 0).
    { intros f l Il Z. apply sumf_zero. intros q Hq. rewrite (A q (Il q Hq)). exact Z. }
    assert (I1 : forall q, In q l1 -> In q (l1 ++ l2)) by (intros; apply in_or_app; auto).
    assert (I2 : forall q, In q l2 -> In q (l1 ++ l2)) by (intros; apply in_or_app; auto).
    rewrite !(Z _ l1 I1 eq_refl), !(Z _ l2 I2 eq_refl) in C.
    assert (W : wt c p = 0) by (destruct p; cbn in *; (discriminate || reflexivity)). rewrite W in C. cbn [cn] in C. lia. }
  destruct (sh_tasks (r_shared r)); [reflexivity|discriminate].
Qed.
Lemma fin_units r tk k l1 p l2 ws : CI r tk k -> DI r ws -> r_procs r = l1 ++ p :: l2 ->
  (forall c, ft (r_chunks r) c p = cn c (r_chunks r)) -> isfin p = 1 -> removing p = false ->
  kept (sh_next (r_shared r)) (sh_disk (r_shared r)) (punits p) ws /\ sh_ready (r_shared r) = true.
Proof.
  intros H D E F I R. pose proof (fin_tasks _ _ _ _ _ _ H E F I) as T. destruct (ci_alone _ _ _ _ _ _ H E I) as (_ & A & _).
  destruct D as [K RD].
  { rewrite E. intros q Hq. apply in_app_or in Hq. destruct Hq as [Hq|[<-|Hq]]; [|exact R|]; rewrite (A q); try reflexivity;
      apply in_or_app; auto. }
  split; [|exact RD]. unfold all_units in K. rewrite T, E in K. cbn [map app] in K. rewrite flat_map_app in K. cbn [flat_map] in K.
  assert (Z : forall l, (forall q, In q l -> In q (l1 ++ l2)) -> flat_map punits l = []).
  { induction l as [|q l IH]; intros Il; [reflexivity|]. cbn [flat_map]. rewrite (A q) by (apply Il; left; reflexivity).
    apply IH. intros x Hx. apply Il. right. exact Hx. }
  rewrite (Z l1), (Z l2), app_nil_r in K by (intros; apply in_or_app; auto). exact K.
Qed.
Lemma kept_single next d f ws : kept next d [UPlain f] ws -> exists w, built f w /\ Permutation w ws /\ length d = 1.
Proof.
  intros ((P & _) & W & _). rewrite has_words_cons in W. destruct W as (w & wr & B & (wss & F & E) & Q).
  inversion F; subst. cbn in E. apply Permutation_nil in E. subst. rewrite app_nil_r in Q.
  exists w. split; [exact B|]. split; [exact Q|]. exact (Permutation_length P).
Qed.
Lemma distinct_perm w ws : Permutation w ws -> distinct_words w = distinct_words ws.
Proof.
  intros P. unfold distinct_words. f_equal. apply Permutation_length. apply NoDup_Permutation; [apply NoDup_nodup..|].
  intros x. rewrite !nodup_In. split; apply Permutation_in; [exact P|symmetry; exact P].
Qed.

Lemma pout_same ws sh sh' p : sh_size sh' = sh_size sh -> sh_vocab sh' = sh_vocab sh -> pout ws sh p -> pout ws sh' p.
Proof. intros E1 E2. destruct p as [| | |? ? ? ? ?| | | | |? []| |[]]; cbn; rewrite ?E1, ?E2; auto. Qed.

Lemma inv_step r r' ws : INV r ws -> step r r' -> INV r' ws.
Proof.
  intros ((tk & k & C) & D & O) S. split; [apply (ci_step r r' tk k C S)|]. split; [apply (di_step r r' ws D S)|].
  destruct S as [chunks sh sh' l1 p p' l2 P]. cbn [r_chunks r_shared r_procs] in *.
  apply Forall_app in O. destruct O as [O1 O2]. inversion O2 as [|? ? Op O3]; subst. clear O2.
  assert (SAME : sh_size sh' = sh_size sh -> sh_vocab sh' = sh_vocab sh -> pout ws sh' p' -> Forall (pout ws sh') (l1 ++ p' :: l2)).
  { intros E1 E2 Q. apply Forall_app. split; [|constructor; [exact Q|]];
      (eapply Forall_impl; [intros q; apply pout_same; eassumption|assumption]). }
  assert (ALONE : isfin p = 1 -> pout ws sh' p' -> Forall (pout ws sh') (l1 ++ p' :: l2)).
  { intros I Q. destruct (ci_alone _ _ _ l1 p l2 C eq_refl I) as (_ & A & _).
    apply Forall_app. split; [|constructor; [exact Q|]]; apply Forall_forall; intros q Hq; rewrite (A q); cbn; auto; apply in_or_app; auto. }
  destruct P; cbn [pout] in Op; try (apply SAME; [reflexivity..|]; cbn; auto; fail).
  - apply ALONE; [reflexivity|]. cbn. exact Op.
  - apply ALONE; [reflexivity|]. cbn. split; [|exact Op].
    destruct (fin_units _ _ _ l1 _ l2 ws C D eq_refl (fun c => eq_refl) eq_refl eq_refl) as [K _].
    destruct (kept_single _ _ _ _ K) as (w & B & Pw & _). rewrite (C49_size first w B) in H. injection H as <-.
    f_equal. apply distinct_perm. exact Pw.
  - apply ALONE; [reflexivity|]. cbn. tauto.
  - apply ALONE; [reflexivity|]. cbn. split; [tauto|].
    destruct (fin_units _ _ _ l1 _ l2 ws C D eq_refl (fun c => eq_refl) eq_refl eq_refl) as [K _].
    destruct (kept_single _ _ _ _ K) as (w & B & Pw & _). exists (pv_counts first). split; [|reflexivity].
    apply (counts_exactly_perm _ w ws Pw), built_counts, B.
Qed.

Lemma inv_progress r ws : INV r ws -> (forall p, In p (r_procs r) -> exists b, p = PDone b) \/ exists r', step r r'.
Proof.
  intros ((tk & k & C) & D & O). apply (ci_progress r tk k C). intros f Hf. apply in_split in Hf. destruct Hf as (l1 & l2 & E).
  destruct (fin_units _ _ _ l1 _ l2 ws C D E (fun c => eq_refl) eq_refl eq_refl) as [K _].
  destruct (kept_single _ _ _ _ K) as (w & B & _). eexists. apply (C49_size f w B).
Qed.

(** ** Termination *)
Definition stage_left (s : stage) : nat :=
  match s with Start => 8 | Dumping => 7 | Dumped => 6 | RemovedFirst => 5 | RemovedSecond => 4 | Renamed => 3 end.
Definition weight (n : nat) (sh : shared) (p : pstate) : nat :=
  match p with
  | PIdle => 31 + 11 * n
  | PWant _ => 40 + 11 * n
  | PGot _ _ => 39 + 11 * n
  | PMerge s _ _ _ PutBack => 30 + 11 * n + stage_left s
  | PMerge s _ _ _ (Continue rest) => 10 + 9 * length rest + stage_left s
  | PStop => 30 + 11 * n
  | PCollect cc acc => 10 + length cc + 10 * (length cc + length acc)
  | PFin _ rest => 10 + 9 * length rest
  | PStats _ o => if o then 8 else 9
  | PVocab _ o => if o then 6 else 7
  | PRemove => 1 + b2n (sh_ready sh) + length (sh_disk sh)
  | PDone _ => 0
  end.
Fixpoint n_some (q : list (option nat)) : nat :=
  match q with [] => 0 | Some _ :: t => S (n_some t) | None :: t => n_some t end.
Definition measure (r : run) : nat :=
  11 * n_some (sh_queue (r_shared r)) + sumf (weight (length (r_chunks r)) (r_shared r)) (r_procs r).

Lemma sumf_ext f g l : (forall p, In p l -> f p = g p) -> sumf f l = sumf g l.
Proof.
  induction l as [|x l IH]; intros H; [reflexivity|]. cbn. rewrite (H x (or_introl eq_refl)). f_equal.
  apply IH. intros p Hp. apply H. right. exact Hp.
Qed.
Lemma inv_measure r r' ws : INV r ws -> step r r' -> measure r' < measure r.
Proof.
  intros ((tk & k & C) & D & O) S. destruct S as [chunks sh sh' l1 p p' l2 P]. unfold measure. cbn [r_chunks r_shared r_procs] in *.
  set (n := length chunks). rewrite !sumf_mid.
  assert (OTHERS : forall q, In q (l1 ++ l2) -> weight n sh' q = weight n sh q).
  { intros q Hq. destruct q; try reflexivity. exfalso.
    assert (E : p = PDone false); [|subst p; inversion P].
    apply in_app_or in Hq. destruct Hq as [Hq|Hq]; apply in_split in Hq; destruct Hq as (a & b & ->).
    - destruct (ci_alone _ _ _ a PRemove (b ++ p :: l2) C) as (_ & A & _); [cbn; rewrite <- app_assoc; reflexivity|reflexivity|].
      apply A. rewrite app_assoc. apply in_elt.
    - destruct (ci_alone _ _ _ (l1 ++ p :: a) PRemove b C) as (_ & A & _); [cbn; rewrite <- app_assoc; reflexivity|reflexivity|].
      apply A. rewrite <- app_assoc. apply in_elt. }
  rewrite (sumf_ext (weight n sh') (weight n sh) l1) by (intros; apply OTHERS, in_or_app; auto).
  rewrite (sumf_ext (weight n sh') (weight n sh) l2) by (intros; apply OTHERS, in_or_app; auto).
  assert (LEN : forall f, p = PVocab f true -> length (sh_disk sh) = 1 /\ sh_ready sh = true).
  { intros f ->. destruct (fin_units _ _ _ l1 _ l2 ws C D eq_refl (fun c => eq_refl) eq_refl eq_refl) as [K R].
    destruct (kept_single _ _ _ _ K) as (w & _ & _ & L). auto. }
  destruct P; cbn [weight stage_left with_queue with_tasks with_counter with_left with_next with_disk with_ready with_size with_vocab
         sh_queue sh_disk sh_ready b2n length] in *; try lia.
  - rewrite H. cbn [n_some]. lia.
  - rewrite H. cbn [n_some]. lia.
  - destruct k0; lia.
  - destruct k0; lia.
  - destruct k0; lia.
  - destruct k0; lia.
  - destruct k0; lia.
  - rewrite app_length. cbn [length]. lia.
  - rewrite app_length. cbn [length]. lia.
  - destruct (LEN first eq_refl) as [-> ->]. cbn. lia.
  - rewrite H, !app_length. cbn [length]. lia.
  - rewrite H. cbn. lia.
Qed.

(** ** Restarting *)
Definition utriples (u : dunit) : list (N * N * N * option pvocab) := triples_of (ufiles u).
Lemma triples_of_app a b : triples_of (a ++ b) = triples_of a ++ triples_of b.
Proof. apply flat_map_app. Qed.
Lemma triples_of_perm d d' : Permutation d d' -> Permutation (triples_of d) (triples_of d').
Proof. apply Permutation_flat_map. Qed.
Lemma triples_units us : triples_of (flat_map ufiles us) = flat_map utriples us.
Proof. induction us as [|u us IH]; [reflexivity|]. cbn [flat_map]. rewrite triples_of_app, IH. reflexivity. Qed.

Definition complete (d : list pfile) (ws : list str) : Prop :=
  exists us, on_disk d us /\ has_words us ws /\ us <> [].

Lemma in_utriples u x : In x (utriples u) -> exists s v w m, u = UMerge s v w m /\ utriples u = [x] /\
  (s = Dumping /\ x = (pv_id v, pv_id w, pv_id m, None)
   \/ (s = Dumped \/ s = RemovedFirst \/ s = RemovedSecond) /\ x = (pv_id v, pv_id w, pv_id m, Some m)).
Proof.
  unfold utriples. destruct u as [v|s v w m]; [intros []|].
  destruct s; cbn; intros H; try (destruct H as [<-|[]]); try (destruct H); exists s, v, w, m || idtac.
  - exists Dumping, v, w, m. auto 8.
  - exists Dumped, v, w, m. auto 8.
  - exists RemovedFirst, v, w, m. auto 8.
  - exists RemovedSecond, v, w, m. auto 8.
Qed.

Lemma perm_not_nil {A} (x : A) l : x :: l <> [].
Proof. discriminate. Qed.

Lemma finish_one eof a b n c d x us ws : on_disk d (x :: us) -> has_words (x :: us) ws -> utriples x = [(a, b, n, c)] ->
  let '(tr, r) := finish_file_dumping eof a b n c d in
  (forall d', In d' tr -> complete d' ws)
  /\ (forall d', r = Ok d' -> exists u', utriples u' = [] /\ on_disk d' (u' :: us) /\ has_words (u' :: us) ws)
  /\ (eof = true \/ c <> None -> exists d', r = Ok d').
Proof.
  intros D W T. assert (I : In (a, b, n, c) (utriples x)) by (rewrite T; left; reflexivity).
  destruct (in_utriples x _ I) as (s & v & w & m & -> & _ & [[-> E]|[Hs E]]); injection E as -> -> -> ->; cbn [finish_file_dumping].
  - destruct eof.
    + pose proof (op_rm_triple v w m us d D) as D'. pose proof (words_stage v w m us Dumping Start ws W) as W'.
      split; [|split].
      * intros d' [<-|[]]. exists (UMerge Start v w m :: us). auto using perm_not_nil.
      * intros d' E. injection E as <-. exists (UMerge Start v w m). auto.
      * eauto.
    + split; [intros d' []|]. split; [discriminate|]. intros [Z|Z]; congruence.
  - assert (D1 : exists s1, (s1 = RemovedFirst \/ s1 = RemovedSecond) /\ on_disk (rm_plain (pv_id v) d) (UMerge s1 v w m :: us)).
    { destruct Hs as [-> |[-> | ->]].
      - exists RemovedFirst. split; [auto|]. apply (op_rm_first v w m us d Dumped); auto.
      - exists RemovedFirst. split; [auto|]. apply (op_rm_first v w m us d RemovedFirst); auto.
      - exists RemovedSecond. split; [auto|]. apply op_rm_first_again. exact D. }
    destruct D1 as (s1 & Hs1 & D1). pose proof (op_rm_second v w m us _ s1 Hs1 D1) as D2.
    pose proof (op_rename v w m us _ D2) as D3.
    assert (Wa : forall s', has_words (UMerge s' v w m :: us) ws) by (intros s'; apply (words_stage v w m us s s' ws W)).
    split; [|split].
    + intros d' [<-|[<-|[<-|[]]]]; eexists; (split; [eassumption|split; [apply Wa|apply perm_not_nil]]).
    + intros d' E. injection E as <-. exists (UMerge Renamed v w m). auto.
    + eauto.
Qed.

Lemma finish_all_spec eof ws ts : forall d us, on_disk d us -> has_words us ws -> us <> [] ->
  Permutation ts (triples_of d) ->
  (forall d', In d' (fst (finish_all eof ts d)) -> complete d' ws)
  /\ (forall d', snd (finish_all eof ts d) = Ok d' -> complete d' ws /\ triples_of d' = [])
  /\ (eof = true \/ (forall a b n c, In (a, b, n, c) ts -> c <> None) -> exists d', snd (finish_all eof ts d) = Ok d').
Proof.
  induction ts as [|[[[a b] n] c] ts IH]; intros d us D W N P.
  - cbn. split; [intros d' []|]. split; [|eauto]. intros d' E. injection E as <-.
    split; [exists us; auto|]. apply Permutation_nil. exact P.
  - assert (I : In (a, b, n, c) (flat_map utriples us)).
    { rewrite <- triples_units. apply (Permutation_in _ (triples_of_perm _ _ (proj1 D))).
      apply (Permutation_in _ P). left. reflexivity. }
    apply in_flat_map in I. destruct I as (u & Hu & Iu). apply in_split in Hu. destruct Hu as (us1 & us2 & ->).
    assert (Q : Permutation (us1 ++ u :: us2) (u :: us1 ++ us2)) by (symmetry; apply Permutation_middle).
    pose proof (on_disk_perm d _ _ Q D) as D0. pose proof (has_words_perm _ _ _ Q W) as W0. clear D W N.
    destruct (in_utriples u _ Iu) as (_ & _ & _ & _ & _ & T & _).
    pose proof (finish_one eof a b n c d u (us1 ++ us2) ws D0 W0 T) as F. cbn [finish_all].
    destruct (finish_file_dumping eof a b n c d) as [tr r]. destruct F as (F1 & F2 & F3).
    destruct r as [d1|e]; cycle 1.
    { split; [exact F1|]. split; [discriminate|]. intros H. destruct F3 as (d' & Z); [|discriminate].
      destruct H as [H|H]; [auto|right]. apply (H a b n). left. reflexivity. }
    destruct (F2 d1 eq_refl) as (u' & T' & D1 & W1).
    assert (P1 : Permutation ts (triples_of d1)).
    { rewrite (triples_of_perm _ _ (proj1 D1)), triples_units. cbn [flat_map]. rewrite T'. cbn [app].
      apply (Permutation_cons_inv (a := (a, b, n, c))). rewrite P, (triples_of_perm _ _ (proj1 D0)), triples_units.
      cbn [flat_map]. rewrite T. reflexivity. }
    specialize (IH d1 _ D1 W1 (perm_not_nil _ _) P1). destruct (finish_all eof ts d1) as [tr' r'].
    destruct IH as (I1 & I2 & I3). cbn [fst snd] in *. split; [|split].
    + intros d' Hd'. apply in_app_or in Hd'. destruct Hd'; auto.
    + exact I2.
    + intros [H|H]; [auto|]. apply I3. right. intros a' b' n' c' Hin. apply (H a' b' n' c'). right. exact Hin.
Qed.

Lemma all_plain us : forall d done ws, on_disk d (map UPlain done ++ us) -> has_words (map UPlain done ++ us) ws ->
  flat_map utriples us = [] -> exists l, on_disk d (map UPlain l) /\ has_words (map UPlain l) ws /\ (done <> [] \/ us <> [] -> l <> []).
Proof.
  induction us as [|u us IH]; intros d done ws D W T.
  - rewrite app_nil_r in *. exists done. tauto.
  - assert (Q : Permutation (map UPlain done ++ u :: us) (u :: map UPlain done ++ us)) by (symmetry; apply Permutation_middle).
    pose proof (on_disk_perm d _ _ Q D) as D0. pose proof (has_words_perm _ _ _ Q W) as W0. clear D W.
    cbn [flat_map] in T. apply app_eq_nil in T. destruct T as [T T'].
    destruct u as [v|s v w m]; [|destruct s; try discriminate T].
    + destruct (IH d (v :: done) ws D0 W0 T') as (l & A & B & C). exists l. split; [exact A|]. split; [exact B|].
      intros _. apply C. left. discriminate.
    + apply op_unstart in D0. apply words_unstart in W0.
      destruct (IH d (v :: w :: done) ws D0 W0 T') as (l & A & B & C). exists l. split; [exact A|]. split; [exact B|].
      intros _. apply C. left. discriminate.
    + apply op_done in D0. apply words_done in W0.
      destruct (IH d (m :: done) ws D0 W0 T') as (l & A & B & C). exists l. split; [exact A|]. split; [exact B|].
      intros _. apply C. left. discriminate.
Qed.
Lemma ufiles_plain l : flat_map ufiles (map UPlain l) = map Plain l.
Proof. induction l as [|v l IH]; [reflexivity|]. cbn. rewrite IH. reflexivity. Qed.
Lemma uids_plain l : flat_map uids (map UPlain l) = map pv_id l.
Proof. induction l as [|v l IH]; [reflexivity|]. cbn. rewrite IH. reflexivity. Qed.
Lemma load_plain l : load_files (map Plain l) = Ok l.
Proof. unfold load_files. induction l as [|v l IH]; [reflexivity|]. cbn. rewrite IH. reflexivity. Qed.

(** a directory without unfinished merges is loaded completely *)
Lemma load_complete d ls ws : complete d ws -> triples_of d = [] -> Permutation ls d ->
  exists l, load_files ls = Ok l /\ ls = map Plain l /\ l <> [] /\ on_disk d (map UPlain l) /\ has_words (map UPlain l) ws.
Proof.
  intros (us & D & W & N) T P.
  assert (T' : flat_map utriples us = []).
  { rewrite <- triples_units. pose proof (triples_of_perm _ _ (proj1 D)) as Q. rewrite T in Q. apply Permutation_nil. exact Q. }
  destruct (all_plain us d [] ws D W T') as (l0 & D0 & W0 & N0). specialize (N0 (or_intror N)).
  assert (Q : Permutation ls (map Plain l0)) by (rewrite P, (proj1 D0), ufiles_plain; reflexivity).
  destruct (Permutation_map_inv _ _ Q) as (l & -> & Q'). exists l.
  split; [apply load_plain|]. split; [reflexivity|].
  split; [intros ->; apply Permutation_sym, Permutation_nil in Q'; congruence|].
  assert (Q2 : Permutation (map UPlain l0) (map UPlain l)) by (apply Permutation_map, Q').
  split; [apply (on_disk_perm d _ _ Q2 D0)|apply (has_words_perm _ _ _ Q2 W0)].
Qed.

Lemma inv_start n l next d size vocab ws : 1 <= n -> l <> [] -> vocab = Absent ->
  on_disk d (map UPlain l) -> has_words (map UPlain l) ws -> next_after next (map Plain l) ->
  INV (start_run n l next d size vocab) ws.
Proof.
  intros Hn Hl Hv D W B. split; [exists (chunk_tickets l), n; apply ci_start; assumption|]. split.
  - intros _. split; [|reflexivity]. unfold all_units. cbn [start_run r_shared r_procs sh_tasks sh_next sh_disk].
    replace (flat_map punits (repeat PIdle n)) with (@nil dunit).
    2:{ clear. induction n as [|n IH]; [reflexivity|exact IH]. }
    rewrite app_nil_r. split; [exact D|]. split; [exact W|]. unfold below. rewrite uids_plain. apply Forall_forall.
    intros i Hi. apply in_map_iff in Hi. destruct Hi as (v & <- & Hv'). apply (B (Plain v)). apply in_map. exact Hv'.
  - apply Forall_forall. intros p Hp. apply repeat_spec in Hp. subst p. exact Hv.
Qed.

Definition out_ok (ws : list str) (size : ofile Z) (vocab : ofile str) : Prop :=
  vocab = Absent \/ size = Full (distinct_words ws) /\ (vocab = Part \/ right_vocab ws vocab).

Lemma inv_out r ws : INV r ws -> out_ok ws (sh_size (r_shared r)) (sh_vocab (r_shared r)).
Proof.
  intros ((tk & k & C) & _ & O). rewrite Forall_forall in O.
  assert (X : exists p, In p (r_procs r) /\ p <> PDone false).
  { destruct (Exists_dec (fun p => p <> PDone false) (r_procs r)) as [E|E].
    - intros p. destruct p as [| | |? ? ? ? ?| | | | | | |[]]; [left; discriminate..|right]. intros Z. apply Z. reflexivity.
    - apply Exists_exists in E. exact E.
    - exfalso. assert (A : forall p, In p (r_procs r) -> p = PDone false).
      { intros p Hp. destruct p as [| | |? ? ? ? ?| | | | | | |[]]; try reflexivity; exfalso; apply E, Exists_exists;
          eexists; (split; [exact Hp|discriminate]). }
      pose proof (ci_past _ _ _ C) as P. pose proof (ci_fin _ _ _ C) as F.
      assert (Z : sumf isfin (r_procs r) = 0) by (apply sumf_zero; intros p Hp; rewrite (A p Hp); reflexivity).
      assert (Y : sumf past (r_procs r) = length (r_procs r)).
      { clear -A. induction (r_procs r) as [|p l IH]; [reflexivity|]. cbn. rewrite (A p) by (left; reflexivity). cbn. f_equal.
        apply IH. intros q Hq. apply A. right. exact Hq. }
      assert (K : sh_counter (r_shared r) = 0) by lia. rewrite K in F. lia. }
  destruct X as (p & Hp & Np). specialize (O p Hp). unfold out_ok.
  destruct p as [| | |? ? ? ? ?| | | | |? []| |[]]; cbn in O; try tauto; congruence.
Qed.

Lemma inv_complete r ws : INV r ws -> must_run (sh_size (r_shared r)) (sh_vocab (r_shared r)) = true ->
  sh_ready (r_shared r) = true /\ complete (sh_disk (r_shared r)) ws.
Proof.
  intros ((tk & k & C) & D & O) M. rewrite Forall_forall in O.
  assert (A : forall p, In p (r_procs r) -> removing p = false).
  { intros p Hp. destruct (removing p) eqn:R; [|reflexivity]. exfalso. specialize (O p Hp).
    destruct p as [| | |? ? ? ? ?| | | | | | |[]]; try discriminate; cbn in O; destruct O as [E1 (d & _ & E2)];
      rewrite E1, E2 in M; discriminate. }
  destruct (D A) as [(K1 & K2 & _) R]. split; [exact R|]. exists (all_units r). split; [exact K1|]. split; [exact K2|].
  intros Z. unfold all_units in Z. apply app_eq_nil in Z. destruct Z as [Z1 Z2].
  assert (T : sh_tasks (r_shared r) = []) by (destruct (sh_tasks (r_shared r)); [reflexivity|discriminate]).
  pose proof (ci_chunks _ _ _ C) as NC. destruct (r_chunks r) as [|c chunks] eqn:E; [congruence|].
  pose proof (ci_count _ _ _ C c) as Q. rewrite T, E in Q. cbn [cs map cn] in Q. rewrite Nat.eqb_refl in Q. cbn [b2n] in Q.
  assert (U : forall p, In p (r_procs r) -> punits p = []).
  { intros p Hp. destruct (punits p) as [|u l] eqn:Eu; [reflexivity|]. exfalso.
    assert (I : In u (flat_map punits (r_procs r))) by (apply in_flat_map; exists p; split; [exact Hp|rewrite Eu; left; reflexivity]).
    rewrite Z2 in I. destruct I. }
  assert (M0 : sumf (mg c) (r_procs r) = 0).
  { apply sumf_zero. intros p Hp. specialize (U p Hp). destruct p as [| | |? ? ? ? []| | | | | | |[]]; try reflexivity; discriminate. }
  assert (F0 : sumf (ft (c :: chunks) c) (r_procs r) = 0).
  { apply sumf_zero. intros p Hp. specialize (U p Hp). specialize (A p Hp).
    destruct p as [| | |? ? ? ? []| |? [|]| | | | |[]]; try reflexivity; discriminate. }
  rewrite M0, F0 in Q. lia.
Qed.
