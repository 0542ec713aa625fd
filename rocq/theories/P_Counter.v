(** C93: the counter of the merging processes. *)
From Verif Require Import M_Base L_Base M_Merger M_Counter.
From Coq Require Import ZArith Lia Arith.

(** ** An integer, without processes *)
(** the value after the operation and the result; None: it waits, as the value cannot become negative *)
Definition seq_op (o : op) (n : nat) : option (nat * rv) :=
  match o, n with
  | OInc, _ => Some (S n, RInt (Z.of_nat (S n)))
  | OVal, _ => Some (n, RInt (Z.of_nat n))
  | _, 0 => None
  | ODec, S k => Some (k, RInt (Z.of_nat k))
  | OCmp v, S k => Some (k, RBool (Z.eqb (Z.of_nat n) v))
  | OGet, S k => Some (k, RInt (Z.of_nat n))
  end.
(** the calls [l], one after the other, lead from [n] to [m] with these results *)
Inductive seq_run : nat -> list (op * rv) -> nat -> Prop :=
| seq_nil n : seq_run n [] n
| seq_snoc n l k o r m : seq_run n l k -> seq_op o k = Some (m, r) -> seq_run n (l ++ [(o, r)]) m.

Definition of_proc (i : nat) (h : list (nat * (op * rv))) : list (op * rv) := map snd (filter (fun e => Nat.eqb (fst e) i) h).

(** the operation a process is in *)
Definition current (c : pc) : list op :=
  match c with Outside => [] | Entered o | Sized o _ | Changed o | Leaving o _ => [o] end.

Definition pc_ok (c : pc) (k sz : nat) : Prop :=
  match c with
  | Outside => False
  | Entered o => sz = k
  | Sized o n => sz = k /\ n = Z.of_nat k /\ (o = OGet \/ exists v, o = OCmp v)
  | Changed o => (o = OInc \/ o = ODec) /\ seq_op o k = Some (sz, RInt (Z.of_nat sz))
  | Leaving o r => seq_op o k = Some (sz, r)
  end.

Definition inv (v : nat) (prog : nat -> list op) (s : cstate) : Prop :=
  delivered s <= size s
  /\ (exists k, seq_run v (map snd (hist s)) k /\
        match lock s with
        | None => size s = k /\ forall j, at_pc (procs s j) = Outside
        | Some i => pc_ok (at_pc (procs s i)) k (size s) /\ forall j, j <> i -> at_pc (procs s j) = Outside
        end)
  /\ (forall i, results (procs s i) = of_proc i (hist s))
  /\ (forall i, prog i = map fst (results (procs s i)) ++ current (at_pc (procs s i)) ++ todo (procs s i)).

Lemma of_proc_snoc i j e h : of_proc i (h ++ [(j, e)]) = of_proc i h ++ (if Nat.eqb j i then [e] else []).
Proof. unfold of_proc. rewrite filter_app, map_app. cbn [filter fst]. destruct (Nat.eqb j i); reflexivity. Qed.

Lemma set_proc_eq f i p : set_proc f i p i = p.
Proof. unfold set_proc. rewrite Nat.eqb_refl. reflexivity. Qed.
Lemma set_proc_neq f i p j : j <> i -> set_proc f i p j = f j.
Proof. intros H. unfold set_proc. apply Nat.eqb_neq in H. rewrite H. reflexivity. Qed.

(** steps inside a call *)
Lemma inv_move v prog s i sz dl c : inv v prog s -> at_pc (procs s i) <> Outside -> dl <= sz ->
  current c = current (at_pc (procs s i)) ->
  (forall k, pc_ok (at_pc (procs s i)) k (size s) -> pc_ok c k sz) ->
  inv v prog (with_pc (with_sizes s sz dl) i c).
Proof.
  intros (Hd & (k & Hk & Hl) & Hr & Hp) Hi Hs Hc Hpc. destruct s as [P L Z D H]. unfold inv, with_pc, with_sizes, move in *. cbn [procs lock size delivered hist] in *.
  split; [exact Hs|]. split; [|split].
  - exists k. split; [exact Hk|]. destruct L as [j|].
    + destruct Hl as [Hpj Hj]. assert (j = i) by (destruct (Nat.eq_dec j i); [assumption|]; destruct Hi; apply Hj; congruence). subst j.
      rewrite set_proc_eq. cbn [at_pc]. split; [apply Hpc, Hpj|]. intros j Hne. rewrite set_proc_neq by exact Hne. apply Hj, Hne.
    + destruct Hl as [_ Hj]. destruct (Hi (Hj i)).
  - intros j. destruct (Nat.eq_dec j i) as [->|Hne]; [rewrite set_proc_eq|rewrite set_proc_neq by exact Hne]; apply Hr.
  - intros j. destruct (Nat.eq_dec j i) as [->|Hne]; [rewrite set_proc_eq|rewrite set_proc_neq by exact Hne; apply Hp].
    cbn [at_pc results todo]. rewrite Hc. apply Hp.
Qed.

Lemma with_pc_same s i c : with_pc s i c = with_pc (with_sizes s (size s) (delivered s)) i c.
Proof. destruct s. reflexivity. Qed.

Lemma inv_cstep v prog s s' : inv v prog s -> cstep s s' -> inv v prog s'.
Proof.
  intros I S. pose proof I as (Hd & (k & Hk & Hl) & Hr & Hp).
  destruct S as [s i o rest Ho Ht HL|s i Hc|s i Hc|s i d Hc Hv|s i Hc|s i x Hc|s i x n d Hc Hv|s i Hc|s i n d Hc Hv|s i Hc|s i o r Hc|s Hf].
  - (* acquire *)
    rewrite HL in Hl. destruct Hl as [Hz Hj].
    split; [exact Hd|]. cbn [procs lock size delivered hist]. split; [|split].
    + exists k. split; [exact Hk|]. rewrite set_proc_eq. split; [exact Hz|]. intros j Hne. rewrite set_proc_neq by exact Hne. apply Hj.
    + intros j. destruct (Nat.eq_dec j i) as [->|Hne]; [rewrite set_proc_eq|rewrite set_proc_neq by exact Hne]; apply Hr.
    + intros j. destruct (Nat.eq_dec j i) as [->|Hne]; [rewrite set_proc_eq|rewrite set_proc_neq by exact Hne; apply Hp].
      cbn [at_pc results todo current app]. specialize (Hp i). rewrite Ho, Ht in Hp. exact Hp.
  - apply inv_move; [exact I|rewrite Hc; discriminate|lia|rewrite Hc; reflexivity|].
    intros q. rewrite Hc. cbn [pc_ok]. intros ->. split; [left; reflexivity|reflexivity].
  - rewrite with_pc_same. apply inv_move; [exact I|rewrite Hc; discriminate|exact Hd|rewrite Hc; reflexivity|].
    intros q. rewrite Hc. cbn [pc_ok]. intros [_ E]. exact E.
  - apply inv_move; [exact I|rewrite Hc; discriminate|lia|rewrite Hc; reflexivity|].
    intros q. rewrite Hc. cbn [pc_ok]. intros <-. split; [right; reflexivity|]. destruct (size s); [lia|reflexivity].
  - rewrite with_pc_same. apply inv_move; [exact I|rewrite Hc; discriminate|exact Hd|rewrite Hc; reflexivity|].
    intros q. rewrite Hc. cbn [pc_ok]. intros [_ E]. exact E.
  - rewrite with_pc_same. apply inv_move; [exact I|rewrite Hc; discriminate|exact Hd|rewrite Hc; reflexivity|].
    intros q. rewrite Hc. cbn [pc_ok]. intros <-. unfold qsize. split; [reflexivity|]. split; [reflexivity|]. right. eauto.
  - apply inv_move; [exact I|rewrite Hc; discriminate|lia|rewrite Hc; reflexivity|].
    intros q. rewrite Hc. cbn [pc_ok]. intros (<- & -> & _). destruct (size s); [lia|reflexivity].
  - rewrite with_pc_same. apply inv_move; [exact I|rewrite Hc; discriminate|exact Hd|rewrite Hc; reflexivity|].
    intros q. rewrite Hc. cbn [pc_ok]. intros <-. unfold qsize. split; [reflexivity|]. split; [reflexivity|]. left. reflexivity.
  - apply inv_move; [exact I|rewrite Hc; discriminate|lia|rewrite Hc; reflexivity|].
    intros q. rewrite Hc. cbn [pc_ok]. intros (<- & -> & _). destruct (size s); [lia|reflexivity].
  - rewrite with_pc_same. apply inv_move; [exact I|rewrite Hc; discriminate|exact Hd|rewrite Hc; reflexivity|].
    intros q. rewrite Hc. cbn [pc_ok]. intros <-. reflexivity.
  - (* release *)
    assert (HL : lock s = Some i).
    { destruct (lock s) as [j|] eqn:EL.
      - destruct Hl as [_ Hj]. destruct (Nat.eq_dec i j) as [->|Hne]; [reflexivity|]. rewrite (Hj i Hne) in Hc. discriminate.
      - destruct Hl as [_ Hj]. rewrite Hj in Hc. discriminate. }
    rewrite HL, Hc in Hl. destruct Hl as [Hpc Hj]. cbn [pc_ok] in Hpc.
    split; [exact Hd|]. cbn [procs lock size delivered hist]. split; [|split].
    + exists (size s). split; [rewrite map_app; econstructor; eassumption|]. split; [reflexivity|].
      intros j. destruct (Nat.eq_dec j i) as [->|Hne]; [rewrite set_proc_eq; reflexivity|rewrite set_proc_neq by exact Hne; apply Hj, Hne].
    + intros j. rewrite of_proc_snoc. destruct (Nat.eq_dec j i) as [->|Hne].
      * rewrite set_proc_eq, Nat.eqb_refl. cbn [results]. rewrite Hr. reflexivity.
      * rewrite set_proc_neq by exact Hne. destruct (Nat.eqb_spec i j); [congruence|]. rewrite app_nil_r. apply Hr.
    + intros j. destruct (Nat.eq_dec j i) as [->|Hne]; [rewrite set_proc_eq|rewrite set_proc_neq by exact Hne; apply Hp].
      cbn [at_pc results todo current app]. rewrite map_app. cbn [map fst]. specialize (Hp i). rewrite Hc in Hp. cbn [current] in Hp.
      rewrite <- app_assoc. exact Hp.
  - unfold inv, with_sizes. cbn [procs lock size delivered hist]. split; [lia|]. split; [exists k; split; assumption|]. split; assumption.
Qed.

Lemma inv_reach v prog s : creach v prog s -> inv v prog s.
Proof.
  induction 1 as [|s s' _ IH S]; [|eapply inv_cstep; eassumption].
  split; [cbn; lia|]. split; [exists v; split; [constructor|split; [reflexivity|intros j; reflexivity]]|].
  split; intros i; reflexivity.
Qed.

(** ** C93 *)
(** Whatever the processes do and however they are scheduled, the calls have the results that they have one after the
    other, in the order in which they ended; each process gets its own results. *)
Theorem C93_one_after_the_other v prog s : creach v prog s ->
  exists k, seq_run v (map snd (hist s)) k
    /\ (forall i, results (procs s i) = of_proc i (hist s))
    /\ (forall i, exists rest, prog i = map fst (results (procs s i)) ++ rest)
    /\ ((forall i, at_pc (procs s i) = Outside) -> size s = k).
Proof.
  intros R. destruct (inv_reach _ _ _ R) as (_ & (k & Hk & Hl) & Hr & Hp). exists k. split; [exact Hk|]. split; [exact Hr|]. split.
  - intros i. eauto.
  - intros Ho. destruct (lock s) as [i|]; [|tauto]. destruct Hl as [Hpc _]. rewrite Ho in Hpc. destruct Hpc.
Qed.

Definition finished (p : proc) : Prop := at_pc p = Outside /\ todo p = [].
(** process [i] holds the lock and waits for an entry of the empty queue *)
Definition stuck (s : cstate) (i : nat) : Prop :=
  lock s = Some i /\ size s = 0
  /\ (at_pc (procs s i) = Entered ODec \/ exists o n, at_pc (procs s i) = Sized o n).

(** While a process has not finished, some step is possible, unless the counter is decremented at zero. *)
Theorem C93_progress v prog s i : creach v prog s -> ~ finished (procs s i) -> (exists s', cstep s s') \/ exists j, stuck s j.
Proof.
  intros R Hi. destruct (inv_reach _ _ _ R) as (Hd & (k & Hk & Hl) & Hr & Hp).
  assert (G : 0 < size s -> (exists d, delivered s = S d) \/ exists s', cstep s s').
  { intros Hz. destruct (delivered s) as [|d] eqn:E; [|left; eauto]. right. eexists. apply c_feed. lia. }
  destruct (lock s) as [j|] eqn:EL.
  - destruct Hl as [Hpc _]. destruct (at_pc (procs s j)) as [|o|o n|o|o r] eqn:E; cbn [pc_ok] in Hpc.
    + destruct Hpc.
    + destruct o.
      * left. eexists. eapply c_inc, E.
      * destruct (size s) as [|z] eqn:Ez; [right; exists j; unfold stuck; auto|]. destruct (G ltac:(lia)) as [[d Hd']|[s' S]]; [|eauto].
        left. eexists. eapply c_dec; eassumption.
      * left. eexists. eapply c_cmp_size, E.
      * left. eexists. eapply c_get_size, E.
      * left. eexists. eapply c_val, E.
    + destruct Hpc as (_ & _ & Ho). destruct (size s) as [|z] eqn:Ez; [right; exists j; unfold stuck; eauto 6|].
      destruct (G ltac:(lia)) as [[d Hd']|[s' S]]; [|eauto]. left. destruct Ho as [->|[x ->]]; eexists; [eapply c_get|eapply c_cmp]; eassumption.
    + destruct Hpc as [[->| ->] _]; left; eexists; [eapply c_inc_size|eapply c_dec_size]; eassumption.
    + left. eexists. eapply c_release, E.
  - destruct Hl as [_ Hj]. left. destruct (todo (procs s i)) as [|o rest] eqn:E; [destruct Hi; split; [apply Hj|exact E]|].
    eexists. eapply c_acquire; [apply Hj|exact E|exact EL].
Qed.

Inductive csteps : cstate -> cstate -> Prop :=
| csteps_refl s : csteps s s
| csteps_step s s' s'' : csteps s s' -> cstep s' s'' -> csteps s s''.

(** Not true of every use: if the counter is decremented at zero, the process waits with the lock in its hands, so the
    increment of another process, which would end the waiting, never happens. *)
Theorem C93_zero_refuted : exists prog s,
  prog 0 = [ODec] /\ prog 1 = [OInc] /\ creach 0 prog s
  /\ forall s', csteps s s' -> stuck s' 0 /\ todo (procs s' 1) = [OInc].
Proof.
  set (prog := fun i => match i with 0 => [ODec] | 1 => [OInc] | _ => [] end).
  assert (R : creach 0 prog {| procs := set_proc (procs (cinit 0 prog)) 0 {| at_pc := Entered ODec; todo := []; results := [] |};
                               lock := Some 0; size := 0; delivered := 0; hist := [] |}).
  { eapply creach_step; [apply creach_init|]. apply (c_acquire (cinit 0 prog) 0 ODec []); reflexivity. }
  exists prog. eexists. split; [reflexivity|]. split; [reflexivity|]. split; [exact R|].
  intros s' H. assert (G : creach 0 prog s' /\ stuck s' 0 /\ todo (procs s' 1) = [OInc]); [|tauto].
  remember {| procs := set_proc (procs (cinit 0 prog)) 0 {| at_pc := Entered ODec; todo := []; results := [] |};
              lock := Some 0; size := 0; delivered := 0; hist := [] |} as s0 eqn:E0.
  induction H as [s|s s' s'' _ IH S].
  { subst s. split; [exact R|]. split; [split; [reflexivity|split; [reflexivity|left; reflexivity]]|reflexivity]. }
  destruct (IH ltac:(assumption) ltac:(assumption)) as (R' & (HL & Hz & Hpc) & _). clear IH R E0. destruct (inv_reach _ _ _ R') as (Hd & (k & Hk & Hl) & _).
  rewrite HL in Hl. destruct Hl as [_ Hj]. exfalso.
  assert (J : forall j, at_pc (procs s' j) <> Outside -> j = 0).
  { intros j Hne. destruct (Nat.eq_dec j 0) as [E|E]; [exact E|]. destruct (Hne (Hj j E)). }
  destruct Hpc as [E|(o' & n' & E)];
  destruct S as [s1 i o rest Ho Ht HL'|s1 i Hc|s1 i Hc|s1 i d Hc Hv|s1 i Hc|s1 i x Hc|s1 i x n d Hc Hv|s1 i Hc|s1 i n d Hc Hv|s1 i Hc|s1 i o r Hc|s1 Hf];
    try (rewrite HL in HL'; discriminate); try lia;
    assert (i = 0) by (apply J; rewrite Hc; discriminate); subst i; rewrite E in Hc; discriminate.
Qed.

(** ** Every execution ends *)
Definition pc_weight (c : pc) : nat :=
  match c with Outside => 0 | Entered _ => 4 | Sized _ _ => 3 | Changed _ => 2 | Leaving _ _ => 1 end.
Definition weight (p : proc) : nat := 6 * length (todo p) + pc_weight (at_pc p).
Fixpoint total (f : nat -> proc) (n : nat) : nat := match n with 0 => 0 | S k => weight (f k) + total f k end.
Definition remaining (n : nat) (s : cstate) : nat := total (procs s) n + (size s - delivered s).

Lemma total_set f i p n : i < n -> total (set_proc f i p) n + weight (f i) = total f n + weight p.
Proof.
  induction n as [|n IH]; intros H; [lia|]. cbn [total]. destruct (Nat.eq_dec i n) as [->|Hne].
  - rewrite set_proc_eq. clear IH. assert (E : forall m, m <= n -> total (set_proc f n p) m = total f m).
    { induction m as [|m IHm]; intros Hm; [reflexivity|]. cbn [total]. rewrite set_proc_neq by lia. rewrite IHm by lia. reflexivity. }
    rewrite E by lia. lia.
  - rewrite set_proc_neq by lia. specialize (IH ltac:(lia)). lia.
Qed.

(** [n] processes have something to do: no execution has more steps than this number *)
Theorem C93_ends v prog n s s' : (forall i, n <= i -> prog i = []) -> creach v prog s -> cstep s s' -> remaining n s' < remaining n s.
Proof.
  intros Hn R S. destruct (inv_reach _ _ _ R) as (Hd & _ & _ & Hp).
  assert (B : forall i, at_pc (procs s i) <> Outside \/ todo (procs s i) <> [] -> i < n).
  { intros i Hi. destruct (Nat.lt_ge_cases i n) as [H|H]; [exact H|]. specialize (Hp i). rewrite (Hn i H) in Hp.
    symmetry in Hp. apply app_eq_nil in Hp. destruct Hp as [_ Hp]. apply app_eq_nil in Hp. destruct Hp as [H1 H2].
    destruct Hi as [Hi|Hi]; [|congruence]. destruct (at_pc (procs s i)); [congruence|discriminate..]. }
  unfold remaining. destruct S as [s i o rest Ho Ht HL'|s i Hc|s i Hc|s i d Hc Hv|s i Hc|s i x Hc|s i x m d Hc Hv|s i Hc|s i m d Hc Hv|s i Hc|s i o r Hc|s Hf];
    cbn [procs size delivered with_pc with_sizes move];
    unfold move; cbn [procs with_sizes];
    try (assert (Hi : i < n) by (apply B; first [left; rewrite Hc; discriminate|right; rewrite Ht; discriminate]);
         match goal with |- context[set_proc ?f i ?p] => pose proof (total_set f i p n Hi) as T end;
         unfold weight in T; cbn [at_pc todo results] in T;
         first [rewrite Hc in T|rewrite Ho, Ht in T]; cbn [pc_weight length] in T); lia.
Qed.

Lemma list_eq_nil_or_snoc {A} (l : list A) : l = [] \/ exists l' z, l = l' ++ [z].
Proof. destruct l as [|x t]; [left; reflexivity|]. right. destruct (exists_last (l := x :: t)) as (l' & z & E); [discriminate|]. eauto. Qed.

(** ** The merging processes *)
Definition merging (n i : nat) : list op := if i <? n then [OCmp 1] else [].

Lemma seq_run_nonneg n l m : seq_run n l m -> Forall (fun e => fst e = OCmp 1) l ->
  length l + m = n /\ forall a e b, l = a ++ e :: b -> snd e = RBool (Nat.eqb (S (length a)) n).
Proof.
  induction 1 as [n|n l k o r m _ IH E]; intros F.
  - split; [reflexivity|]. intros a e b H. destruct a; discriminate.
  - apply Forall_app in F. destruct F as [F1 F2]. inversion F2 as [|? ? Ho _]; subst. cbn [fst] in Ho. subst o.
    destruct (IH F1) as [L N]. destruct k as [|k]; [discriminate|]. cbn [seq_op] in E.
    assert (Er : r = RBool (Z.eqb (Z.of_nat (S k)) 1)) by congruence. assert (Em : m = k) by congruence. clear E. subst m n.
    rewrite app_length. cbn [length]. split; [lia|]. intros a e b H.
    destruct (list_eq_nil_or_snoc b) as [->|(b' & z & ->)].
    + apply app_inj_tail in H. destruct H as [-> <-]. cbn [snd]. rewrite Er. f_equal.
      destruct (Nat.eqb_spec (S (length a)) (length a + S k)) as [Hn|Hn]; [apply Z.eqb_eq; lia|apply Z.eqb_neq; lia].
    + change (a ++ e :: b' ++ [z]) with (a ++ (e :: b') ++ [z]) in H. rewrite app_assoc in H. apply app_inj_tail in H. destruct H as [H _].
      apply (N a e b'), H.
Qed.

Lemma of_proc_in i h e : In (i, e) h -> In e (of_proc i h).
Proof.
  intros H. unfold of_proc. apply in_map_iff. exists (i, e). split; [reflexivity|]. apply filter_In. split; [exact H|apply Nat.eqb_refl].
Qed.

Section Merging.
  Variables (n : nat) (s : cstate).
  Hypothesis R : creach n (merging n) s.

  Lemma merging_results i : exists rest, merging n i = map fst (results (procs s i)) ++ rest.
  Proof. destruct (inv_reach _ _ _ R) as (_ & _ & _ & Hp). eauto. Qed.

  Lemma merging_ids : NoDup (map fst (hist s)) /\ (forall i, In i (map fst (hist s)) -> i < n)
    /\ Forall (fun e => fst e = OCmp 1) (map snd (hist s)).
  Proof.
    destruct (inv_reach _ _ _ R) as (_ & _ & Hr & _).
    assert (L : forall i, length (of_proc i (hist s)) <= (if i <? n then 1 else 0) /\ forall e, In e (of_proc i (hist s)) -> fst e = OCmp 1).
    { intros i. destruct (merging_results i) as [rest E]. rewrite Hr in E. unfold merging in E. destruct (i <? n).
      - destruct (of_proc i (hist s)) as [|e [|e' t]]; cbn in E |- *; [split; [lia|tauto]| |discriminate].
        split; [lia|]. inversion E. intros e' [<-|[]]. congruence.
      - destruct (of_proc i (hist s)); [|discriminate]. split; [cbn; lia|intros e []]. }
    split; [|split].
    - assert (G : forall i, length (filter (fun e => Nat.eqb (fst e) i) (hist s)) <= 1).
      { intros i. destruct (L i) as [H _]. unfold of_proc in H. rewrite map_length in H. destruct (i <? n); lia. }
      clear L Hr. revert G. generalize (hist s). induction l as [|[i e] l IH]; intros G; [constructor|]. cbn [map fst]. constructor.
      + intros Hin. apply in_map_iff in Hin. destruct Hin as ([i' e'] & Ei & Hin). cbn [fst] in Ei. subst i'.
        specialize (G i). cbn [filter fst] in G. rewrite Nat.eqb_refl in G. cbn [length] in G.
        assert (In (i, e') (filter (fun e => Nat.eqb (fst e) i) l)) by (apply filter_In; split; [exact Hin|apply Nat.eqb_refl]).
        destruct (filter (fun e => Nat.eqb (fst e) i) l); [destruct H|cbn in G; lia].
      + apply IH. intros j. specialize (G j). cbn [filter] in G. destruct (Nat.eqb (fst (i, e)) j); cbn [length] in G; lia.
    - intros i Hin. apply in_map_iff in Hin. destruct Hin as ([i' e] & Ei & Hin). cbn [fst] in Ei. subst i'.
      apply of_proc_in in Hin. destruct (L i) as [H _]. destruct (Nat.ltb_spec i n) as [G|G]; [exact G|].
      destruct (of_proc i (hist s)); [destruct Hin|cbn in H; lia].
    - apply Forall_forall. intros e Hin. apply in_map_iff in Hin. destruct Hin as ([i e'] & Ei & Hin). cbn [snd] in Ei. subst e'.
      apply of_proc_in in Hin. destruct (L i) as [_ H]. apply H, Hin.
  Qed.
End Merging.

(** n processes call compare_and_dec(1) once each, on a counter that starts at n (vocab.py 128, 378).  However they are
    scheduled, True is returned to a process only when all the others have got their answer, which is False. *)
Theorem C93_last n s i : creach n (merging n) s -> In (OCmp 1, RBool true) (results (procs s i)) ->
  i < n /\ forall j, j < n -> j <> i -> results (procs s j) = [(OCmp 1, RBool false)].
Proof.
  intros R Hi. destruct (merging_ids n s R) as (ND & Hlt & F). destruct (inv_reach _ _ _ R) as (_ & (k & Hk & _) & Hr & _).
  destruct (seq_run_nonneg _ _ _ Hk F) as [L N].
  rewrite Hr in Hi. unfold of_proc in Hi. apply in_map_iff in Hi. destruct Hi as ([i' e] & Ee & Hi). cbn [snd] in Ee. subst e.
  apply filter_In in Hi. destruct Hi as [Hi Ei]. cbn [fst] in Ei. apply Nat.eqb_eq in Ei. subst i'.
  split; [apply Hlt; apply (in_map fst) in Hi; exact Hi|].
  destruct (in_split _ _ Hi) as (a & b & E).
  assert (Hn : S (length a) = n).
  { specialize (N (map snd a) (OCmp 1, RBool true) (map snd b)). rewrite E, map_app in N. specialize (N eq_refl). cbn [snd] in N.
    rewrite map_length in N. apply Nat.eqb_eq. congruence. }
  assert (Hb : b = []).
  { rewrite map_length, E, app_length in L. cbn [length] in L. destruct b; [reflexivity|cbn [length] in L; lia]. }
  subst b. intros j Hj Hne.
  assert (Hin : In j (map fst (hist s))).
  { assert (I : incl (seq 0 n) (map fst (hist s))).
    { apply NoDup_length_incl; [exact ND|rewrite seq_length, map_length, E, app_length; cbn [length]; lia|].
      intros x Hx. apply in_seq. specialize (Hlt x Hx). lia. }
    apply I, in_seq. lia. }
  apply in_map_iff in Hin. destruct Hin as ([j' e] & Ej & Hin). cbn [fst] in Ej. subst j'.
  assert (Ha : In (j, e) a).
  { rewrite E in Hin. apply in_app_or in Hin. destruct Hin as [Hin|[Hin|[]]]; [exact Hin|congruence]. }
  destruct (in_split _ _ Ha) as (a1 & a2 & E').
  assert (Hv : snd e = RBool false).
  { rewrite (N (map snd a1) e (map snd (a2 ++ [(i, (OCmp 1, RBool true))]))).
    - f_equal. apply Nat.eqb_neq. rewrite map_length. rewrite E', app_length in Hn. cbn [length] in Hn. lia.
    - rewrite E, E', !map_app. cbn [map snd]. rewrite <- app_assoc. reflexivity. }
  assert (He : e = (OCmp 1, RBool false)).
  { rewrite Forall_forall in F. specialize (F e (in_map snd _ _ Hin)). destruct e as [o r]. cbn in F, Hv. congruence. }
  subst e. apply of_proc_in in Hin. rewrite <- Hr in Hin. destruct (merging_results n s R j) as [rest Er].
  unfold merging in Er. destruct (j <? n); [|destruct (results (procs s j)); [destruct Hin|discriminate]].
  destruct (results (procs s j)) as [|x [|y t]]; [destruct Hin| |discriminate]. destruct Hin as [->|[]]. reflexivity.
Qed.

(** Nobody waits for ever, and when all have finished exactly one has got True. *)
Theorem C93_exactly_one n s : creach n (merging n) s -> n <> 0 ->
  (exists s', cstep s s')
  \/ exists i, i < n /\ results (procs s i) = [(OCmp 1, RBool true)]
       /\ forall j, j < n -> j <> i -> results (procs s j) = [(OCmp 1, RBool false)].
Proof.
  intros R Hn. destruct (inv_reach _ _ _ R) as (Hd & (k & Hk & Hl) & Hr & Hp).
  destruct (merging_ids n s R) as (ND & Hlt & F). destruct (seq_run_nonneg _ _ _ Hk F) as [L N]. rewrite map_length in L.
  destruct (Nat.eq_dec k 0) as [->|Hk0].
  - (* all calls have ended *)
    right. destruct (list_eq_nil_or_snoc (hist s)) as [E|(h & [i e] & E)]; [rewrite E in L; cbn in L; lia|].
    assert (He : e = (OCmp 1, RBool true)).
    { assert (Hin : In e (map snd (hist s))) by (rewrite E, map_app; apply in_or_app; right; left; reflexivity).
      rewrite Forall_forall in F. specialize (F e Hin). specialize (N (map snd h) e []). rewrite E, map_app in N. specialize (N eq_refl).
      rewrite map_length in N. rewrite E, app_length in L. cbn [length] in L. replace (S (length h)) with n in N by lia.
      rewrite Nat.eqb_refl in N. destruct e. cbn in F, N. congruence. }
    subst e. assert (Hi : In (OCmp 1, RBool true) (results (procs s i))).
    { rewrite Hr. apply of_proc_in. rewrite E. apply in_or_app. right. left. reflexivity. }
    exists i. destruct (C93_last n s i R Hi) as [Hin Ho]. split; [exact Hin|]. split; [|exact Ho].
    destruct (merging_results n s R i) as [rest Er]. unfold merging in Er.
    destruct (i <? n); [|destruct (results (procs s i)); [destruct Hi|discriminate]].
    destruct (results (procs s i)) as [|x [|y t]]; [destruct Hi| |discriminate]. destruct Hi as [->|[]]. reflexivity.
  - left. assert (Hu : exists i, ~ finished (procs s i)).
    { destruct (lock s) as [i|] eqn:EL.
      - exists i. intros [Ho _]. destruct Hl as [Hpc _]. rewrite Ho in Hpc. destruct Hpc.
      - destruct Hl as [_ Hj].
        assert (Hex : exists i, i < n /\ ~ In i (map fst (hist s))).
        { destruct (Forall_Exists_dec (fun i => In i (map fst (hist s))) (fun i => in_dec Nat.eq_dec i _) (seq 0 n)) as [A|A].
          - exfalso. rewrite Forall_forall in A. pose proof (NoDup_incl_length (seq_NoDup n 0) A) as B. rewrite seq_length, map_length in B. lia.
          - apply Exists_exists in A. destruct A as (i & Hi & Hni). apply in_seq in Hi. exists i. split; [lia|exact Hni]. }
        destruct Hex as (i & Hi & Hni). exists i. intros [_ Ht]. specialize (Hp i). rewrite Hj, Ht, Hr in Hp.
        unfold merging in Hp. apply Nat.ltb_lt in Hi. rewrite Hi in Hp. cbn [current app] in Hp. rewrite app_nil_r in Hp.
        destruct (of_proc i (hist s)) as [|e t] eqn:Eo; [discriminate|]. apply Hni. unfold of_proc in Eo.
        assert (Hin : In e (map snd (filter (fun e => Nat.eqb (fst e) i) (hist s)))) by (rewrite Eo; left; reflexivity).
        apply in_map_iff in Hin. destruct Hin as (x & _ & Hin). apply filter_In in Hin. destruct Hin as [Hin Ex].
        apply Nat.eqb_eq in Ex. subst i. apply in_map, Hin. }
    destruct Hu as [i Hu]. destruct (C93_progress n (merging n) s i R Hu) as [S|(j & HL & Hz & Hpc)]; [exact S|exfalso].
    rewrite HL in Hl. destruct Hl as [Hok _]. specialize (Hp j). destruct Hpc as [E|(o & m & E)]; rewrite E in Hok; cbn [pc_ok] in Hok.
    + lia.
    + destruct Hok as (Hok & _). lia.
Qed.

(** The counter for one process gives the same results. *)
Theorem C93_non_atomic o n m r : seq_op o n = Some (m, r) <-> non_atomic o (Z.of_nat n) = (Z.of_nat m, r) /\ (0 <= fst (non_atomic o (Z.of_nat n)))%Z.
Proof.
  destruct o; cbn [seq_op non_atomic fst].
  - split.
    + intros H. assert (m = S n) by congruence. subst m. assert (r = RInt (Z.of_nat (S n))) by congruence. subst r.
      split; [f_equal; [|f_equal]; lia|lia].
    + intros [H _]. assert (Z.of_nat m = Z.of_nat n + 1)%Z by congruence. assert (m = S n) by lia. subst m. f_equal. f_equal.
      assert (r = RInt (Z.of_nat n + 1)) by congruence. subst r. f_equal. lia.
  - destruct n as [|k].
    + split; [discriminate|]. intros [_ H]. cbn in H. lia.
    + split.
      * intros H. assert (m = k) by congruence. subst m. assert (r = RInt (Z.of_nat k)) by congruence. subst r.
        split; [f_equal; [|f_equal]; lia|lia].
      * intros [H _]. assert (Z.of_nat m = Z.of_nat (S k) - 1)%Z by congruence. assert (m = k) by lia. subst m. f_equal. f_equal.
        assert (r = RInt (Z.of_nat (S k) - 1)) by congruence. subst r. f_equal. lia.
  - destruct n as [|k].
    + split; [discriminate|]. intros [_ H]. cbn in H. lia.
    + split.
      * intros H. assert (m = k) by congruence. subst m. assert (r = RBool (Z.eqb (Z.of_nat (S k)) v)) by congruence. subst r.
        split; [f_equal; lia|lia].
      * intros [H _]. assert (Z.of_nat m = Z.of_nat (S k) - 1)%Z by congruence. assert (m = k) by lia. subst m. f_equal. f_equal. congruence.
  - destruct n as [|k].
    + split; [discriminate|]. intros [_ H]. cbn in H. lia.
    + split.
      * intros H. assert (m = k) by congruence. subst m. assert (r = RInt (Z.of_nat (S k))) by congruence. subst r.
        split; [f_equal; lia|lia].
      * intros [H _]. assert (Z.of_nat m = Z.of_nat (S k) - 1)%Z by congruence. assert (m = k) by lia. subst m. f_equal. f_equal. congruence.
  - split.
    + intros H. assert (m = n) by congruence. subst m. assert (r = RInt (Z.of_nat n)) by congruence. subst r. split; [reflexivity|lia].
    + intros [H _]. assert (Z.of_nat m = Z.of_nat n)%Z by congruence. assert (m = n) by lia. subst m. congruence.
Qed.

(** The step of a merging process that has no more chunks (M_Merger) is such a call: it finishes the merges if the
    result is True and ends if it is False. *)
Theorem C93_merger chunks sh sh' p : pstep chunks sh PStop sh' p <->
  exists m b, seq_op (OCmp 1) (sh_counter sh) = Some (m, RBool b) /\ sh' = with_counter sh m
              /\ p = (if b then PCollect chunks [] else PDone false).
Proof.
  split.
  - intros H. inversion H as [| |sh0 k E Hk| sh0 E| | | | | | | | | | | | | | | | | | | | ]; subst; cbn [seq_op]; rewrite E.
    + exists k, false. split; [|split; reflexivity]. f_equal. f_equal. f_equal. apply Z.eqb_neq. lia.
    + exists 0, true. repeat split.
  - intros (m & b & E & -> & ->). destruct (sh_counter sh) as [|k] eqn:Ec; [discriminate|]. cbn [seq_op] in E.
    assert (m = k) by congruence. subst m. assert (Hb : b = Z.eqb (Z.of_nat (S k)) 1) by congruence. clear E.
    destruct (Z.eqb_spec (Z.of_nat (S k)) 1) as [E|E]; subst b.
    + assert (k = 0) by lia. subst k. apply step_last, Ec.
    + apply step_leave; [exact Ec|lia].
Qed.

(** Not true if a process is killed in a call: the others wait for ever. *)
Theorem C93_killed_refuted : exists s, creach 2 (merging 2) s /\
  forall s', csteps (kill s 0) s' -> at_pc (procs s' 1) = Outside /\ todo (procs s' 1) = [OCmp 1].
Proof.
  eexists. split.
  { eapply creach_step; [apply creach_init|]. apply (c_acquire (cinit 2 (merging 2)) 0 (OCmp 1) []); reflexivity. }
  intros s' H.
  assert (G : lock s' = Some 0 /\ (forall j, at_pc (procs s' j) = Outside) /\ todo (procs s' 1) = [OCmp 1]); [|destruct G as (_ & G1 & G2); auto].
  remember (kill _ 0) as s0 eqn:E0. induction H as [s|s s' s'' _ IH S].
  - subst s. split; [reflexivity|]. split; [|reflexivity]. intros j. unfold kill. cbn [procs]. unfold set_proc.
    destruct (Nat.eqb j 0); reflexivity.
  - specialize (IH E0). destruct IH as (HL & Ho & Ht).
    destruct S as [s1 i o rest _ _ HL'|s1 i Hc|s1 i Hc|s1 i d Hc Hv|s1 i Hc|s1 i x Hc|s1 i x n d Hc Hv|s1 i Hc|s1 i n d Hc Hv|s1 i Hc|s1 i o r Hc|s1 Hf];
      try (rewrite HL in HL'; discriminate); try (rewrite Ho in Hc; discriminate).
    split; [exact HL|]. split; assumption.
Qed.

(** two processes: the second one to ask is told that it is the last; the first entry of the queue is delivered while
    the first one waits *)
Example C93_example : exists s, creach 2 (merging 2) s
  /\ results (procs s 0) = [(OCmp 1, RBool true)] /\ results (procs s 1) = [(OCmp 1, RBool false)] /\ size s = 0.
Proof.
  eexists. split.
  - eapply creach_step; [eapply creach_step; [eapply creach_step; [eapply creach_step; [eapply creach_step; [eapply creach_step;
      [eapply creach_step; [eapply creach_step; [eapply creach_step; [eapply creach_step; [apply creach_init|]|]|]|]|]|]|]|]|]|].
    + apply (c_acquire _ 1 (OCmp 1) []); reflexivity.
    + apply (c_cmp_size _ 1 1). reflexivity.
    + apply c_feed. cbn. lia.
    + apply (c_cmp _ 1 1 2 0); reflexivity.
    + apply (c_release _ 1 (OCmp 1) (RBool false)). reflexivity.
    + apply (c_acquire _ 0 (OCmp 1) []); reflexivity.
    + apply (c_cmp_size _ 0 1). reflexivity.
    + apply c_feed. cbn. lia.
    + apply (c_cmp _ 0 1 1 0); reflexivity.
    + apply (c_release _ 0 (OCmp 1) (RBool true)). reflexivity.
  - vm_compute. auto.
Qed.

Print Assumptions C93_one_after_the_other.
Print Assumptions C93_progress.
Print Assumptions C93_zero_refuted.
Print Assumptions C93_ends.
Print Assumptions C93_last.
Print Assumptions C93_exactly_one.
Print Assumptions C93_non_atomic.
Print Assumptions C93_merger.
Print Assumptions C93_killed_refuted.
