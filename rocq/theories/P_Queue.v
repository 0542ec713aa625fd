(** C33: PriorityCounter is a counter map with a greatest-count pop. *)
From Verif Require Import M_Base L_Base M_Merge M_Learn.
From Coq Require Import Lia Permutation.

(** The history of a counter, newest event first. *)
Inductive ev {K} := EAdd (k : K) (v : Z) | EPop (k : K).
Arguments ev : clear implicits.

Section Spec.
  Context {K : Type} `{Eqb K}.

  (** what has been added to [k] since it was last popped *)
  Fixpoint net (h : list (ev K)) (k : K) : Z :=
    match h with
    | [] => 0
    | EAdd k' v :: t => if eqb k k' then (net t k + v)%Z else net t k
    | EPop k' :: t => if eqb k k' then 0%Z else net t k
    end.

  Fixpoint adds (h : list (ev K)) : nat :=
    match h with
    | [] => 0
    | EAdd _ _ :: t => S (adds t)
    | EPop _ :: t => adds t
    end.

  (** when [k] was last updated: the number of updates before that *)
  Fixpoint updated (h : list (ev K)) (k : K) : nat :=
    match h with
    | [] => 0
    | EAdd k' _ :: t => if eqb k k' then adds t else updated t k
    | EPop _ :: t => updated t k
    end.

  (** the counter objects that calls of the API can produce, with their history *)
  Inductive reach : pc K -> list (ev K) -> Prop :=
  | reach_init d :
      NoDup (dkeys d) -> Forall (fun kv => snd kv <> 0%Z) d ->
      reach (pc_init d) (rev (map (fun kv => EAdd (fst kv) (snd kv)) d))
  | reach_add st h k v : reach st h -> reach (pc_add st k v) (EAdd k v :: h)
  | reach_pop st h k n st' : reach st h -> pc_pop st = Ok (k, n, st') -> reach st' (EPop k :: h).

  Lemma NoDup_app_intro_single {A} (l : list A) x : NoDup l -> ~ In x l -> NoDup (l ++ [x]).
  Proof.
    intros Hl Hx. apply (Permutation_NoDup (l := x :: l)); [apply Permutation_cons_append|].
    constructor; assumption.
  Qed.

  (** ** invariant *)
  Record inv (st : pc K) (h : list (ev K)) : Prop := {
    i_counter : pc_counter st = adds h;
    i_nodup : NoDup (dkeys (pc_finder st));
    i_finder : forall k, dget (pc_finder st) k =
                         if (net h k =? 0)%Z then None else Some ((- net h k)%Z, updated h k);
    i_counts : NoDup (map e_count (pc_pq st));
    i_bound : forall e, In e (pc_pq st) -> e_count e < adds h;
    i_live : forall k pr c, dget (pc_finder st) k = Some (pr, c) <->
                            In {| e_prio := pr; e_count := c; e_key := Some k |} (pc_pq st)
  }.

  Lemma e_eta (e : pc_entry K) : e = {| e_prio := e_prio e; e_count := e_count e; e_key := e_key e |}.
  Proof. destruct e; reflexivity. Qed.

  Lemma mark_removed_counts c l : map e_count (mark_removed c l) = map (@e_count K) l.
  Proof.
    unfold mark_removed. rewrite map_map. apply map_ext. intros e. destruct (Nat.eqb (e_count e) c); reflexivity.
  Qed.

  Lemma mark_removed_in c l pr c' k :
    In {| e_prio := pr; e_count := c'; e_key := Some k |} (mark_removed c l) <->
    c' <> c /\ In {| e_prio := pr; e_count := c'; e_key := Some (k : K) |} l.
  Proof.
    unfold mark_removed. rewrite in_map_iff. split.
    - intros (e & E & Hin). destruct (Nat.eqb_spec (e_count e) c) as [Ec|Ec]; [discriminate|].
      subst e. simpl in Ec. auto.
    - intros [Hc Hin]. eexists. split; [|exact Hin]. simpl. rewrite (proj2 (Nat.eqb_neq c' c) Hc). reflexivity.
  Qed.

  Lemma nodup_count (l : list (pc_entry K)) a b :
    NoDup (map e_count l) -> In a l -> In b l -> e_count a = e_count b -> a = b.
  Proof.
    induction l as [|x l IH]; [intros _ []|]. simpl. intros Hn. inversion Hn as [|? ? Hx Hn']; subst.
    intros [->|Ha] [->|Hb] E; auto.
    - exfalso. apply Hx. rewrite E. apply in_map. exact Hb.
    - exfalso. apply Hx. rewrite <- E. apply in_map. exact Ha.
  Qed.

  Lemma inv_add st h k v : inv st h -> inv (pc_add st k v) (EAdd k v :: h).
  Proof.
    intros I. unfold pc_add.
    set (r := match dget (pc_finder st) k with
              | Some (pr, c) => ((pr + - v)%Z, mark_removed c (pc_pq st), ddel (pc_finder st) k)
              | None => ((- v)%Z, pc_pq st, pc_finder st)
              end).
    assert (R : fst (fst r) = (- (net h k + v))%Z
                /\ NoDup (dkeys (snd r))
                /\ (forall k', dget (snd r) k' = if eqb k' k then None else dget (pc_finder st) k')
                /\ map e_count (snd (fst r)) = map e_count (pc_pq st)
                /\ (forall k' pr c, dget (snd r) k' = Some (pr, c) <->
                      In {| e_prio := pr; e_count := c; e_key := Some k' |} (snd (fst r)))).
    { subst r. pose proof (i_finder _ _ I k) as F.
      destruct (dget (pc_finder st) k) as [[pr c]|] eqn:G; simpl.
      - destruct (Z.eqb_spec (net h k) 0) as [Z0|Z0]; [discriminate|]. injection F as -> ->.
        split; [lia|]. split; [apply ddel_nodup, I|].
        assert (D : forall k', dget (ddel (pc_finder st) k) k' = if eqb k' k then None else dget (pc_finder st) k').
        { intros k'. rewrite (dget_ddel _ _ _ (i_nodup _ _ I)). reflexivity. }
        split; [exact D|]. split; [apply mark_removed_counts|].
        intros k' pr c. rewrite D, mark_removed_in, <- (i_live _ _ I).
        destruct (eqb_spec k' k) as [->|Hk].
        + split; [discriminate|]. intros [Hc E]. rewrite G in E. injection E as <- <-. congruence.
        + split; [|intros []; auto]. intros E. split; [|exact E]. intros ->.
          apply (proj1 (i_live _ _ I _ _ _)) in E. apply (proj1 (i_live _ _ I _ _ _)) in G.
          pose proof (nodup_count _ _ _ (i_counts _ _ I) E G eq_refl) as Q. congruence.
      - destruct (Z.eqb_spec (net h k) 0) as [Z0|Z0]; [|discriminate].
        split; [lia|]. split; [apply I|]. split; [|split; [reflexivity|apply I]].
        intros k'. destruct (eqb_spec k' k) as [->|]; [exact G|reflexivity]. }
    destruct r as [[ta pq] fd]. simpl in R. destruct R as (-> & Rn & Rf & Rc & Rl).
    assert (B : forall e, In e pq -> e_count e < adds h).
    { intros e He. apply (in_map e_count) in He. rewrite Rc in He. apply in_map_iff in He.
      destruct He as (e' & <- & He'). exact (i_bound _ _ I _ He'). }
    assert (Nc : NoDup (map e_count pq)) by (rewrite Rc; apply I).
    pose proof (i_counter _ _ I) as Ic.
    destruct (Z.eqb_spec (- (net h k + v)) 0) as [Z0|Z0]; constructor; cbn [pc_counter pc_pq pc_finder adds].
    - congruence.
    - exact Rn.
    - intros k'. rewrite Rf. cbn [net updated]. destruct (eqb_spec k' k) as [->|]; [|apply I].
      rewrite (proj2 (Z.eqb_eq (net h k + v) 0)) by lia. reflexivity.
    - exact Nc.
    - intros e He. specialize (B e He). lia.
    - exact Rl.
    - congruence.
    - apply dset_nodup, Rn.
    - intros k'. rewrite dget_dset, Rf. cbn [net updated]. destruct (eqb_spec k' k) as [->|]; [|apply I].
      rewrite (proj2 (Z.eqb_neq (net h k + v) 0)) by lia. rewrite Ic. reflexivity.
    - cbn [map e_count]. constructor; [|exact Nc]. rewrite in_map_iff. intros (e & E & He).
      specialize (B e He). lia.
    - intros e [<-|He]; [simpl; lia|]. specialize (B e He). lia.
    - intros k' pr c. rewrite dget_dset. cbn [In]. rewrite <- Rl, Rf. destruct (eqb_spec k' k) as [->|Hk].
      + split; [intros E; left; congruence|]. intros [E|E]; [congruence|discriminate].
      + split; [auto|]. intros [E|E]; [congruence|exact E].
  Qed.

  (** ** initial state *)
  Lemma net_adds (d : dict K Z) k :
    NoDup (dkeys d) ->
    net (rev (map (fun kv => EAdd (fst kv) (snd kv)) d)) k = match dget d k with Some v => v | None => 0%Z end.
  Proof.
    induction d as [|[k' v] d IH] using rev_ind; [reflexivity|].
    unfold dkeys. rewrite map_app. cbn [map fst]. intros Hn.
    assert (Hn' : NoDup (dkeys d)) by (apply NoDup_remove_1 in Hn; rewrite app_nil_r in Hn; exact Hn).
    assert (Hk' : ~ In k' (dkeys d)) by (apply NoDup_remove_2 in Hn; rewrite app_nil_r in Hn; exact Hn).
    rewrite map_app, rev_app_distr. cbn [map rev app net fst snd]. rewrite (IH Hn').
    assert (E : d ++ [(k', v)] = dset d k' v) by (symmetry; apply dset_fresh, dget_none, Hk').
    rewrite E, dget_dset. destruct (eqb_spec k k') as [->|]; [|reflexivity].
    rewrite (proj2 (dget_none _ _) Hk'). lia.
  Qed.

  Lemma pc_entries_app i (a b : dict K Z) :
    pc_entries i (a ++ b) = pc_entries i a ++ pc_entries (i + length a) b.
  Proof.
    revert i. induction a as [|[k v] a IH]; intros i; simpl; [rewrite Nat.add_0_r; reflexivity|].
    rewrite IH. replace (S i + length a) with (i + S (length a)) by lia. reflexivity.
  Qed.

  Lemma adds_init (d : dict K Z) : adds (rev (map (fun kv => EAdd (fst kv) (snd kv)) d)) = length d.
  Proof.
    induction d as [|[k v] d IH] using rev_ind; [reflexivity|].
    rewrite map_app, rev_app_distr. cbn [map rev app adds fst snd]. rewrite IH, app_length. simpl. lia.
  Qed.

  Lemma pc_init_snoc (d : dict K Z) k v :
    dget d k = None ->
    pc_finder (pc_init (d ++ [(k, v)])) = dset (pc_finder (pc_init d)) k ((- v)%Z, length d)
    /\ pc_pq (pc_init (d ++ [(k, v)])) = pc_pq (pc_init d) ++ [{| e_prio := (- v)%Z; e_count := length d; e_key := Some k |}].
  Proof.
    intros Hk. unfold pc_init, pc_finder_of. cbn [pc_finder pc_pq]. rewrite pc_entries_app. split; [|reflexivity].
    rewrite fold_left_app. reflexivity.
  Qed.

  Lemma inv_init (d : dict K Z) :
    NoDup (dkeys d) -> Forall (fun kv => snd kv <> 0%Z) d ->
    inv (pc_init d) (rev (map (fun kv => EAdd (fst kv) (snd kv)) d)).
  Proof.
    induction d as [|[k v] d IH] using rev_ind.
    - intros _ _. constructor; simpl.
      + reflexivity.
      + constructor.
      + reflexivity.
      + constructor.
      + intros e [].
      + intros k pr c. split; [discriminate|intros []].
    - unfold dkeys. rewrite map_app. cbn [map fst]. intros Hn Hf.
      assert (Hn' : NoDup (dkeys d)) by (apply NoDup_remove_1 in Hn; rewrite app_nil_r in Hn; exact Hn).
      assert (Hk : dget d k = None)
        by (apply dget_none; apply NoDup_remove_2 in Hn; rewrite app_nil_r in Hn; exact Hn).
      apply Forall_app in Hf as [Hf1 Hf2]. inversion Hf2 as [|? ? Hv _]; subst. simpl in Hv.
      specialize (IH Hn' Hf1). destruct (pc_init_snoc d k v Hk) as [Ef Eq].
      pose proof (net_adds d k Hn') as Nk. rewrite Hk in Nk.
      pose proof (adds_init d) as Ad.
      rewrite map_app, rev_app_distr. cbn [map rev app fst snd].
      assert (Fk : dget (pc_finder (pc_init d)) k = None) by (rewrite (i_finder _ _ IH), Nk; reflexivity).
      constructor; rewrite ?Ef, ?Eq; cbn [adds].
      + unfold pc_init at 1. cbn [pc_counter]. rewrite app_length, Ad. simpl. lia.
      + apply dset_nodup, IH.
      + intros k'. rewrite dget_dset. cbn [net updated]. destruct (eqb_spec k' k) as [->|]; [|apply IH].
        rewrite Nk, Ad. simpl. rewrite (proj2 (Z.eqb_neq v 0) Hv). reflexivity.
      + rewrite map_app. cbn [map e_count]. apply NoDup_app_intro_single.
        * apply IH.
        * rewrite in_map_iff. intros (e & E & He). pose proof (i_bound _ _ IH _ He). lia.
      + intros e He. apply in_app_or in He as [He|[<-|[]]]; [pose proof (i_bound _ _ IH _ He); lia|simpl; lia].
      + intros k' pr c. rewrite dget_dset, in_app_iff, <- (i_live _ _ IH). cbn [In].
        destruct (eqb_spec k' k) as [->|Hk'].
        * rewrite Fk. split; [intros E; right; left; congruence|]. intros [E|[E|[]]]; congruence.
        * split; [auto|]. intros [E|[E|[]]]; [exact E|congruence].
  Qed.

  (** ** pop *)
  Lemma entry_le_iff (a b : pc_entry K) :
    entry_le a b = true <-> (e_prio a < e_prio b)%Z \/ (e_prio a = e_prio b /\ e_count a <= e_count b).
  Proof.
    unfold entry_le. rewrite orb_true_iff, andb_true_iff, Z.ltb_lt, Z.eqb_eq, Nat.leb_le. reflexivity.
  Qed.

  Lemma heap_pop_spec (l : list (pc_entry K)) :
    match heap_pop l with
    | None => l = []
    | Some (e, r) => Permutation l (e :: r) /\ Forall (fun x => entry_le e x = true) l
    end.
  Proof.
    induction l as [|a l IH]; [reflexivity|]. simpl. destruct (heap_pop l) as [[m r]|].
    - destruct IH as [P F]. destruct (entry_le a m) eqn:E.
      + split; [reflexivity|]. constructor; [apply entry_le_iff; right; lia|].
        eapply Forall_impl; [|exact F]. intros x Hx. apply entry_le_iff in E, Hx. apply entry_le_iff. lia.
      + split; [rewrite P; apply perm_swap|]. constructor; [|exact F].
        apply entry_le_iff. apply not_true_iff_false in E. rewrite entry_le_iff in E. lia.
    - subst l. split; [reflexivity|]. constructor; [|constructor]. apply entry_le_iff. right. lia.
  Qed.

  Lemma pop_loop_spec fuel cnt (pq : list (pc_entry K)) fd :
    length pq < fuel ->
    NoDup (dkeys fd) ->
    NoDup (map e_count pq) ->
    (forall k pr c, dget fd k = Some (pr, c) <-> In {| e_prio := pr; e_count := c; e_key := Some k |} pq) ->
    match pc_pop_loop fuel cnt pq fd with
    | Ok (k, n, st') =>
        (exists c, dget fd k = Some ((- n)%Z, c)
                   /\ forall k' pr' c', dget fd k' = Some (pr', c') ->
                        (- n < pr')%Z \/ ((- n)%Z = pr' /\ c <= c'))
        /\ pc_counter st' = cnt /\ pc_finder st' = ddel fd k
        /\ incl (pc_pq st') pq /\ NoDup (map e_count (pc_pq st'))
        /\ (forall k' pr c, dget (ddel fd k) k' = Some (pr, c) <->
                            In {| e_prio := pr; e_count := c; e_key := Some k' |} (pc_pq st'))
    | Err e => e = KeyError /\ forall k, dget fd k = None
    end.
  Proof.
    revert pq. induction fuel as [|fuel IH]; intros pq Hf Hnd Hc Hl; [lia|].
    cbn [pc_pop_loop]. pose proof (heap_pop_spec pq) as S. destruct (heap_pop pq) as [[e r]|].
    2:{ subst pq. split; [reflexivity|]. intros k. destruct (dget fd k) as [[pr c]|] eqn:G; [|reflexivity].
        apply Hl in G. destruct G. }
    destruct S as [P F].
    assert (Hr : incl r pq) by (intros x Hx; apply (Permutation_in _ (Permutation_sym P)); right; exact Hx).
    assert (Hcr : NoDup (e_count e :: map e_count r)).
    { change (NoDup (map e_count (e :: r))). eapply Permutation_NoDup; [|exact Hc]. apply Permutation_map, P. }
    assert (Hlen : length r < fuel) by (apply Permutation_length in P; simpl in P; lia).
    inversion Hcr as [|? ? Hce Hcr']; subst.
    destruct (e_key e) as [k|] eqn:Ek.
    - assert (Hin : In {| e_prio := e_prio e; e_count := e_count e; e_key := Some k |} pq).
      { rewrite <- Ek, <- e_eta. apply (Permutation_in _ (Permutation_sym P)). left. reflexivity. }
      pose proof (proj2 (Hl _ _ _) Hin) as G. unfold dmem. rewrite G. rewrite Z.opp_involutive. split.
      { exists (e_count e). split; [exact G|]. intros k' pr' c' G'. apply Hl in G'.
        rewrite Forall_forall in F. specialize (F _ G'). apply entry_le_iff in F. exact F. }
      cbn [pc_counter pc_finder pc_pq]. repeat split; auto.
      + rewrite (dget_ddel _ _ _ Hnd). destruct (eqb_spec k' k) as [->|Hk]; [discriminate|].
        intros G'. apply Hl in G'. apply (Permutation_in _ P) in G'. destruct G' as [E|G']; [|exact G'].
        rewrite E in Ek. simpl in Ek. congruence.
      + intros G'. rewrite (dget_ddel _ _ _ Hnd). pose proof (proj2 (Hl _ _ _) (Hr _ G')) as G2.
        destruct (eqb_spec k' k) as [->|Hk]; [|exact G2]. exfalso. apply Hce.
        rewrite G in G2. injection G2 as E1 E2. rewrite E2. apply (in_map e_count) in G'. exact G'.
    - assert (Hl' : forall k pr c, dget fd k = Some (pr, c) <->
                                   In {| e_prio := pr; e_count := c; e_key := Some k |} r).
      { intros k pr c. rewrite Hl. split; [|apply Hr]. intros G. apply (Permutation_in _ P) in G.
        destruct G as [E|G]; [|exact G]. rewrite E in Ek. discriminate. }
      specialize (IH r Hlen Hnd Hcr' Hl'). destruct (pc_pop_loop fuel cnt r fd) as [[[k n] st']|x]; [|exact IH].
      destruct IH as (I1 & I2 & I3 & I4 & I5 & I6). repeat split; auto.
      + intros x Hx. apply Hr, I4, Hx.
      + apply I6.
      + apply I6.
  Qed.

  Lemma inv_pop st h : inv st h ->
    match pc_pop st with
    | Ok (k, n, st') =>
        net h k = n /\ n <> 0%Z
        /\ (forall k', net h k' <> 0%Z ->
              (net h k' < n)%Z \/ (net h k' = n /\ updated h k <= updated h k'))
        /\ inv st' (EPop k :: h)
    | Err e => e = KeyError /\ forall k, net h k = 0%Z
    end.
  Proof.
    intros I. unfold pc_pop.
    pose proof (pop_loop_spec (S (length (pc_pq st))) (pc_counter st) (pc_pq st) (pc_finder st)
                  (Nat.lt_succ_diag_r _) (i_nodup _ _ I) (i_counts _ _ I) (i_live _ _ I)) as P.
    destruct (pc_pop_loop _ _ _ _) as [[[k n] st']|e].
    - destruct P as ((c & G & M) & P1 & P2 & P3 & P4 & P5).
      pose proof (i_finder _ _ I k) as F. rewrite G in F.
      destruct (Z.eqb_spec (net h k) 0) as [Z0|Z0]; [discriminate|]. injection F as F1 F2.
      assert (En : net h k = n) by lia. repeat split; auto; try congruence.
      + intros k' Hk'. pose proof (i_finder _ _ I k') as F'.
        destruct (Z.eqb_spec (net h k') 0) as [Z1|Z1]; [congruence|]. specialize (M _ _ _ F'). lia.
      + rewrite P1. apply I.
      + rewrite P2. apply ddel_nodup, I.
      + intros k'. rewrite P2, (dget_ddel _ _ _ (i_nodup _ _ I)). cbn [net updated].
        destruct (eqb_spec k' k) as [->|]; [reflexivity|apply I].
      + intros e He. apply (i_bound _ _ I), P3, He.
      + rewrite P2. apply P5.
      + rewrite P2. apply P5.
    - destruct P as [-> P]. split; [reflexivity|]. intros k. pose proof (i_finder _ _ I k) as F.
      rewrite P in F. destruct (Z.eqb_spec (net h k) 0); [assumption|discriminate].
  Qed.

  Lemma reach_inv st h : reach st h -> inv st h.
  Proof.
    induction 1 as [d H1 H2|st h k v _ IH|st h k n st' _ IH E].
    - apply inv_init; assumption.
    - apply inv_add, IH.
    - pose proof (inv_pop _ _ IH) as P. rewrite E in P. apply P.
  Qed.

  (** Whatever was added and popped before, a pop gives a key together with everything added to it
      since it was last popped; that number is not zero, no other key has a greater one, and among
      the keys with an equal one it is the one updated the longest time ago.  The pop raises, with
      KeyError, exactly when the additions to every key cancel out. *)
  Theorem C33_pop st h : reach st h ->
    match pc_pop st with
    | Ok (k, n, _) =>
        n = net h k /\ n <> 0%Z
        /\ forall k', k' <> k -> net h k' <> 0%Z ->
             (net h k' < n)%Z \/ (net h k' = n /\ updated h k < updated h k')
    | Err e => e = KeyError /\ forall k, net h k = 0%Z
    end.
  Proof.
    intros R. pose proof (reach_inv _ _ R) as I. pose proof (inv_pop _ _ I) as P.
    destruct (pc_pop st) as [[[k n] st']|e]; [|exact P].
    destruct P as (P1 & P2 & P3 & _). repeat split; auto. intros k' Hk Hk'.
    destruct (P3 k' Hk') as [L|[E L]]; [left; exact L|right]. split; [exact E|].
    pose proof (i_finder _ _ I k) as F. pose proof (i_finder _ _ I k') as F'.
    destruct (Z.eqb_spec (net h k) 0); [congruence|]. destruct (Z.eqb_spec (net h k') 0); [congruence|].
    apply (proj1 (i_live _ _ I _ _ _)) in F. apply (proj1 (i_live _ _ I _ _ _)) in F'.
    destruct (Nat.eq_dec (updated h k) (updated h k')) as [U|]; [|lia]. exfalso.
    pose proof (nodup_count _ _ _ (i_counts _ _ I) F F' U). congruence.
  Qed.

  Corollary pop_raises st h : reach st h ->
    ((exists e, pc_pop st = Err e) <-> forall k, net h k = 0%Z).
  Proof.
    intros R. pose proof (C33_pop _ _ R) as P. destruct (pc_pop st) as [[[k n] st']|e].
    - split; [intros [e E]; discriminate|]. intros Z0. destruct P as (P1 & P2 & _). congruence.
    - split; [intros _; apply P|]. eauto.
  Qed.
End Spec.
Print Assumptions C33_pop.

(** What was counted as zero from the start is popped as zero: the condition on [reach_init] matters. *)
Theorem C33_initial_zero_refuted :
  exists st' : pc nat, pc_pop (pc_init [(7, 0%Z)]) = Ok (7, 0%Z, st').
Proof. eexists. vm_compute. reflexivity. Qed.
Print Assumptions C33_initial_zero_refuted.

(** three keys, a cancelled one, a tie decided by the last update *)
Example queue_run :
  let st0 := pc_init [(1, 5%Z); (2, 3%Z); (3, 5%Z)] in
  let st1 := pc_add (pc_add (pc_add st0 1 1) 1 (-1)) 2 (-3) in
  exists st2 st3,
    reach st1 [EAdd 2 (-3)%Z; EAdd 1 (-1)%Z; EAdd 1 1%Z; EAdd 3 5%Z; EAdd 2 3%Z; EAdd 1 5%Z]
    /\ pc_pop st1 = Ok (3, 5%Z, st2) /\ pc_pop st2 = Ok (1, 5%Z, st3)
    /\ pc_pop st3 = Err KeyError.
Proof.
  intros st0 st1. do 2 eexists. split; [|vm_compute; repeat split; reflexivity].
  apply reach_add, reach_add, reach_add.
  apply (reach_init [(1, 5%Z); (2, 3%Z); (3, 5%Z)]).
  - repeat constructor; simpl; intuition discriminate.
  - repeat constructor; discriminate.
Qed.
(** ... where the theorem says that 3 was updated before 1, and that nothing else is left *)
Example C33_example : forall (h := [EAdd 2 (-3)%Z; EAdd 1 (-1)%Z; EAdd 1 1%Z; EAdd 3 5%Z; EAdd 2 3%Z; EAdd 1 5%Z]),
  net h 3 = 5%Z /\ net h 1 = 5%Z /\ net h 2 = 0%Z /\ updated h 3 < updated h 1.
Proof.
  intros h. destruct queue_run as (st2 & st3 & R & E & _). pose proof (C33_pop _ _ R) as P. rewrite E in P.
  destruct P as (P1 & _ & P3). split; [symmetry; exact P1|]. split; [reflexivity|]. split; [reflexivity|].
  destruct (P3 1) as [L|[_ L]]; [discriminate|discriminate|vm_compute in L; discriminate|exact L].
Qed.
