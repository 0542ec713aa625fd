(** The queue of wild_bpe.run gives the most frequent pair, for C84. *)
From Verif Require Import M_Base L_Base M_Wild M_WildRun.
From Coq Require Import Lia Sorting.Permutation.
Local Open Scope Z_scope.

Definition live1 (e : wentry) : list (str * (Z * Z)) := match w_key e with Some k => [(k, (w_prio e, w_pos e))] | None => [] end.
Definition live (h : list wentry) : list (str * (Z * Z)) := flat_map live1 h.
Definition qinv (q : wqueue) : Prop := Permutation (live (w_heap q)) (w_finder q) /\ NoDup (dkeys (w_finder q)).

Definition other (k : str) (x : str * (Z * Z)) : bool := negb (eqb k (fst x)).
Lemma live_removed k h : live (wq_removed k h) = filter (other k) (live h).
Proof.
  unfold live, wq_removed. induction h as [|e h IH]; [reflexivity|]. cbn [map flat_map]. rewrite filter_app, <- IH. f_equal.
  unfold live1. destruct (w_key e) as [k'|] eqn:E; cbn; [|rewrite E; reflexivity]. unfold other. cbn [fst]. destruct (eqb k k'); cbn; [reflexivity|]. rewrite E. reflexivity.
Qed.
Lemma ddel_filter k (d : dict str (Z * Z)) : NoDup (dkeys d) -> ddel d k = filter (other k) d.
Proof.
  induction d as [|[k' v] d IH]; [reflexivity|]. intros N. inversion N as [|? ? N1 N2]; subst. cbn [ddel filter]. unfold other at 1. cbn [fst].
  destruct (eqb_spec k k') as [->|Nk]; cbn [negb]; [|f_equal; apply IH, N2]. symmetry.
  clear IH N N2. induction d as [|[k2 v2] d IH]; [reflexivity|]. cbn [filter]. unfold other at 1. cbn [fst]. cbn in N1.
  destruct (eqb_spec k' k2) as [->|Nk]; [destruct N1; left; reflexivity|]. cbn [negb]. f_equal. apply IH. intros H. apply N1. right. exact H.
Qed.
Lemma perm_filter {A} (f : A -> bool) l m : Permutation l m -> Permutation (filter f l) (filter f m).
Proof.
  induction 1 as [|x l m P IH|x y l|l m n P1 IH1 P2 IH2]; cbn.
  - reflexivity.
  - destruct (f x); [constructor; exact IH|exact IH].
  - destruct (f x), (f y); try reflexivity. constructor.
  - etransitivity; eassumption.
Qed.
Lemma wq_add_spec q k n pos : qinv q ->
  qinv (wq_add q k n pos) /\
  forall k', dget (w_finder (wq_add q k n pos)) k' =
    if eqb k' k then (let t := match dget (w_finder q) k with Some (pr, _) => pr - n | None => - n end in if t =? 0 then None else Some (t, pos))
    else dget (w_finder q) k'.
Proof.
  intros [P N]. unfold wq_add.
  assert (H : exists t h f, match dget (w_finder q) k with
      | Some (pr, _) => ((pr + - n)%Z, wq_removed k (w_heap q), ddel (w_finder q) k)
      | None => ((- n)%Z, w_heap q, w_finder q) end = (t, h, f) /\ t = match dget (w_finder q) k with Some (pr, _) => pr - n | None => - n end /\
      Permutation (live h) f /\ NoDup (dkeys f) /\ dget f k = None /\ forall k', k' <> k -> dget f k' = dget (w_finder q) k').
  { destruct (dget (w_finder q) k) as [[pr p]|] eqn:E.
    - eexists. eexists. eexists. split; [reflexivity|]. split; [lia|]. split; [rewrite live_removed, ddel_filter by exact N; apply perm_filter, P|].
      split; [apply ddel_nodup, N|]. split; [rewrite dget_ddel, eqb_refl by exact N; reflexivity|]. intros k' Nk. rewrite dget_ddel by exact N.
      destruct (eqb_spec k' k); [congruence|reflexivity].
    - eexists. eexists. eexists. split; [reflexivity|]. split; [lia|]. auto. }
  destruct H as (t & h & f & E & Et & P1 & N1 & D1 & D2). rewrite E. cbv zeta. rewrite <- Et. destruct (t =? 0).
  - split; [split; assumption|]. cbn [w_finder]. intros k'. destruct (eqb_spec k' k) as [->|Nk]; [exact D1|apply D2, Nk].
  - split.
    + split; cbn [w_heap w_finder]; [|apply dset_nodup, N1]. rewrite dset_fresh by exact D1. cbn. rewrite <- Permutation_cons_append. constructor. exact P1.
    + cbn [w_finder]. intros k'. rewrite dget_dset. destruct (eqb_spec k' k) as [->|Nk]; [reflexivity|apply D2, Nk].
Qed.

Definition le2 (e f : wentry) : Prop := w_prio e < w_prio f \/ (w_prio e = w_prio f /\ w_pos e <= w_pos f).
Lemma wentry_le2 e f : if wentry_le e f then le2 e f else le2 f e.
Proof.
  unfold wentry_le, le2. destruct (Z.eqb_spec (w_prio e) (w_prio f)) as [E|E].
  - destruct (Z.eqb_spec (w_pos e) (w_pos f)) as [E2|E2]; [destruct (str_leb _ _); lia|]. destruct (Z.ltb_spec (w_pos e) (w_pos f)); lia.
  - destruct (Z.ltb_spec (w_prio e) (w_prio f)); lia.
Qed.
Lemma wheap_pop_spec l : match wheap_pop l with None => l = [] | Some (m, r) => Permutation l (m :: r) /\ forall e, In e l -> le2 m e end.
Proof.
  induction l as [|e t IH]; [reflexivity|]. cbn [wheap_pop]. destruct (wheap_pop t) as [[m r]|].
  - destruct IH as [P I]. pose proof (wentry_le2 e m) as H. destruct (wentry_le e m).
    + split; [reflexivity|]. intros x [<-|X]; [unfold le2; lia|]. specialize (I x X). unfold le2 in *. lia.
    + split; [rewrite P; apply perm_swap|]. intros x [<-|X]; [exact H|]. exact (I x X).
  - subst t. split; [reflexivity|]. intros x [<-|[]]. unfold le2. lia.
Qed.
Definition lexle (u v : Z * Z) : Prop := fst u < fst v \/ (fst u = fst v /\ snd u <= snd v).
Lemma perm_in_dget (d : dict str (Z * Z)) k v : NoDup (dkeys d) -> In (k, v) d -> dget d k = Some v.
Proof. apply dget_nodup. Qed.
Lemma wq_pop_loop_spec fuel h f : (length h < fuel)%nat -> Permutation (live h) f -> NoDup (dkeys f) ->
  (f = [] /\ wq_pop_loop fuel h f = Err KeyError) \/
  exists k n pos q, wq_pop_loop fuel h f = Ok (k, n, q) /\ qinv q /\ w_finder q = ddel f k /\ dget f k = Some (- n, pos) /\
    forall k' v, dget f k' = Some v -> lexle (- n, pos) v.
Proof.
  revert h. induction fuel as [|fuel IH]; intros h L P N; [lia|]. cbn [wq_pop_loop]. pose proof (wheap_pop_spec h) as H. destruct (wheap_pop h) as [[e r]|].
  - destruct H as [Ph Ih]. assert (Pl : Permutation (live h) (live1 e ++ live r)) by (apply (Permutation_flat_map live1) in Ph; exact Ph).
    destruct (w_key e) as [k|] eqn:Ek.
    + right. unfold live1 in Pl. rewrite Ek in Pl. cbn [app] in Pl. rewrite P in Pl.
      assert (I : In (k, (w_prio e, w_pos e)) f) by (rewrite Pl; left; reflexivity). apply dget_nodup in I; [|exact N]. unfold dmem. rewrite I.
      eexists. eexists. exists (w_pos e). eexists. split; [reflexivity|]. rewrite Z.opp_involutive. split; [|split; [reflexivity|split; [exact I|]]].
      * split; cbn [w_heap w_finder]; [|apply ddel_nodup, N]. rewrite ddel_filter by exact N. pose proof Pl as P3. apply (perm_filter (other k)) in Pl. rewrite Pl. cbn [filter].
        unfold other at 1. cbn [fst]. rewrite eqb_refl. cbn [negb].
        assert (Nk : forall x, In x (live r) -> other k x = true).
        { intros [k2 v2] X. unfold other. cbn [fst]. destruct (eqb_spec k k2) as [<-|D]; [|reflexivity]. exfalso.
          assert (N2 : NoDup (map fst ((k, (w_prio e, w_pos e)) :: live r))).
          { apply (Permutation_map fst) in P3. eapply Permutation_NoDup; [exact P3|exact N]. }
          inversion N2 as [|? ? N3 _]; subst. apply N3. cbn. apply (in_map fst) in X. exact X. }
        clear -Nk. induction (live r) as [|x l IH]; [reflexivity|]. cbn [filter]. rewrite Nk by (left; reflexivity). constructor. apply IH. intros y Y. apply Nk. right. exact Y.
      * intros k' v D. apply dget_in in D. rewrite <- P in D. unfold live in D. apply in_flat_map in D. destruct D as (e' & X & Y). unfold live1 in Y.
        destruct (w_key e') as [k2|]; [|destruct Y]. destruct Y as [Y|[]]. injection Y as <- <-. specialize (Ih e' X). exact Ih.
    + unfold live1 in Pl. rewrite Ek in Pl. cbn [app] in Pl. apply IH; [|rewrite <- Pl; exact P|exact N].
      apply Permutation_length in Ph. cbn in Ph. lia.
  - subst h. left. split; [|reflexivity]. apply Permutation_nil. exact P.
Qed.
Lemma wq_pop_spec q : qinv q ->
  (w_finder q = [] /\ wq_pop q = Err KeyError) \/
  exists k n pos q', wq_pop q = Ok (k, n, q') /\ qinv q' /\ w_finder q' = ddel (w_finder q) k /\ dget (w_finder q) k = Some (- n, pos) /\
    forall k' v, dget (w_finder q) k' = Some v -> lexle (- n, pos) v.
Proof. intros [P N]. unfold wq_pop. apply wq_pop_loop_spec; [lia|exact P|exact N]. Qed.

(** the entry that belongs to a list of positions *)
Definition entry_of (l : list Z) : option (Z * Z) := match l with [] => None | p :: _ => Some (- Z.of_nat (length l), p) end.
Lemma wq_init_spec (li : loc_index) : NoDup (dkeys li) -> (forall k, dget li k <> Some []) ->
  qinv (wq_init li) /\ forall k, dget (w_finder (wq_init li)) k = entry_of (lget li k).
Proof.
  intros N E. split.
  - split.
    + cbn [wq_init w_heap w_finder]. unfold live. clear N E. induction li as [|kv li IH]; [reflexivity|]. cbn. constructor. exact IH.
    + cbn [wq_init w_finder]. unfold dkeys in *. rewrite map_map. cbn [fst]. exact N.
  - intros k. cbn [wq_init w_finder]. unfold lget. assert (H : dget li k <> Some []) by apply E. clear E. induction li as [|[k' l] li IH]; [reflexivity|].
    cbn in *. destruct (eqb k k'); [|apply IH; [inversion N; assumption|exact H]]. destruct l; [congruence|reflexivity].
Qed.
