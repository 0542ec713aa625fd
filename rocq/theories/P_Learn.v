(** C27-C32: learning merges. *)
From Verif Require Import M_Base L_Base S_Bpe L_Bpe M_Merge L_Merge M_BpeEncode L_BpeEncode M_Learn P_Queue L_Learn.
From Coq Require Import Lia Permutation.

(** ** Specification *)

(** how often the pair [q] stands next to each other in the corpus: over all words, the frequency of
    the word times the number of positions where [q] occurs.  [vcount] of [L_Learn] is this number. *)
Definition corpus_count (v : split_vocab) (q : pair) : Z :=
  fold_right (fun wf n => (snd wf * Z.of_nat (length (filter (eqb q) (combine (fst wf) (tl (fst wf))))) + n)%Z) 0%Z v.

(** [p] is a most frequent pair, and it does occur, [n] times *)
Definition most_frequent (v : split_vocab) (p : pair) (n : Z) : Prop :=
  n = corpus_count v p /\ (0 < n)%Z /\ forall q, (corpus_count v q <= n)%Z.

(** textbook BPE learning: a most frequent pair is merged from left to right in every word *)
Inductive greedy : split_vocab -> list (pair * Z) -> split_vocab -> Prop :=
| greedy_stop v : greedy v [] v
| greedy_step v p n l v' :
    most_frequent v p n ->
    greedy (map (fun wf => (merge_pair p (fst wf), snd wf)) v) l v' ->
    greedy v ((p, n) :: l) v'.

(** a corpus: words with positive frequencies, distinct as words *)
Definition base_ok (base : dict str Z) : Prop :=
  NoDup (dkeys base) /\ Forall (fun kv => fst kv <> [] /\ no_char 32 (fst kv) /\ (0 < snd kv)%Z) base.

(** ** Lemmas *)
Lemma NoDup_app_remove_l {A} (a b : list A) : NoDup (a ++ b) -> NoDup b.
Proof. induction a as [|x a IH]; [auto|]. intros H. inversion H; auto. Qed.

Lemma pairs_combine (s : list str) : pairs s = combine s (tl s).
Proof.
  induction s as [|a|a b t _ IH] using list_ind2; [reflexivity..|].
  change (pairs (a :: b :: t)) with ((a, b) :: pairs (b :: t)). rewrite IH. reflexivity.
Qed.
Lemma corpus_count_vcount v q : corpus_count v q = vcount v q.
Proof.
  unfold corpus_count, vcount. induction v as [|[w f] v IH]; [reflexivity|]. cbn [fold_right fst snd].
  rewrite IH. unfold occ. rewrite pairs_combine. reflexivity.
Qed.

Definition vapply (ps : list pair) (v : split_vocab) : split_vocab :=
  map (fun wf => (apply_merges ps (fst wf), snd wf)) v.

Lemma vapply_nil v : vapply [] v = v.
Proof. unfold vapply. rewrite <- (map_id v) at 2. apply map_ext. intros [w f]. reflexivity. Qed.
Lemma vapply_app a b v : vapply (a ++ b) v = vapply b (vapply a v).
Proof. unfold vapply. rewrite map_map. apply map_ext. intros [w f]. simpl. rewrite apply_merges_app. reflexivity. Qed.
Lemma vapply_snoc ps p v : vapply (ps ++ [p]) v = vmerge p (vapply ps v).
Proof. rewrite vapply_app. reflexivity. Qed.
Lemma vapply_cons p ps v : vapply (p :: ps) v = vapply ps (vmerge p v).
Proof. exact (vapply_app [p] ps v). Qed.

Lemma wf_vapply ps v : wf_vocab v -> wf_vocab (vapply ps v).
Proof.
  revert v. induction ps as [|p ps IH]; intros v Hv; [rewrite vapply_nil; exact Hv|].
  rewrite vapply_cons. apply IH, wf_vmerge, Hv.
Qed.

(** the vocabularies learning starts from: reached by merges [ps] from unambiguously split words *)
Definition learnable (v : split_vocab) (v0 : split_vocab) (ps : list pair) : Prop :=
  wf_vocab v0 /\ unambiguous (map fst v0) /\ occurring (map fst v0) ps /\ v = vapply ps v0.

Lemma proper_words v : wf_vocab v -> Forall proper (map fst v).
Proof. intros H. rewrite Forall_map. apply H. Qed.

Lemma occurring_snoc W ps p :
  occurring W ps -> (exists w, In w W /\ adjacent p (apply_merges ps w)) -> occurring W (ps ++ [p]).
Proof.
  intros Ho Hp a q b E. destruct b as [|x b] using rev_ind.
  - apply app_inj_tail in E as [-> ->]. exact Hp.
  - clear IHb. rewrite app_comm_cons, app_assoc in E. apply app_inj_tail in E as [-> _]. eapply Ho. reflexivity.
Qed.

Lemma learnable_fresh v v0 ps p :
  learnable v v0 ps -> (exists wf, In wf v /\ adjacent p (fst wf)) -> ~ In p ps.
Proof.
  intros (Hw & Hu & Ho & ->) (wf & Hin & Ha) Hp. apply in_map_iff in Hin as ([w f] & <- & Hin).
  eapply never_again; [exact Hu|apply proper_words, Hw|exact Ho| |exact Hp|exact Ha].
  apply (in_map fst) in Hin. exact Hin.
Qed.

Lemma learnable_step v v0 ps p :
  learnable v v0 ps -> (exists wf, In wf v /\ adjacent p (fst wf)) -> learnable (vmerge p v) v0 (ps ++ [p]).
Proof.
  intros (Hw & Hu & Ho & ->) (wf & Hin & Ha). repeat split; auto; try apply Hw.
  - apply occurring_snoc; [exact Ho|]. apply in_map_iff in Hin as ([w f] & <- & Hin). exists w. split; [|exact Ha].
    apply (in_map fst) in Hin. exact Hin.
  - symmetry. apply vapply_snoc.
Qed.

Lemma learnable_wf v v0 ps : learnable v v0 ps -> wf_vocab v.
Proof. intros (Hw & _ & _ & ->). apply wf_vapply, Hw. Qed.

Lemma learnable_nodup v v0 ps : learnable v v0 ps -> NoDup ps.
Proof.
  intros (Hw & Hu & Ho & _). revert Ho. induction ps as [|p ps IH] using rev_ind; intros Ho; [constructor|].
  assert (Ho' : occurring (map fst v0) ps).
  { intros a q b ->. apply (Ho a q (b ++ [p])). rewrite <- app_assoc. reflexivity. }
  apply NoDup_app_intro_single; [apply IH, Ho'|]. intros Hp.
  destruct (Ho ps p [] eq_refl) as (w & Hin & Ha).
  exact (never_again _ _ Hu (proper_words _ Hw) Ho' _ _ Hin Hp Ha).
Qed.

Lemma adjacent_good v p : wf_vocab v -> (exists wf, In wf v /\ adjacent p (fst wf)) -> good_pair p.
Proof.
  intros Hw (wf & Hin & (x & y & E)). pose proof (wf_proper _ Hw) as Hp. rewrite Forall_forall in Hp.
  specialize (Hp _ Hin). rewrite E in Hp. apply proper_app in Hp as [_ Hp].
  inversion Hp as [|? ? H1 Hp']; subst. inversion Hp' as [|? ? H2 _]; subst. split; assumption.
Qed.

Definition some_freq (pf : pair * Z) : pair * option Z := (fst pf, Some (snd pf)).

Definition ml_of (l : list (pair * Z)) : merge_list := ml_from 0 (map some_freq l).

Record loop_inv (v0 : split_vocab) (ps0 : list pair) (v : split_vocab) (q : pc pair) (done : list (pair * Z)) : Prop := {
  li_learnable : learnable v v0 (ps0 ++ map fst done);
  li_queue : exists h, reach q h /\ forall k, net h k = vcount v k
}.

(** one round of the loop *)
Lemma loop_step v0 ps0 v q done :
  loop_inv v0 ps0 v q done ->
  ((forall n, do_merges_loop n (length done) v q (ml_of done) = Ok (v, ml_of done)) /\ forall p, vcount v p = 0%Z)
  \/ (exists p c q',
        (forall n, do_merges_loop (S n) (length done) v q (ml_of done)
                   = do_merges_loop n (length (done ++ [(p, c)])) (vmerge p v) q' (ml_of (done ++ [(p, c)])))
        /\ loop_inv v0 ps0 (vmerge p v) q' (done ++ [(p, c)]) /\ most_frequent v p c).
Proof.
  intros [L (h & R & N)]. pose proof (learnable_wf _ _ _ L) as Hw.
  pose proof (inv_pop _ _ (reach_inv _ _ R)) as P. destruct (pc_pop q) as [[[p c] q']|e] eqn:Eq.
  - right. destruct P as (P1 & P2 & P3 & _).
    destruct (vcount_adjacent v p (wf_pos _ Hw)) as [Hc0 Hca].
    assert (Hadj : exists wf, In wf v /\ adjacent p (fst wf)) by (apply Hca; rewrite <- N; rewrite <- N in Hc0; lia).
    pose proof (learnable_fresh _ _ _ _ L Hadj) as Hfr.
    pose proof (adjacent_good _ _ Hw Hadj) as Hg.
    destruct (merge_vocab_spec p v Hg Hw) as (ds & E1 & E2 & E3 & E4).
    destruct (reach_adds ds q' _ (reach_pop _ _ _ _ _ R Eq)) as (h' & R' & N').
    assert (Dp : dsum p ds = 0%Z).
    { clear -E3. induction ds as [|[k z] ds IH]; [reflexivity|]. inversion E3 as [|? ? H1 H2]; subst.
      cbn [dsum]. cbn [fst] in H1. rewrite (proj2 (eqb_neq p k)) by congruence. rewrite (IH H2). reflexivity. }
    exists p, c, (fold_left (fun q a => pc_add q (fst a) (snd a)) ds q'). split; [|split].
    + intros n. cbn [do_merges_loop]. rewrite Eq. cbn [bind fst snd]. unfold ml_of.
      rewrite (ml_append_fresh (map some_freq done) p (Some c) (Some (Z.of_nat (length done)))).
      2:{ rewrite map_map. simpl. intros Hin. apply Hfr, in_or_app. right. exact Hin. }
      2:{ right. rewrite map_length. reflexivity. }
      cbn [bind]. rewrite E1. cbn [bind fst snd]. rewrite app_length, map_app. cbn [length].
      rewrite Nat.add_1_r. reflexivity.
    + split.
      * pose proof (learnable_step _ _ _ _ L Hadj) as L'. rewrite <- app_assoc in L'.
        change [p] with (map (@fst pair Z) [(p, c)]) in L'. rewrite <- map_app in L'. exact L'.
      * exists h'. split; [exact R'|].
        intros k. rewrite N'. cbn [net]. destruct (eqb_spec k p) as [->|Hk]; [lia|]. rewrite N, E2 by exact Hk. lia.
    + unfold most_frequent. rewrite corpus_count_vcount, <- N.
      repeat split; [congruence| |].
      * rewrite N in P1. lia.
      * intros k. rewrite corpus_count_vcount, <- N.
        destruct (Z.eq_dec (net h k) 0) as [Z0|Z0]; [rewrite N in P1; lia|]. destruct (P3 k Z0); lia.
  - left. destruct P as [-> P]. split; [|intros p; rewrite <- N; apply P].
    intros [|n]; [reflexivity|]. cbn [do_merges_loop]. rewrite Eq. reflexivity.
Qed.

Lemma loop_spec n v0 ps0 v q done :
  loop_inv v0 ps0 v q done ->
  exists more v',
    do_merges_loop n (length done) v q (ml_of done) = Ok (v', ml_of (done ++ more))
    /\ v' = vapply (map fst more) v
    /\ learnable v' v0 (ps0 ++ map fst (done ++ more))
    /\ greedy v more v'
    /\ length more <= n
    /\ (length more < n -> forall p, vcount v' p = 0%Z).
Proof.
  revert v q done. induction n as [|n IH]; intros v q done I.
  - exists [], v. rewrite app_nil_r, vapply_nil. split; [reflexivity|]. split; [reflexivity|].
    split; [apply I|]. split; [constructor|]. split; [apply le_n|]. intros H. inversion H.
  - destruct (loop_step _ _ _ _ _ I) as [[E Z0]|(p & c & q' & E & I' & M)].
    + exists [], v. rewrite app_nil_r, vapply_nil. split; [apply E|]. split; [reflexivity|].
      split; [apply I|]. split; [constructor|]. split; [apply Nat.le_0_l|]. intros _. exact Z0.
    + destruct (IH _ _ _ I') as (more & v' & I1 & I2 & I3 & I4 & I5 & I6).
      exists ((p, c) :: more), v'. rewrite <- app_assoc in I1, I3. cbn [app] in I1, I3. rewrite E.
      split; [exact I1|]. split; [rewrite I2; cbn [map fst]; rewrite vapply_cons; reflexivity|].
      split; [exact I3|]. split; [constructor; assumption|]. split; [simpl; lia|].
      intros Hl. apply I6. simpl in Hl. lia.
Qed.

Lemma loop_prefix n m v0 ps0 v q done :
  loop_inv v0 ps0 v q done ->
  exists l1 l2 v1 v2,
    do_merges_loop n (length done) v q (ml_of done) = Ok (v1, ml_of (done ++ l1))
    /\ do_merges_loop (n + m) (length done) v q (ml_of done) = Ok (v2, ml_of (done ++ l1 ++ l2)).
Proof.
  revert v q done. induction n as [|n IH]; intros v q done I.
  - destruct (loop_spec m _ _ _ _ _ I) as (more & v' & E & _). exists [], more, v, v'.
    rewrite app_nil_r. split; [reflexivity|exact E].
  - destruct (loop_step _ _ _ _ _ I) as [[E Z0]|(p & c & q' & E & I' & M)].
    + exists [], [], v, v. rewrite !app_nil_r. split; apply E.
    + destruct (IH _ _ _ I') as (l1 & l2 & v1 & v2 & E1 & E2). exists ((p, c) :: l1), l2, v1, v2.
      cbn [Nat.add]. rewrite !E, E1, E2. rewrite <- !app_assoc. split; reflexivity.
Qed.

Lemma learnable_loop_inv v v0 ps0 : learnable v v0 ps0 -> loop_inv v0 ps0 v (pc_init (get_stats v)) [].
Proof.
  intros L. split; [rewrite app_nil_r; exact L|]. apply reach_stats. apply (learnable_wf _ _ _ L).
Qed.

Lemma do_merges_spec n v0 ps0 v :
  learnable v v0 ps0 ->
  exists l v',
    do_merges v n = Ok (v', ml_from 0 (map some_freq l))
    /\ v' = vapply (map fst l) v /\ learnable v' v0 (ps0 ++ map fst l) /\ greedy v l v' /\ length l <= n
    /\ (length l < n -> forall p, vcount v' p = 0%Z).
Proof.
  intros L. destruct (loop_spec n _ _ _ _ _ (learnable_loop_inv _ _ _ L)) as (more & v' & I).
  exists more, v'. exact I.
Qed.

(** ** The vocabulary made from a corpus *)
Lemma join_chars k : k <> [] -> join (lit " ") (map (fun c => [c]) k) = join [32%N] (map (fun c : N => [c]) k).
Proof. reflexivity. Qed.

Lemma replace_at_join k : no_char 32 k ->
  replace at_str [at_ch; at_ch] (join [32%N] (map (fun c => [c]) k)) = join [32%N] (map unit_of k).
Proof.
  intros Hn. rewrite replace_at. induction k as [|c [|d k] IH]; [reflexivity|simpl; rewrite app_nil_r; reflexivity|].
  change (map (fun c0 => [c0]) (c :: d :: k)) with ([c] :: map (fun c0 : N => [c0]) (d :: k)).
  change (map unit_of (c :: d :: k)) with (unit_of c :: map unit_of (d :: k)).
  rewrite !join_cons by discriminate. rewrite !map_app, !concat_app, IH.
  - cbn [map List.concat]. rewrite !app_nil_r. reflexivity.
  - intros Hin. apply Hn. right. exact Hin.
Qed.

Lemma initial_split_units k : k <> [] -> no_char 32 k -> initial_split k = map unit_of k ++ [at_str].
Proof.
  intros Hk Hn. unfold initial_split, escape.
  assert (E : join [32%N] (map unit_of k) ++ lit " " ++ at_str = join [32%N] (map unit_of k ++ [at_str])).
  { rewrite join_app; [reflexivity| |discriminate]. destruct k; [congruence|discriminate]. }
  transitivity (split_on 32 (join [32%N] (map unit_of k ++ [at_str]))).
  { f_equal. refine (eq_trans _ E). apply (f_equal (fun x => x ++ lit " " ++ at_str)). exact (replace_at_join k Hn). }
  apply split_join.
  - destruct (map unit_of k); discriminate.
  - exact (units_no_space k Hn).
Qed.

Lemma unit_of_cases c : (c = at_ch /\ unit_of c = [at_ch; at_ch]) \/ (c <> at_ch /\ unit_of c = [c]).
Proof. unfold unit_of. destruct (N.eqb_spec c at_ch); auto. Qed.

Definition word_end (e : list str) : Prop := e = [] \/ e = [at_str].

Lemma units_unique w1 e1 w2 e2 :
  word_end e1 -> word_end e2 ->
  List.concat (map unit_of w1 ++ e1) = List.concat (map unit_of w2 ++ e2) -> w1 = w2 /\ e1 = e2.
Proof.
  intros H1 H2. revert w2. induction w1 as [|c w1 IH]; intros [|d w2] E.
  - split; [reflexivity|]. destruct H1 as [->| ->], H2 as [->| ->]; auto; discriminate.
  - exfalso. cbn [map app List.concat] in E.
    destruct (unit_of_cases d) as [[-> Ed]|[Hd Ed]]; rewrite Ed in E; destruct H1 as [->| ->]; try discriminate.
    injection E as E _. congruence.
  - exfalso. cbn [map app List.concat] in E.
    destruct (unit_of_cases c) as [[-> Ec]|[Hc Ec]]; rewrite Ec in E; destruct H2 as [->| ->]; try discriminate.
    injection E as E _. congruence.
  - cbn [map app List.concat] in E.
    destruct (unit_of_cases c) as [[-> Ec]|[Hc Ec]], (unit_of_cases d) as [[-> Ed]|[Hd Ed]]; rewrite ?Ec, ?Ed in E;
      cbn [app] in E.
    + injection E as E. destruct (IH _ E) as [-> ->]. auto.
    + injection E as E _. congruence.
    + injection E as E _. congruence.
    + injection E as -> E. destruct (IH _ E) as [-> ->]. auto.
Qed.

Lemma span_units x w u v : map unit_of w ++ [at_str] = u ++ x ++ v ->
  exists w' e, x = map unit_of w' ++ e /\ word_end e.
Proof.
  intros E.
  destruct v as [|y v _] using rev_ind.
  - rewrite app_nil_r in E. destruct x as [|y x _] using rev_ind.
    + exists [], []. split; [reflexivity|left; reflexivity].
    + rewrite app_assoc in E. apply app_inj_tail in E as [E <-].
      apply map_eq_app in E as (w1 & w2 & -> & _ & <-). exists w2, [at_str]. split; [reflexivity|right; reflexivity].
  - rewrite !app_assoc in E. apply app_inj_tail in E as [E _]. rewrite <- app_assoc in E.
    apply map_eq_app in E as (w1 & w2 & -> & _ & E).
    apply map_eq_app in E as (w3 & w4 & -> & <- & _). exists w3, []. rewrite app_nil_r. split; [reflexivity|left; reflexivity].
Qed.

Definition units_vocab (base : dict str Z) : split_vocab :=
  map (fun kv => (map unit_of (fst kv) ++ [at_str], snd kv)) base.

Lemma scratch_units base : base_ok base -> scratch_vocab base = units_vocab base.
Proof.
  intros [Hn Hf]. unfold scratch_vocab.
  assert (G : forall b d, NoDup (map fst (d ++ b)) -> Forall (fun kv => fst kv <> [] /\ no_char 32 (fst kv) /\ (0 < snd kv)%Z) b ->
     fold_left (fun d0 kv => dset d0 (initial_split (fst kv)) (snd kv)) b (units_vocab d) = units_vocab (d ++ b)).
  { clear. induction b as [|[k f] b IH]; intros d Hn Hf; [rewrite app_nil_r; reflexivity|].
    inversion Hf as [|? ? (Hk & Hs & _) Hf']; subst. cbn [fst] in Hk, Hs. cbn [fold_left fst snd].
    rewrite (initial_split_units k Hk Hs). rewrite dset_fresh.
    - change (units_vocab d ++ [(map unit_of k ++ [at_str], f)]) with (units_vocab d ++ units_vocab [(k, f)]).
      unfold units_vocab at 1 2. rewrite <- map_app. fold (units_vocab (d ++ [(k, f)])).
      rewrite IH; [rewrite <- app_assoc; reflexivity| |exact Hf']. rewrite <- app_assoc. exact Hn.
    - apply dget_none. unfold dkeys, units_vocab. rewrite map_map. simpl. intros Hin. apply in_map_iff in Hin as ([k' f'] & E & Hin).
      simpl in E. apply (f_equal (@List.concat N)) in E.
      apply units_unique in E as [-> _]; [|right; reflexivity..].
      rewrite map_app in Hn. cbn [map fst] in Hn. apply NoDup_remove_2 in Hn. apply Hn, in_or_app. left.
      apply (in_map fst) in Hin. exact Hin. }
  exact (G base [] Hn Hf).
Qed.

Lemma scratch_learnable base : base_ok base -> learnable (scratch_vocab base) (scratch_vocab base) [].
Proof.
  intros Hb. rewrite (scratch_units base Hb). destruct Hb as [Hn Hf]. split; [|split; [|split]].
  - constructor.
    + unfold units_vocab. rewrite Forall_map. apply Forall_forall. intros [k f] _. cbn [fst].
      apply Forall_app. split; [|constructor; [discriminate|constructor]]. rewrite Forall_map. apply Forall_forall.
      intros c _. destruct (unit_of_cases c) as [[_ ->]|[_ ->]]; discriminate.
    + unfold units_vocab. rewrite Forall_map. eapply Forall_impl; [|exact Hf]. intros [k f] (_ & _ & H). exact H.
    + unfold units_vocab. rewrite map_map. cbn [fst].
      rewrite <- (map_map fst (fun k => List.concat (map unit_of k ++ [at_str]))).
      apply FinFun.Injective_map_NoDup; [|exact Hn]. intros a b E.
      apply units_unique in E as [-> _]; [reflexivity|right; reflexivity..].
  - intros x y (u & v & Hx) (u' & v' & Hy) E. unfold units_vocab in Hx, Hy. rewrite map_map in Hx, Hy.
    apply in_map_iff in Hx as ([k f] & Ex & _). apply in_map_iff in Hy as ([k' f'] & Ey & _). cbn [fst] in Ex, Ey.
    apply span_units in Ex as (w & e & -> & He). apply span_units in Ey as (w' & e' & -> & He').
    apply units_unique in E as [-> ->]; auto.
  - intros a p b E. destruct a; discriminate.
  - symmetry. apply vapply_nil.
Qed.

(** ** C27, C28, C29 *)
Definition recorded (ml : merge_list) : list (pair * option Z) :=
  map (fun m => (m_pair m, m_freq m)) (ml_iter ml).

Lemma recorded_from l : recorded (ml_from 0 (map some_freq l)) = map some_freq l.
Proof. apply ml_from_iter_pairs. Qed.

(** A corpus that may already have been merged: what [do_merges] is given in [run], from scratch
    ([l0] empty) or after loading an earlier result.  Every vocabulary here was made by textbook
    learning from a corpus. *)
Definition corpus_state (base : dict str Z) (l0 : list (pair * Z)) (v : split_vocab) : Prop :=
  base_ok base /\ greedy (map (fun kv => (initial_split (fst kv), snd kv)) base) l0 v.

Lemma greedy_learnable v0 ps v l v' :
  learnable v v0 ps -> greedy v l v' -> learnable v' v0 (ps ++ map fst l).
Proof.
  intros L G. revert ps L. induction G as [v|v p n l v' M G IH]; intros ps L.
  - rewrite app_nil_r. exact L.
  - destruct M as (M1 & M2 & _). rewrite M1, corpus_count_vcount in M2.
    apply (vcount_adjacent v p (wf_pos _ (learnable_wf _ _ _ L))) in M2.
    pose proof (learnable_step _ _ _ _ L M2) as L'. specialize (IH _ L'). rewrite <- app_assoc in IH. exact IH.
Qed.

Lemma initial_vocab base : base_ok base ->
  map (fun kv => (initial_split (fst kv), snd kv)) base = scratch_vocab base.
Proof.
  intros Hb. rewrite (scratch_units base Hb). destruct Hb as [_ Hf]. unfold units_vocab.
  apply map_ext_in. intros [k f] Hin. rewrite Forall_forall in Hf. destruct (Hf _ Hin) as (H1 & H2 & _).
  cbn [fst snd]. rewrite (initial_split_units k H1 H2). reflexivity.
Qed.

Lemma corpus_state_learnable base l0 v :
  corpus_state base l0 v -> learnable v (scratch_vocab base) (map fst l0).
Proof.
  intros [Hb G]. rewrite (initial_vocab base Hb) in G.
  exact (greedy_learnable _ [] _ _ _ (scratch_learnable base Hb) G).
Qed.

Lemma greedy_app v a v1 b v2 : greedy v a v1 -> greedy v1 b v2 -> greedy v (a ++ b) v2.
Proof. induction 1; [auto|]. intros. simpl. constructor; auto. Qed.

(** Learning always succeeds.  The merges recorded are a run of textbook learning: each is a most
    frequent pair when its turn comes, with its exact number of occurrences, and is merged from left
    to right in every word. *)
Theorem C28_greedy base l0 v n :
  corpus_state base l0 v ->
  exists v' ml l, do_merges v n = Ok (v', ml)
    /\ recorded ml = map (fun pn => (fst pn, Some (snd pn))) l
    /\ greedy v l v' /\ corpus_state base (l0 ++ l) v'.
Proof.
  intros C. pose proof (corpus_state_learnable _ _ _ C) as L.
  destruct (do_merges_spec n _ _ v L) as (l & v' & E & _ & _ & G & _).
  exists v', (ml_from 0 (map some_freq l)), l. split; [exact E|]. split; [apply recorded_from|]. split; [exact G|].
  destruct C as [Hb G0]. split; [exact Hb|]. eapply greedy_app; eassumption.
Qed.
Print Assumptions C28_greedy.

(** No word of the corpus is lost, respelled, counted differently or moved. *)
Theorem C27_corpus base l0 v n v' ml :
  corpus_state base l0 v -> do_merges v n = Ok (v', ml) ->
  map (fun wf => (List.concat (fst wf), snd wf)) v' = map (fun kv => (escape (fst kv) true, snd kv)) base.
Proof.
  intros C E. pose proof (corpus_state_learnable _ _ _ C) as L.
  destruct (do_merges_spec n _ _ v L) as (l & v2 & E2 & _ & (_ & _ & _ & Ev) & _).
  rewrite E in E2. injection E2 as <- _. rewrite Ev. destruct C as [Hb _]. rewrite (scratch_units base Hb).
  unfold vapply, units_vocab. rewrite !map_map. cbn [fst snd]. apply map_ext. intros [k f]. cbn [fst snd].
  rewrite apply_merges_concat, escape_merged. reflexivity.
Qed.
Print Assumptions C27_corpus.

(** At most [n] merges are learned, all different and different from those learned before; they are
    numbered from 0; and there are fewer than [n] only if every word has become one symbol. *)
Theorem C29_distinct base l0 v n v' ml :
  corpus_state base l0 v -> do_merges v n = Ok (v', ml) ->
  NoDup (map fst l0 ++ map m_pair (ml_iter ml))
  /\ map m_priority (ml_iter ml) = seq 0 (length (ml_iter ml))
  /\ length (ml_iter ml) <= n
  /\ (length (ml_iter ml) < n -> Forall (fun wf => length (fst wf) = 1) v').
Proof.
  intros C E. pose proof (corpus_state_learnable _ _ _ C) as L.
  destruct (do_merges_spec n _ _ v L) as (l & v2 & E2 & _ & L' & _ & Hl & Hs).
  rewrite E in E2. injection E2 as <- ->.
  assert (Lm : length (ml_iter (ml_from 0 (map some_freq l))) = length l).
  { unfold ml_iter, dvals. rewrite map_length, ml_from_length, map_length. reflexivity. }
  assert (Ep : map m_pair (ml_iter (ml_from 0 (map some_freq l))) = map fst l).
  { pose proof (recorded_from l) as R. apply (f_equal (map fst)) in R. unfold recorded in R. rewrite !map_map in R.
    cbn [fst] in R. exact R. }
  rewrite Ep, Lm. split; [exact (learnable_nodup _ _ _ L')|]. split; [|split; [exact Hl|]].
  - rewrite ml_from_priorities, map_length. reflexivity.
  - intros Hlt. specialize (Hs Hlt). pose proof (learnable_wf _ _ _ L') as Hw. apply Forall_forall. intros [w f] Hin.
    cbn [fst]. destruct w as [|a [|b w]]; [exfalso|reflexivity|exfalso].
    + destruct L' as (Hw0 & _ & _ & Ev). rewrite Ev in Hin. unfold vapply in Hin. apply in_map_iff in Hin as ([w0 f0] & Eq & Hin).
      injection Eq as Eq _. apply (f_equal (@List.concat N)) in Eq. rewrite apply_merges_concat in Eq.
      rewrite (scratch_units base (proj1 C)) in Hin. unfold units_vocab in Hin.
      apply in_map_iff in Hin as ([k fk] & Ek & _). injection Ek as <- _. rewrite concat_app in Eq.
      destruct (List.concat (map unit_of k)); discriminate.
    + destruct (vcount_adjacent v' (a, b) (wf_pos _ Hw)) as [_ Hi]. rewrite Hs in Hi.
      assert (0 < 0)%Z; [|lia]. apply Hi. exists (a :: b :: w, f). split; [exact Hin|]. exists [], w. reflexivity.
Qed.
Print Assumptions C29_distinct.

Theorem C29_from_scratch base n : base_ok base ->
  corpus_state base [] (scratch_vocab base)
  /\ exists v' ml, do_merges (scratch_vocab base) n = Ok (v', ml).
Proof.
  intros Hb. assert (C : corpus_state base [] (scratch_vocab base)).
  { split; [exact Hb|]. rewrite (initial_vocab base Hb). constructor. }
  split; [exact C|]. destruct (C28_greedy _ _ _ n C) as (v' & ml & _ & E & _). eauto.
Qed.
Print Assumptions C29_from_scratch.

(** For words that were not split by one rule the same pair can come back, and the third merge fails. *)
Theorem C29_mixed_splits_refuted :
  do_merges [([lit "ab"; lit "c"; lit "x"], 5%Z); ([lit "a"; lit "b"; lit "c"], 3%Z); ([lit "d"; lit "e"], 1%Z)] 5
  = Err ValueError.
Proof. vm_compute. reflexivity. Qed.
Print Assumptions C29_mixed_splits_refuted.

(** ... and words with equal spelling but different splits overwrite each other *)
Theorem C27_same_spelling_refuted :
  exists ml, do_merges [([lit "a"; lit "b"], 3%Z); ([lit "ab"], 2%Z)] 1 = Ok ([([lit "ab"], 2%Z)], ml).
Proof. eexists. vm_compute. reflexivity. Qed.
Print Assumptions C27_same_spelling_refuted.

(** ** C30 *)

(** Encoding a corpus word with the learned merges gives exactly the split that learning ended with. *)
Theorem C30_encode base n v' ml :
  base_ok base -> do_merges (scratch_vocab base) n = Ok (v', ml) ->
  forall i k f, nth_error base i = Some (k, f) ->
  exists s ws, nth_error v' i = Some (s, f)
    /\ encode_word ml (escape k true) = Ok s
    /\ unescape s = Ok ws
    /\ get_bpe_subwords {| bd_merges := ml; bd_cache := [] |} k = Ok ws.
Proof.
  intros Hb E i k f Hi. pose proof (scratch_learnable base Hb) as L.
  destruct (do_merges_spec n _ _ _ L) as (l & v2 & E2 & Ev & L' & _).
  rewrite E in E2. injection E2 as <- Em. pose proof (learnable_nodup _ _ _ L') as Hnd. cbn [app] in Hnd.
  assert (Hb2 := Hb). destruct Hb2 as [_ Hf]. rewrite Forall_forall in Hf.
  destruct (Hf _ (nth_error_In _ _ Hi)) as (_ & Hs & _). cbn [fst] in Hs.
  assert (Hnd' : NoDup (map fst (map some_freq l))) by (rewrite map_map; exact Hnd).
  destruct (encode_word_spec (map some_freq l) k Hnd' Hs) as (r & Er & Rr).
  destruct (get_bpe_subwords_spec {| bd_merges := ml; bd_cache := [] |} (map some_freq l) k Em Hnd' Hs eq_refl)
    as (r2 & ws & Rr2 & U & S & _).
  pose proof (bpe_result_det _ _ _ _ Rr Rr2) as <-.
  exists r, ws. rewrite Em. split; [|rewrite <- Em; rewrite Em at 1; auto].
  assert (Hw : In (map unit_of k ++ [at_str]) (map fst (scratch_vocab base))).
  { rewrite (scratch_units base Hb). unfold units_vocab. rewrite map_map. cbn [fst].
    apply nth_error_In in Hi.
    apply (in_map (fun kv : str * Z => map unit_of (fst kv) ++ [at_str])) in Hi. exact Hi. }
  destruct L' as (Hw0 & Hu & Ho & _). cbn [app] in Ho.
  pose proof (learned_is_encoded _ _ Hu (proper_words _ Hw0) Ho _ Hw) as Rl.
  rewrite map_map in Rr. cbn [fst some_freq] in Rr.
  pose proof (bpe_result_det _ _ _ _ Rr Rl) as ->.
  assert (Hi2 : nth_error (units_vocab base) i = Some (map unit_of k ++ [at_str], f))
    by (exact (map_nth_error (fun kv => (map unit_of (fst kv) ++ [at_str], snd kv)) i base Hi)).
  rewrite Ev, (scratch_units base Hb).
  exact (map_nth_error (fun wf => (apply_merges (map fst l) (fst wf), snd wf)) i (units_vocab base) Hi2).
Qed.
Print Assumptions C30_encode.

(** ** C31 *)

(** Learning more merges keeps the ones that fewer merges would have learned, with the same
    frequencies and numbers, as the first ones. *)
Theorem C31_prefix base l0 v n m v1 ml1 v2 ml2 :
  corpus_state base l0 v ->
  do_merges v n = Ok (v1, ml1) -> do_merges v (n + m) = Ok (v2, ml2) ->
  exists rest, ml_iter ml2 = ml_iter ml1 ++ rest.
Proof.
  intros C E1 E2. pose proof (corpus_state_learnable _ _ _ C) as L.
  destruct (loop_prefix n m _ _ _ _ _ (learnable_loop_inv _ _ _ L)) as (l1 & l2 & v1' & v2' & F1 & F2).
  unfold do_merges in E1, E2. cbn [length] in F1, F2. change (ml_of []) with ml_empty in F1, F2.
  rewrite F1 in E1. rewrite F2 in E2.
  injection E1 as _ <-. injection E2 as _ <-. unfold ml_of. cbn [app]. rewrite map_app, ml_from_app.
  unfold ml_iter, dvals. rewrite map_app. eexists. reflexivity.
Qed.
Print Assumptions C31_prefix.

(** no other pair is as frequent as the one merged, at any step *)
Fixpoint no_ties (v : split_vocab) (l : list (pair * option Z)) : Prop :=
  match l with
  | [] => True
  | (p, _) :: t =>
      (forall q, q <> p -> (corpus_count v q < corpus_count v p)%Z)
      /\ no_ties (map (fun wf => (merge_pair p (fst wf), snd wf)) v) t
  end.

Lemma greedy_strict v a v1 b v2 :
  greedy v a v1 -> greedy v b v2 -> no_ties v (map some_freq a) -> length b <= length a ->
  exists c, a = b ++ c /\ greedy v2 c v1.
Proof.
  intros Ga Gb. revert a v1 Ga. induction Gb as [v|v p n l v' M G IH]; intros a v1 Ga Hn Hl.
  - exists a. auto.
  - destruct Ga as [|v p' n' l' v1 M' Ga]; [simpl in Hl; lia|].
    cbn [map some_freq no_ties fst] in Hn. destruct Hn as [Hs Hn].
    assert (p = p').
    { destruct (Eqb_dec p p') as [|Hp]; [assumption|]. exfalso. specialize (Hs p Hp).
      destruct M as (-> & _ & M). specialize (M p'). lia. }
    subst p'. assert (n' = n) by (destruct M, M'; congruence). subst n'.
    destruct (IH _ _ Ga Hn ltac:(simpl in Hl; lia)) as (c & -> & Gc). exists c. auto.
Qed.

Lemma greedy_positive v p n l v' : greedy v ((p, n) :: l) v' -> vcount v p <> 0%Z.
Proof. intros G. inversion G as [|? ? ? ? ? (M1 & M2 & _) _]; subst. rewrite <- corpus_count_vcount. lia. Qed.

Lemma greedy_prefix v a b v' : greedy v (a ++ b) v' -> exists v1, greedy v a v1 /\ greedy v1 b v'.
Proof.
  revert v. induction a as [|[p n] a IH]; intros v G; [exists v; split; [constructor|exact G]|].
  simpl in G. inversion G as [|? ? ? ? ? M G']; subst. destruct (IH _ G') as (v1 & A & B).
  exists v1. split; [constructor; assumption|exact B].
Qed.

Lemma greedy_det v a v1 v2 : greedy v a v1 -> greedy v a v2 -> v1 = v2.
Proof.
  intros G. revert v2. induction G as [v|v p n l v' M G IH]; intros v2 G2; inversion G2; subst; auto.
Qed.

Lemma greedy_det_vapply v a v1 : greedy v a v1 -> v1 = vapply (map fst a) v.
Proof.
  induction 1 as [v|v p n l v' M G IH]; [symmetry; apply vapply_nil|].
  cbn [map fst]. rewrite vapply_cons. exact IH.
Qed.

Lemma no_ties_app v a b v1 : greedy v a v1 -> no_ties v (map some_freq (a ++ b)) -> no_ties v1 (map some_freq b).
Proof.
  induction 1 as [v|v p n l v' M G IH]; [auto|]. cbn [app map some_freq no_ties fst]. intros [_ H]. auto.
Qed.

(** As long as there are no ties, learning n merges, storing, and resuming for m more gives the same
    vocabulary and the same merges as learning n + m at once. *)
Theorem C31_resume base l0 v n m v1 ml1 v2 ml2 v3 ml3 :
  corpus_state base l0 v ->
  do_merges v n = Ok (v1, ml1) ->
  do_merges v1 (n + m - length ml1) = Ok (v2, ml2) ->
  do_merges v (n + m) = Ok (v3, ml3) ->
  no_ties v (recorded ml3) ->
  v2 = v3 /\ ml_add ml1 ml2 = Ok ml3.
Proof.
  intros C E1 E2 E3 Ht. pose proof (corpus_state_learnable _ _ _ C) as L.
  destruct (do_merges_spec n _ _ v L) as (l1 & v1' & F1 & _ & L1 & G1 & B1 & S1).
  rewrite F1 in E1. injection E1 as -> <-.
  rewrite ml_from_length, map_length in E2.
  destruct (do_merges_spec (n + m - length l1) _ _ v1 L1) as (l2 & v2' & F2 & _ & L2 & G2 & B2 & S2).
  rewrite F2 in E2. injection E2 as -> <-.
  destruct (do_merges_spec (n + m) _ _ v L) as (l3 & v3' & F3 & _ & L3 & G3 & B3 & S3).
  rewrite F3 in E3. injection E3 as -> <-.
  rewrite recorded_from in Ht.
  pose proof (greedy_app _ _ _ _ _ G1 G2) as G12.
  assert (El : l3 = l1 ++ l2).
  { assert (Hl : length (l1 ++ l2) <= length l3).
    { destruct (Nat.le_gt_cases (length (l1 ++ l2)) (length l3)) as [|Hgt]; [assumption|exfalso].
      rewrite app_length in Hgt.
      specialize (S3 ltac:(lia)).
      assert (Ep : firstn (length l3) (l1 ++ l2) ++ skipn (length l3) (l1 ++ l2) = l1 ++ l2) by apply firstn_skipn.
      rewrite <- Ep in G12. destruct (greedy_prefix _ _ _ _ G12) as (vx & Ga & Gb).
      assert (Lf : length (firstn (length l3) (l1 ++ l2)) = length l3) by (rewrite firstn_length, app_length; lia).
      destruct (greedy_strict _ _ _ _ _ G3 Ga Ht) as (c & Ec & Gc); [lia|].
      assert (c = []) by (apply (f_equal (@length _)) in Ec; rewrite app_length in Ec; destruct c; [reflexivity|simpl in Ec; lia]).
      subst c. inversion Gc; subst.
      destruct (skipn (length l3) (l1 ++ l2)) as [|[p c] t] eqn:Es.
      - apply (f_equal (@length _)) in Es. rewrite skipn_length, app_length in Es. simpl in Es. lia.
      - apply greedy_positive in Gb. rewrite S3 in Gb. congruence. }
    destruct (greedy_strict _ _ _ _ _ G3 G12 Ht Hl) as (c & Ec & Gc).
    destruct c as [|[p k] c]; [rewrite app_nil_r in Ec; exact Ec|exfalso].
    apply (f_equal (@length _)) in Ec. rewrite !app_length in Ec. simpl in Ec.
    apply greedy_positive in Gc. rewrite S2 in Gc by lia. congruence. }
  subst l3. split; [eapply greedy_det; eassumption|].
  unfold ml_add. rewrite ml_from_length.
  pose proof (ml_add_loop_ml_from (map some_freq l1) (map some_freq l2) (length (map some_freq l1))) as A.
  rewrite Nat.sub_diag in A. rewrite A, <- map_app; [reflexivity|..].
  - rewrite !map_map. apply learnable_nodup in L3. apply NoDup_app_remove_l in L3. rewrite map_app in L3. exact L3.
  - lia.
  - lia.
Qed.
Print Assumptions C31_resume.

(** With ties the resumed run can learn other merges than the run from scratch. *)
Definition tie_base : dict str Z := [(lit "abc", 2%Z); (lit "de", 2%Z); (lit "ab", 10%Z)].
Theorem C31_resume_refuted :
  base_ok tie_base /\
  exists v1 ml1 v2 ml2 v3 ml3,
    do_merges (scratch_vocab tie_base) 3 = Ok (v1, ml1)
    /\ do_merges v1 1 = Ok (v2, ml2)
    /\ do_merges (scratch_vocab tie_base) 4 = Ok (v3, ml3)
    /\ map m_pair (ml_iter ml2) = [(lit "ab", lit "c@")]
    /\ map m_pair (skipn 3 (ml_iter ml3)) = [(lit "d", lit "e")]
    /\ v2 <> v3.
Proof.
  split.
  - split; [repeat constructor; simpl; intuition discriminate|].
    repeat constructor; simpl; try discriminate; unfold no_char; simpl; intuition discriminate.
  - do 6 eexists. vm_compute. repeat split; try reflexivity. discriminate.
Qed.
Print Assumptions C31_resume_refuted.

(** the hypotheses are met by this corpus *)
Definition word_base : dict str Z := [(lit "bird", 3%Z); (lit "word", 7%Z); (lit "wog", 15%Z); (lit "a@b", 1%Z)].
Example word_base_ok : base_ok word_base.
Proof.
  split; [repeat constructor; simpl; intuition discriminate|].
  repeat constructor; simpl; try discriminate; unfold no_char; simpl; intuition discriminate.
Qed.
Example word_base_learned :
  exists v ml, do_merges (scratch_vocab word_base) 2 = Ok (v, ml)
    /\ recorded ml = [((lit "w", lit "o"), Some 22%Z); ((lit "g", lit "@"), Some 15%Z)]
    /\ v = [([lit "b"; lit "i"; lit "r"; lit "d"; lit "@"], 3%Z); ([lit "wo"; lit "r"; lit "d"; lit "@"], 7%Z);
            ([lit "wo"; lit "g@"], 15%Z); ([lit "a"; lit "@@"; lit "b"; lit "@"], 1%Z)].
Proof. do 2 eexists. vm_compute. repeat split; reflexivity. Qed.

(** the theorems above, used on this corpus *)
Example C27_example :
  corpus_state word_base [] (scratch_vocab word_base) /\
  (exists v ml, do_merges (scratch_vocab word_base) 9 = Ok (v, ml)
    /\ map (fun wf => (List.concat (fst wf), snd wf)) v = map (fun kv => (escape (fst kv) true, snd kv)) word_base
    /\ length (ml_iter ml) = 9 /\ NoDup (map m_pair (ml_iter ml))).
Proof.
  destruct (C29_from_scratch word_base 9 word_base_ok) as (C & v & ml & E). split; [exact C|].
  exists v, ml. split; [exact E|]. split; [exact (C27_corpus _ _ _ _ _ _ C E)|].
  destruct (C29_distinct _ _ _ _ _ _ C E) as (D & _). split; [|exact D].
  clear D C. vm_compute in E. injection E as _ <-. reflexivity.
Qed.
Example C28_example :
  exists v ml l, do_merges (scratch_vocab word_base) 3 = Ok (v, ml) /\ greedy (scratch_vocab word_base) l v
    /\ recorded ml = map (fun pn => (fst pn, Some (snd pn))) l /\ length l = 3.
Proof.
  destruct (C28_greedy word_base [] _ 3 (proj1 (C29_from_scratch word_base 3 word_base_ok))) as (v & ml & l & E & R & G & _).
  exists v, ml, l. split; [exact E|]. split; [exact G|]. split; [exact R|].
  apply (f_equal (@length _)) in R. rewrite map_length in R. rewrite <- R. clear G R.
  vm_compute in E. injection E as _ <-. reflexivity.
Qed.
Example C29_example : (* every word becomes one symbol after eleven merges *)
  exists v ml, do_merges (scratch_vocab word_base) 50 = Ok (v, ml) /\ Forall (fun wf => length (fst wf) = 1) v.
Proof.
  destruct (C29_from_scratch word_base 50 word_base_ok) as (C & v & ml & E). exists v, ml. split; [exact E|].
  apply (C29_distinct _ _ _ _ _ _ C E). clear C. vm_compute in E. injection E as _ <-. vm_compute. lia.
Qed.
Example C30_example :
  exists v ml s, do_merges (scratch_vocab word_base) 2 = Ok (v, ml) /\ nth_error v 2 = Some (s, 15%Z)
    /\ encode_word ml (escape (lit "wog") true) = Ok s
    /\ get_bpe_subwords {| bd_merges := ml; bd_cache := [] |} (lit "wog") = Ok [lit "wo"; lit "g"].
Proof.
  destruct (C29_from_scratch word_base 2 word_base_ok) as (_ & v & ml & E).
  destruct (C30_encode _ _ _ _ word_base_ok E 2 (lit "wog") 15%Z eq_refl) as (s & ws & H1 & H2 & H3 & H4).
  exists v, ml, s. split; [exact E|]. split; [exact H1|]. split; [exact H2|]. rewrite H4. clear H2 H4.
  vm_compute in E. injection E as <- _. cbn in H1. injection H1 as <-. vm_compute in H3. injection H3 as <-. reflexivity.
Qed.

(** a way to see from the pairs that do occur that there is no tie *)
Lemma strictly_most v p :
  (0 < corpus_count v p)%Z ->
  forallb (fun q => eqb q p || (corpus_count v q <? corpus_count v p)%Z)
    (List.concat (map (fun wf => combine (fst wf) (tl (fst wf))) v)) = true ->
  forall q, q <> p -> (corpus_count v q < corpus_count v p)%Z.
Proof.
  intros P H q N. rewrite forallb_forall in H.
  assert (D : forall a b : pair, {a = b} + {a <> b}) by (repeat decide equality).
  destruct (in_dec D q (List.concat (map (fun wf => combine (fst wf) (tl (fst wf))) v))) as [I|I].
  - specialize (H _ I). apply orb_true_iff in H as [H|H]; [|apply Z.ltb_lt, H]. apply (proj1 (eqb_eq _ _)) in H. contradiction.
  - assert (Z0 : corpus_count v q = 0%Z); [|lia]. clear -I. unfold corpus_count. induction v as [|[w f] v IH]; [reflexivity|].
    cbn [map List.concat fst] in I. cbn [fold_right fst snd]. rewrite IH by (intros X; apply I, in_or_app; right; exact X).
    replace (filter (eqb q) (combine w (tl w))) with (@nil pair); [cbn [length]; lia|].
    symmetry. destruct (filter (eqb q) (combine w (tl w))) as [|x l] eqn:F; [reflexivity|]. exfalso. apply I, in_or_app. left.
    assert (X : In x (filter (eqb q) (combine w (tl w)))) by (rewrite F; left; reflexivity).
    apply filter_In in X as [X1 X2]. apply (proj1 (eqb_eq _ _)) in X2. rewrite X2. exact X1.
Qed.
Definition free_base : dict str Z := [(lit "aab", 4%Z); (lit "c", 9%Z); (lit "abc", 2%Z)].
Example free_base_ok : base_ok free_base.
Proof.
  split; [repeat constructor; simpl; intuition discriminate|].
  repeat constructor; simpl; try discriminate; unfold no_char; simpl; intuition discriminate.
Qed.
Example C31_example :
  exists v1 ml1 v2 ml2 v3 ml3,
    do_merges (scratch_vocab free_base) 1 = Ok (v1, ml1) /\ do_merges v1 1 = Ok (v2, ml2)
    /\ do_merges (scratch_vocab free_base) 2 = Ok (v3, ml3)
    /\ no_ties (scratch_vocab free_base) (recorded ml3)
    /\ v2 = v3 /\ ml_add ml1 ml2 = Ok ml3.
Proof.
  destruct (C29_from_scratch free_base 1 free_base_ok) as (C & v1 & ml1 & E1).
  assert (E2 : exists v2 ml2, do_merges v1 (1 + 1 - length ml1) = Ok (v2, ml2)).
  { clear C. vm_compute in E1. injection E1 as <- <-. vm_compute. eauto. }
  destruct E2 as (v2 & ml2 & E2).
  destruct (C29_from_scratch free_base (1 + 1) free_base_ok) as (_ & v3 & ml3 & E3).
  assert (T : no_ties (scratch_vocab free_base) (recorded ml3)).
  { clear -E3. vm_compute in E3. injection E3 as _ <-.
    split; [apply strictly_most; vm_compute; reflexivity|]. split; [apply strictly_most; vm_compute; reflexivity|exact I]. }
  destruct (C31_resume _ _ _ 1 1 _ _ _ _ _ _ C E1 E2 E3 T) as [R1 R2].
  exists v1, ml1, v2, ml2, v3, ml3. repeat split; try assumption.
  clear -E1 E2. vm_compute in E1. injection E1 as <- <-. exact E2.
Qed.

(** ** C32 *)
Fixpoint occurrences (x : str) (w : list str) : Z :=
  match w with [] => 0 | y :: t => (if eqb x y then 1 else 0) + occurrences x t end.

(** The resulting vocabulary has an entry exactly for the subwords that occur in the split words,
    with the total of the frequencies of the words, once for every occurrence in the word. *)
Theorem C32_resulting_vocab v x :
  dget (create_resulting_vocab v) x =
  if existsb (fun wf => mem x (fst wf)) v
  then Some (fold_right (fun wf n => (snd wf * occurrences x (fst wf) + n)%Z) 0%Z v)
  else None.
Proof.
  unfold create_resulting_vocab.
  assert (W : forall w f d, dget (fold_left (fun d s => dincr d s f) w d) x
              = if mem x w then Some (dz d x + f * occurrences x w)%Z else dget d x).
  { induction w as [|y w IH]; intros f d; [reflexivity|]. cbn [fold_left]. rewrite IH. unfold dz at 1.
    rewrite dget_dincr. cbn [mem existsb occurrences]. unfold mem. destruct (eqb_spec x y) as [->|Hx]; cbn [orb].
    - fold (dz d y). destruct (existsb (eqb y) w) eqn:Em; [f_equal; lia|].
      assert (occurrences y w = 0%Z) as ->; [|f_equal; lia].
      clear -Em. induction w as [|z w IH]; [reflexivity|]. cbn [existsb] in Em. apply orb_false_iff in Em as [E1 E2].
      cbn [occurrences]. rewrite E1, (IH E2). reflexivity.
    - destruct (existsb (eqb x) w); [|reflexivity]. unfold dz. f_equal; lia. }
  assert (G : forall v d, dget (fold_left (fun d wf => fold_left (fun d s => dincr d s (snd wf)) (fst wf) d) v d) x
              = if existsb (fun wf => mem x (fst wf)) v
                then Some (dz d x + fold_right (fun wf n => (snd wf * occurrences x (fst wf) + n)%Z) 0%Z v)%Z
                else dget d x).
  { clear v. induction v as [|[w f] v IH]; intros d; [reflexivity|]. cbn [fold_left existsb fold_right fst snd].
    rewrite IH. unfold dz at 1. rewrite W.
    assert (Oc : mem x w = false -> occurrences x w = 0%Z).
    { clear. induction w as [|z w IH]; [reflexivity|]. unfold mem. cbn [existsb occurrences]. intros Em.
      apply orb_false_iff in Em as [E1 E2]. rewrite E1. rewrite (IH E2). reflexivity. }
    assert (Ov : existsb (fun wf => mem x (fst wf)) v = false ->
                 fold_right (fun wf n => (snd wf * occurrences x (fst wf) + n)%Z) 0%Z v = 0%Z).
    { clear. induction v as [|[w f] v IH]; [reflexivity|]. cbn [existsb fold_right fst snd]. intros Em.
      apply orb_false_iff in Em as [E1 E2]. rewrite (IH E2).
      assert (occurrences x w = 0%Z) as ->; [|lia].
      revert E1. clear. induction w as [|z w IH]; [reflexivity|]. unfold mem. cbn [existsb occurrences]. intros Em.
      apply orb_false_iff in Em as [E1 E2]. rewrite E1. rewrite (IH E2). reflexivity. }
    destruct (mem x w); cbn [orb].
    - destruct (existsb _ v); f_equal; [lia|]. rewrite Ov by reflexivity. lia.
    - rewrite Oc by reflexivity. destruct (existsb _ v); [|reflexivity]. unfold dz. f_equal; lia. }
  rewrite G. reflexivity.
Qed.
Print Assumptions C32_resulting_vocab.

(** The cache written next to the merges holds, for every corpus word, the split learning ended
    with, under the escaped word; it holds nothing else. *)
Theorem C32_cache base n v' ml :
  base_ok base -> do_merges (scratch_vocab base) n = Ok (v', ml) ->
  (forall i k f, nth_error base i = Some (k, f) ->
     exists s, nth_error v' i = Some (s, f) /\ dget (create_bpe_cache v') (escape k true) = Some s)
  /\ dkeys (create_bpe_cache v') = map (fun kv => escape (fst kv) true) base.
Proof.
  intros Hb E.
  pose proof (C27_corpus base [] _ n v' ml (proj1 (C29_from_scratch base n Hb)) E) as Sp.
  assert (Nd : NoDup (map (fun wf => List.concat (fst wf)) v')).
  { pose proof (scratch_learnable base Hb) as L.
    destruct (do_merges_spec n _ _ _ L) as (l & v2 & E2 & _ & L' & _). rewrite E in E2. injection E2 as <- _.
    apply (learnable_wf _ _ _ L'). }
  assert (Ca : create_bpe_cache v' = map (fun wf => (List.concat (fst wf), fst wf)) v').
  { unfold create_bpe_cache.
    assert (G : forall b (d : dict str (list str)), NoDup (dkeys d ++ map (fun wf : list str * Z => List.concat (fst wf)) b) ->
       fold_left (fun d0 wf => dset d0 (List.concat (fst wf)) (fst wf)) b d
       = d ++ map (fun wf => (List.concat (fst wf), fst wf)) b).
    { clear. induction b as [|[w f] b IH]; intros d Hn; [rewrite app_nil_r; reflexivity|]. cbn [fold_left map fst].
      cbn [map fst] in Hn. rewrite dset_fresh.
      - rewrite IH; [rewrite <- app_assoc; reflexivity|]. unfold dkeys. rewrite map_app, <- app_assoc. exact Hn.
      - apply dget_none. intros Hin. apply NoDup_remove_2 in Hn. apply Hn, in_or_app. left. exact Hin. }
    exact (G v' [] Nd). }
  assert (Sk : map (fun wf => List.concat (fst wf)) v' = map (fun kv => escape (fst kv) true) base).
  { apply (f_equal (map fst)) in Sp. rewrite !map_map in Sp. exact Sp. }
  assert (Dk : dkeys (create_bpe_cache v') = map (fun kv => escape (fst kv) true) base).
  { rewrite Ca. unfold dkeys. rewrite map_map. exact Sk. }
  split; [|exact Dk]. intros i k f Hi.
  destruct (C30_encode base n v' ml Hb E i k f Hi) as (s & ws & Hv & _). exists s. split; [exact Hv|].
  apply dget_nodup; [rewrite Dk, <- Sk; exact Nd|]. rewrite Ca.
  assert (Es : List.concat s = escape k true).
  { pose proof (map_nth_error (fun wf => List.concat (fst wf)) i v' Hv) as H1.
    pose proof (map_nth_error (fun kv : str * Z => escape (fst kv) true) i base Hi) as H2.
    rewrite Sk in H1. cbn [fst] in H1, H2. pose proof (eq_trans (eq_sym H1) H2) as H3; injection H3 as H3; exact H3. }
  rewrite <- Es. apply nth_error_In in Hv. apply (in_map (fun wf => (List.concat (fst wf), fst wf))) in Hv. exact Hv.
Qed.
Print Assumptions C32_cache.

Example C32_example :
  exists v ml, do_merges (scratch_vocab word_base) 2 = Ok (v, ml)
    /\ dget (create_bpe_cache v) (lit "wog@") = Some [lit "wo"; lit "g@"]
    /\ dkeys (create_bpe_cache v) = [lit "bird@"; lit "word@"; lit "wog@"; lit "a@@b@"]
    /\ dget (create_resulting_vocab v) (lit "wo") = Some 22%Z
    /\ dget (create_resulting_vocab v) (lit "og") = None.
Proof.
  destruct (C29_from_scratch word_base 2 word_base_ok) as (_ & v & ml & E). exists v, ml. split; [exact E|].
  destruct (C32_cache _ _ _ _ word_base_ok E) as [H1 H2]. destruct (H1 2 (lit "wog") 15%Z eq_refl) as (s & Hs & Hc).
  rewrite H2. change (lit "wog@") with (escape (lit "wog") true). rewrite Hc, !C32_resulting_vocab. clear -E Hs.
  vm_compute in E. injection E as <- _. cbn in Hs. injection Hs as <-. repeat split; vm_compute; reflexivity.
Qed.
