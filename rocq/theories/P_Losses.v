(** C79: single processes of the vocabulary computation that end too early. *)
From Verif Require Import M_Base L_Base M_Literal M_Learn M_Vocab L_Vocab P_Vocab M_Merger L_Merger P_Merger.
From Coq Require Import Lia Permutation.

(** ** The invariant after a process was lost before it was counted *)
Definition alive (p : pstate) : nat := match p with PDone _ => 0 | _ => 1 end.

Record LI (r : run) (ws : list str) (lost : list dunit) : Prop := {
  li_kept : kept (sh_next (r_shared r)) (sh_disk (r_shared r)) (all_units r ++ lost) ws;
  li_ready : sh_ready (r_shared r) = true;
  li_nofin : forall p, In p (r_procs r) -> isfin p = 0;
  li_counter : sumf alive (r_procs r) < sh_counter (r_shared r);
  li_vocab : sh_vocab (r_shared r) = Absent;
  li_some : all_units r ++ lost <> []
}.

Lemma alive_past p : alive p + past p <= 1 + isfin p /\ (isfin p = 0 -> alive p + past p = 1).
Proof. destruct p as [| | |? ? ? ? []| | | | | | |[]]; cbn; lia. Qed.
Lemma sum_alive l : (forall p, In p l -> isfin p = 0) -> sumf alive l + sumf past l = length l.
Proof.
  induction l as [|p l IH]; intros H; [reflexivity|]. cbn [sumf fold_right length]. unfold sumf in *.
  pose proof (proj2 (alive_past p) (H p (or_introl eq_refl))). specialize (IH (fun q Hq => H q (or_intror Hq))). lia.
Qed.

Lemma units_split_lost t l1 p l2 lost :
  Permutation ((map UPlain t ++ flat_map punits (l1 ++ p :: l2)) ++ lost)
    (punits p ++ map UPlain t ++ (flat_map punits (l1 ++ l2) ++ lost)).
Proof. rewrite (units_split t l1 p l2). rewrite <- !app_assoc. reflexivity. Qed.

Lemma perm_some {A} (l l' : list A) : Permutation l l' -> l <> [] -> l' <> [].
Proof. intros P N ->. apply N, Permutation_nil. symmetry. exact P. Qed.

(** no step takes the last unit away *)
Lemma some_step chunks sh p sh' p' us : pstep chunks sh p sh' p' -> isfin p = 0 -> isfin p' = 0 ->
  punits p ++ map UPlain (sh_tasks sh) ++ us <> [] -> punits p' ++ map UPlain (sh_tasks sh') ++ us <> [].
Proof.
  intros P. destruct P; cbn [isfin punits app with_queue with_tasks with_counter with_left with_next with_disk with_ready
    with_size with_vocab sh_tasks]; try discriminate; auto; try (intros; destruct k; discriminate).
  intros _ _ _ Z. apply app_eq_nil in Z. destruct Z as [Z _]. rewrite map_app in Z. apply app_eq_nil in Z. destruct Z. discriminate.
Qed.

Lemma li_step r r' ws lost : LI r ws lost -> step r r' -> LI r' ws lost.
Proof.
  intros [K R F C V S] St. destruct St as [chunks sh sh' l1 p p' l2 P]. unfold all_units in *. cbn [r_chunks r_shared r_procs] in *.
  assert (Fp : isfin p = 0) by (apply F, in_elt).
  assert (Ap : sumf alive (l1 ++ p :: l2) = sumf alive l1 + alive p + sumf alive l2) by apply sumf_mid.
  assert (Fp' : isfin p' = 0 /\ sumf alive l1 + alive p' + sumf alive l2 < sh_counter sh' /\ sh_vocab sh' = Absent /\ sh_ready sh' = true).
  { rewrite Ap in C. destruct P; cbn in *; repeat split; try lia; auto; try discriminate. }
  destruct Fp' as (Fp' & C' & V' & R').
  assert (Rp' : removing p' = false) by (destruct p' as [| | |? ? ? ? []| | | | | | |[]]; try reflexivity; discriminate).
  constructor; unfold all_units; cbn [r_chunks r_shared r_procs]; auto.
  - apply (kept_perm _ _ (punits p' ++ map UPlain (sh_tasks sh') ++ (flat_map punits (l1 ++ l2) ++ lost)));
      [symmetry; apply units_split_lost|].
    apply (kept_step (sh_next sh) (sh_disk sh) _ _ chunks sh p); auto.
    apply (kept_perm _ _ _ _ _ (units_split_lost _ _ _ _ _) K).
  - intros q Hq. apply in_app_or in Hq. destruct Hq as [Hq|[<-|Hq]]; [|exact Fp'|]; apply F, in_or_app; [left|right; right]; exact Hq.
  - rewrite sumf_mid. exact C'.
  - apply (perm_some _ _ (Permutation_sym (units_split_lost (sh_tasks sh') l1 p' l2 lost))).
    apply (some_step chunks sh p sh' p' _ P Fp Fp'). apply (perm_some _ _ (units_split_lost (sh_tasks sh) l1 p l2 lost) S).
Qed.

Lemma li_end chunks sh l1 p l2 ws lost :
  LI {| r_chunks := chunks; r_shared := sh; r_procs := l1 ++ p :: l2 |} ws lost ->
  LI {| r_chunks := chunks; r_shared := sh; r_procs := l1 ++ PDone false :: l2 |} ws (lost ++ punits p).
Proof.
  intros [K R F C V S]. unfold all_units in *. cbn [r_chunks r_shared r_procs] in *.
  assert (P : Permutation ((map UPlain (sh_tasks sh) ++ flat_map punits (l1 ++ p :: l2)) ++ lost)
                ((map UPlain (sh_tasks sh) ++ flat_map punits (l1 ++ PDone false :: l2)) ++ lost ++ punits p)).
  { rewrite !units_split_lost. cbn [punits app]. etransitivity; [apply Permutation_app_comm|]. rewrite <- !app_assoc. reflexivity. }
  constructor; unfold all_units; cbn [r_chunks r_shared r_procs]; auto.
  - apply (kept_perm _ _ _ _ _ P K).
  - intros q Hq. apply in_app_or in Hq. destruct Hq as [Hq|[<-|Hq]]; [|reflexivity|]; apply F, in_or_app; [left|right; right]; exact Hq.
  - rewrite sumf_mid in *. cbn [alive]. lia.
  - apply (perm_some _ _ P S).
Qed.
Lemma li_give_back chunks sh l1 c v l2 ws lost :
  LI {| r_chunks := chunks; r_shared := sh; r_procs := l1 ++ PGot c v :: l2 |} ws lost ->
  LI {| r_chunks := chunks; r_shared := with_tasks sh (sh_tasks sh ++ [v]); r_procs := l1 ++ PDone false :: l2 |} ws lost.
Proof.
  intros [K R F C V S]. unfold all_units in *. cbn [r_chunks r_shared r_procs] in *.
  assert (P : Permutation ((map UPlain (sh_tasks sh) ++ flat_map punits (l1 ++ PGot c v :: l2)) ++ lost)
                ((map UPlain (sh_tasks sh ++ [v]) ++ flat_map punits (l1 ++ PDone false :: l2)) ++ lost)).
  { rewrite !units_split_lost. cbn [punits app]. rewrite map_app. cbn [map]. rewrite <- !app_assoc. cbn [app]. apply Permutation_middle. }
  constructor; unfold all_units; cbn [r_chunks r_shared r_procs with_tasks sh_next sh_disk sh_ready sh_counter sh_vocab sh_tasks]; auto.
  - apply (kept_perm _ _ _ _ _ P K).
  - intros q Hq. apply in_app_or in Hq. destruct Hq as [Hq|[<-|Hq]]; [|reflexivity|]; apply F, in_or_app; [left|right; right]; exact Hq.
  - rewrite sumf_mid in *. cbn [alive] in *. lia.
  - apply (perm_some _ _ P S).
Qed.

(** ** From the invariant without losses *)
Definition all_ended (r : run) : Prop := forall p, In p (r_procs r) -> p = PDone false.
Definition left_over (ws : list str) (d : list pfile) (ready : bool) (size : ofile Z) (vocab : ofile str) : Prop :=
  out_ok ws size vocab /\ (ready = true -> must_run size vocab = true -> complete d ws).

Lemma inv_left_over r ws : INV r ws ->
  left_over ws (sh_disk (r_shared r)) (sh_ready (r_shared r)) (sh_size (r_shared r)) (sh_vocab (r_shared r)).
Proof. intros H. split; [apply inv_out; exact H|]. intros _ M. apply (inv_complete r ws H M). Qed.

Lemma inv_running r ws l1 p l2 : INV r ws -> r_procs r = l1 ++ p :: l2 -> isfin p = 0 -> p <> PDone false ->
  (forall q, In q (r_procs r) -> isfin q = 0) /\ sumf alive (r_procs r) = sh_counter (r_shared r).
Proof.
  intros ((tk & k & C) & _) E F N.
  assert (A : forall q, In q (r_procs r) -> isfin q = 0).
  { intros q Hq. destruct (isfin q) as [|n] eqn:Eq; [reflexivity|]. exfalso.
    assert (Iq : isfin q = 1) by (destruct q as [| | |? ? ? ? []| | | | | | |[]]; cbn in *; lia).
    destruct (in_split _ _ Hq) as (a & b & Eab). destruct (ci_alone _ _ _ a q b C Eab Iq) as (_ & D & _).
    assert (Hp : In p (a ++ q :: b)) by (rewrite <- Eab, E; apply in_elt).
    apply in_app_or in Hp. destruct Hp as [Hp|[Hp|Hp]].
    - apply N, D, in_or_app. left. exact Hp.
    - subst q. congruence.
    - apply N, D, in_or_app. right. exact Hp. }
  split; [exact A|]. pose proof (ci_past _ _ _ C). pose proof (sum_alive _ A). lia.
Qed.

Lemma inv_units r ws l1 p l2 : INV r ws -> r_procs r = l1 ++ p :: l2 -> isfin p = 0 -> p <> PDone false ->
  kept (sh_next (r_shared r)) (sh_disk (r_shared r)) (all_units r) ws /\ sh_ready (r_shared r) = true
  /\ (forall q, In q (r_procs r) -> isfin q = 0) /\ sumf alive (r_procs r) = sh_counter (r_shared r)
  /\ sh_vocab (r_shared r) = Absent /\ all_units r <> [].
Proof.
  intros H E F N. destruct (inv_running r ws l1 p l2 H E F N) as [A C].
  pose proof H as (_ & D & O). destruct D as [K R].
  { intros q Hq. specialize (A q Hq). destruct q as [| | |? ? ? ? []| | | | | | |[]]; try reflexivity; discriminate. }
  split; [exact K|]. split; [exact R|]. split; [exact A|]. split; [exact C|].
  assert (V : sh_vocab (r_shared r) = Absent).
  { rewrite Forall_forall in O. specialize (O p). rewrite E in O. specialize (O (in_elt _ _ _)).
    destruct p as [| | |? ? ? ? []| | | | | | |[]]; cbn in F, O; try discriminate; try assumption. congruence. }
  split; [exact V|].
  assert (M : must_run (sh_size (r_shared r)) (sh_vocab (r_shared r)) = true) by (rewrite V; unfold must_run; rewrite andb_false_r; reflexivity).
  destruct (inv_complete r ws H M) as (_ & us & Dk & _ & Nus).
  intros Z. rewrite Z in K. destruct K as ((P & _) & _). cbn in P. apply Permutation_sym, Permutation_nil in P.
  destruct Dk as (P' & _). rewrite P in P'. apply Permutation_nil in P'.
  destruct us as [|u us]; [congruence|]. cbn [flat_map] in P'. apply app_eq_nil in P'. destruct P' as [P' _].
  destruct u as [v|[] v w m]; discriminate.
Qed.

Lemma inv_lost_working chunks sh l1 p l2 ws : INV {| r_chunks := chunks; r_shared := sh; r_procs := l1 ++ p :: l2 |} ws ->
  isfin p = 0 -> p <> PDone false ->
  LI {| r_chunks := chunks; r_shared := sh; r_procs := l1 ++ PDone false :: l2 |} ws (punits p).
Proof.
  intros H F N. destruct (inv_units _ ws l1 p l2 H eq_refl F N) as (K & R & A & C & V & S).
  unfold all_units in *. cbn [r_chunks r_shared r_procs] in *.
  assert (P : Permutation (map UPlain (sh_tasks sh) ++ flat_map punits (l1 ++ p :: l2))
                ((map UPlain (sh_tasks sh) ++ flat_map punits (l1 ++ PDone false :: l2)) ++ punits p)).
  { rewrite !units_split. cbn [punits app]. apply Permutation_app_comm. }
  constructor; unfold all_units; cbn [r_chunks r_shared r_procs app]; auto.
  - apply (kept_perm _ _ _ _ _ P K).
  - intros q Hq. apply in_app_or in Hq. destruct Hq as [Hq|[<-|Hq]]; [|reflexivity|]; apply A, in_or_app; [left|right; right]; exact Hq.
  - assert (Ap : alive p = 1) by (clear -F N; destruct p as [| | |? ? ? ? []| | | | | | |[]]; cbn in *; congruence).
    rewrite sumf_mid in C. rewrite sumf_mid. cbn [alive]. rewrite Ap in C. lia.
  - apply (perm_some _ _ P S).
Qed.

(** the lost process was not counted yet, or it was the one that finishes, or it had ended already *)
Lemma inv_lost chunks sh l1 p l2 ws : INV {| r_chunks := chunks; r_shared := sh; r_procs := l1 ++ p :: l2 |} ws ->
  let r' := {| r_chunks := chunks; r_shared := sh; r_procs := l1 ++ PDone false :: l2 |} in
  INV r' ws \/ (exists lost, LI r' ws lost)
  \/ (all_ended r' /\ left_over ws (sh_disk sh) (sh_ready sh) (sh_size sh) (sh_vocab sh)).
Proof.
  intros H r'. destruct (isfin p) as [|n] eqn:F.
  - assert (X : p = PDone false \/ p <> PDone false).
    { destruct p as [| | |? ? ? ? ?| | | | | | |[]]; [right; discriminate..|left; reflexivity]. }
    destruct X as [->|N]; [left; exact H|]. right. left. exists (punits p). apply inv_lost_working; assumption.
  - right. right. assert (I : isfin p = 1) by (destruct p as [| | |? ? ? ? []| | | | | | |[]]; cbn in *; lia).
    destruct H as ((tk & k & C) & D & O). destruct (ci_alone _ _ _ l1 p l2 C eq_refl I) as (_ & A & _). split.
    + intros q Hq. cbn in Hq. apply in_app_or in Hq. destruct Hq as [Hq|[<-|Hq]]; [|reflexivity|]; apply A, in_or_app; auto.
    + apply (inv_left_over _ _ (conj (ex_intro _ tk (ex_intro _ k C)) (conj D O))).
Qed.
Lemma inv_give_back chunks sh l1 c v l2 ws : INV {| r_chunks := chunks; r_shared := sh; r_procs := l1 ++ PGot c v :: l2 |} ws ->
  exists lost, LI {| r_chunks := chunks; r_shared := with_tasks sh (sh_tasks sh ++ [v]); r_procs := l1 ++ PDone false :: l2 |} ws lost.
Proof.
  intros H. exists []. destruct (inv_units _ ws l1 (PGot c v) l2 H eq_refl eq_refl) as (K & R & A & C & V & S);
    [discriminate|].
  unfold all_units in *. cbn [r_chunks r_shared r_procs] in *.
  assert (P : Permutation (map UPlain (sh_tasks sh) ++ flat_map punits (l1 ++ PGot c v :: l2))
                (map UPlain (sh_tasks sh ++ [v]) ++ flat_map punits (l1 ++ PDone false :: l2))).
  { rewrite !units_split. cbn [punits app]. rewrite map_app. cbn [map]. rewrite <- !app_assoc. cbn [app]. apply Permutation_middle. }
  constructor; unfold all_units; cbn [r_chunks r_shared r_procs app with_tasks sh_next sh_disk sh_ready sh_counter sh_vocab sh_tasks]; auto.
  - rewrite app_nil_r. apply (kept_perm _ _ _ _ _ P K).
  - intros q Hq. apply in_app_or in Hq. destruct Hq as [Hq|[<-|Hq]]; [|reflexivity|]; apply A, in_or_app; [left|right; right]; exact Hq.
  - rewrite sumf_mid in *. cbn [alive] in *. lia.
  - rewrite app_nil_r. apply (perm_some _ _ P S).
Qed.

(** ** All histories *)
Definition lossy_ok (ws : list str) (a : node) : Prop :=
  match a with
  | Down d ready size vocab => left_over ws d ready size vocab
  | Up r => INV r ws \/ (exists lost, LI r ws lost)
            \/ (all_ended r /\ left_over ws (sh_disk (r_shared r)) (sh_ready (r_shared r)) (sh_size (r_shared r)) (sh_vocab (r_shared r)))
  end.

Lemma li_left_over r ws lost : LI r ws lost ->
  left_over ws (sh_disk (r_shared r)) (sh_ready (r_shared r)) (sh_size (r_shared r)) (sh_vocab (r_shared r)).
Proof.
  intros [(K1 & K2 & _) R F C V S]. split; [left; exact V|]. intros _ _. exists (all_units r ++ lost). auto.
Qed.
Lemma ended_no_step r r' : all_ended r -> ~ step r r'.
Proof.
  intros A St. destruct St as [chunks sh sh' l1 p p' l2 P]. rewrite (A p (in_elt _ _ _)) in P. inversion P.
Qed.

Lemma lossy_ok_next max_groups n_chunks files a b : max_groups <> 0 -> n_chunks <> 0 ->
  lossy max_groups n_chunks files a b -> lossy_ok (corpus_tokens files) a -> lossy_ok (corpus_tokens files) b.
Proof.
  intros Hm Hc L H. destruct L as [a b S|chunks sh l1 p l2|chunks sh l1 c v l2].
  - destruct S as [r r' St|r|d d' size vocab M|d size vocab groups ids l0 l n next M Hn Hf G Ni Li E P Na
                  |d size vocab eof ts d' M P Hd|d size vocab eof ts d' ls l n next M Hn P E Q Lo Na].
    + cbn in H |- *. destruct H as [H|[(lost & H)|(H & _)]].
      * left. apply (inv_step r r' _ H St).
      * right. left. exists lost. apply (li_step r r' _ _ H St).
      * exfalso. exact (ended_no_step r r' H St).
    + cbn in H |- *. destruct H as [H|[(lost & H)|(_ & H)]]; [apply inv_left_over, H|apply (li_left_over r _ lost H)|exact H].
    + cbn in H |- *. destruct H as [O _]. split; [exact O|discriminate].
    + cbn. left. apply (node_ok_sys max_groups n_chunks files (Down d false size vocab) (Up (start_run n l next (map Plain l) size vocab)) Hm Hc);
        [|exact H]. eapply sys_created; eassumption.
    + apply (node_ok_sys max_groups n_chunks files (Down d true size vocab) (Down d' true size vocab) Hm Hc); [|exact H].
      eapply sys_loading; eassumption.
    + cbn. left. apply (node_ok_sys max_groups n_chunks files (Down d true size vocab) (Up (start_run n l next d' size vocab)) Hm Hc);
        [|exact H]. eapply sys_loaded; eassumption.
  - cbn in H |- *. destruct H as [H|[(lost & H)|(A & H)]].
    + apply (inv_lost chunks sh l1 p l2 _ H).
    + right. left. exists (lost ++ punits p). apply li_end, H.
    + right. right. split; [|exact H]. intros q Hq. apply in_app_or in Hq.
      destruct Hq as [Hq|[<-|Hq]]; [|reflexivity|]; apply A; cbn; apply in_or_app; [left|right; right]; exact Hq.
  - cbn in H |- *. destruct H as [H|[(lost & H)|(A & H)]].
    + right. left. apply (inv_give_back chunks sh l1 c v l2 _ H).
    + right. left. exists lost. apply (li_give_back chunks sh l1 c v l2 _ _ H).
    + exfalso. specialize (A (PGot c v) (in_elt _ _ _)). discriminate.
Qed.
Lemma lossy_ok_reachable max_groups n_chunks files a : max_groups <> 0 -> n_chunks <> 0 ->
  reachable_lossy max_groups n_chunks files a -> lossy_ok (corpus_tokens files) a.
Proof.
  intros Hm Hc R. induction R as [|a b R IH S].
  - split; [left; reflexivity|]. intros Z. discriminate Z.
  - exact (lossy_ok_next _ _ _ _ _ Hm Hc S IH).
Qed.

(** ** C79

    Whatever processes are lost, and whenever: a vocabulary file that was written completely is right, and so is
    the number in the size file. *)
Theorem C79_never_wrong max_groups n_chunks files d ready size text : max_groups <> 0 -> n_chunks <> 0 ->
  reachable_lossy max_groups n_chunks files (Down d ready size (Full text)) ->
  exists c, text = write_vocab c /\ counts_exactly c (corpus_tokens files)
    /\ size = Full (Z.of_nat (length (nodup str_dec (corpus_tokens files)))).
Proof.
  intros Hm Hc R. pose proof (lossy_ok_reachable _ _ _ _ Hm Hc R) as [[H|[H1 [H2|(c & Hc' & E)]]] _]; try discriminate.
  injection E as ->. exists c. auto.
Qed.
Print Assumptions C79_never_wrong.

(** If no vocabulary file was begun, starting the program again finishes: it loads what is there, or counts anew if the
    partial vocabularies had not been ready, and there is a way to the end; every such way leads to the right vocabulary
    (C42_result, C43_finite). *)
Theorem C79_restart max_groups n_chunks files d ready size n : max_groups <> 0 -> n_chunks <> 0 -> files <> [] -> 1 <= n ->
  reachable_lossy max_groups n_chunks files (Down d ready size Absent) ->
  exists r k r' c, sys max_groups n_chunks files (Down d ready size Absent) (Up r) /\ length (r_procs r) = n /\ steps k r r'
    /\ sh_vocab (r_shared r') = Full (write_vocab c) /\ counts_exactly c (corpus_tokens files).
Proof.
  intros Hm Hc Hf Hn R. pose proof (lossy_ok_reachable _ _ _ _ Hm Hc R) as [O C].
  assert (M : must_run size (@Absent str) = true) by (unfold must_run; rewrite andb_false_r; reflexivity).
  assert (X : exists r, sys max_groups n_chunks files (Down d ready size Absent) (Up r) /\ length (r_procs r) = n /\ INV r (corpus_tokens files)).
  { destruct ready.
    - destruct (C eq_refl M) as (us & D & W & N).
      destruct (finish_all_spec true _ (triples_of d) d us D W N (Permutation_refl _)) as (_ & F & E).
      destruct (E (or_introl eq_refl)) as (d' & Ed'). destruct (F d' Ed') as [CC T].
      destruct (load_complete d' d' _ CC T (Permutation_refl _)) as (l & El & _).
      assert (B : forall dd : list pfile, exists next, next_after next dd).
      { induction dd as [|f dd (next & IH)]; [exists 0%N; intros f []|].
        exists (N.max next (match f with Plain v => pv_id v + 1 | Triple a b k _ => N.max (a + 1) (N.max (b + 1) (k + 1)) end)).
        intros g [<-|Hg]; [destruct f; lia|]. specialize (IH g Hg). destruct g; lia. }
      destruct (B d') as (next & Na).
      assert (S : sys max_groups n_chunks files (Down d true size Absent) (Up (start_run n l next d' size Absent))).
      { eapply (sys_loaded _ _ _ d size Absent true (triples_of d) d' d' l n next); auto. }
      eexists. split; [exact S|]. split; [apply repeat_length|].
      apply (node_ok_sys _ _ _ (Down d true size Absent) (Up (start_run n l next d' size Absent)) Hm Hc S). split; [exact O|exact C].
    - destruct (C46_groups files max_groups Hm) as (groups & G & _).
      set (ids := map N.of_nat (seq 0 (length groups))).
      assert (I : exists l0, initial_partial_vocabs max_groups n_chunks files ids = Ok l0).
      { unfold initial_partial_vocabs. rewrite G. cbn [bind]. eexists. reflexivity. }
      destruct I as (l0 & I).
      assert (B : forall l : list pvocab, exists next, next_after next (map Plain l)).
      { induction l as [|v l (next & IH)]; [exists 0%N; intros f []|]. exists (N.max next (pv_id v + 1)).
        intros g [<-|Hg]; [lia|]. specialize (IH g Hg). destruct g; lia. }
      destruct (B l0) as (next & Na).
      assert (S : sys max_groups n_chunks files (Down d false size Absent) (Up (start_run n l0 next (map Plain l0) size Absent))).
      { eapply (sys_created _ _ _ d size Absent groups ids l0 l0 n next); auto.
        - unfold ids. apply FinFun.Injective_map_NoDup; [intros x y; apply Nat2N.inj|apply seq_NoDup].
        - unfold ids. rewrite map_length, seq_length. reflexivity. }
      eexists. split; [exact S|]. split; [apply repeat_length|].
      apply (node_ok_sys _ _ _ (Down d false size Absent) (Up (start_run n l0 next (map Plain l0) size Absent)) Hm Hc S). split; [exact O|exact C]. }
  destruct X as (r & S & L & Ir). exists r.
  assert (Y : forall b r0, measure r0 = b -> INV r0 (corpus_tokens files) ->
     exists k r' c, steps k r0 r' /\ sh_vocab (r_shared r') = Full (write_vocab c) /\ counts_exactly c (corpus_tokens files)).
  { clear -Hm. induction b as [b IH] using lt_wf_ind. intros r0 <- H.
    destruct (inv_progress r0 _ H) as [A|(r1 & St)].
    - destruct (inv_out r0 _ H) as [V|[_ [V|(c & Cc & V)]]].
      + exfalso. destruct H as ((tk & k & C) & _ & O). pose proof (ci_past _ _ _ C) as P. pose proof (ci_fin _ _ _ C) as FF.
        assert (PA : sumf past (r_procs r0) = length (r_procs r0)).
        { clear -A. induction (r_procs r0) as [|p l IHl]; [reflexivity|]. cbn [sumf fold_right length].
          destruct (A p (or_introl eq_refl)) as (b & ->). unfold sumf in IHl. rewrite IHl by (intros q Hq; apply A; right; exact Hq).
          destruct b; reflexivity. }
        assert (K : sh_counter (r_shared r0) = 0) by lia. rewrite K in FF.
        assert (X : exists p, In p (r_procs r0) /\ isfin p = 1).
        { clear -FF. induction (r_procs r0) as [|p l IHl]; [discriminate|]. cbn [sumf fold_right] in FF. unfold sumf in IHl.
          destruct (isfin p) as [|m] eqn:E.
          - destruct IHl as (q & Hq & Fq); [lia|]. exists q. split; [right|]; assumption.
          - exists p. split; [left; reflexivity|]. destruct p as [| | |? ? ? ? []| | | | | | |[]]; cbn in *; lia. }
        destruct X as (p & Hp & Fp). rewrite Forall_forall in O. specialize (O p Hp).
        destruct (A p Hp) as (b & ->). destruct b; [|discriminate]. cbn in O. destruct O as [_ (c & _ & Ec)]. congruence.
      + exfalso. destruct H as ((tk & k & C) & _ & O).
        assert (X : exists p, In p (r_procs r0)) by (destruct (r_procs r0) as [|p l] eqn:E; [destruct (ci_procs _ _ _ C E)|exists p; left; reflexivity]).
        rewrite Forall_forall in O. pose proof (ci_past _ _ _ C) as P. pose proof (ci_fin _ _ _ C) as FF.
        assert (PA : sumf past (r_procs r0) = length (r_procs r0)).
        { clear -A. induction (r_procs r0) as [|p l IHl]; [reflexivity|]. cbn [sumf fold_right length].
          destruct (A p (or_introl eq_refl)) as (b & ->). unfold sumf in IHl. rewrite IHl by (intros q Hq; apply A; right; exact Hq).
          destruct b; reflexivity. }
        assert (K : sh_counter (r_shared r0) = 0) by lia. rewrite K in FF.
        assert (Y : exists p, In p (r_procs r0) /\ isfin p = 1).
        { clear -FF. induction (r_procs r0) as [|p l IHl]; [discriminate|]. cbn [sumf fold_right] in FF. unfold sumf in IHl.
          destruct (isfin p) as [|m] eqn:E.
          - destruct IHl as (q & Hq & Fq); [lia|]. exists q. split; [right|]; assumption.
          - exists p. split; [left; reflexivity|]. destruct p as [| | |? ? ? ? []| | | | | | |[]]; cbn in *; lia. }
        destruct Y as (p & Hp & Fp). specialize (O p Hp).
        destruct (A p Hp) as (b & ->). destruct b; [|discriminate]. cbn in O. destruct O as [_ (c & _ & Ec)]. congruence.
      + exists 0, r0, c. split; [constructor|auto].
    - destruct (IH (measure r1) (inv_measure _ _ _ H St) r1 eq_refl (inv_step _ _ _ H St)) as (k & r' & c & SS & V & Cc).
      exists (S k), r', c. split; [econstructor; eassumption|auto]. }
  destruct (Y (measure r) r eq_refl Ir) as (k & r' & c & SS & V & Cc). exists k, r', c. auto.
Qed.
Print Assumptions C79_restart.

(** One process that is lost before it is counted is enough: the other processes end, but none of them finishes the merges,
    and the command ends without a vocabulary. *)
Inductive goes_on max_groups n_chunks files : run -> run -> Prop :=
| goes_refl r : goes_on max_groups n_chunks files r r
| goes_step r r' r'' : lossy max_groups n_chunks files (Up r) (Up r') -> goes_on max_groups n_chunks files r' r'' ->
    goes_on max_groups n_chunks files r r''.
Definition working (p : pstate) : Prop :=
  match p with PIdle | PWant _ | PGot _ _ | PMerge _ _ _ _ PutBack | PStop => True | _ => False end.

Lemma li_goes_on max_groups n_chunks files ws r r' lost :
  goes_on max_groups n_chunks files r r' -> LI r ws lost -> exists lost', LI r' ws lost'.
Proof.
  intros G. revert lost. induction G as [r|r r' r'' L G IH]; intros lost H; [eauto|].
  remember (Up r) as a eqn:Ea. remember (Up r') as b eqn:Eb. destruct L as [a b S|chunks sh l1 p l2|chunks sh l1 c v l2].
  - destruct S; try discriminate. injection Ea as ->. injection Eb as ->. apply (IH lost). apply (li_step r); assumption.
  - injection Ea as <-. injection Eb as <-. apply (IH (lost ++ punits p)). apply li_end. exact H.
  - injection Ea as <-. injection Eb as <-. apply (IH lost). apply (li_give_back _ _ _ c). exact H.
Qed.

Theorem C79_one_lost max_groups n_chunks files chunks sh l1 p l2 r' : max_groups <> 0 -> n_chunks <> 0 ->
  reachable max_groups n_chunks files (Up {| r_chunks := chunks; r_shared := sh; r_procs := l1 ++ p :: l2 |}) -> working p ->
  goes_on max_groups n_chunks files {| r_chunks := chunks; r_shared := sh; r_procs := l1 ++ PDone false :: l2 |} r' ->
  sh_vocab (r_shared r') = Absent.
Proof.
  intros Hm Hc R W G. pose proof (node_ok_reachable _ _ _ _ Hm Hc R) as H. cbn in H.
  assert (F : isfin p = 0) by (destruct p as [| | |? ? ? ? []| | | | | | |[]]; cbn in *; tauto).
  assert (N : p <> PDone false) by (intros ->; exact W).
  pose proof (inv_lost_working chunks sh l1 p l2 _ H F N) as L. destruct (li_goes_on _ _ _ _ _ _ _ G L) as (lost' & L').
  exact (li_vocab _ _ _ L').
Qed.
Print Assumptions C79_one_lost.

(** ** An example: of two processes one is lost after it has taken two vocabularies and begun to write their sum; the other
    one goes on, finds no pair and gives its vocabulary back. *)
Lemma lossy_step mg nc files chunks sh l1 p l2 sh' p' : pstep chunks sh p sh' p' ->
  reachable_lossy mg nc files (Up {| r_chunks := chunks; r_shared := sh; r_procs := l1 ++ p :: l2 |}) ->
  reachable_lossy mg nc files (Up {| r_chunks := chunks; r_shared := sh'; r_procs := l1 ++ p' :: l2 |}).
Proof. intros P R. eapply lossy_next; [exact R|]. constructor. constructor. constructor. exact P. Qed.

Example C79_ex : exists d, reachable_lossy 3 1 corpus3 (Down d true Absent Absent) /\ length d = 4 /\ triples_of d <> [].
Proof.
  assert (R : reachable_lossy 3 1 corpus3 (Up (start_run 2 parts3 3 (map Plain parts3) Absent Absent))).
  { eapply lossy_next; [apply lossy_init|]. constructor.
    eapply (sys_created 3 1 corpus3 [] Absent Absent _ [0%N; 1%N; 2%N] parts3); try reflexivity; try discriminate.
    - lia.
    - repeat constructor; cbn; intuition discriminate.
    - intros f Hf. cbn in Hf. repeat (destruct Hf as [<-|Hf]; [reflexivity|]). destruct Hf. }
  unfold start_run in R. change (repeat PIdle 2) with ([] ++ PIdle :: [PIdle]) in R.
  eapply lossy_step in R; [|eapply step_ticket; reflexivity].
  eapply lossy_step in R; [|eapply (step_first _ _ _ _ []); reflexivity].
  eapply lossy_step in R; [|eapply (step_second _ _ _ _ _ [] _ 1 3); [reflexivity..|discriminate]].
  eapply lossy_step in R; [|apply step_open].
  match type of R with reachable_lossy _ _ _ (Up {| r_chunks := ?c; r_shared := ?s; r_procs := _ |}) =>
    pose proof (lossy_next _ _ _ _ _ R (lossy_end _ _ _ c s _ _ _)) as R2 end.
  clear R. match type of R2 with context [[] ++ ?x :: ?t] => change ([] ++ x :: t) with ([x] ++ PIdle :: []) in R2 end.
  eapply lossy_step in R2; [|eapply step_ticket; reflexivity].
  eapply lossy_step in R2; [|eapply (step_first _ _ _ _ []); reflexivity].
  match type of R2 with reachable_lossy _ _ _ (Up {| r_chunks := ?c; r_shared := ?s; r_procs := _ |}) =>
    pose proof (lossy_next _ _ _ _ _ R2 (lossy_give_back _ _ _ c s _ _ _ _)) as R3 end.
  eexists. split; [|split].
  - eapply lossy_next; [exact R3|]. constructor. apply sys_down.
  - reflexivity.
  - discriminate.
Qed.
