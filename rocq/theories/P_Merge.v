(** C21 - C25: merge lists, merges files, cache files and the literal codec. *)
From Verif Require Import M_Base L_Base M_Literal L_Literal M_Merge L_Merge.

(** * C25 *)
Definition printable_ascii (c : N) : Prop := (32 <= c < 127)%N.

Lemma printable_is c : printable c -> printable_ascii c.
Proof. unfold printable, printable_ascii. intros H. exact H. Qed.

(** every string of code points survives the round trip *)
Theorem C25_literal_round_trip :
  forall s : str, Forall (fun c => (c <= 1114111)%N) s -> to_non_literal_str (to_literal_str s) = Ok s.
Proof. exact non_literal_literal. Qed.
Print Assumptions C25_literal_round_trip.

(** the literal form is one line of printable ascii, even for strings with control characters *)
Theorem C25_literal_line_safe : forall s : str, Forall printable_ascii (to_literal_str s).
Proof. intros s. eapply Forall_impl; [|apply literal_printable]. exact printable_is. Qed.
Print Assumptions C25_literal_line_safe.

(** spaces are kept: literalising a joined list is joining the literals *)
Theorem C25_literal_join :
  forall l : list str, to_literal_str (join (lit " ") l) = join (lit " ") (map to_literal_str l).
Proof. exact literal_join. Qed.
Print Assumptions C25_literal_join.

(** different strings have different literal forms *)
Theorem C25_literal_injective :
  forall a b : str, Forall (fun c => (c <= 1114111)%N) a -> Forall (fun c => (c <= 1114111)%N) b ->
  to_literal_str a = to_literal_str b -> a = b.
Proof. exact literal_inj. Qed.
Print Assumptions C25_literal_injective.

Example C25_example :
  let s := [9; 92; 97; 32; 247; 8364; 128512; 0; 127]%N in
  to_literal_str s = lit "\t\\a \xf7\u20ac\U0001f600\x00\x7f" /\ to_non_literal_str (to_literal_str s) = Ok s.
Proof. vm_compute. split; reflexivity. Qed.

(** * C21 *)
(** merge lists reachable from the empty one; the first argument lists the (pair, frequency) entries in the order
    in which they were added *)
Inductive built : list (pair * option Z) -> merge_list -> Prop :=
| built_empty : built [] ml_empty
| built_append l ml p f prio ml' : built l ml -> ml_append ml p f prio = Ok ml' -> built (l ++ [(p, f)]) ml'
| built_add l1 a l2 b c : built l1 a -> built l2 b -> ml_add a b = Ok c -> built (l1 ++ l2) c.

Lemma NoDup_app_l {A} (a b : list A) : NoDup (a ++ b) -> NoDup a.
Proof. induction a; simpl; intros H; [constructor|]. inversion H; subst. constructor; [|auto].
  intros Hin. apply H2. apply in_or_app. left. exact Hin. Qed.
Lemma NoDup_app_r {A} (a b : list A) : NoDup (a ++ b) -> NoDup b.
Proof. induction a; simpl; intros H; [exact H|]. inversion H; subst. auto. Qed.

Lemma built_ml_from l ml : built l ml -> NoDup (map fst l) -> ml = ml_from 0 l.
Proof.
  induction 1 as [|l ml p f prio ml' _ IH Ha|l1 a l2 b c _ IH1 _ IH2 Hadd]; intros Hnd.
  - reflexivity.
  - rewrite map_app in Hnd. rewrite (IH (NoDup_app_l _ _ Hnd)) in Ha.
    apply (appends_nodup l [((p, f), prio)] ml'); [exact Hnd|]. simpl. rewrite Ha. reflexivity.
  - rewrite map_app in Hnd.
    rewrite (IH1 (NoDup_app_l _ _ Hnd)), (IH2 (NoDup_app_r _ _ Hnd)), ml_add_ml_from in Hadd by exact Hnd.
    congruence.
Qed.

(** iteration order = insertion order = priority order, whatever the history *)
Theorem C21_merge_list_ordered :
  forall l ml, built l ml -> NoDup (map fst l) ->
  map (fun m => (m_pair m, m_freq m)) (ml_iter ml) = l /\
  map m_priority (ml_iter ml) = seq 0 (length l) /\
  (forall p k, ml_priority ml p = Some k <-> nth_error (map fst l) k = Some p) /\
  (forall p, ml_contains ml p = true <-> In p (map fst l)).
Proof.
  intros l ml Hb Hnd. rewrite (built_ml_from l ml Hb Hnd). repeat split.
  - apply ml_from_iter_pairs.
  - apply ml_from_priorities.
  - intros H. unfold ml_priority in H. destruct (dget (ml_from 0 l) p) as [m|] eqn:E; [|discriminate].
    simpl in H. injection H as <-.
    assert (Hin : In p (map fst l)) by (rewrite <- (ml_from_keys 0 l); eapply dget_some_key; exact E).
    apply In_nth_error in Hin. destruct Hin as [k Hk]. rewrite nth_error_map in Hk.
    destruct (nth_error l k) as [[p' f]|] eqn:Ek; [|discriminate]. simpl in Hk. injection Hk as ->.
    rewrite (ml_from_get 0 l k p f Hnd Ek) in E. injection E as <-. simpl. rewrite nth_error_map, Ek. reflexivity.
  - intros Hk. unfold ml_priority. rewrite nth_error_map in Hk.
    destruct (nth_error l k) as [[p' f]|] eqn:Ek; [|discriminate].
    simpl in Hk. injection Hk as ->. rewrite (ml_from_get 0 l k p f Hnd Ek). reflexivity.
  - unfold ml_contains, dmem. destruct (dget (ml_from 0 l) p) eqn:E; [|discriminate]. intros _.
    rewrite <- (ml_from_keys 0 l). eapply dget_some_key; exact E.
  - unfold ml_contains, dmem. intros Hin. rewrite <- (ml_from_keys 0 l) in Hin. apply dkeys_in_dget in Hin.
    destruct Hin as [v ->]. reflexivity.
Qed.
Print Assumptions C21_merge_list_ordered.

(** and every list of distinct pairs can be built; adding disjoint lists never fails *)
Theorem C21_merge_list_add_total :
  forall l1 a l2 b, built l1 a -> built l2 b -> NoDup (map fst (l1 ++ l2)) ->
  exists c, ml_add a b = Ok c /\ built (l1 ++ l2) c.
Proof.
  intros l1 a l2 b Ha Hb Hnd. rewrite map_app in Hnd. exists (ml_from 0 (l1 ++ l2)).
  assert (E : ml_add a b = Ok (ml_from 0 (l1 ++ l2))).
  { rewrite (built_ml_from l1 a Ha (NoDup_app_l _ _ Hnd)), (built_ml_from l2 b Hb (NoDup_app_r _ _ Hnd)).
    apply ml_add_ml_from, Hnd. }
  split; [exact E|]. eapply built_add; eassumption.
Qed.
Print Assumptions C21_merge_list_add_total.

(** finding: the same pair appended twice (no explicit priority) leaves a list whose priorities are not 0..n-1 *)
Theorem C21_duplicate_pair_refuted :
  exists l ml, built l ml /\ map m_priority (ml_iter ml) <> seq 0 (length (ml_iter ml)).
Proof.
  pose (p := (lit "a", lit "b") : pair).
  exists [(p, None); (p, None)], [(p, {| m_pair := p; m_freq := None; m_priority := 1 |})]. split.
  - apply (built_append [(p, None)] [(p, {| m_pair := p; m_freq := None; m_priority := 0 |})] p None None).
    + apply (built_append [] [] p None None); [constructor|reflexivity].
    + reflexivity.
  - vm_compute. discriminate.
Qed.
Print Assumptions C21_duplicate_pair_refuted.

Example C21_example :
  exists ml, built [((lit "a", lit "b"), Some 5%Z); ((lit "ab", lit "@@"), Some 3%Z); ((lit "c", lit "d"), None)] ml
             /\ length ml = 3.
Proof.
  exists (ml_from 0 [((lit "a", lit "b"), Some 5%Z); ((lit "ab", lit "@@"), Some 3%Z); ((lit "c", lit "d"), None)]).
  split; [|reflexivity].
  apply (built_add [((lit "a", lit "b"), Some 5%Z); ((lit "ab", lit "@@"), Some 3%Z)]
           (ml_from 0 [((lit "a", lit "b"), Some 5%Z); ((lit "ab", lit "@@"), Some 3%Z)])
           [((lit "c", lit "d"), None)] (ml_from 0 [((lit "c", lit "d"), None)])).
  - apply (built_append [((lit "a", lit "b"), Some 5%Z)] (ml_from 0 [((lit "a", lit "b"), Some 5%Z)]) _ _ (Some 1%Z)).
    + apply (built_append [] [] _ _ None); [constructor|reflexivity].
    + reflexivity.
  - apply (built_append [] [] _ _ (Some 0%Z)); [constructor|reflexivity].
  - reflexivity.
Qed.

(** * C22 *)
(** a symbol a merge may consist of: code points, no space *)
Definition symbol (s : str) : Prop := Forall (fun c => (c <= 1114111)%N) s /\ ~ In 32%N s.

Theorem C22_merges_file_round_trip :
  forall l ml, built l ml -> NoDup (map fst l) ->
  Forall (fun e => symbol (fst (fst e)) /\ symbol (snd (fst e)) /\ snd e <> None) l ->
  read_merges (dump_merges ml) None = Ok ml.
Proof.
  intros l ml Hb Hnd Hg. rewrite (built_ml_from l ml Hb Hnd). apply read_dump; [exact Hnd| |left; reflexivity].
  eapply Forall_impl; [|exact Hg]. intros e (H1 & H2 & H3). split; [exact H1|]. split; [exact H2|exact H3].
Qed.
Print Assumptions C22_merges_file_round_trip.

(** finding: merges without a frequency are written as "None" and cannot be read back *)
Theorem C22_no_frequency_refuted :
  exists ml, built [((lit "a", lit "b"), None)] ml /\ read_merges (dump_merges ml) None = Err ValueError.
Proof.
  exists (ml_from 0 [((lit "a", lit "b"), None)]). split; [|vm_compute; reflexivity].
  apply (built_append [] [] _ _ None); [constructor|reflexivity].
Qed.
Print Assumptions C22_no_frequency_refuted.

(** finding: a symbol containing a space is not read back *)
Theorem C22_space_in_symbol_refuted :
  exists ml, built [((lit "a b", lit "c"), Some 1%Z)] ml /\ read_merges (dump_merges ml) None <> Ok ml.
Proof.
  exists (ml_from 0 [((lit "a b", lit "c"), Some 1%Z)]). split.
  - apply (built_append [] [] _ _ None); [constructor|reflexivity].
  - vm_compute. discriminate.
Qed.
Print Assumptions C22_space_in_symbol_refuted.

Example C22_example :
  let ml := ml_from 0 [(([9; 10; 13]%N, [247; 8364; 92]%N), Some 12%Z); ((lit "@@", lit "t@"), Some (-1)%Z)] in
  read_merges (dump_merges ml) None = Ok ml.
Proof. vm_compute. reflexivity. Qed.

(** * C23 *)
Lemma appends_len ml ops ml' :
  NoDup (dkeys ml) -> appends ml ops = Ok ml' ->
  length ml' <= length ml + length ops /\
  (length ml' = length ml + length ops -> NoDup (dkeys ml ++ map (fun o => fst (fst o)) ops)).
Proof.
  revert ml; induction ops as [|[[p f] prio] ops IH]; intros ml Hnd H.
  - cbn in H. injection H as <-. simpl. split; [lia|]. intros _. rewrite app_nil_r. exact Hnd.
  - cbn [appends] in H. apply bind_ok in H. destruct H as (m1 & H1 & H2). cbn [fst snd] in H1.
    apply ml_append_inv in H1. destruct H1 as [_ ->].
    destruct (IH _ (dset_nodup _ _ _ Hnd) H2) as [Hle Heq]. cbn [map length fst].
    destruct (dget ml p) as [v|] eqn:E.
    + assert (Hp : In p (dkeys ml)) by (eapply dget_some_key; exact E).
      rewrite dset_length_present in Hle by exact Hp. split; [lia|]. intros Hl. lia.
    + rewrite dset_fresh in Hle, Heq by exact E. rewrite app_length in Hle, Heq. cbn [length] in Hle, Heq.
      split; [lia|]. intros Hl. specialize (Heq ltac:(lia)). unfold dkeys in Heq. rewrite map_app in Heq.
      cbn [map fst] in Heq. rewrite <- app_assoc in Heq. exact Heq.
Qed.

Lemma appends_read lines idx ml es ml' :
  mapM parse_file_entry lines = Ok es -> appends ml (entry_ops idx es) = Ok ml' ->
  read_merges_loop None idx ml lines = Ok ml'.
Proof.
  revert idx ml es; induction lines as [|line lines IH]; intros idx ml es He Ha.
  - cbn in He. injection He as <-. exact Ha.
  - cbn [mapM] in He. apply bind_ok in He. destruct He as ([p f] & He1 & He). apply bind_ok in He.
    destruct He as (es' & He2 & He). injection He as <-. cbn [entry_ops] in Ha. unfold entry_op in Ha.
    cbn [appends] in Ha. apply bind_ok in Ha. destruct Ha as (m1 & Ha1 & Ha2).
    cbn [read_merges_loop]. rewrite He1. cbn [bind fst snd]. rewrite Ha1. cbn [bind]. eauto.
Qed.

Lemma entry_ops_length i es : length (entry_ops i es) = length es.
Proof. revert i; induction es; intros i; simpl; congruence. Qed.
Lemma entry_ops_pairs i es : map fst (entry_ops i es) = es.
Proof. revert i; induction es; intros i; simpl; [|rewrite IHes]; reflexivity. Qed.
Lemma entry_ops_firstn n i es : firstn n (entry_ops i es) = entry_ops i (firstn n es).
Proof.
  revert n i; induction es as [|e es IH]; intros [|n] i; try reflexivity. simpl. rewrite IH. reflexivity.
Qed.
Lemma mapM_firstn {A B} (f : A -> res B) n l r : mapM f l = Ok r -> mapM f (firstn n l) = Ok (firstn n r).
Proof.
  revert n r; induction l as [|x l IH]; intros [|n] r H; try reflexivity.
  - cbn in H. injection H as <-. reflexivity.
  - cbn [mapM] in H. apply bind_ok in H. destruct H as (y & Hy & H). apply bind_ok in H.
    destruct H as (ys & Hys & H). injection H as <-. cbn [firstn mapM]. rewrite Hy, (IH _ _ Hys). reflexivity.
Qed.
Lemma appends_firstn n ml ops ml' : appends ml ops = Ok ml' -> exists m, appends ml (firstn n ops) = Ok m.
Proof.
  revert n ml; induction ops as [|[[p f] prio] ops IH]; intros [|n] ml H; try (eexists; reflexivity).
  cbn [appends] in H. apply bind_ok in H. destruct H as (m1 & H1 & H2).
  cbn [firstn appends]. rewrite H1. cbn [bind]. eauto.
Qed.
Lemma NoDup_firstn {A} n (l : list A) : NoDup l -> NoDup (firstn n l).
Proof. intros H. rewrite <- (firstn_skipn n l) in H. eapply NoDup_app_l; exact H. Qed.

(** whatever the file contains (hand-written files included), as long as it is readable and lists no pair twice *)
Theorem C23_prefix :
  forall content ml n,
  read_merges content None = Ok ml -> length ml = length (file_lines content) -> 0 < n ->
  read_merges content (Some n) = Ok (firstn n ml).
Proof.
  intros content ml n Hr Hlen Hn. unfold read_merges in *.
  rewrite read_loop_limit by lia. rewrite Nat.sub_0_r.
  destruct (read_loop_appends _ _ _ _ Hr) as (es & He & Ha).
  pose proof (mapM_length _ _ _ He) as HL.
  destruct (appends_len ml_empty (entry_ops 0 es) ml (NoDup_nil _) Ha) as [_ Hnd].
  rewrite entry_ops_length in Hnd. cbn [length ml_empty dkeys map app] in Hnd. specialize (Hnd ltac:(simpl; lia)).
  pose proof (appends_nodup [] (entry_ops 0 es) ml Hnd Ha) as ->.
  rewrite entry_ops_pairs. cbn [app].
  rewrite ml_from_firstn.
  destruct (appends_firstn n _ _ _ Ha) as [m Hm]. rewrite entry_ops_firstn in Hm.
  eapply appends_read; [apply mapM_firstn; exact He|]. rewrite Hm. f_equal.
  rewrite (appends_nodup [] (entry_ops 0 (firstn n es)) m).
  - rewrite entry_ops_pairs. reflexivity.
  - cbn [map app]. rewrite <- entry_ops_firstn, <- firstn_map. apply NoDup_firstn. exact Hnd.
  - exact Hm.
Qed.
Print Assumptions C23_prefix.

(** files written by the program satisfy the hypotheses *)
Theorem C23_prefix_of_dumped :
  forall l ml n, built l ml -> NoDup (map fst l) ->
  Forall (fun e => symbol (fst (fst e)) /\ symbol (snd (fst e)) /\ snd e <> None) l -> 0 < n ->
  read_merges (dump_merges ml) (Some n) = Ok (firstn n ml).
Proof.
  intros l ml n Hb Hnd Hg Hn. apply C23_prefix; [eapply C22_merges_file_round_trip; eassumption| |exact Hn].
  rewrite (built_ml_from l ml Hb Hnd), ml_from_length, dump_ml_from, lines_of_dump, map_length; [reflexivity|].
  eapply Forall_impl; [|exact Hg]. intros e (H1 & H2 & H3). split; [exact H1|]. split; [exact H2|exact H3].
Qed.
Print Assumptions C23_prefix_of_dumped.

(** finding: asking for the first 0 merges reads the whole file, whatever is in it *)
Theorem C23_zero_refuted :
  (forall content, read_merges content (Some 0) = read_merges content None) /\
  exists content ml, read_merges content (Some 0) = Ok ml /\ ml <> [] /\ firstn 0 ml <> ml.
Proof.
  split.
  - intros content. unfold read_merges.
    assert (K : forall l i ml, read_merges_loop (Some 0) i ml l = read_merges_loop None i ml l); [|apply K].
    induction l as [|x l IH]; intros i ml; [reflexivity|].
    cbn [read_merges_loop]. destruct (parse_file_entry x) as [e|]; cbn [bind]; [|reflexivity].
    destruct (ml_append ml (fst e) (snd e) (Some (Z.of_nat i))) as [ml'|]; cbn [bind]; [apply IH|reflexivity].
  - exists (lit "a b 3" ++ [10%N]), (ml_from 0 [((lit "a", lit "b"), Some 3%Z)]).
    repeat split; vm_compute; congruence.
Qed.
Print Assumptions C23_zero_refuted.

(** finding: a file whose last line repeats a pair is accepted, and reading a prefix of it is not a prefix of
    reading it whole *)
Theorem C23_duplicate_line_refuted :
  exists content ml m, read_merges content None = Ok ml /\ read_merges content (Some 2) = Ok m /\
                       length ml = 2 /\ m <> firstn 2 ml.
Proof.
  exists (lit "a b 3" ++ [10%N] ++ lit "c d 2" ++ [10%N] ++ lit "a b 1" ++ [10%N]).
  eexists. eexists. split; [vm_compute; reflexivity|]. split; [vm_compute; reflexivity|].
  split; [reflexivity|]. vm_compute. congruence.
Qed.
Print Assumptions C23_duplicate_line_refuted.

Example C23_example :
  let content := lit "a b 3" ++ [10%N] ++ lit "ab \xf7" ++ [10%N] ++ lit "c d 1" ++ [10%N] in
  exists ml, read_merges content None = Ok ml /\ length ml = length (file_lines content) /\
             read_merges content (Some 2) = Ok (firstn 2 ml) /\ length ml = 3.
Proof. eexists. split; [vm_compute; reflexivity|]. vm_compute. repeat split; reflexivity. Qed.

(** * C24 *)
(** what the program puts in a cache: words and non-empty lists of subwords, no spaces in subwords *)
Definition cacheable (kv : str * list str) : Prop :=
  Forall (fun c => (c <= 1114111)%N) (fst kv) /\ snd kv <> [] /\ Forall symbol (snd kv).

Theorem C24_cache_round_trip :
  forall c : bpe_cache, NoDup (map fst c) -> Forall cacheable c -> read_bpe_cache (dump_bpe_cache c) = Ok c.
Proof.
  intros c Hnd Hc. apply read_dump_cache; [exact Hnd|]. eapply Forall_impl; [|exact Hc].
  intros kv (H1 & H2 & H3). repeat split; try assumption.
Qed.
Print Assumptions C24_cache_round_trip.

Example C24_example :
  let c := [(lit "ab@", [lit "a"; lit "b@"]); ([9; 160; 10]%N, [[9%N]; [160; 10]%N]); ([32%N; 64%N], [lit "@"])] in
  read_bpe_cache (dump_bpe_cache c) = Ok c.
Proof. vm_compute. reflexivity. Qed.
