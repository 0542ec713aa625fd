(** Lemmas on merge lists, merges files and cache files. *)
From Verif Require Import M_Base L_Base M_Literal L_Literal M_Merge.
From Coq Require Import Arith.

(** The merge list that holds the given entries in order, starting with priority [i] *)
Fixpoint ml_from (i : nat) (l : list (pair * option Z)) : merge_list :=
  match l with
  | [] => []
  | (p, f) :: t => (p, {| m_pair := p; m_freq := f; m_priority := i |}) :: ml_from (S i) t
  end.

Lemma ml_from_app i a b : ml_from i (a ++ b) = ml_from i a ++ ml_from (i + length a) b.
Proof.
  revert i; induction a as [|[p f] a IH]; intros i; simpl; [f_equal; lia|].
  rewrite IH. do 3 f_equal. lia.
Qed.

Lemma ml_from_length i l : length (ml_from i l) = length l.
Proof. revert i; induction l as [|[p f] l IH]; intros i; simpl; [reflexivity|]. rewrite IH. reflexivity. Qed.

Lemma ml_from_keys i l : dkeys (ml_from i l) = map fst l.
Proof.
  unfold dkeys. revert i; induction l as [|[p f] l IH]; intros i; simpl; [reflexivity|]. rewrite IH. reflexivity.
Qed.

Lemma ml_from_iter_pairs i l : map (fun m => (m_pair m, m_freq m)) (ml_iter (ml_from i l)) = l.
Proof.
  unfold ml_iter, dvals. revert i; induction l as [|[p f] l IH]; intros i; simpl; [reflexivity|].
  rewrite IH. reflexivity.
Qed.

Lemma ml_from_priorities i l : map m_priority (ml_iter (ml_from i l)) = seq i (length l).
Proof.
  unfold ml_iter, dvals. revert i; induction l as [|[p f] l IH]; intros i; simpl; [reflexivity|].
  rewrite IH. reflexivity.
Qed.

Lemma ml_from_get i l k p f :
  NoDup (map fst l) -> nth_error l k = Some (p, f) ->
  dget (ml_from i l) p = Some {| m_pair := p; m_freq := f; m_priority := i + k |}.
Proof.
  revert i k; induction l as [|[q g] l IH]; intros i k Hnd Hk; [destruct k; discriminate|].
  simpl in Hnd. inversion Hnd as [|? ? Hni Hnd']; subst. simpl.
  destruct k as [|k]; simpl in Hk.
  - injection Hk as -> ->. rewrite eqb_refl. do 2 f_equal. lia.
  - destruct (eqb_spec p q) as [->|Hne].
    + exfalso. apply Hni. apply nth_error_In in Hk. apply (in_map fst) in Hk. exact Hk.
    + rewrite (IH (S i) k Hnd' Hk). do 2 f_equal. lia.
Qed.

Lemma ml_append_fresh l p f prio :
  ~ In p (map fst l) -> prio = None \/ prio = Some (Z.of_nat (length l)) ->
  ml_append (ml_from 0 l) p f prio = Ok (ml_from 0 (l ++ [(p, f)])).
Proof.
  intros Hp Hprio. unfold ml_append. rewrite ml_from_length.
  assert (E : dset (ml_from 0 l) p {| m_pair := p; m_freq := f; m_priority := length l |}
              = ml_from 0 (l ++ [(p, f)])).
  { rewrite dset_fresh; [rewrite ml_from_app; reflexivity|].
    apply dget_none. rewrite ml_from_keys. exact Hp. }
  destruct Hprio as [->| ->].
  - rewrite E. reflexivity.
  - rewrite Z.eqb_refl, E. reflexivity.
Qed.

Lemma ml_append_inv ml p f prio ml' :
  ml_append ml p f prio = Ok ml' ->
  (prio = None \/ prio = Some (Z.of_nat (length ml))) /\
  ml' = dset ml p {| m_pair := p; m_freq := f; m_priority := length ml |}.
Proof.
  unfold ml_append. destruct prio as [z|].
  - destruct (Z.eqb_spec z (Z.of_nat (length ml))) as [->|]; [|discriminate].
    intros E; injection E as <-. auto.
  - intros E; injection E as <-. auto.
Qed.

(** ** Sequences of appends *)
Fixpoint appends (ml : merge_list) (ops : list (pair * option Z * option Z)) : res merge_list :=
  match ops with
  | [] => Ok ml
  | (p, f, prio) :: t => ml' <- ml_append ml p f prio ;; appends ml' t
  end.

Lemma appends_nodup l ops ml' :
  NoDup (map fst l ++ map (fun o => fst (fst o)) ops) ->
  appends (ml_from 0 l) ops = Ok ml' ->
  ml' = ml_from 0 (l ++ map fst ops).
Proof.
  revert l; induction ops as [|[[p f] prio] ops IH]; intros l Hnd H; simpl in H.
  - injection H as <-. simpl. rewrite app_nil_r. reflexivity.
  - apply bind_ok in H. destruct H as (m1 & H1 & H2).
    pose proof (ml_append_inv _ _ _ _ _ H1) as [Hprio _]. rewrite ml_from_length in Hprio.
    rewrite ml_append_fresh in H1.
    2:{ simpl in Hnd. apply NoDup_remove_2 in Hnd. intros Hin; apply Hnd, in_or_app; left; exact Hin. }
    2:{ exact Hprio. }
    injection H1 as <-. apply IH in H2.
    + rewrite H2, <- app_assoc. reflexivity.
    + rewrite map_app, <- app_assoc. exact Hnd.
Qed.

Lemma ml_add_loop_ml_from l1 l2 k :
  NoDup (map fst l1 ++ map fst l2) -> length l1 = k + 0 + (length l1 - k) -> k <= length l1 ->
  ml_add_loop k (ml_from 0 l1) (ml_iter (ml_from (length l1 - k) l2)) = Ok (ml_from 0 (l1 ++ l2)).
Proof.
  revert l1 k; induction l2 as [|[p f] l2 IH]; intros l1 k Hnd _ Hk.
  - simpl. rewrite app_nil_r. reflexivity.
  - change (ml_iter (ml_from (length l1 - k) ((p, f) :: l2)))
      with ({| m_pair := p; m_freq := f; m_priority := length l1 - k |} :: ml_iter (ml_from (S (length l1 - k)) l2)).
    cbn [ml_add_loop m_pair m_freq m_priority].
    rewrite ml_append_fresh.
    2:{ simpl in Hnd. apply NoDup_remove_2 in Hnd. intros Hin; apply Hnd, in_or_app; left; exact Hin. }
    2:{ right. f_equal. lia. }
    cbn [bind].
    assert (HL : length (l1 ++ [(p, f)]) = S (length l1)) by (rewrite app_length; simpl; lia).
    replace (S (length l1 - k)) with (length (l1 ++ [(p, f)]) - k) by lia.
    rewrite IH.
    + rewrite <- app_assoc. reflexivity.
    + rewrite map_app, <- app_assoc. exact Hnd.
    + lia.
    + lia.
Qed.

Lemma ml_add_ml_from l1 l2 :
  NoDup (map fst l1 ++ map fst l2) -> ml_add (ml_from 0 l1) (ml_from 0 l2) = Ok (ml_from 0 (l1 ++ l2)).
Proof.
  intros Hnd. unfold ml_add. rewrite ml_from_length.
  pose proof (ml_add_loop_ml_from l1 l2 (length l1) Hnd ltac:(lia) ltac:(lia)) as H.
  rewrite Nat.sub_diag in H. exact H.
Qed.

(** successful appends with explicit consecutive priorities: only the last pair may be a repetition *)
Lemma dset_length_present {V} (d : dict pair V) k v : In k (dkeys d) -> length (dset d k v) = length d.
Proof.
  intros Hin. pose proof (dkeys_dset d k v) as E. unfold dmem in E.
  destruct (dkeys_in_dget d k Hin) as [x Hx]. rewrite Hx in E.
  apply (f_equal (@length _)) in E. unfold dkeys in E. rewrite !map_length in E. exact E.
Qed.

Lemma appends_explicit l ops i ml' :
  NoDup (map fst l) -> i = length l ->
  (forall k, k < length ops -> option_map snd (nth_error ops k) = Some (Some (Z.of_nat (i + k)))) ->
  appends (ml_from 0 l) ops = Ok ml' ->
  NoDup (map fst l ++ removelast (map (fun o => fst (fst o)) ops)).
Proof.
  revert l i; induction ops as [|[[p f] prio] ops IH]; intros l i Hnd Hi Hops H.
  - simpl. rewrite app_nil_r. exact Hnd.
  - simpl in H. apply bind_ok in H. destruct H as (m1 & H1 & H2).
    destruct ops as [|[[p2 f2] prio2] ops]; [simpl; rewrite app_nil_r; exact Hnd|].
    assert (Hp : ~ In p (map fst l)).
    { intros Hin. apply ml_append_inv in H1. destruct H1 as [_ E1].
      simpl in H2. apply bind_ok in H2. destruct H2 as (m2 & H2 & _).
      apply ml_append_inv in H2. destruct H2 as [Hq _].
      specialize (Hops 1 ltac:(simpl; lia)). simpl in Hops. injection Hops as Hops.
      assert (HL : length m1 = length l).
      { rewrite E1, dset_length_present by (rewrite ml_from_keys; exact Hin). apply ml_from_length. }
      destruct Hq as [Hq|Hq]; rewrite Hq in Hops; [discriminate|]. injection Hops as Hops.
      rewrite HL in Hops. lia. }
    assert (E1 : m1 = ml_from 0 (l ++ [(p, f)])).
    { pose proof (ml_append_inv _ _ _ _ _ H1) as [Hprio _]. rewrite ml_from_length in Hprio.
      rewrite ml_append_fresh in H1 by assumption. congruence. }
    rewrite E1 in H2.
    change (removelast (map (fun o => fst (fst o)) ((p, f, prio) :: (p2, f2, prio2) :: ops)))
      with (p :: removelast (map (fun o : pair * option Z * option Z => fst (fst o)) ((p2, f2, prio2) :: ops))).
    specialize (IH (l ++ [(p, f)]) (S i)).
    rewrite map_app, <- app_assoc in IH. apply IH; [| | |exact H2].
    + simpl. apply NoDup_rev in Hnd. rewrite <- (rev_involutive (map fst l ++ [p])). apply NoDup_rev.
      rewrite rev_app_distr. constructor; [rewrite <- in_rev; exact Hp|exact Hnd].
    + rewrite app_length. simpl. lia.
    + intros k Hk. specialize (Hops (S k) ltac:(simpl in *; lia)). simpl in Hops. simpl.
      rewrite Hops. do 3 f_equal. lia.
Qed.

(** ** Merges files *)
Definition good_sym (s : str) : Prop := valid_str s /\ no_char 32%N s.
Definition good_entry (e : pair * option Z) : Prop :=
  good_sym (fst (fst e)) /\ good_sym (snd (fst e)) /\ snd e <> None.

Lemma valid_app a b : valid_str a -> valid_str b -> valid_str (a ++ b).
Proof. unfold valid_str. intros. apply Forall_app; auto. Qed.

Lemma join2 a b : join (lit " ") [a; b] = a ++ lit " " ++ b.
Proof. reflexivity. Qed.

Lemma valid_lit_space : valid_str (lit " ").
Proof. unfold valid_str. simpl. repeat constructor. lia. Qed.

Lemma parse_merge_line a b z :
  good_sym a -> good_sym b ->
  parse_file_entry (to_literal_str (join (lit " ") [a; b]) ++ lit " " ++ decZ z) = Ok ((a, b), Some z).
Proof.
  intros [Va Na] [Vb Nb]. unfold parse_file_entry, to_non_literal_str.
  rewrite join2.
  set (p := lit " " ++ decZ z).
  assert (Pp : Forall printable p).
  { unfold p. apply Forall_app. split; [repeat constructor; unfold printable; simpl; lia|apply decZ_printable]. }
  assert (P92 : no_char 92 p).
  { unfold p. intros Hin. apply in_app_or in Hin. destruct Hin as [Hin|Hin].
    - simpl in Hin. destruct Hin as [Hin|[]]. discriminate.
    - revert Hin. apply decZ_no_char. reflexivity. }
  rewrite utf8_ascii.
  2:{ apply printable_ascii, Forall_app. split; [apply literal_printable|exact Pp]. }
  cbn [bind]. rewrite unescape_plain_app.
  2:{ apply valid_app; [exact Va|apply valid_app; [apply valid_lit_space|exact Vb]]. }
  2:{ exact Pp. }
  2:{ exact P92. }
  cbn [bind].
  assert (E : split_on 32 ((a ++ lit " " ++ b) ++ p) = [a; b; decZ z]).
  { unfold p. replace ((a ++ lit " " ++ b) ++ lit " " ++ decZ z) with (join [32%N] [a; b; decZ z])
      by (cbn [join lit]; change (N_of_ascii " ") with 32%N; rewrite <- !app_assoc; reflexivity).
    apply split_join; [congruence|]. repeat constructor; try assumption. apply decZ_no_char. reflexivity. }
  rewrite E. rewrite parse_int_decZ. reflexivity.
Qed.

Definition entry_line (e : pair * option Z) : str :=
  to_literal_str (join (lit " ") [fst (fst e); snd (fst e)]) ++ lit " " ++ freq_str (snd e).

Lemma dump_ml_from i l : dump_merges (ml_from i l) = write_lines (map entry_line l).
Proof.
  unfold dump_merges. f_equal. unfold ml_iter, dvals.
  revert i; induction l as [|[[a b] f] l IH]; intros i; [reflexivity|].
  cbn [ml_from map snd]. rewrite (IH (S i)). reflexivity.
Qed.

Lemma entry_line_printable e : snd e <> None -> Forall printable (entry_line e).
Proof.
  intros Hf. unfold entry_line. apply Forall_app. split; [apply literal_printable|].
  apply Forall_app. split; [repeat constructor; unfold printable; simpl; lia|].
  destruct (snd e); [apply decZ_printable|congruence].
Qed.

Lemma lines_of_dump l : Forall good_entry l -> file_lines (write_lines (map entry_line l)) = map entry_line l.
Proof.
  intros Hg. apply file_lines_write; apply Forall_map; (eapply Forall_impl; [|exact Hg]);
    intros e (_ & _ & He); apply printable_no_char; try (unfold printable; lia); apply entry_line_printable, He.
Qed.

Lemma read_loop_zero lines idx ml :
  read_merges_loop (Some 0) idx ml lines = read_merges_loop None idx ml lines.
Proof.
  revert idx ml; induction lines as [|line t IH]; intros idx ml; [reflexivity|].
  cbn [read_merges_loop].
  destruct (parse_file_entry line) as [e|]; [|reflexivity]. cbn [bind].
  destruct (ml_append ml (fst e) (snd e) (Some (Z.of_nat idx))); [|reflexivity]. cbn [bind]. apply IH.
Qed.

Lemma read_loop_good l1 l2 :
  NoDup (map fst (l1 ++ l2)) -> Forall good_entry l2 ->
  read_merges_loop None (length l1) (ml_from 0 l1) (map entry_line l2) = Ok (ml_from 0 (l1 ++ l2)).
Proof.
  revert l1; induction l2 as [|[[a b] f] l2 IH]; intros l1 Hnd Hg.
  - simpl. rewrite app_nil_r. reflexivity.
  - inversion Hg as [|? ? (Ga & Gb & Gf) Hg']; subst. destruct f as [z|]; [|simpl in Gf; congruence].
    cbn [map read_merges_loop].
    unfold entry_line at 1. cbn [fst snd freq_str].
    rewrite parse_merge_line by assumption. cbn [bind fst snd].
    rewrite ml_append_fresh.
    2:{ rewrite map_app in Hnd. simpl in Hnd. apply NoDup_remove_2 in Hnd.
        intros Hin; apply Hnd, in_or_app; left; exact Hin. }
    2:{ right; reflexivity. }
    cbn [bind].
    replace (S (length l1)) with (length (l1 ++ [((a, b), Some z)])) by (rewrite app_length; simpl; lia).
    rewrite IH; [rewrite <- app_assoc; reflexivity| |exact Hg'].
    rewrite <- app_assoc. exact Hnd.
Qed.

Lemma read_dump l n :
  NoDup (map fst l) -> Forall good_entry l -> n = None \/ n = Some 0 ->
  read_merges (dump_merges (ml_from 0 l)) n = Ok (ml_from 0 l).
Proof.
  intros Hnd Hg Hn. unfold read_merges. rewrite dump_ml_from, lines_of_dump by exact Hg.
  destruct Hn as [->| ->]; [|rewrite read_loop_zero]; apply (read_loop_good [] l Hnd Hg).
Qed.

(** reading with a limit reads a prefix of the lines *)
Lemma read_loop_limit n lines idx ml :
  n <> 0 ->
  read_merges_loop (Some n) idx ml lines = read_merges_loop None idx ml (firstn (n - idx) lines).
Proof.
  intros Hn. revert idx ml; induction lines as [|line t IH]; intros idx ml.
  - rewrite firstn_nil. reflexivity.
  - cbn [read_merges_loop]. destruct n as [|n]; [congruence|].
    destruct (Nat.leb_spec (S n) idx) as [Hle|Hgt].
    + replace (S n - idx) with 0 by lia. reflexivity.
    + replace (S n - idx) with (S (S n - S idx)) by lia. cbn [firstn read_merges_loop].
      destruct (parse_file_entry line) as [e|]; [|reflexivity]. cbn [bind].
      destruct (ml_append ml (fst e) (snd e) (Some (Z.of_nat idx))); [|reflexivity]. cbn [bind]. apply IH.
Qed.

(** the loop as a sequence of appends *)
Definition entry_op (i : nat) (e : pair * option Z) : pair * option Z * option Z := (e, Some (Z.of_nat i)).
Fixpoint entry_ops (i : nat) (es : list (pair * option Z)) :=
  match es with [] => [] | e :: t => entry_op i e :: entry_ops (S i) t end.

Lemma read_loop_appends lines idx ml ml' :
  read_merges_loop None idx ml lines = Ok ml' ->
  exists es, mapM parse_file_entry lines = Ok es /\ appends ml (entry_ops idx es) = Ok ml'.
Proof.
  revert idx ml; induction lines as [|line t IH]; intros idx ml H.
  - exists []. split; [reflexivity|exact H].
  - cbn [read_merges_loop] in H. apply bind_ok in H. destruct H as (e & He & H).
    apply bind_ok in H. destruct H as (m1 & Hm & H). apply IH in H. destruct H as (es & Hes & Ha).
    exists (e :: es). split.
    + cbn [mapM]. rewrite He. cbn [bind]. rewrite Hes. reflexivity.
    + cbn [entry_ops appends entry_op]. destruct e as [p f]. unfold entry_op. cbn [appends].
      cbn [fst snd] in Hm. rewrite Hm. exact Ha.
Qed.

Lemma appends_app ml o1 o2 :
  appends ml (o1 ++ o2) = bind (appends ml o1) (fun m => appends m o2).
Proof.
  revert ml; induction o1 as [|[[p f] q] o1 IH]; intros ml; [reflexivity|].
  cbn [app appends]. destruct (ml_append ml p f q); [apply IH|reflexivity].
Qed.

Lemma entry_ops_app i a b : entry_ops i (a ++ b) = entry_ops i a ++ entry_ops (i + length a) b.
Proof.
  revert i; induction a as [|e a IH]; intros i; simpl; [f_equal; lia|].
  rewrite IH. do 2 f_equal. f_equal. lia.
Qed.

Lemma mapM_app {A B} (f : A -> res B) a b :
  mapM f (a ++ b) = bind (mapM f a) (fun x => bind (mapM f b) (fun y => Ok (x ++ y))).
Proof.
  induction a as [|x a IH]; simpl; [destruct (mapM f b); reflexivity|].
  destruct (f x); [|reflexivity]. cbn [bind]. rewrite IH.
  destruct (mapM f a); [|reflexivity]. cbn [bind]. destruct (mapM f b); reflexivity.
Qed.

Lemma mapM_length {A B} (f : A -> res B) l r : mapM f l = Ok r -> length r = length l.
Proof.
  revert r; induction l as [|x l IH]; intros r; simpl.
  - intros E; injection E as <-. reflexivity.
  - intros H. apply bind_ok in H. destruct H as (y & Hy & H). apply bind_ok in H. destruct H as (ys & Hys & H).
    injection H as <-. simpl. f_equal. auto.
Qed.

Lemma mapM_nth {A B} (f : A -> res B) l r i x :
  mapM f l = Ok r -> nth_error l i = Some x -> exists y, nth_error r i = Some y /\ f x = Ok y.
Proof.
  revert r i; induction l as [|a l IH]; intros r i H Hi; [destruct i; discriminate|].
  cbn [mapM] in H. apply bind_ok in H. destruct H as (y & Hy & H). apply bind_ok in H. destruct H as (ys & Hys & H).
  injection H as <-. destruct i as [|i]; simpl in *; [exists y; split; congruence|eauto].
Qed.

Lemma ml_from_firstn n i l : firstn n (ml_from i l) = ml_from i (firstn n l).
Proof.
  revert n i; induction l as [|[p f] l IH]; intros n i; [rewrite !firstn_nil; reflexivity|].
  destruct n; simpl; [reflexivity|]. rewrite IH. reflexivity.
Qed.

(** ** Cache files *)
Definition good_cache_entry (kv : str * list str) : Prop :=
  valid_str (fst kv) /\ snd kv <> [] /\ Forall good_sym (snd kv).

Definition cache_line (kv : str * list str) : str :=
  to_literal_str (fst kv) ++ [9%N] ++ to_literal_str (join (lit " ") (snd kv)).

Lemma valid_join l : Forall valid_str l -> valid_str (join (lit " ") l).
Proof.
  induction 1 as [|x l Hx Hl IH]; [constructor|].
  destruct l as [|y l]; [exact Hx|].
  rewrite join_cons by congruence. apply valid_app; [exact Hx|apply valid_app; [apply valid_lit_space|exact IH]].
Qed.

Lemma read_cache_loop_good l1 l2 :
  NoDup (dkeys (l1 ++ l2)) -> Forall good_cache_entry l2 ->
  read_bpe_cache_loop l1 (map cache_line l2) = Ok (l1 ++ l2).
Proof.
  revert l1; induction l2 as [|[k v] l2 IH]; intros l1 Hnd Hg.
  - simpl. rewrite app_nil_r. reflexivity.
  - inversion Hg as [|? ? (Vk & Nv & Gv) Hg']; subst. cbn [fst snd] in *.
    cbn [map read_bpe_cache_loop]. unfold cache_line at 1. cbn [fst snd].
    assert (E : split_on 9 (to_literal_str k ++ [9%N] ++ to_literal_str (join (lit " ") v))
                = [to_literal_str k; to_literal_str (join (lit " ") v)]).
    { cbn [app]. rewrite split_on_app_sep, !split_on_no_char by (apply literal_no_char; unfold printable; lia).
      reflexivity. }
    rewrite E. rewrite non_literal_literal.
    2:{ apply valid_join. eapply Forall_impl; [|exact Gv]. intros a [Ha _]. exact Ha. }
    cbn [bind]. rewrite non_literal_literal by exact Vk. cbn [bind].
    assert (Es : split_on 32 (join (lit " ") v) = v).
    { change (lit " ") with [32%N]. apply split_join; [exact Nv|]. eapply Forall_impl; [|exact Gv].
      intros a [_ Ha]. exact Ha. }
    rewrite Es. rewrite dset_fresh.
    + change ((k, v) :: l2) with ([(k, v)] ++ l2). rewrite app_assoc. apply IH; [|exact Hg'].
      rewrite <- app_assoc. exact Hnd.
    + apply dget_none. unfold dkeys in *. rewrite map_app in Hnd. simpl in Hnd. apply NoDup_remove_2 in Hnd.
      intros Hin; apply Hnd, in_or_app; left; exact Hin.
Qed.

Lemma cache_line_printable_nl kv c : c <> 9%N -> ~ printable c -> no_char c (cache_line kv).
Proof.
  intros H9 Hp. unfold cache_line, no_char. rewrite !in_app_iff. intros [H|[[H|[]]|H]].
  - revert H. apply literal_no_char, Hp.
  - congruence.
  - revert H. apply literal_no_char, Hp.
Qed.

Lemma read_dump_cache c :
  NoDup (dkeys c) -> Forall good_cache_entry c -> read_bpe_cache (dump_bpe_cache c) = Ok c.
Proof.
  intros Hnd Hg. unfold read_bpe_cache, dump_bpe_cache.
  change (map _ c) with (map cache_line c).
  rewrite file_lines_write.
  - apply (read_cache_loop_good [] c Hnd Hg).
  - apply Forall_map. rewrite Forall_forall. intros. apply cache_line_printable_nl; [lia|unfold printable; lia].
  - apply Forall_map. rewrite Forall_forall. intros. apply cache_line_printable_nl; [lia|unfold printable; lia].
Qed.
