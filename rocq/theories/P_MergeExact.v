(** C21, C23 — exactly which lists of merges keep their order, and which files of merges can be read *)
From Coq Require Import String List NArith ZArith Lia Arith.
From Verif Require Import M_Base L_Base M_Literal L_Literal M_Merge L_Merge P_Merge.
Import ListNotations.

(** ** Which merges files can be read *)

Lemma loop_of_entries lines idx ml es :
  mapM parse_file_entry lines = Ok es ->
  read_merges_loop None idx ml lines = appends ml (entry_ops idx es).
Proof.
  revert idx ml es; induction lines as [|x l IH]; intros idx ml es H.
  - injection H as <-. reflexivity.
  - cbn [mapM] in H. apply bind_ok in H. destruct H as (e & He & H). apply bind_ok in H.
    destruct H as (es' & Hes & H). injection H as <-.
    cbn [read_merges_loop]. rewrite He. cbn [bind entry_ops]. unfold entry_op at 1. destruct e as [p f].
    cbn [appends fst snd]. destruct (ml_append ml p f (Some (Z.of_nat idx))); [|reflexivity].
    cbn [bind]. apply IH, Hes.
Qed.

Lemma entry_ops_firsts i es : map (fun o => fst (fst o)) (entry_ops i es) = map fst es.
Proof. revert i; induction es as [|e es IH]; intros i; [reflexivity|]. simpl. f_equal. apply IH. Qed.

Lemma entry_ops_prio i es k :
  k < length (entry_ops i es) -> option_map snd (nth_error (entry_ops i es) k) = Some (Some (Z.of_nat (i + k))).
Proof.
  revert i k; induction es as [|e es IH]; intros i k Hk; [simpl in Hk; lia|].
  destruct k as [|k]; simpl.
  - do 3 f_equal. lia.
  - rewrite IH by (simpl in Hk; lia). do 3 f_equal. lia.
Qed.

Lemma map_removelast {A B} (f : A -> B) l : map f (removelast l) = removelast (map f l).
Proof.
  induction l as [|x l IH]; [reflexivity|]. destruct l; [reflexivity|].
  change (removelast (x :: a :: l)) with (x :: removelast (a :: l)).
  cbn [map]. rewrite IH. reflexivity.
Qed.

(** appending entries with pairs that are all different gives the list of them *)
Lemma appends_fresh l es :
  NoDup (map fst (l ++ es)) -> appends (ml_from 0 l) (entry_ops (length l) es) = Ok (ml_from 0 (l ++ es)).
Proof.
  revert l; induction es as [|[p f] es IH]; intros l Hnd.
  - rewrite app_nil_r. reflexivity.
  - cbn [entry_ops]. unfold entry_op. cbn [appends].
    rewrite ml_append_fresh.
    + cbn [bind]. replace (S (length l)) with (length (l ++ [(p, f)])) by (rewrite app_length; simpl; lia).
      rewrite IH; [rewrite <- app_assoc; reflexivity|]. rewrite <- app_assoc. exact Hnd.
    + rewrite map_app in Hnd. cbn [map fst] in Hnd. apply NoDup_remove_2 in Hnd. intros Hin. apply Hnd, in_or_app.
      left. exact Hin.
    + right. reflexivity.
Qed.

(** all entries but the last, then the last *)
Lemma appends_last es e :
  NoDup (map fst es) ->
  appends ml_empty (entry_ops 0 (es ++ [e]))
  = Ok (dset (ml_from 0 es) (fst e) {| m_pair := fst e; m_freq := snd e; m_priority := length es |}).
Proof.
  intros Hnd. rewrite entry_ops_app, appends_app.
  assert (E : appends ml_empty (entry_ops 0 es) = Ok (ml_from 0 es)) by (apply (appends_fresh [] es); exact Hnd).
  rewrite E. cbn [bind Nat.add]. destruct e as [p f]. cbn [entry_ops]. unfold entry_op. cbn [appends].
  unfold ml_append. rewrite ml_from_length. cbn [fst snd].
  rewrite ?Z.eqb_refl. cbn. reflexivity.
Qed.

(** a merges file can be read exactly if every line of it can be, and no pair is repeated before the last line: the
    line that follows a repeated pair is refused *)
Theorem C23_accepts :
  forall content,
  (exists ml, read_merges content None = Ok ml) <->
  exists es, mapM parse_file_entry (file_lines content) = Ok es /\ NoDup (map fst (removelast es)).
Proof.
  intros content. unfold read_merges. split.
  - intros (ml & H). destruct (read_loop_appends _ _ _ _ H) as (es & He & Ha). exists es. split; [exact He|].
    rewrite map_removelast, <- (entry_ops_firsts 0 es).
    apply (appends_explicit [] (entry_ops 0 es) 0 ml); [constructor|reflexivity| |exact Ha].
    intros k Hk. apply entry_ops_prio, Hk.
  - intros (es & He & Hnd). rewrite (loop_of_entries _ 0 ml_empty es He).
    destruct es as [|e0 es0]; [eexists; reflexivity|].
    rewrite (app_removelast_last e0 (l := e0 :: es0)) by discriminate.
    rewrite appends_last by exact Hnd. eexists; reflexivity.
Qed.
Print Assumptions C23_accepts.

Lemma firstn_dset_fresh {V} n (m : dict pair V) k v :
  n <= length m -> ~ In k (dkeys (firstn n m)) -> firstn n (dset m k v) = firstn n m.
Proof.
  revert n; induction m as [|[k' v'] m IH]; intros n Hn Hk; [simpl in Hn; assert (n = 0) by lia; subst; reflexivity|].
  destruct n as [|n]; [reflexivity|]. cbn [dset].
  destruct (eqb_spec k k') as [->|E].
  - exfalso. apply Hk. left. reflexivity.
  - cbn [firstn]. f_equal. apply IH; [simpl in Hn; lia|]. intros H. apply Hk. right. exact H.
Qed.

Lemma firstn_dset_present {V} n (m : dict pair V) k v :
  In k (dkeys (firstn n m)) -> dget (firstn n (dset m k v)) k = Some v.
Proof.
  revert n; induction m as [|[k' v'] m IH]; intros n Hk; [rewrite firstn_nil in Hk; destruct Hk|].
  destruct n as [|n]; [destruct Hk|]. cbn [dset].
  destruct (eqb_spec k k') as [->|E].
  - cbn [firstn dget]. rewrite eqb_refl. reflexivity.
  - cbn [firstn dget]. destruct (eqb_spec k k') as [E'|_]; [contradiction|]. apply IH.
    destruct Hk as [Hk|Hk]; [simpl in Hk; congruence|exact Hk].
Qed.

(** of a file that can be read, the first [n > 0] merges are the ones that one gets by reading it all, exactly unless
    the pair of the last line stands also in one of the first [n] lines (and the last line is not one of them) *)
Theorem C23_prefix_exact :
  forall content ml es n,
  read_merges content None = Ok ml -> mapM parse_file_entry (file_lines content) = Ok es -> 0 < n ->
  read_merges content (Some n) = Ok (firstn n ml) <->
  (length es <= n \/ forall p, option_map fst (nth_error es (length es - 1)) = Some p ->
                               ~ In p (map fst (firstn n es))).
Proof.
  intros content ml es n Hr He Hn.
  assert (Hacc : NoDup (map fst (removelast es))).
  { destruct (proj1 (C23_accepts content) (ex_intro _ ml Hr)) as (es' & He' & Hnd).
    rewrite He in He'. injection He' as <-. exact Hnd. }
  unfold read_merges in *. rewrite read_loop_limit by lia. rewrite Nat.sub_0_r.
  assert (HfE : mapM parse_file_entry (firstn n (file_lines content)) = Ok (firstn n es)).
  { revert He. clear. generalize (file_lines content). intros l. revert n es.
    induction l as [|x l IH]; intros n es H; [injection H as <-; rewrite !firstn_nil; reflexivity|].
    cbn [mapM] in H. apply bind_ok in H. destruct H as (e & He & H). apply bind_ok in H.
    destruct H as (es' & Hes & H). injection H as <-. destruct n as [|n]; [reflexivity|].
    cbn [firstn mapM]. rewrite He. cbn [bind]. rewrite (IH n es' Hes). reflexivity. }
  rewrite (loop_of_entries _ 0 ml_empty _ HfE). rewrite (loop_of_entries _ 0 ml_empty _ He) in Hr.
  destruct (le_lt_dec (length es) n) as [Hle|Hlt].
  - split; [left; exact Hle|]. intros _. rewrite (firstn_all2 es) by exact Hle. rewrite Hr. f_equal. symmetry.
    apply firstn_all2.
    pose proof (appends_len ml_empty (entry_ops 0 es) ml (NoDup_nil _) Hr) as [HL _].
    rewrite entry_ops_length in HL. simpl in HL. lia.
  - destruct es as [|e0 es0]; [simpl in Hlt; lia|].
    destruct (exists_last (l := e0 :: es0) ltac:(discriminate)) as (es' & e & E). rewrite E in *. clear E e0 es0.
    rewrite removelast_last in Hacc. rewrite app_length in Hlt. cbn [length] in Hlt.
    rewrite appends_last in Hr by exact Hacc. injection Hr as <-.
    rewrite app_length. cbn [length]. replace (length es' + 1 - 1) with (length es') by lia.
    rewrite nth_error_app2, Nat.sub_diag by lia. cbn [nth_error option_map].
    rewrite firstn_app. replace (n - length es') with 0 by lia. cbn [firstn]. rewrite app_nil_r.
    assert (Hnd' : NoDup (map fst (firstn n es'))).
    { rewrite <- (firstn_skipn n es'), map_app in Hacc. eapply NoDup_app_l. exact Hacc. }
    assert (EA : appends ml_empty (entry_ops 0 (firstn n es')) = Ok (ml_from 0 (firstn n es')))
      by (apply (appends_fresh [] (firstn n es')); exact Hnd').
    rewrite EA. split.
    + intros H. right. intros p Hp Hin. injection Hp as <-. injection H as H.
      assert (Hin' : In (fst e) (dkeys (firstn n (ml_from 0 es')))).
      { rewrite ml_from_firstn, ml_from_keys. exact Hin. }
      pose proof (firstn_dset_present n (ml_from 0 es') (fst e)
                    {| m_pair := fst e; m_freq := snd e; m_priority := length es' |} Hin') as HG.
      rewrite <- H in HG. apply in_map_iff in Hin. destruct Hin as ([p f] & Hp & Hin). cbn [fst] in Hp. subst p.
      apply In_nth_error in Hin. destruct Hin as (k & Hk).
      rewrite (ml_from_get 0 (firstn n es') k (fst e) f) in HG; [|assumption|assumption].
      injection HG as _ HG. assert (Hk' : k < length (firstn n es')) by (apply nth_error_Some; congruence).
      rewrite firstn_length in Hk'. lia.
    + intros [H|H]; [lia|]. f_equal. rewrite firstn_dset_fresh.
      * symmetry. apply ml_from_firstn.
      * rewrite ml_from_length. lia.
      * rewrite ml_from_firstn, ml_from_keys. apply H. reflexivity.
Qed.
Print Assumptions C23_prefix_exact.

(** ** Which lists of merges are in the order of their priorities *)

Definition late (ml : merge_list) : Prop := exists i e, nth_error ml i = Some e /\ i < m_priority (snd e).

Definition kept_order (ps : list pair) (ml : merge_list) : Prop :=
  NoDup (dkeys ml) /\ (forall p, In p (dkeys ml) <-> In p ps) /\ (NoDup ps /\ dkeys ml = ps \/ ~ NoDup ps /\ late ml).

Lemma dset_present_nth {V} (d : dict pair V) k v :
  In k (dkeys d) -> exists i, i < length d /\ nth_error (dset d k v) i = Some (k, v).
Proof.
  induction d as [|[k' v'] d IH]; intros H; [destruct H|]. cbn [dset].
  destruct (eqb_spec k k') as [->|E].
  - exists 0. simpl. split; [lia|reflexivity].
  - destruct H as [H|H].
    + simpl in H. congruence.
    + destruct (IH H) as (i & Hi & Hn). exists (S i). simpl. split; [lia|exact Hn].
Qed.

Lemma dset_other_nth {V} (d : dict pair V) k v i e :
  nth_error d i = Some e -> nth_error (dset d k v) i = Some e \/ nth_error (dset d k v) i = Some (fst e, v).
Proof.
  revert i; induction d as [|[k' v'] d IH]; intros i H; [destruct i; discriminate|]. cbn [dset].
  destruct (eqb k k').
  - destruct i as [|i]; simpl in *; [injection H as <-; right; reflexivity|left; exact H].
  - destruct i as [|i]; simpl in *; [left; exact H|apply IH, H].
Qed.

Lemma append_late ml p f prio ml' : late ml -> ml_append ml p f prio = Ok ml' -> late ml'.
Proof.
  intros (i & e & Hi & Hlt) H. apply ml_append_inv in H. destruct H as [_ ->].
  assert (Hb : i < length ml) by (apply nth_error_Some; congruence).
  destruct (dset_other_nth ml p {| m_pair := p; m_freq := f; m_priority := length ml |} i e Hi) as [H|H].
  - exists i, e. split; assumption.
  - eexists i, _. split; [exact H|]. exact Hb.
Qed.

Lemma append_kept_order ps ml p f prio ml' :
  kept_order ps ml -> ml_append ml p f prio = Ok ml' -> kept_order (ps ++ [p]) ml'.
Proof.
  intros (Hn & Hk & Hc) H. pose proof H as H0. apply ml_append_inv in H. destruct H as [_ E].
  set (v := {| m_pair := p; m_freq := f; m_priority := length ml |}) in *.
  assert (Hnd : NoDup (dkeys ml')) by (rewrite E; apply dset_nodup, Hn).
  split; [exact Hnd|].
  assert (HD : dkeys ml' = if dmem ml p then dkeys ml else dkeys ml ++ [p]) by (rewrite E; apply dkeys_dset).
  unfold dmem in HD. destruct (dget ml p) as [m|] eqn:G.
  - assert (Hin : In p (dkeys ml)) by (eapply dget_some_key; exact G).
    split.
    + intros q. rewrite HD, Hk, in_app_iff. split; [auto|]. intros [Hq|[<-|[]]]; [exact Hq|apply Hk, Hin].
    + right. split.
      * intros Hd. apply NoDup_remove_2 in Hd. rewrite app_nil_r in Hd. apply Hd, Hk, Hin.
      * destruct (dset_present_nth ml p v Hin) as (i & Hi & Hv). exists i, (p, v). rewrite E. split; [exact Hv|exact Hi].
  - assert (Hni : ~ In p (dkeys ml)) by (apply dget_none, G).
    split.
    + intros q. rewrite HD, !in_app_iff, Hk. tauto.
    + destruct Hc as [[Hps <-]|[Hps HL]].
      * left. rewrite <- HD. split; [exact Hnd|reflexivity].
      * right. split; [|eapply append_late; eassumption]. intros Hd. apply Hps. eapply NoDup_app_l. exact Hd.
Qed.

Lemma append_length ml p f prio ml' : ml_append ml p f prio = Ok ml' -> length ml' <= S (length ml).
Proof.
  intros H. apply ml_append_inv in H. destruct H as [_ ->].
  generalize {| m_pair := p; m_freq := f; m_priority := length ml |}. intros v. generalize ml. intros d.
  induction d as [|[k x] d IH]; simpl; [lia|]. destruct (eqb p k); simpl; lia.
Qed.

(** merges of which one comes later than its place cannot be added to others *)
Lemma add_late k acc others i j m c :
  nth_error others i = Some m -> length acc <= k + j -> j + i < m_priority m -> ml_add_loop k acc others <> Ok c.
Proof.
  revert acc i j; induction others as [|x others IH]; intros acc i j Hi Hl Hp H; [destruct i; discriminate|].
  cbn [ml_add_loop] in H. apply bind_ok in H. destruct H as (acc' & H1 & H2).
  destruct i as [|i].
  - simpl in Hi. injection Hi as ->. apply ml_append_inv in H1. destruct H1 as [[H1|H1] _]; [discriminate|].
    injection H1 as H1. lia.
  - simpl in Hi. apply append_length in H1. apply (IH acc' i (S j) Hi) in H2; [exact H2|lia|lia].
Qed.

Lemma add_kept_order ps acc k others c :
  kept_order ps acc -> ml_add_loop k acc others = Ok c -> kept_order (ps ++ map m_pair others) c.
Proof.
  revert ps acc; induction others as [|x others IH]; intros ps acc Ho H.
  - cbn in H. injection H as <-. cbn [map]. rewrite app_nil_r. exact Ho.
  - cbn [ml_add_loop] in H. apply bind_ok in H. destruct H as (acc' & H1 & H2).
    cbn [map]. replace (ps ++ m_pair x :: map m_pair others) with ((ps ++ [m_pair x]) ++ map m_pair others)
      by (rewrite <- app_assoc; reflexivity).
    apply (IH _ acc'); [eapply append_kept_order; eassumption|exact H2].
Qed.

Lemma ml_from_pairs i l : map m_pair (ml_iter (ml_from i l)) = map fst l.
Proof.
  rewrite <- (ml_from_iter_pairs i l) at 2. rewrite map_map. reflexivity.
Qed.

Lemma built_kept_order l ml : built l ml -> kept_order (map fst l) ml.
Proof.
  induction 1 as [|l ml p f prio ml' _ IH Ha|l1 a l2 b c Ha IH1 Hb IH2 Hadd].
  - repeat split; try constructor; try (intros []). split; [constructor|reflexivity].
  - rewrite map_app. cbn [map fst]. eapply append_kept_order; eassumption.
  - rewrite map_app. destruct IH2 as (Hn & Hk & [[Hd _]|[_ (i & e & Hi & Hlt)]]).
    + pose proof (built_ml_from l2 b Hb Hd) as ->. rewrite <- (ml_from_pairs 0 l2).
      eapply add_kept_order; [exact IH1|exact Hadd].
    + exfalso. unfold ml_add in Hadd. revert Hadd.
      apply (add_late (length a) a (ml_iter b) i 0 (snd e)); [|lia|exact Hlt].
      unfold ml_iter, dvals. apply map_nth_error, Hi.
Qed.

(** the priorities of the merges of a list are their places in it exactly if no pair was added twice, whatever the
    history of the list *)
Theorem C21_exact :
  forall l ml, built l ml ->
  (map m_priority (ml_iter ml) = seq 0 (length (ml_iter ml)) <-> NoDup (map fst l)) /\
  (map (fun m => (m_pair m, m_freq m)) (ml_iter ml) = l <-> NoDup (map fst l)).
Proof.
  intros l ml Hb. pose proof (built_kept_order l ml Hb) as (Hn & Hk & Hc).
  assert (R : NoDup (map fst l) -> map m_priority (ml_iter ml) = seq 0 (length (ml_iter ml)) /\
                                   map (fun m => (m_pair m, m_freq m)) (ml_iter ml) = l).
  { intros Hd. destruct (C21_merge_list_ordered l ml Hb Hd) as (H1 & H2 & _). split; [|exact H1].
    rewrite H2. f_equal. rewrite <- H1 at 1. apply map_length. }
  split; (split; [|apply R]).
  - intros H. destruct Hc as [[Hd _]|[_ (i & e & Hi & Hlt)]]; [exact Hd|]. exfalso.
    assert (Hi' : nth_error (map m_priority (ml_iter ml)) i = Some (m_priority (snd e))).
    { apply map_nth_error. unfold ml_iter, dvals. apply map_nth_error, Hi. }
    rewrite H in Hi'. assert (Hb' : i < length (ml_iter ml)).
    { unfold ml_iter, dvals. rewrite map_length. apply nth_error_Some. congruence. }
    rewrite (nth_error_nth' _ 0) in Hi' by (rewrite seq_length; exact Hb').
    rewrite seq_nth in Hi' by exact Hb'. injection Hi' as Hi'. lia.
  - intros H. apply (f_equal (@length _)) in H. rewrite map_length in H. unfold ml_iter, dvals in H.
    rewrite map_length in H.
    apply (@NoDup_incl_NoDup _ (dkeys ml) (map fst l)); [exact Hn| |].
    + unfold dkeys. rewrite !map_length. lia.
    + intros p Hp. apply Hk, Hp.
Qed.
Print Assumptions C21_exact.

(** a pair added twice, and once *)
Example C21_exact_example :
  let p := (lit "a", lit "b") : pair in
  (exists ml, built [(p, None); (p, Some 1%Z)] ml /\ map m_priority (ml_iter ml) = [1]) /\
  (exists ml, built [(p, None)] ml /\ map m_priority (ml_iter ml) = [0]).
Proof.
  cbv zeta. split.
  - exists [((lit "a", lit "b"), {| m_pair := (lit "a", lit "b"); m_freq := Some 1%Z; m_priority := 1 |})].
    split; [|reflexivity].
    apply (built_append [((lit "a", lit "b"), None)]
             [((lit "a", lit "b"), {| m_pair := (lit "a", lit "b"); m_freq := None; m_priority := 0 |})] _ _ None).
    + apply (built_append [] [] _ _ None); [constructor|reflexivity].
    + reflexivity.
  - eexists. split; [apply (built_append [] [] _ _ None); [constructor|reflexivity]|reflexivity].
Qed.

Example C23_accepts_example :
  let nl := [10%N] in
  (exists ml, read_merges (lit "a b 3" ++ nl ++ lit "c d 2" ++ nl ++ lit "a b 1" ++ nl) None = Ok ml) /\
  read_merges (lit "a b 3" ++ nl ++ lit "a b 2" ++ nl ++ lit "c d 1" ++ nl) None = Err ValueError /\
  (exists es, mapM parse_file_entry (file_lines (lit "a b 3" ++ nl ++ lit "a b 2" ++ nl ++ lit "c d 1" ++ nl)) = Ok es).
Proof.
  cbv zeta. split; [eexists; vm_compute; reflexivity|]. split; [vm_compute; reflexivity|].
  eexists; vm_compute; reflexivity.
Qed.
