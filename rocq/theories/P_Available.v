(** * C90: the list of ids in the message for an unknown id *)
From Coq Require Import List NArith ZArith Bool String Lia Permutation.
From Verif Require Import M_Base L_Base M_Literal L_Literal S_Bpe L_Bpe M_Merge L_Merge P_Merge M_BpeEncode L_BpeEncode
  M_Learn P_Queue L_Learn P_Learn M_Vocab L_Vocab P_Vocab M_PrepConfig M_Registry P_Registry M_Pipeline M_BpeRun P_BpeRun
  M_Tokens M_Repr M_Api M_Learned P_Learned M_Available.
Import ListNotations.
Local Open Scope list_scope.

(** the line for an id *)
Definition id_line (id : str) (v : N) : str := id ++ lit "-[1.." ++ dec v ++ lit "]".

Lemma dec_no_dash v : no_char dash (dec v).
Proof. intros H. pose proof (dec_digits v) as D. rewrite Forall_forall in D. apply D in H. discriminate H. Qed.
Lemma dec_no_newline v : no_char newline (dec v).
Proof. intros H. pose proof (dec_digits v) as D. rewrite Forall_forall in D. apply D in H. discriminate H. Qed.

Lemma id_line_inj id v id' v' : id_line id v = id_line id' v' -> id = id' /\ v = v'.
Proof.
  intros H. assert (L : forall i n, last_sep dash (id_line i n) = Some (i, lit "[1.." ++ dec n ++ lit "]")).
  { intros i n. apply (last_sep_app dash i). intros Hin. apply in_app_or in Hin. destruct Hin as [Hin|Hin].
    - cbn in Hin. intuition discriminate.
    - apply in_app_or in Hin. destruct Hin as [Hin|Hin]; [exact (dec_no_dash _ Hin)|]. cbn in Hin. intuition discriminate. }
  pose proof (L id v) as L1. rewrite H, L in L1. injection L1 as -> E. split; [reflexivity|].
  apply app_inv_tail in E. symmetry. apply dec_inj, E.
Qed.
Lemma id_line_newline id v : no_char newline id -> no_char newline (id_line id v).
Proof.
  intros H Hin. unfold id_line in Hin. repeat (apply in_app_or in Hin; destruct Hin as [Hin|Hin]).
  - exact (H Hin).
  - cbn in Hin. intuition discriminate.
  - exact (dec_no_newline _ Hin).
  - cbn in Hin. intuition discriminate.
Qed.

Section Available.
  Variable py_int : str -> option Z.
  Hypothesis py_int_dec : forall k, py_int (dec k) = Some (Z.of_N k).
  Variable maxsize : Z.
  Variable strip : str -> str.

  (** the id of a directory *)
  Definition named (w : world) (name id : str) : Prop :=
    exists r i, dget (w_bpe w) name = Some r /\ r_id r = Some i /\ strip i = id /\ id <> [].

  (** no two directories have the same id; ids are lines; fewer merges than sys.maxsize *)
  Definition apart (w : world) : Prop :=
    NoDup (dkeys (w_bpe w)) /\
    (forall n1 n2 id, named w n1 id -> named w n2 id -> n1 = n2) /\
    (forall name id, named w name id -> no_char newline id) /\
    (forall name r k, dget (w_bpe w) name = Some r -> In k (dkeys (r_lists r)) -> (Z.of_nat k < maxsize)%Z).

  Definition entry (w : world) (name : str) : option (str * Z) :=
    match dget (w_bpe w) name with
    | None => None
    | Some r =>
        match codes_id strip (r_id r, subdirs r), get_max_merges py_int (subdirs r) maxsize with
        | Some code, Some m => if eqb code [] || Z.eqb m 0 then None else Some (code, m)
        | _, _ => None
        end
    end.

  Lemma entry_spec w name id m : entry w name = Some (id, m) <->
    exists r i, dget (w_bpe w) name = Some r /\ r_id r = Some i /\ strip i = id /\ id <> [] /\ m <> 0%Z /\ get_max_merges py_int (subdirs r) maxsize = Some m.
  Proof.
    unfold entry. split.
    - destruct (dget (w_bpe w) name) as [r|]; [|discriminate]. unfold codes_id. cbn [fst snd]. destruct (r_id r) as [i|] eqn:Ei; [|discriminate].
      cbn [option_map]. destruct (get_max_merges py_int (subdirs r) maxsize) as [m'|] eqn:Em; [|discriminate].
      destruct (eqb_spec (strip i) []) as [|Hn]; [discriminate|]. destruct (Z.eqb_spec m' 0) as [|H0]; [discriminate|].
      cbn [orb]. intros [= <- <-]. exists r, i. auto 10.
    - intros (r & i & -> & Ei & <- & Hn & H0 & Em). unfold codes_id. cbn [fst snd]. rewrite Ei. cbn [option_map]. rewrite Em.
      destruct (eqb_spec (strip i) []) as [|_]; [contradiction|]. destruct (Z.eqb_spec m 0) as [|_]; [contradiction|]. reflexivity.
  Qed.
  Lemma entry_named w name id m : entry w name = Some (id, m) -> named w name id.
  Proof. intros H. apply entry_spec in H. destruct H as (r & i & H1 & H2 & H3 & H4 & _). exists r, i. auto. Qed.

  Lemma codes_entries w names acc : apart w -> NoDup names ->
    (forall name id m, In name names -> entry w name = Some (id, m) -> dget acc id = None) ->
    fold_left (fun result name =>
                 match dget (w_bpe w) name with
                 | None => result
                 | Some r =>
                     match codes_id strip (r_id r, subdirs r), get_max_merges py_int (subdirs r) maxsize with
                     | Some code, Some m => if eqb code [] || Z.eqb m 0 then result else dset result code m
                     | _, _ => result
                     end
                 end) names acc
    = acc ++ flat_map (fun name => match entry w name with Some e => [e] | None => [] end) names.
  Proof.
    intros (A1 & A2 & _) HN. revert acc. induction HN as [|name names Hni HN IH]; intros acc Hacc; cbn [fold_left flat_map]; [rewrite app_nil_r; reflexivity|].
    assert (S : forall result : dict str Z, match dget (w_bpe w) name with
                 | None => result
                 | Some r =>
                     match codes_id strip (r_id r, subdirs r), get_max_merges py_int (subdirs r) maxsize with
                     | Some code, Some m => if eqb code [] || Z.eqb m 0 then result else dset result code m
                     | _, _ => result
                     end
                 end = match entry w name with Some (c, m) => dset result c m | None => result end).
    { intros result. unfold entry. destruct (dget (w_bpe w) name) as [r|]; [|reflexivity]. destruct (codes_id strip _) as [code|]; [|reflexivity].
      destruct (get_max_merges _ _ _) as [m|]; [|reflexivity]. destruct (eqb code [] || Z.eqb m 0); reflexivity. }
    rewrite S. destruct (entry w name) as [[c m]|] eqn:Ee.
    - rewrite (dset_fresh acc c m) by (eapply Hacc; [left; reflexivity|exact Ee]). rewrite IH.
      + rewrite <- app_assoc. reflexivity.
      + intros n id m' Hn He. rewrite <- (dset_fresh acc c m), dget_dset, (Hacc n id m' (or_intror Hn) He) by (eapply Hacc; [left; reflexivity|exact Ee]).
        destruct (eqb_spec id c) as [->|]; [|reflexivity].
        exfalso. apply Hni. rewrite (A2 name n c); [exact Hn|eapply entry_named, Ee|eapply entry_named, He].
    - rewrite IH; [reflexivity|]. intros n id m' Hn. apply Hacc. right. exact Hn.
  Qed.

  Lemma codes_in w names id m : apart w -> Permutation names (dkeys (w_bpe w)) ->
    In (id, m) (all_codes_and_max_merges py_int maxsize strip w names) <->
    exists name r i, dget (w_bpe w) name = Some r /\ r_id r = Some i /\ strip i = id /\ id <> [] /\ m <> 0%Z /\ get_max_merges py_int (subdirs r) maxsize = Some m.
  Proof.
    intros A P. unfold all_codes_and_max_merges. rewrite (codes_entries w names []); [| exact A| |].
    - cbn [app]. rewrite in_flat_map. split.
      + intros (name & Hn & He). destruct (entry w name) as [e|] eqn:Ee; [|destruct He]. destruct He as [->|[]].
        exists name. apply entry_spec, Ee.
      + intros (name & H). exists name. split.
        * destruct H as (r & _ & Hr & _). eapply Permutation_in; [apply Permutation_sym, P|]. eapply dget_some_key, Hr.
        * apply entry_spec in H. rewrite H. left. reflexivity.
    - eapply Permutation_NoDup; [apply Permutation_sym, P|apply A].
    - reflexivity.
  Qed.

  (** an id with a number of merges can be used exactly if the message lists it with this or a greater number *)
  Theorem C90_available : forall w names packaged id n,
    apart w -> Permutation names (dkeys (w_bpe w)) -> no_char newline id -> (1 <= n)%N ->
    ((exists i, from_id (disk_of py_int maxsize strip packaged w names) (id ++ dash :: dec n) = Ok i) <->
     (exists v, (n <= v)%N /\ In (id_line id v) (split_on newline (format_available_merge_list_ids py_int maxsize strip w names)))).
  Proof.
    intros w names packaged id n A P Hid Hn.
    assert (L : forall x v, In (id_line x v) (split_on newline (format_available_merge_list_ids py_int maxsize strip w names)) <->
                exists m, In (x, m) (all_codes_and_max_merges py_int maxsize strip w names) /\ v = Z.to_N m).
    { intros x v. unfold format_available_merge_list_ids.
      replace (List.concat _) with (write_lines (map (fun kv => id_line (fst kv) (Z.to_N (snd kv))) (all_codes_and_max_merges py_int maxsize strip w names))).
      2:{ unfold write_lines. rewrite map_map. f_equal. apply map_ext. intros [i m]. unfold id_line. cbn [fst snd]. rewrite <- !app_assoc. reflexivity. }
      change newline with 10%N. rewrite split_write_lines.
      - rewrite in_app_iff, in_map_iff. split.
        + intros [([i m] & E & Hi)|[E|[]]].
          * cbn [fst snd] in E. apply id_line_inj in E. destruct E as [-> <-]. exists m. auto.
          * exfalso. destruct x; discriminate E.
        + intros (m & Hi & ->). left. exists (x, m). auto.
      - apply Forall_forall. intros s Hs. apply in_map_iff in Hs. destruct Hs as ([i m] & <- & Hi). cbn [fst snd].
        apply id_line_newline. apply (codes_in w names i m A P) in Hi. destruct Hi as (name & r & j & H1 & H2 & H3 & H4 & _).
        destruct A as (_ & _ & A3 & _). apply (A3 name). exists r, j. auto. }
    assert (F : (exists i, from_id (disk_of py_int maxsize strip packaged w names) (id ++ dash :: dec n) = Ok i) <->
                exists name r i k, dget (w_bpe w) name = Some r /\ r_id r = Some i /\ strip i = id /\ id <> [] /\ In k (dkeys (r_lists r)) /\ (N.to_nat n <= k)).
    { unfold from_id. pose proof (C34_roundtrip id n [] Hid Hn (or_introl eq_refl)) as Ep. rewrite app_nil_r in Ep. rewrite Ep. cbn [bind fst snd disk_of dk_find].
      unfold dataset_bpe_dir.
      assert (Hh : forall name, has_id strip w id name = true <-> named w name id).
      { intros name. unfold has_id, named, codes_id. destruct (dget (w_bpe w) name) as [r|]; [|split; [discriminate|intros (r & i & H & _); discriminate]].
        cbn [fst]. destruct (r_id r) as [i|] eqn:Ei; cbn [option_map].
        - split.
          + intros H. apply andb_true_iff in H. destruct H as [H1 H2]. destruct (eqb_spec (strip i) id) as [<-|]; [|discriminate].
            destruct (eqb_spec (strip i) []) as [|Hne]; [discriminate|]. exists r, i. auto.
          + intros (r' & i' & [= <-] & Ei' & Es & Hne). assert (i' = i) by congruence. subst i'. rewrite Es, eqb_refl.
            destruct (eqb_spec id []); [contradiction|reflexivity].
        - split; [discriminate|]. intros (r' & i' & [= <-] & Ei' & _). congruence. }
      split.
      - intros (i & H). destruct (find (has_id strip w id) names) as [name|] eqn:Ef; [|discriminate].
        apply find_some in Ef. destruct Ef as [_ Ef]. apply Hh in Ef. destruct Ef as (r & j & Hr & Hj & Hs & Hne). rewrite Hr in H. cbn [bind snd] in H.
        pose proof (C35_config py_int maxsize (subdirs r) (Z.of_N n) ltac:(lia)) as C. destruct (config_dir py_int maxsize (subdirs r) (Z.of_N n)) as [m|e]; [|discriminate].
        destruct C as (C1 & C2 & _). apply (learned_iff _ py_int_dec) in C1. destruct C1 as (k & Hk & ->). exists name, r, j, k. repeat (split; [assumption|]). lia.
      - intros (name & r & i & k & Hr & Hi & Hs & Hne & Hk & Hle).
        destruct (find (has_id strip w id) names) as [name'|] eqn:Ef.
        + apply find_some in Ef. destruct Ef as [_ Ef]. apply Hh in Ef. destruct A as (_ & A2 & _ & A4).
          assert (name' = name) by (eapply A2; [exact Ef|exists r, i; auto]). subst name'. rewrite Hr. cbn [bind snd].
          pose proof (C35_config py_int maxsize (subdirs r) (Z.of_N n) ltac:(lia)) as C. destruct (config_dir py_int maxsize (subdirs r) (Z.of_N n)) as [m|e]; [cbn; eauto|].
          exfalso. destruct C as (_ & C). specialize (C (Z.of_nat k)). pose proof (A4 _ _ _ Hr Hk). 
          assert (learned py_int (subdirs r) (Z.of_nat k)) by (apply (learned_iff _ py_int_dec); eauto). specialize (C H0 H). lia.
        + exfalso. assert (Hf : has_id strip w id name = false).
          { apply (find_none _ _ Ef). eapply Permutation_in; [apply Permutation_sym, P|eapply dget_some_key, Hr]. }
          rewrite (proj2 (Hh name)) in Hf; [discriminate|]. exists r, i. auto. }
    rewrite F. split.
    - intros (name & r & i & k & Hr & Hi & Hs & Hne & Hk & Hle).
      pose proof (C35_max py_int (subdirs r) maxsize) as M. assert (Lk : learned py_int (subdirs r) (Z.of_nat k)) by (apply (learned_iff _ py_int_dec); eauto).
      destruct A as (A1 & A2 & A3 & A4). pose proof (A4 _ _ _ Hr Hk) as Hmax.
      destruct (get_max_merges py_int (subdirs r) maxsize) as [m|] eqn:Em; [|specialize (M _ Lk); lia].
      destruct M as (_ & M1 & M2). specialize (M2 _ Lk ltac:(lia)). exists (Z.to_N m). split; [lia|]. apply L. exists m. split; [|reflexivity].
      apply codes_in; [repeat split; assumption|exact P|]. exists name, r, i. repeat (split; [assumption|]). split; [lia|exact Em].
    - intros (v & Hv & Hl). apply L in Hl. destruct Hl as (m & Hm & ->). apply (codes_in w names id m A P) in Hm.
      destruct Hm as (name & r & i & Hr & Hi & Hs & Hne & H0 & Em). pose proof (C35_max py_int (subdirs r) maxsize) as M. rewrite Em in M.
      destruct M as (M0 & M1 & _). apply (learned_iff _ py_int_dec) in M0. destruct M0 as (k & Hk & ->). exists name, r, i, k.
      repeat (split; [assumption|]). lia.
  Qed.

  Variable is_blank : N -> bool.
  Hypothesis strip_clean : forall s, s <> [] -> is_blank (hd 0%N s) = false -> is_blank (last s 0%N) = false -> strip s = s.
  Hypothesis ascii_clean : forall c, (48 <= c < 128)%N -> is_blank c = false.
  Variable number_of : str -> str -> option str.
  Variable source : str -> str -> dict str Z * str.

  (** in the histories of C75 (commands that end, no id given twice) the condition holds *)
  Theorem C90_history : forall w ks, history py_int maxsize strip is_blank number_of source w ks -> apart w.
  Proof.
    intros w ks H. destruct (history_good py_int py_int_dec maxsize strip is_blank strip_clean ascii_clean number_of source w ks H) as [G _].
    destruct G as [G1 G2 G3 G4].
    assert (N : forall name r i, dget (w_bpe w) name = Some r -> r_id r = Some i -> good_id strip i /\
               forall k, In k (dkeys (r_lists r)) -> (Z.of_nat k < maxsize)%Z).
    { intros name r i Hr Hi. destruct (G2 _ _ Hr) as [[K _]|(d & c & j & nb & _ & _ & _ & K & K1 & _ & _ & _ & _ & _ & K2)]; [congruence|].
      assert (j = i) by congruence. subst j. auto. }
    split; [exact G1|]. split; [|split].
    - intros n1 n2 id (r1 & i1 & H1 & H2 & H3 & _) (r2 & i2 & K1 & K2 & K3 & _).
      destruct (N _ _ _ H1 H2) as [(E1 & _) _]. destruct (N _ _ _ K1 K2) as [(E2 & _) _].
      apply (G3 n1 r1 n2 r2 i1 H1 K1 H2). congruence.
    - intros name id (r & i & H1 & H2 & H3 & _). destruct (N _ _ _ H1 H2) as [(E1 & _ & E2) _]. congruence.
    - intros name r k Hr Hk. destruct (G2 _ _ Hr) as [[_ K]|(d & c & j & nb & _ & _ & _ & _ & _ & _ & _ & _ & _ & _ & K2)]; [rewrite K in Hk; destruct Hk|exact (K2 _ Hk)].
  Qed.
End Available.
Print Assumptions C90_available.
Print Assumptions C90_history.

(** ** Examples *)
Definition ex_names : list str := [lit "B"; lit "C"; lit "A"].
Definition ex_usable_id (w : world) (names : list str) (id : string) : bool :=
  match from_id (disk_of ex_int ex_max ex_strip no_package w names) (lit id) with Ok _ => true | Err _ => false end.

Example C90_example :
  apart ex_max ex_strip ex_world /\
  format_available_merge_list_ids ex_int ex_max ex_strip ex_world ex_names = lit "proj_1-[1..2]" ++ [newline] ++ lit "proj-[1..3]" ++ [newline] /\
  ex_usable_id ex_world ex_names "proj_1-2" = true /\ ex_usable_id ex_world ex_names "proj_1-3" = false /\
  ex_usable_id ex_world ex_names "proj-3" = true /\ ex_usable_id ex_world ex_names "proj-4" = false /\ ex_usable_id ex_world ex_names "C-1" = false.
Proof.
  split.
  - destruct C75_example as [H _].
    refine (C90_history ex_int ex_int_dec ex_max ex_strip ex_blank _ _ literal_number ex_source ex_world _ H); reflexivity.
  - repeat split; vm_compute; reflexivity.
Qed.

(** finding: if --id was given twice, the message lists numbers of merges that cannot be used *)
Theorem C90_twice_refuted :
  exists k1 k2 w names n,
    ex_learn (snd (ex_learn empty_world k1)) k2 = (Ok tt, w) /\ Permutation names (dkeys (w_bpe w)) /\
    In (id_line (lit "x") n) (split_on newline (format_available_merge_list_ids ex_int ex_max ex_strip w names)) /\
    from_id (disk_of ex_int ex_max ex_strip no_package w names) (lit "x-" ++ dec n) = Err ValueError.
Proof.
  exists (ex_cmd "A" "proj" (Some (lit "x")) 3), (ex_cmd "B" "proj" (Some (lit "x")) 2),
    (ex_all [ex_cmd "A" "proj" (Some (lit "x")) 3; ex_cmd "B" "proj" (Some (lit "x")) 2] empty_world), [lit "B"; lit "A"], 3%N.
  split; [vm_compute; reflexivity|]. split; [vm_compute; apply perm_swap|]. split; [vm_compute; auto|vm_compute; reflexivity].
Qed.
Print Assumptions C90_twice_refuted.
