(** C26, C46-C49: vocabulary files, grouping of files, counts, limits and the vocabulary size. *)
From Verif Require Import M_Base L_Base M_Literal L_Literal M_Tokens M_Learn L_Learn M_Vocab L_Vocab.
From Coq Require Import Lia Permutation.

(** ** C26 *)
Lemma vocab_line_no_char c (w : str) f : no_char c w -> c <> tab -> dec_char c = false -> no_char c (vocab_line w f).
Proof.
  intros H1 H2 H3 Hin. apply in_app_or in Hin. destruct Hin as [Hin|[Hin|Hin]]; [auto|congruence|].
  exact (decZ_no_char f c H3 Hin).
Qed.

Lemma load_vocab_line_spec (w : str) (v : str) f d : no_char tab w -> to_non_literal_str w = Ok v ->
  load_vocab_line (vocab_line w f) d = Ok (dset d v f).
Proof.
  intros Hw Hv. unfold load_vocab_line, vocab_line. rewrite split_on_app_sep.
  rewrite (split_on_no_char tab w Hw). cbn [app removelast last].
  rewrite (split_on_no_char tab (decZ f)) by (apply decZ_no_char; reflexivity).
  cbn. rewrite Hv, parse_int_decZ. reflexivity.
Qed.

Lemma load_dump_gen (g : str -> str) (l : list (str * Z)) : NoDup (map fst l) ->
  (forall w, In w (map fst l) -> no_char tab (g w) /\ no_char 10%N (g w) /\ no_char 13%N (g w)
                                 /\ to_non_literal_str (g w) = Ok w) ->
  load_vocab_dict (write_lines (map (fun wf => vocab_line (g (fst wf)) (snd wf)) l)) = Ok l.
Proof.
  intros Hnd Hg. unfold load_vocab_dict. rewrite file_lines_write.
  - assert (G : forall pre, NoDup (map fst (pre ++ l)) ->
      load_vocab_lines (map (fun wf => vocab_line (g (fst wf)) (snd wf)) l) pre = Ok (pre ++ l)).
    { revert Hg. clear Hnd. induction l as [|[w f] l IH]; intros Hg pre Hp; cbn [map load_vocab_lines].
      - rewrite app_nil_r. reflexivity.
      - cbn [fst snd]. destruct (Hg w (or_introl eq_refl)) as (H1 & _ & _ & H4).
        rewrite (load_vocab_line_spec _ w) by assumption. cbn [bind].
        assert (F : dget (pre : counts) w = None).
        { apply dget_none. unfold dkeys. rewrite map_app in Hp. cbn [map fst] in Hp.
          apply NoDup_remove_2 in Hp. intros C. apply Hp. apply in_or_app. left. exact C. }
        rewrite (dset_fresh (pre : counts) w f F).
        replace (pre ++ (w, f) :: l) with ((pre ++ [(w, f)]) ++ l) in * by (rewrite <- app_assoc; reflexivity).
        rewrite IH; [reflexivity| |exact Hp]. intros x Hx. apply Hg. right. exact Hx. }
    exact (G [] Hnd).
  - apply Forall_forall. intros x Hx. apply in_map_iff in Hx. destruct Hx as (y & <- & Hy).
    destruct (Hg (fst y) (in_map fst _ _ Hy)) as (_ & H & _). apply vocab_line_no_char; [exact H|discriminate|reflexivity].
  - apply Forall_forall. intros x Hx. apply in_map_iff in Hx. destruct Hx as (y & <- & Hy).
    destruct (Hg (fst y) (in_map fst _ _ Hy)) as (_ & _ & H & _). apply vocab_line_no_char; [exact H|discriminate|reflexivity].
Qed.

Lemma literal_safe w : valid_str w ->
  no_char tab (to_literal_str w) /\ no_char 10%N (to_literal_str w) /\ no_char 13%N (to_literal_str w)
  /\ to_non_literal_str (to_literal_str w) = Ok w.
Proof.
  intros Hw. repeat split; try (apply literal_no_char; unfold printable; intros [H1 H2]; apply H1 || lia; fail).
  - apply literal_no_char. intros H. unfold printable, tab in H. lia.
  - apply literal_no_char. intros H. unfold printable in H. lia.
  - apply literal_no_char. intros H. unfold printable in H. lia.
  - apply non_literal_literal. exact Hw.
Qed.

(** A dumped vocabulary is loaded with the same words, counts and order. *)
Theorem C26_round_trip (l : list (str * Z)) : NoDup (map fst l) -> Forall valid_str (map fst l) ->
  load_vocab_dict (dump_vocab_dict true l) = Ok l.
Proof.
  intros Hnd Hv. unfold dump_vocab_dict. apply (load_dump_gen to_literal_str); [exact Hnd|].
  intros w Hw. rewrite Forall_forall in Hv. apply literal_safe, Hv, Hw.
Qed.

(** The vocabulary of a preprocessed corpus is written without further escaping, as its words are escaped
    already; loading it gives the unescaped words with their counts, the most frequent ones first. *)
Theorem C26_vocab_file (l : list (str * Z)) : NoDup (map fst l) -> Forall valid_str (map fst l) ->
  load_vocab_dict (write_vocab (map (fun wf => (to_literal_str (fst wf), snd wf)) l)) = Ok (sort_desc l).
Proof.
  intros Hnd Hv. unfold write_vocab, dump_vocab_dict.
  assert (S : forall a b, fold_left (fun q x => insert_desc x q) (map (fun wf => (to_literal_str (fst wf), snd wf)) a)
                 (map (fun wf => (to_literal_str (fst wf), snd wf)) b)
              = map (fun wf => (to_literal_str (fst wf), snd wf)) (fold_left (fun q x => insert_desc x q) a b)).
  { induction a as [|x a IH]; intros b; cbn [map fold_left]; [reflexivity|].
    rewrite <- IH. f_equal. clear IH. induction b as [|y b IHb]; cbn [map insert_desc fst snd]; [reflexivity|].
    destruct (snd x <=? snd y)%Z; cbn [map]; [rewrite IHb|]; reflexivity. }
  pose proof (S l []) as S0. cbn [map] in S0. fold (sort_desc l) in S0.
  unfold sort_desc at 1. refine (eq_trans (f_equal (fun q => load_vocab_dict (write_lines (map _ q))) S0) _). rewrite map_map. cbn [fst snd].
  pose proof (sort_desc_perm l) as P.
  apply (load_dump_gen to_literal_str).
  - eapply Permutation_NoDup; [apply Permutation_map, Permutation_sym, P|exact Hnd].
  - intros w Hw. apply literal_safe. rewrite Forall_forall in Hv. apply Hv.
    eapply Permutation_in; [apply Permutation_map, P|exact Hw].
Qed.
Print Assumptions C26_round_trip.
Print Assumptions C26_vocab_file.

Example C26_ex :
  let l := [([9; 92; 233]%N : str, 3%Z); (lit "a", 7%Z); (lit "", 7%Z)] in
  NoDup (map fst l) /\ Forall valid_str (map fst l) /\ load_vocab_dict (dump_vocab_dict true l) = Ok l
  /\ load_vocab_dict (write_vocab (map (fun wf => (to_literal_str (fst wf), snd wf)) l))
     = Ok [(lit "a", 7%Z); (lit "", 7%Z); ([9; 92; 233]%N, 3%Z)].
Proof.
  cbn zeta. split; [|split; [|split; reflexivity]].
  - repeat constructor; cbn; intuition discriminate.
  - repeat constructor; cbn; lia.
Qed.

(** Words that are not escaped, as in a vocabulary computed for files that are not the output of preprocessing,
    change: a backslash followed by n becomes a newline. *)
Theorem C26_unescaped_refuted : load_vocab_dict (write_vocab [(lit "\n", 2%Z)]) = Ok [([10%N], 2%Z)].
Proof. reflexivity. Qed.
Print Assumptions C26_unescaped_refuted.

(** ** C46 *)
Definition at_residue {A} (n j : nat) (l : list A) : list A :=
  map snd (filter (fun p => Nat.eqb (fst p mod n) j) (combine (seq 0 (length l)) l)).

Lemma labels_mod total n : n <> 0 -> chunk_labels total n = map (fun i => i mod n) (seq 0 total).
Proof.
  intros Hn. unfold chunk_labels.
  assert (B : forall q, List.concat (repeat (seq 0 n) q) = map (fun i => i mod n) (seq 0 (n * q))).
  { induction q as [|q IH].
    - rewrite Nat.mul_0_r. reflexivity.
    - replace (S q) with (q + 1) by lia. rewrite repeat_app, concat_app, IH.
      replace (n * (q + 1)) with (n * q + n) by lia. rewrite seq_app, map_app. f_equal. cbn [repeat List.concat].
      rewrite app_nil_r. apply nth_ext with (d := 0) (d' := 0); rewrite ?map_length, ?seq_length; [reflexivity|].
      intros k Hk. rewrite seq_nth by exact Hk.
      rewrite (nth_indep _ 0 ((fun i => i mod n) 0)) by (rewrite map_length, seq_length; exact Hk).
      rewrite (map_nth (fun i => i mod n)), seq_nth by exact Hk. cbn [Nat.add].
      rewrite Nat.mul_comm, Nat.add_comm, Nat.mod_add by exact Hn. symmetry. apply Nat.mod_small. exact Hk. }
  rewrite B. pose proof (Nat.div_mod total n Hn) as D.
  replace (seq 0 total) with (seq 0 (n * (total / n) + total mod n)) by (rewrite <- D; reflexivity).
  rewrite seq_app, map_app. f_equal.
  pose proof (Nat.mod_upper_bound total n Hn) as U.
  apply nth_ext with (d := 0) (d' := 0); rewrite ?map_length, ?seq_length; [reflexivity|].
  intros k Hk. rewrite seq_nth by exact Hk.
  rewrite (nth_indep _ 0 ((fun i => i mod n) 0)) by (rewrite map_length, seq_length; exact Hk).
  rewrite (map_nth (fun i => i mod n)), seq_nth by exact Hk. cbn [Nat.add].
  rewrite Nat.mul_comm, Nat.add_comm, Nat.mod_add by exact Hn. symmetry. apply Nat.mod_small. lia.
Qed.

Lemma append_at_spec {A} (groups : list (list A)) label x : label < length groups ->
  exists g, append_at groups label x = Ok g /\ length g = length groups
    /\ forall j, nth j g [] = nth j groups [] ++ (if Nat.eqb label j then [x] else []).
Proof.
  revert label. induction groups as [|h t IH]; intros label Hl; [cbn in Hl; lia|].
  destruct label as [|k]; cbn [append_at].
  - exists ((h ++ [x]) :: t). split; [reflexivity|]. split; [reflexivity|].
    intros [|j]; cbn; [reflexivity|rewrite app_nil_r; reflexivity].
  - cbn [length] in Hl. destruct (IH k) as (g & -> & Lg & Hg); [lia|]. exists (h :: g). split; [reflexivity|].
    split; [cbn; lia|]. intros [|j]; cbn; [rewrite app_nil_r; reflexivity|apply Hg].
Qed.

Lemma distribute_spec {A} (xs : list (A * nat)) : forall groups, Forall (fun x => snd x < length groups) xs ->
  exists g, distribute xs groups = Ok g /\ length g = length groups
    /\ forall j, nth j g [] = nth j groups [] ++ map fst (filter (fun x => Nat.eqb (snd x) j) xs).
Proof.
  induction xs as [|[x l] xs IH]; intros groups H; cbn [distribute].
  - exists groups. repeat split. intros j. cbn. rewrite app_nil_r. reflexivity.
  - inversion H as [|? ? Hl Hx]; subst. cbn [snd] in Hl.
    destruct (append_at_spec groups l x Hl) as (g & -> & Lg & Hg). cbn [bind].
    destruct (IH g) as (g' & -> & Lg' & Hg'); [rewrite Lg; exact Hx|].
    exists g'. split; [reflexivity|]. split; [lia|]. intros j. rewrite Hg', Hg, <- app_assoc. f_equal.
    cbn [filter snd]. destruct (Nat.eqb l j); reflexivity.
Qed.

(** The elements at the positions that leave the same remainder form a group, in their order. *)
Theorem C46_groups {A} (all : list A) n : n <> 0 ->
  exists groups, groupify all n = Ok groups /\ length groups = Nat.min n (length all)
    /\ forall j, j < length groups -> nth j groups [] = at_residue n j all.
Proof.
  intros Hn.
  assert (E : groupify all n = distribute (combine all (chunk_labels (length all) n))
                (repeat [] (if Nat.leb n (length all) then n else length all))) by (destruct n; [congruence|destruct all; reflexivity]).
  set (k := if Nat.leb n (length all) then n else length all) in *.
  assert (Hk : k = Nat.min n (length all)) by (unfold k; destruct (Nat.leb_spec n (length all)); lia).
  rewrite E, labels_mod by exact Hn.
  assert (C : forall s (l : list A), map fst (filter (fun x => Nat.eqb (snd x) s) (combine l (map (fun i => i mod n) (seq 0 (length l)))))
                  = at_residue n s l).
  { intros s l. unfold at_residue. generalize 0 as z. induction l as [|x l IH]; intros z; [reflexivity|].
    cbn [length seq map combine filter snd fst]. destruct (Nat.eqb (z mod n) s); cbn [map fst snd]; rewrite IH; reflexivity. }
  destruct (distribute_spec (combine all (map (fun i => i mod n) (seq 0 (length all)))) (repeat [] k)) as (g & Eg & Lg & Hg).
  { apply Forall_forall. intros [x l] Hx. apply in_combine_r in Hx. apply in_map_iff in Hx.
    destruct Hx as (i & <- & Hi). apply in_seq in Hi. rewrite repeat_length. cbn [snd].
    pose proof (Nat.mod_upper_bound i n Hn). pose proof (Nat.mod_le i n Hn). lia. }
  exists g. split; [exact Eg|]. rewrite repeat_length in Lg. split; [lia|].
  intros j Hj. rewrite Hg, C. assert (R : nth j (repeat (@nil A) k) [] = []); [|rewrite R; reflexivity].
  clear. revert j. induction k as [|k IH]; intros [|j]; cbn; auto.
Qed.

Lemma at_residue_length {A} n j (l : list A) : length (at_residue n j l)
  = length (filter (fun i => Nat.eqb (i mod n) j) (seq 0 (length l))).
Proof.
  unfold at_residue. rewrite map_length. generalize 0 as z. induction l as [|x l IH]; intros z; [reflexivity|].
  cbn [length seq combine filter fst]. destruct (Nat.eqb (z mod n) j); cbn [length]; rewrite IH; reflexivity.
Qed.

Lemma residues_in_block n j z : j < n -> length (filter (fun i => Nat.eqb (i mod n) j) (seq (n * z) n)) = 1.
Proof.
  intros Hj.
  assert (G : forall m, m <= n -> length (filter (fun i => Nat.eqb (i mod n) j) (seq (n * z) m)) = if j <? m then 1 else 0).
  { induction m as [|m IH]; intros Hm; [reflexivity|]. replace (S m) with (m + 1) by lia.
    rewrite seq_app, filter_app, app_length, IH by lia. cbn [seq filter].
    replace ((n * z + m) mod n) with m.
    - destruct (Nat.eqb_spec m j); destruct (Nat.ltb_spec j m); destruct (Nat.ltb_spec j (m + 1)); cbn [length]; lia.
    - rewrite Nat.mul_comm, Nat.add_comm, Nat.mod_add by lia. symmetry. apply Nat.mod_small. lia. }
  rewrite G by lia. apply Nat.ltb_lt in Hj. rewrite Hj. reflexivity.
Qed.

Lemma residue_count n j len : j < n ->
  length (filter (fun i => Nat.eqb (i mod n) j) (seq 0 len)) = len / n + (if j <? len mod n then 1 else 0).
Proof.
  intros Hj. pose proof (Nat.div_mod len n ltac:(lia)) as D. rewrite D at 1.
  rewrite seq_app, filter_app, app_length. f_equal.
  - generalize (len / n) as q. induction q as [|q IH]; [rewrite Nat.mul_0_r; reflexivity|].
    replace (n * S q) with (n * q + n) by lia. rewrite seq_app, filter_app, app_length, IH.
    rewrite Nat.add_0_l, residues_in_block by exact Hj. lia.
  - pose proof (Nat.mod_upper_bound len n ltac:(lia)) as U.
    assert (G : forall m, m <= n -> length (filter (fun i => Nat.eqb (i mod n) j) (seq (n * (len / n)) m)) = if j <? m then 1 else 0).
    { induction m as [|m IH]; intros Hm; [reflexivity|]. replace (S m) with (m + 1) by lia.
      rewrite seq_app, filter_app, app_length, IH by lia. cbn [seq filter].
      replace ((n * (len / n) + m) mod n) with m.
      - destruct (Nat.eqb_spec m j); destruct (Nat.ltb_spec j m); destruct (Nat.ltb_spec j (m + 1)); cbn [length]; lia.
      - rewrite Nat.mul_comm, Nat.add_comm, Nat.mod_add by lia. symmetry. apply Nat.mod_small. lia. }
    rewrite Nat.add_0_l. apply G. lia.
Qed.

(** No element is lost or duplicated, no group is empty, and the sizes differ by at most one. *)
Theorem C46_partition {A} (all : list A) n groups : n <> 0 -> groupify all n = Ok groups ->
  Permutation (List.concat groups) all
  /\ (forall g, In g groups -> g <> [])
  /\ (forall g h, In g groups -> In h groups -> length g <= S (length h)).
Proof.
  intros Hn E. destruct (C46_groups all n Hn) as (g' & E' & Lg & Hg). rewrite E in E'. injection E' as <-.
  assert (Hsize : forall g, In g groups -> exists j, j < length groups /\ g = at_residue n j all).
  { intros g Hin. destruct (In_nth _ _ [] Hin) as (j & Hj & <-). exists j. split; [exact Hj|apply Hg, Hj]. }
  assert (Hlen : forall j, j < length groups -> length (at_residue n j all) = length all / n + (if j <? length all mod n then 1 else 0)).
  { intros j Hj. rewrite at_residue_length. apply residue_count. lia. }
  split; [|split].
  - assert (G : groups = map (fun j => at_residue n j all) (seq 0 (length groups))).
    { apply nth_ext with (d := []) (d' := []); [rewrite map_length, seq_length; reflexivity|]. intros j Hj.
      rewrite (nth_indep (map (fun j => at_residue n j all) (seq 0 (length groups))) [] ((fun j => at_residue n j all) 0)) by (rewrite map_length, seq_length; exact Hj).
      rewrite (map_nth (fun j => at_residue n j all)), seq_nth by exact Hj. apply Hg, Hj. }
    rewrite G, <- flat_map_concat_map. rewrite Lg.
    set (ix := combine (seq 0 (length all)) all).
    assert (M : all = map snd ix).
    { unfold ix. generalize 0 as z. clear. induction all as [|x l IH]; intros z; cbn; [reflexivity|]. f_equal. apply IH. }
    transitivity (flat_map (fun j => at_residue n j all) (seq 0 n)).
    { destruct (Nat.le_gt_cases n (length all)) as [L|L]; [rewrite Nat.min_l by exact L; reflexivity|].
      rewrite Nat.min_r by lia. assert (SQ : seq 0 n = seq 0 (length all) ++ seq (0 + length all) (n - length all)) by (rewrite <- seq_app; f_equal; lia).
      rewrite SQ, flat_map_app.
      assert (Z : flat_map (fun j => at_residue n j all) (seq (0 + length all) (n - length all)) = []).
      {
        assert (W : forall j, In j (seq (0 + length all) (n - length all)) -> at_residue n j all = []).
        { intros j Hj. apply in_seq in Hj. apply length_zero_iff_nil. rewrite at_residue_length, residue_count by lia.
          rewrite Nat.div_small, Nat.mod_small by lia. destruct (Nat.ltb_spec j (length all)); lia. }
        revert W. generalize (seq (0 + length all) (n - length all)). intros q W.
        induction q as [|x q IH]; [reflexivity|]. cbn [flat_map]. rewrite (W x (or_introl eq_refl)).
        apply IH. intros y Hy. apply W. right. exact Hy. }
      rewrite Z, app_nil_r. reflexivity. }
    apply Permutation_trans with (map snd ix); [|rewrite <- M; reflexivity]. unfold at_residue. fold ix.
    assert (P : forall (l : list (nat * A)),
      Permutation (flat_map (fun j => map snd (filter (fun p => Nat.eqb (fst p mod n) j) l)) (seq 0 n)) (map snd l)).
    { induction l as [|p l IH].
      - cbn. clear. induction (seq 0 n) as [|x q IH]; [reflexivity|]. exact IH.
      - cbn [map]. rewrite <- IH. clear IH.
        pose proof (Nat.mod_upper_bound (fst p) n Hn) as U. set (r := fst p mod n) in *.
        assert (SQ : seq 0 n = seq 0 r ++ r :: seq (S r) (n - r - 1)).
        { replace (seq 0 n) with (seq 0 (r + S (n - r - 1))) by (f_equal; lia). rewrite seq_app. reflexivity. }
        rewrite SQ, !flat_map_app. cbn [flat_map].
        assert (N : forall a q, (forall x, In x (seq a q) -> x <> r) ->
          flat_map (fun j => map snd (filter (fun p0 => Nat.eqb (fst p0 mod n) j) (p :: l))) (seq a q)
          = flat_map (fun j => map snd (filter (fun p0 => Nat.eqb (fst p0 mod n) j) l)) (seq a q)).
        { intros a q W. revert W. generalize (seq a q). intros s W.
          induction s as [|x s IHs]; [reflexivity|]. cbn [flat_map]. f_equal.
          - cbn [filter]. fold r. destruct (Nat.eqb_spec r x) as [<-|]; [exfalso; exact (W r (or_introl eq_refl) eq_refl)|reflexivity].
          - apply IHs. intros y Hy. apply W. right. exact Hy. }
        rewrite N by (intros x Hx; apply in_seq in Hx; lia). rewrite N by (intros x Hx; apply in_seq in Hx; lia).
        cbn [filter]. fold r. rewrite Nat.eqb_refl. cbn [map app]. symmetry. apply Permutation_middle. }
    apply P.
  - intros g Hin. destruct (Hsize g Hin) as (j & Hj & ->). intros Z. apply (f_equal (@length A)) in Z.
    rewrite Hlen in Z by exact Hj. cbn [length] in Z.
    destruct (Nat.le_gt_cases n (length all)) as [L|L].
    + pose proof (Nat.div_str_pos (length all) n ltac:(lia)). lia.
    + rewrite Nat.mod_small in Z by lia. destruct (Nat.ltb_spec j (length all)); lia.
  - intros g h Hg' Hh'. destruct (Hsize g Hg') as (j & Hj & ->). destruct (Hsize h Hh') as (i & Hi & ->).
    rewrite !Hlen by assumption. destruct (j <? length all mod n); destruct (i <? length all mod n); lia.
Qed.
Print Assumptions C46_groups.
Print Assumptions C46_partition.

Example C46_ex : groupify [0; 1; 2; 3; 4; 5; 6] 3 = Ok [[0; 3; 6]; [1; 4]; [2; 5]]
  /\ groupify [0; 1] 300 = Ok [[0]; [1]] /\ groupify (@nil nat) 300 = Ok [].
Proof. repeat split. Qed.

(** ** C47 *)

(** the dictionary has exactly the words of the list as keys, with their numbers of occurrences *)
Definition counts_exactly (d : counts) (ws : list str) : Prop :=
  NoDup (dkeys d) /\ forall w, dget d w = if In_dec str_dec w ws then Some (zcount w ws) else None.

Lemma counts_exactly_intro d ws : NoDup (dkeys d) -> (forall w, counter_get d w = zcount w ws) ->
  (forall w, In w (dkeys d) <-> In w ws) -> counts_exactly d ws.
Proof.
  intros H1 H2 H3. split; [exact H1|]. intros w. specialize (H2 w). unfold counter_get in H2.
  destruct (dget d w) as [x|] eqn:E.
  - apply dget_some_key, H3 in E. destruct (in_dec str_dec w ws); [congruence|contradiction].
  - apply dget_none in E. rewrite H3 in E. destruct (in_dec str_dec w ws); [contradiction|reflexivity].
Qed.

Lemma counts_exactly_get d ws : counts_exactly d ws ->
  (forall w, counter_get d w = zcount w ws) /\ (forall w, In w (dkeys d) <-> In w ws).
Proof.
  intros [_ H]. split; intros w; specialize (H w).
  - unfold counter_get. rewrite H. destruct (in_dec str_dec w ws) as [_|N]; [reflexivity|].
    unfold zcount. rewrite (proj1 (count_occ_not_In str_dec ws w) N). reflexivity.
  - destruct (in_dec str_dec w ws) as [I|N].
    + apply dget_some_key in H. tauto.
    + apply dget_none in H. tauto.
Qed.

Lemma counts_exactly_perm d ws ws' : Permutation ws ws' -> counts_exactly d ws -> counts_exactly d ws'.
Proof.
  intros P H. destruct (counts_exactly_get d ws H) as [H1 H2]. destruct H as [Hn _].
  apply counts_exactly_intro; [exact Hn| |].
  - intros w. rewrite H1. unfold zcount. f_equal. apply (proj1 (Permutation_count_occ str_dec ws ws') P).
  - intros w. rewrite H2. split; intros I; [exact (Permutation_in _ P I)|exact (Permutation_in _ (Permutation_sym P) I)].
Qed.

Lemma counts_exactly_merge d1 d2 w1 w2 : counts_exactly d1 w1 -> counts_exactly d2 w2 ->
  counts_exactly (fst (merge_dicts d1 d2)) (w1 ++ w2).
Proof.
  intros E1 E2. destruct (counts_exactly_get _ _ E1) as [G1 K1]. destruct (counts_exactly_get _ _ E2) as [G2 K2].
  destruct E1 as [N1 _], E2 as [N2 _]. destruct (merge_dicts_spec d1 d2 N1 N2) as (H1 & H2 & H3 & _).
  apply counts_exactly_intro; [exact H1| |].
  - intros w. rewrite H2, G1, G2, zcount_app. reflexivity.
  - intros w. rewrite H3, K1, K2, in_app_iff. reflexivity.
Qed.

(** A partial vocabulary counts the words of its files. *)
Theorem C47_partial_vocab files : counts_exactly (get_vocab files) (corpus_tokens files).
Proof.
  rewrite get_vocab_tokens. apply counts_exactly_intro.
  - apply count_words_nodup. constructor.
  - intros w. rewrite count_words_spec, counter_get_nil. reflexivity.
  - intros w. rewrite count_words_keys. cbn. tauto.
Qed.

Lemma zcount_remove w k (ws : list str) : w <> k -> zcount w (filter (fun x => negb (eqb x k)) ws) = zcount w ws.
Proof.
  intros N. unfold zcount. f_equal. induction ws as [|x ws IH]; [reflexivity|]. cbn [filter count_occ].
  destruct (eqb_spec x k) as [->|Nx]; cbn [negb].
  - destruct (str_dec k w) as [E|_]; [congruence|exact IH].
  - cbn [count_occ]. rewrite IH. reflexivity.
Qed.
Lemma zcount_split k (ws : list str) :
  Z.of_nat (length ws) = (zcount k ws + Z.of_nat (length (filter (fun x => negb (eqb x k)) ws)))%Z.
Proof.
  unfold zcount. induction ws as [|x ws IH]; [reflexivity|]. cbn [filter count_occ length].
  destruct (eqb_spec x k) as [E|N]; destruct (str_dec x k) as [E'|N']; try congruence; cbn [negb length]; lia.
Qed.

Lemma counts_total d : forall ws, counts_exactly d ws -> fold_right Z.add 0%Z (map snd d) = Z.of_nat (length ws).
Proof.
  induction d as [|[k v] d IH]; intros ws H.
  - destruct ws as [|w ws]; [reflexivity|]. destruct (counts_exactly_get _ _ H) as [_ K].
    exfalso. apply (K w). left. reflexivity.
  - cbn [map fold_right snd]. rewrite (zcount_split k ws).
    destruct (counts_exactly_get _ _ H) as [G K]. destruct H as [N H].
    cbn [dkeys map fst] in N. fold (dkeys d) in N. inversion N as [|? ? Nk Nd]; subst.
    assert (V : v = zcount k ws).
    { rewrite <- G. unfold counter_get. cbn [dget]. rewrite eqb_refl. reflexivity. }
    rewrite <- V. f_equal. apply IH. apply counts_exactly_intro; [exact Nd| |].
    + intros w. destruct (str_dec w k) as [->|W].
      * unfold counter_get. apply dget_none in Nk. rewrite Nk. symmetry. unfold zcount.
        change 0%Z with (Z.of_nat 0). apply (f_equal Z.of_nat). apply count_occ_not_In. intros C. apply filter_In in C.
        rewrite eqb_refl in C. destruct C; discriminate.
      * rewrite zcount_remove by exact W. rewrite <- G. unfold counter_get. cbn [dget].
        apply eqb_neq in W. rewrite W. reflexivity.
    + intros w. specialize (K w). cbn [dkeys map fst In] in K. fold (dkeys d) in K. rewrite filter_In.
      destruct (eqb_spec w k) as [->|W]; cbn [negb]; [split; [intros C; contradiction|intros [_ C]; discriminate]|].
      split; [intros C; split; [apply K; right; exact C|reflexivity]|].
      intros [C _]. apply K in C. destruct C as [C|C]; [congruence|exact C].
Qed.

Lemma corpus_size_spec files : calc_corpus_size files = length (corpus_tokens files).
Proof.
  unfold calc_corpus_size, corpus_tokens.
  assert (F : forall f, n_tokens f = length (file_tokens f)).
  { intros f. unfold n_tokens, file_tokens. generalize (file_lines f) as ls. intros ls.
    assert (G : forall n, fold_left (fun n line => n + length (split_on space line)) ls n = n + length (flat_map (split_on space) ls)).
    { induction ls as [|l ls IH]; intros n; cbn [fold_left flat_map length]; [lia|]. rewrite IH, app_length. lia. }
    apply G. }
  assert (G : forall n, fold_left (fun n f => n + n_tokens f) files n = n + length (flat_map file_tokens files)).
  { induction files as [|f fs IH]; intros n; cbn [fold_left flat_map length]; [lia|]. rewrite IH, app_length, F. lia. }
  apply G.
Qed.

(** The counts of the vocabulary of all files add up to the reported size of the corpus. *)
Theorem C47_corpus_size files d : counts_exactly d (corpus_tokens files) ->
  fold_right Z.add 0%Z (map snd d) = Z.of_nat (calc_corpus_size files).
Proof. intros H. rewrite corpus_size_spec. apply counts_total. exact H. Qed.

(** what preprocess_and_write (to_repr.py 59-82) writes for a list of tokens *)
Definition preprocessed_file (tokens : list str) : str := to_literal_str (join (lit " ") tokens) ++ [10%N].
Definition writable (tokens : list str) : Prop :=
  tokens <> [] /\ Forall valid_str tokens /\ Forall (no_char space) tokens.

Lemma esc_char_no_space c : c <> space -> no_char space (esc_char c).
Proof.
  intros N. unfold no_char, space in *. assert (H : forall k n, ~ In 32%N (hex k n)).
  { intros k n Hin.
    revert n Hin. induction k as [|k IH]; intros n Hin; cbn [hex] in Hin; [exact Hin|].
    apply in_app_or in Hin. destruct Hin as [Hin|[Hin|[]]]; [exact (IH _ Hin)|].
    unfold hex_digit in Hin. revert Hin. generalize (n mod 16)%N. intros m Hin.
    destruct (m <? 10)%N; [destruct m as [|m]; [discriminate|]|]; lia. }
  unfold esc_char.
  repeat match goal with |- context[if ?b then _ else _] => destruct b end; cbn [app In]; intros C;
    repeat match goal with
    | C : _ \/ _ |- _ => destruct C as [C|C]
    | C : False |- _ => destruct C
    | C : In _ (hex _ _) |- _ => exact (H _ _ C)
    end; try discriminate C; exact (N C).
Qed.
Lemma literal_no_space w : no_char space w -> no_char space (to_literal_str w).
Proof.
  intros Hw Hin. unfold to_literal_str in Hin. apply in_concat in Hin. destruct Hin as (s & Hs & Hin).
  apply in_map_iff in Hs. destruct Hs as (c & <- & Hc). apply (esc_char_no_space c); [|exact Hin].
  intros ->. exact (Hw Hc).
Qed.

Lemma preprocessed_tokens tokens : writable tokens -> file_tokens (preprocessed_file tokens) = map to_literal_str tokens.
Proof.
  intros (Hne & Hv & Hs). unfold file_tokens, preprocessed_file.
  replace (to_literal_str (join (lit " ") tokens) ++ [10%N]) with (write_lines [to_literal_str (join (lit " ") tokens)])
    by (unfold write_lines; cbn [map List.concat]; rewrite app_nil_r; reflexivity).
  rewrite file_lines_write.
  - cbn [flat_map]. rewrite app_nil_r, literal_join. change (lit " ") with [space]. apply split_join.
    + destruct tokens; [congruence|discriminate].
    + apply Forall_forall. intros x Hx. apply in_map_iff in Hx. destruct Hx as (y & <- & Hy).
      apply literal_no_space. rewrite Forall_forall in Hs. apply Hs, Hy.
  - constructor; [|constructor]. apply literal_no_char. unfold printable. lia.
  - constructor; [|constructor]. apply literal_no_char. unfold printable. lia.
Qed.

(** Loading the vocabulary file of a preprocessed corpus gives every token of the token lists with its number of
    occurrences and nothing else. *)
Theorem C47_tokens (corpus : list (list str)) d : Forall writable corpus ->
  counts_exactly d (corpus_tokens (map preprocessed_file corpus)) ->
  exists d', load_vocab_dict (write_vocab d) = Ok d' /\ counts_exactly d' (List.concat corpus).
Proof.
  intros Hw Hd.
  assert (T : corpus_tokens (map preprocessed_file corpus) = map to_literal_str (List.concat corpus)).
  { unfold corpus_tokens. clear Hd. induction Hw as [|ts c Ht Hc IH]; [reflexivity|].
    cbn [map flat_map List.concat]. rewrite map_app, preprocessed_tokens, IH by exact Ht. reflexivity. }
  rewrite T in Hd. clear T. set (ws := List.concat corpus) in *.
  assert (Hv : Forall valid_str ws).
  { apply Forall_forall. intros x Hx. apply in_concat in Hx. destruct Hx as (ts & Hts & Hx).
    rewrite Forall_forall in Hw. destruct (Hw ts Hts) as (_ & V & _). rewrite Forall_forall in V. exact (V x Hx). }
  destruct (counts_exactly_get _ _ Hd) as [G K]. destruct Hd as [N _].
  (* the same dictionary with unescaped words *)
  assert (L : exists m, d = map (fun wf => (to_literal_str (fst wf), snd wf)) m /\ Forall (fun w => In w ws) (map fst m)).
  { assert (KK : forall w, In w (map fst d) -> exists t, In t ws /\ to_literal_str t = w).
    { intros w I. apply K in I. apply in_map_iff in I. destruct I as (t & E & I). exists t. auto. }
    clear G K N. induction d as [|[w v] d IH]; [exists []; split; [reflexivity|constructor]|].
    destruct (KK w (or_introl eq_refl)) as (t & It & Et). destruct IH as (m & Em & Fm).
    { intros x Hx. apply KK. right. exact Hx. }
    exists ((t, v) :: m). split; [cbn [map fst snd]; rewrite Et, <- Em; reflexivity|constructor; [exact It|exact Fm]]. }
  destruct L as (m & -> & Fm).
  assert (Nm : NoDup (map fst m)).
  { unfold dkeys in N. rewrite map_map in N. cbn [fst] in N. rewrite <- (map_map fst to_literal_str) in N.
    exact (NoDup_map_inv _ _ N). }
  rewrite Forall_forall in Hv, Fm.
  exists (sort_desc m). split.
  - apply C26_vocab_file; [exact Nm|]. apply Forall_forall. intros x Hx. apply Hv, Fm, Hx.
  - pose proof (sort_desc_perm m) as P.
    assert (Z : forall t, In t ws -> zcount (to_literal_str t) (map to_literal_str ws) = zcount t ws).
    { intros t It. unfold zcount. f_equal. clear -Hv It.
      assert (V : forall x, In x ws -> valid_str x) by exact Hv. assert (Vt := Hv t It). clear Hv It.
      induction ws as [|x l IH]; [reflexivity|]. cbn [map count_occ].
      rewrite IH by (intros y Hy; apply V; right; exact Hy).
      destruct (str_dec (to_literal_str x) (to_literal_str t)) as [E|E]; destruct (str_dec x t) as [E'|E']; try reflexivity.
      - exfalso. apply E'. apply literal_inj; [apply V; left; reflexivity|exact Vt|exact E].
      - subst. congruence. }
    assert (Ns : NoDup (dkeys (sort_desc m))).
    { unfold dkeys. eapply Permutation_NoDup; [apply Permutation_map, Permutation_sym, P|exact Nm]. }
    split; [exact Ns|]. intros t. destruct (in_dec str_dec t ws) as [I|NI].
    + assert (Im : In (to_literal_str t) (dkeys (map (fun wf => (to_literal_str (fst wf), snd wf)) m))).
      { apply K. apply in_map. exact I. }
      unfold dkeys in Im. rewrite map_map in Im. cbn [fst] in Im. apply in_map_iff in Im. destruct Im as ([u v] & Eu & Iu).
      cbn [fst] in Eu. assert (Eut : u = t).
      { apply literal_inj; [apply Hv, Fm; exact (in_map fst _ _ Iu)|apply Hv, I|exact Eu]. }
      subst u. clear Eu.
      assert (Gv : v = zcount t ws).
      { rewrite <- Z by exact I. rewrite <- G. unfold counter_get.
        rewrite (dget_nodup (map (fun wf => (to_literal_str (fst wf), snd wf)) m : counts) (to_literal_str t) v N); [reflexivity|].
        apply in_map_iff. exists (t, v). split; [reflexivity|exact Iu]. }
      rewrite <- Gv. apply dget_nodup; [exact Ns|]. eapply Permutation_in; [apply Permutation_sym, P|exact Iu].
    + apply dget_none. intros C. apply NI, Fm. eapply Permutation_in; [apply Permutation_map, P|exact C].
Qed.
Print Assumptions C47_partial_vocab.
Print Assumptions C47_corpus_size.
Print Assumptions C47_tokens.

Example C47_ex :
  let corpus := [[lit "int"; lit "x"; [233%N]; lit "int"]; [lit "x"]] in
  let files := map preprocessed_file corpus in
  Forall writable corpus /\ counts_exactly (get_vocab files) (corpus_tokens files)
  /\ load_vocab_dict (write_vocab (get_vocab files)) = Ok [(lit "int", 2%Z); (lit "x", 2%Z); ([233%N], 1%Z)]
  /\ calc_corpus_size files = 5.
Proof.
  cbn zeta. split; [|split; [apply C47_partial_vocab|split; reflexivity]].
  repeat constructor; try discriminate; cbn; try lia; unfold no_char; cbn; intuition discriminate.
Qed.

(** ** C48 *)
Lemma adjusted_spec t f (l : list (str * Z)) : descending l -> t <= length l ->
  let a := adjusted t f l in
  a <= t /\ (forall i e, a <= i < t -> nth_error l i = Some e -> snd e = f)
  /\ (forall e, 0 < a -> nth_error l (a - 1) = Some e -> snd e <> f).
Proof.
  intros Hl. induction t as [|t IH]; intros Ht; cbn zeta; cbn [adjusted].
  - repeat split; intros; lia.
  - destruct (nth_error l t) as [e|] eqn:E.
    + destruct (Z.eqb_spec (snd e) f) as [F|F].
      * destruct IH as (H1 & H2 & H3); [lia|]. cbn zeta in *. split; [lia|]. split; [|exact H3].
        intros i x Hi Ex. destruct (Nat.eq_dec i t) as [->|]; [congruence|]. apply (H2 i); [lia|exact Ex].
      * split; [lia|]. split; [intros; lia|]. intros x _ Ex. replace (S t - 1) with t in Ex by lia. congruence.
    + apply nth_error_None in E. lia.
Qed.

Lemma descending_nth l i j x y : descending l -> i <= j -> nth_error l i = Some x -> nth_error l j = Some y -> (snd y <= snd x)%Z.
Proof.
  intros H. revert i j. induction H as [|z l Hz Hl IH]; intros i j L Ex Ey; [destruct i; discriminate|].
  destruct i as [|i]; destruct j as [|j]; try lia; cbn in Ex, Ey.
  - injection Ex as <-. injection Ey as <-. lia.
  - injection Ex as <-. apply Hz. exact (nth_error_In _ _ Ey).
  - apply (IH i j); [lia|exact Ex|exact Ey].
Qed.

(** The limited vocabulary has at most as many words as the threshold, its entries are entries of the vocabulary,
    every dropped word is strictly less frequent than every kept one, and a word is dropped only if more than
    threshold words are at least as frequent. *)
Theorem C48_limit threshold (d d' : counts) : NoDup (dkeys d) -> limit_max_vocab threshold d = Ok d' ->
  length d' <= threshold /\ NoDup (dkeys d') /\ incl d' d
  /\ (forall x y, In x d' -> In y d -> ~ In y d' -> (snd y < snd x)%Z)
  /\ (forall y, In y d -> ~ In y d' -> threshold < length (filter (fun x => (snd y <=? snd x)%Z) d)).
Proof.
  intros Hnd. unfold limit_max_vocab. pose proof (sort_desc_perm d) as P. pose proof (sort_desc_sorted d) as S.
  set (s := sort_desc d) in *. destruct (Nat.ltb_spec (length s) threshold) as [L|L].
  { intros [= <-]. rewrite (Permutation_length P) in L. split; [lia|]. split; [exact Hnd|]. split; [apply incl_refl|].
    split; intros; contradiction. }
  destruct (nth_error s threshold) as [e|] eqn:E; [|discriminate]. intros [= <-].
  destruct (adjusted_spec threshold (snd e) s S L) as (A1 & A2 & A3). set (a := adjusted threshold (snd e) s) in *.
  assert (Ht : threshold < length s) by (apply nth_error_Some; congruence).
  assert (I1 : incl (firstn a s) d).
  { intros x Hx. apply (Permutation_in _ P). rewrite <- (firstn_skipn a s). apply in_or_app. left. exact Hx. }
  assert (Ns : NoDup s).
  { eapply Permutation_NoDup; [exact (Permutation_sym P)|]. exact (NoDup_map_inv _ _ Hnd). }
  assert (F : forall y, In y d -> ~ In y (firstn a s) -> (snd y <= snd e)%Z).
  { intros y Hy Hn. apply (Permutation_in _ (Permutation_sym P)) in Hy. destruct (In_nth_error _ _ Hy) as (i & Ei).
    destruct (Nat.lt_ge_cases i a) as [Hi|Hi].
    - exfalso. apply Hn. rewrite <- (firstn_skipn a s) in Ei.
      rewrite nth_error_app1 in Ei by (rewrite firstn_length; lia). exact (nth_error_In _ _ Ei).
    - destruct (Nat.lt_ge_cases i threshold) as [Hi'|Hi']; [rewrite (A2 i y) by (assumption || lia); lia|].
      exact (descending_nth s threshold i e y S Hi' E Ei). }
  split; [rewrite firstn_length; lia|]. split; [|split; [exact I1|split]].
  - unfold dkeys. rewrite <- (firstn_skipn a s) in P.
    assert (N2 : NoDup (map fst (firstn a s ++ skipn a s))).
    { eapply Permutation_NoDup; [apply Permutation_map, Permutation_sym, P|exact Hnd]. }
    rewrite map_app in N2. clear -N2. revert N2. generalize (map fst (firstn a s)) (map fst (skipn a s)).
    intros u v. induction u as [|x u IH]; [constructor|]. cbn. intros H. inversion H; subst. constructor; [|auto].
    intros C. apply H2. apply in_or_app. left. exact C.
  - intros x y Hx Hy Hn. specialize (F y Hy Hn).
    destruct (In_nth_error _ _ Hx) as (i & Ei).
    assert (Hi : i < length (firstn a s)) by (apply nth_error_Some; congruence).
    rewrite firstn_length in Hi.
    assert (Es : nth_error s i = Some x).
    { rewrite <- (firstn_skipn a s). rewrite nth_error_app1 by (rewrite firstn_length; lia). exact Ei. }
    destruct (nth_error s (a - 1)) as [z|] eqn:Ez; [|apply nth_error_None in Ez; lia].
    assert (H1 : (snd z <= snd x)%Z) by (apply (descending_nth s i (a - 1) x z S); [lia|exact Es|exact Ez]).
    assert (H2 : (snd e <= snd z)%Z) by (apply (descending_nth s (a - 1) threshold z e S); [lia|exact Ez|exact E]).
    assert (H3 : snd z <> snd e) by (apply A3; [lia|reflexivity]). lia.
  - intros y Hy Hn. specialize (F y Hy Hn).
    assert (LF : length (filter (fun x => (snd y <=? snd x)%Z) d) = length (filter (fun x => (snd y <=? snd x)%Z) s)).
    { clear -P. induction P; cbn [filter]; auto.
      - destruct (_ <=? _)%Z; cbn [length]; auto.
      - destruct (snd y <=? snd x)%Z; destruct (snd y <=? snd y0)%Z; reflexivity.
      - congruence. }
    rewrite LF. rewrite <- (firstn_skipn (Datatypes.S threshold) s), filter_app, app_length.
    assert (FF : filter (fun x => (snd y <=? snd x)%Z) (firstn (Datatypes.S threshold) s) = firstn (Datatypes.S threshold) s).
    { assert (G : forall x, In x (firstn (Datatypes.S threshold) s) -> (snd y <=? snd x)%Z = true).
      { intros x Hx. apply Z.leb_le. destruct (In_nth_error _ _ Hx) as (i & Ei).
        assert (Hi : i < length (firstn (Datatypes.S threshold) s)) by (apply nth_error_Some; congruence).
        assert (Es : nth_error s i = Some x).
        { rewrite <- (firstn_skipn (Datatypes.S threshold) s). rewrite nth_error_app1 by exact Hi. exact Ei. }
        rewrite firstn_length in Hi.
        pose proof (descending_nth s i threshold x e S ltac:(lia) Es E). lia. }
      revert G. generalize (firstn (Datatypes.S threshold) s). intros q G. induction q as [|x q IH]; [reflexivity|].
      cbn [filter]. rewrite (G x (or_introl eq_refl)), IH; [reflexivity|]. intros z Hz. apply G. right. exact Hz. }
    rewrite FF, firstn_length. lia.
Qed.

(** With as many words as the threshold, limiting fails. *)
Theorem C48_equal_refuted (d : counts) : limit_max_vocab (length d) d = Err IndexError.
Proof.
  unfold limit_max_vocab. rewrite (Permutation_length (sort_desc_perm d)), Nat.ltb_irrefl.
  destruct (nth_error (sort_desc d) (length d)) as [e|] eqn:E; [|reflexivity].
  assert (H : length d < length (sort_desc d)) by (apply nth_error_Some; congruence).
  rewrite (Permutation_length (sort_desc_perm d)) in H. lia.
Qed.
(** For every other threshold it succeeds. *)
Theorem C48_total threshold (d : counts) : threshold <> length d -> exists d', limit_max_vocab threshold d = Ok d'.
Proof.
  intros N. unfold limit_max_vocab. rewrite (Permutation_length (sort_desc_perm d)).
  destruct (Nat.ltb_spec (length d) threshold); [eauto|].
  destruct (nth_error (sort_desc d) threshold) as [e|] eqn:E; [eauto|]. apply nth_error_None in E.
  rewrite (Permutation_length (sort_desc_perm d)) in E. lia.
Qed.
Print Assumptions C48_limit.
Print Assumptions C48_equal_refuted.
Print Assumptions C48_total.

Example C48_ex : limit_max_vocab 3 [(lit "a", 1%Z); (lit "b", 5%Z); (lit "c", 2%Z); (lit "d", 2%Z); (lit "e", 3%Z)]
  = Ok [(lit "b", 5%Z); (lit "e", 3%Z)].
Proof. reflexivity. Qed.

(** ** C49 *)

(** partial vocabularies obtained by merging in any order, with the words they stand for *)
Inductive built : pvocab -> list str -> Prop :=
| built_new i c chunk ws : counts_exactly c ws -> built (new_pvocab i c chunk) ws
| built_add i p q wp wq : built p wp -> built q wq -> built (add_vocab i p q) (wp ++ wq).

Lemma built_counts p ws : built p ws -> counts_exactly (pv_counts p) ws.
Proof. induction 1; [assumption|]. apply counts_exactly_merge; assumption. Qed.

Lemma size_of_distinct d ws : counts_exactly d ws -> size_of d = Z.of_nat (length (nodup str_dec ws)).
Proof.
  intros H. destruct (counts_exactly_get _ _ H) as [_ K]. destruct H as [N _]. unfold size_of. f_equal.
  rewrite <- (map_length fst d). apply Permutation_length. apply NoDup_Permutation; [exact N|apply NoDup_nodup|].
  intros w. rewrite nodup_In. apply K.
Qed.

Lemma built_stats p ws : built p ws ->
  1 <= pv_files p /\ exists pre, pv_stats p = pre ++ [(pv_files p, (size_of (pv_counts p), counter_get (pv_counts p) ph_non_eng))]
    /\ Forall (fun e => fst e < pv_files p) pre.
Proof.
  induction 1 as [i c chunk ws H|i p q wp wq Hp (Fp & pp & Ep & Lp) Hq (Fq & pq & Eq & Lq)].
  - cbn. split; [lia|]. exists []. split; [reflexivity|constructor].
  - cbn [pv_files pv_stats pv_counts add_vocab]. split; [lia|].
    exists (pv_stats p ++ pv_stats q). rewrite <- app_assoc. split; [reflexivity|]. rewrite Ep, Eq.
    rewrite !Forall_app. repeat split; try (constructor; [cbn; lia|constructor]).
    + eapply Forall_impl; [|exact Lp]. cbn. intros; lia.
    + eapply Forall_impl; [|exact Lq]. cbn. intros; lia.
Qed.

(** The reported size is the number of distinct words of all files, in whatever order the vocabularies are merged. *)
Theorem C49_size p ws : built p ws -> vocab_size_line p = Ok (Z.of_nat (length (nodup str_dec ws))).
Proof.
  intros H. rewrite <- (size_of_distinct (pv_counts p)) by (apply built_counts; exact H).
  destruct (built_stats p ws H) as (F & pre & E & L). unfold vocab_size_line. rewrite E. clear E.
  destruct (pre ++ _) as [|x y] eqn:Z; [destruct pre; discriminate|]. rewrite <- Z. clear Z x y.
  assert (M : fold_right Nat.max 0 (map fst (pre ++ [(pv_files p, (size_of (pv_counts p), counter_get (pv_counts p) ph_non_eng))])) = pv_files p).
  { induction L as [|x pre Hx Hpre IH]; cbn [app map fold_right fst]; [lia|]. rewrite IH. lia. }
  rewrite M. rewrite filter_app. cbn [filter fst]. rewrite Nat.eqb_refl.
  assert (G : filter (fun e : nat * (Z * Z) => Nat.eqb (fst e) (pv_files p)) pre = []).
  { clear -L. induction L as [|x pre Hx Hpre IH]; [reflexivity|]. cbn [filter].
    destruct (Nat.eqb_spec (fst x) (pv_files p)); [lia|exact IH]. }
  rewrite G. cbn. rewrite Z.add_0_r, Z.div_1_r. reflexivity.
Qed.

(** It is also the number of lines of the vocabulary file. *)
Theorem C49_lines p ws : built p ws -> Forall (fun w => no_char 10%N w /\ no_char 13%N w) ws ->
  vocab_size_line p = Ok (Z.of_nat (length (file_lines (write_vocab (pv_counts p))))).
Proof.
  intros H Hw. rewrite (C49_size p ws H). do 2 f_equal.
  pose proof (built_counts p ws H) as C. pose proof (size_of_distinct _ _ C) as S. unfold size_of in S.
  apply Nat2Z.inj in S. rewrite <- S. unfold write_vocab, dump_vocab_dict.
  assert (K : forall x, In x (sort_desc (pv_counts p)) -> In (fst x) ws).
  { intros x Hx. apply (proj2 (counts_exactly_get _ _ C)). apply (in_map fst).
    exact (Permutation_in _ (sort_desc_perm _) Hx). }
  rewrite Forall_forall in Hw.
  rewrite file_lines_write, map_length, (Permutation_length (sort_desc_perm _)); [reflexivity| |].
  - apply Forall_forall. intros y Hy. apply in_map_iff in Hy. destruct Hy as (x & <- & Hx).
    destruct (Hw _ (K x Hx)). apply vocab_line_no_char; [assumption|discriminate|reflexivity].
  - apply Forall_forall. intros y Hy. apply in_map_iff in Hy. destruct Hy as (x & <- & Hx).
    destruct (Hw _ (K x Hx)). apply vocab_line_no_char; [assumption|discriminate|reflexivity].
Qed.
Print Assumptions C49_size.
Print Assumptions C49_lines.

Example C49_ex :
  let a := new_pvocab 1 (count_words [lit "x"; lit "y"; lit "x"] []) 0 in
  let b := new_pvocab 2 (count_words [lit "y"; lit "z"] []) 0 in
  let c := new_pvocab 3 (count_words [lit "z"] []) 1 in
  vocab_size_line (add_vocab 5 c (add_vocab 4 a b)) = Ok 3%Z
  /\ exists ws, built (add_vocab 5 c (add_vocab 4 a b)) ws.
Proof.
  cbn zeta. split; [reflexivity|]. eexists. apply built_add; [|apply built_add]; apply built_new;
    match goal with |- counts_exactly (count_words ?l []) _ => instantiate (1 := l) end;
    (apply counts_exactly_intro; [apply count_words_nodup; constructor
      |intros w; rewrite count_words_spec, counter_get_nil; reflexivity|intros w; rewrite count_words_keys; cbn [dkeys map In]; tauto]).
Qed.
