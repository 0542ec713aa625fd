(** Lemmas on learning merges. *)
From Verif Require Import M_Base L_Base S_Bpe L_Bpe M_Merge L_Merge M_Learn P_Queue.
From Coq Require Import Lia Permutation.

(** ** applying merges in order *)
Definition apply_merges (ps : list (sym * sym)) (s : list sym) : list sym :=
  fold_left (fun s p => merge_pair p s) ps s.

Lemma apply_merges_app a b s : apply_merges (a ++ b) s = apply_merges b (apply_merges a s).
Proof. apply fold_left_app. Qed.
Lemma apply_merges_cons p ps s : apply_merges (p :: ps) s = apply_merges ps (merge_pair p s).
Proof. reflexivity. Qed.
Lemma apply_merges_concat ps s : List.concat (apply_merges ps s) = List.concat s.
Proof.
  revert s. induction ps as [|p ps IH]; intros s; [reflexivity|].
  rewrite apply_merges_cons, IH. apply merge_pair_concat.
Qed.

Definition proper (s : list sym) : Prop := Forall (fun x => x <> []) s.

Lemma proper_merge p s : proper s -> proper (merge_pair p s).
Proof.
  unfold proper. induction s as [|a|a b t IH1 IH2] using list_ind2; intros Hs; [exact Hs..|].
  inversion Hs as [|? ? Ha Hs']; subst. inversion Hs' as [|? ? Hb Ht]; subst.
  rewrite merge_pair_cons2. destruct (is_pair p a b); constructor; auto.
  destruct a; simpl; congruence.
Qed.
Lemma proper_apply ps s : proper s -> proper (apply_merges ps s).
Proof.
  revert s. induction ps as [|p ps IH]; intros s Hs; [exact Hs|]. apply IH, proper_merge, Hs.
Qed.
Lemma proper_concat_nil s : proper s -> List.concat s = [] -> s = [].
Proof.
  intros Hs E. destruct s as [|a s]; [reflexivity|]. inversion Hs as [|? ? Ha _]; subst.
  destruct a; [congruence|discriminate].
Qed.
Lemma proper_app a b : proper (a ++ b) <-> proper a /\ proper b.
Proof. apply Forall_app. Qed.

(** merging only removes boundaries *)
Lemma merge_pair_coarser p s A' B' :
  merge_pair p s = A' ++ B' -> exists A B, s = A ++ B /\ List.concat A = List.concat A'.
Proof.
  revert A'. induction s as [|a|a b t IH1 IH2] using list_ind2; intros A' E.
  - exists [], []. destruct A'; [auto|discriminate].
  - change (merge_pair p [a]) with [a] in E. exists A', B'. auto.
  - rewrite merge_pair_cons2 in E. destruct A' as [|x A']; [exists [], (a :: b :: t); auto|].
    destruct (is_pair p a b); injection E as <- E.
    + destruct (IH1 _ E) as (A & B & -> & C). exists (a :: b :: A), B. split; [reflexivity|].
      simpl. rewrite C, app_assoc. reflexivity.
    + destruct (IH2 _ E) as (A & B & E2 & C). exists (a :: A), B. split; [simpl; rewrite E2; reflexivity|].
      simpl. rewrite C. reflexivity.
Qed.

Lemma merge_pair_span p A B A' B' :
  proper (A ++ B) -> merge_pair p (A ++ B) = A' ++ B' -> List.concat A' = List.concat A ->
  A' = merge_pair p A /\ B' = merge_pair p B.
Proof.
  intros Hp E C.
  assert (Hp' : proper (A' ++ B')) by (rewrite <- E; apply proper_merge, Hp).
  revert A' E C Hp'. induction A as [|a|a b t IH1 IH2] using list_ind2; intros A' E C Hp'.
  - apply proper_app in Hp' as [Ha _]. apply (proper_concat_nil _ Ha) in C. subst A'. auto.
  - apply proper_app in Hp as [Hpa Hpb]. inversion Hpa as [|? ? Ha _]; subst.
    destruct A' as [|x A']; [simpl in C; rewrite app_nil_r in C; congruence|].
    simpl in C. rewrite app_nil_r in C. change ([a] ++ B) with (a :: B) in E.
    destruct B as [|b B].
    + change (merge_pair p [a]) with [a] in E. injection E as <- E. destruct A'; [|discriminate].
      simpl in E. subst B'. auto.
    + rewrite merge_pair_cons2 in E. destruct (is_pair p a b); injection E as <- E.
      * exfalso. apply (f_equal (@length N)) in C. rewrite !app_length in C.
        inversion Hpb as [|? ? Hb _]; subst. destruct b; [congruence|simpl in C; lia].
      * assert (C2 : List.concat A' = []).
        { apply (app_inv_head a). rewrite app_nil_r. exact C. }
        inversion Hp' as [|? ? _ Hp2]; subst. apply proper_app in Hp2 as [Hp3 _].
        apply (proper_concat_nil _ Hp3) in C2. subst A'. auto.
  - inversion Hp as [|? ? Ha Hp1]; subst. inversion Hp1 as [|? ? Hb Hp2]; subst.
    change ((a :: b :: t) ++ B) with (a :: b :: (t ++ B)) in E. rewrite merge_pair_cons2 in *.
    destruct A' as [|x A'].
    { exfalso. destruct a; [congruence|discriminate]. }
    inversion Hp' as [|? ? _ Hp3]; subst.
    destruct (is_pair p a b); injection E as <- E.
    + simpl in C. rewrite app_assoc in C. apply app_inv_head in C.
      destruct (IH1 Hp2 A' E C Hp3) as [-> ->]. auto.
    + simpl in C. apply app_inv_head in C.
      destruct (IH2 Hp1 A' E C Hp3) as [-> ->]. auto.
Qed.

Lemma apply_coarser ps s A' B' :
  apply_merges ps s = A' ++ B' -> exists A B, s = A ++ B /\ List.concat A = List.concat A'.
Proof.
  revert s. induction ps as [|p ps IH]; intros s E; [exists A', B'; auto|].
  rewrite apply_merges_cons in E. destruct (IH _ E) as (A1 & B1 & E1 & C1).
  destruct (merge_pair_coarser _ _ _ _ E1) as (A & B & E2 & C2). exists A, B. split; [exact E2|congruence].
Qed.

(** a boundary that survives splits the whole computation *)
Lemma apply_span ps A B A' B' :
  proper (A ++ B) -> apply_merges ps (A ++ B) = A' ++ B' -> List.concat A' = List.concat A ->
  A' = apply_merges ps A /\ B' = apply_merges ps B.
Proof.
  revert A B. induction ps as [|p ps IH]; intros A B Hp E C.
  - change (A ++ B = A' ++ B') in E. change (A' = A /\ B' = B).
    assert (Hp' : proper (A' ++ B')) by (rewrite <- E; exact Hp).
    revert A' E C Hp'. induction A as [|a A IHA]; intros A' E C Hp'.
    + apply proper_app in Hp' as [H _]. apply (proper_concat_nil _ H) in C. subst A'. auto.
    + destruct A' as [|x A'].
      { exfalso. inversion Hp as [|? ? Ha _]; subst. destruct a; [congruence|discriminate]. }
      simpl in E. injection E as <- E. simpl in C. apply app_inv_head in C.
      inversion Hp as [|? ? _ Hp1]; subst. inversion Hp' as [|? ? _ Hp2]; subst.
      destruct (IHA Hp1 A' E C Hp2) as [-> ->]. auto.
  - rewrite apply_merges_cons in E. destruct (apply_coarser _ _ _ _ E) as (A1 & B1 & E1 & C1).
    destruct (merge_pair_span p A B A1 B1 Hp E1 ltac:(congruence)) as [-> ->].
    rewrite E1 in E. apply IH in E as [-> ->].
    + auto.
    + rewrite <- E1. apply proper_merge, Hp.
    + rewrite merge_pair_concat. exact C.
Qed.

Lemma apply_split ps s A' B' :
  proper s -> apply_merges ps s = A' ++ B' ->
  exists A B, s = A ++ B /\ A' = apply_merges ps A /\ B' = apply_merges ps B
              /\ List.concat A = List.concat A' /\ List.concat B = List.concat B'.
Proof.
  intros Hp E. destruct (apply_coarser _ _ _ _ E) as (A & B & -> & C). exists A, B. split; [reflexivity|].
  destruct (apply_span _ _ _ _ _ Hp E (eq_sym C)) as [-> ->]. repeat split; symmetry; apply apply_merges_concat.
Qed.

(** ** merges that were applied do not come back *)
Definition span (x : list sym) (W : list (list sym)) : Prop := exists u v, In (u ++ x ++ v) W.

(** the words agree on how they split equal pieces *)
Definition unambiguous (W : list (list sym)) : Prop :=
  forall x y, span x W -> span y W -> List.concat x = List.concat y -> x = y.

(** every merge occurred in some word when its turn came *)
Definition occurring (W : list (list sym)) (ps : list (sym * sym)) : Prop :=
  forall ps1 p ps2, ps = ps1 ++ p :: ps2 -> exists w, In w W /\ adjacent p (apply_merges ps1 w).

Lemma adjacent_spans ps p w :
  proper w -> adjacent p (apply_merges ps w) ->
  exists u ya yb v, w = u ++ (ya ++ yb) ++ v
    /\ apply_merges ps ya = [fst p] /\ apply_merges ps yb = [snd p] /\ apply_merges ps (ya ++ yb) = [fst p; snd p]
    /\ List.concat ya = fst p /\ List.concat yb = snd p.
Proof.
  intros Hp (x & z & E).
  destruct (apply_split ps w x (fst p :: snd p :: z) Hp E) as (u & r & -> & _ & Er & _ & _).
  apply proper_app in Hp as [_ Hr].
  destruct (apply_split ps r [fst p; snd p] z Hr (eq_sym Er)) as (y & v & -> & Ey & _ & _ & _).
  apply proper_app in Hr as [Hy _].
  destruct (apply_split ps y [fst p] [snd p] Hy (eq_sym Ey)) as (ya & yb & -> & Ea & Eb & Ca & Cb).
  exists u, ya, yb, v. simpl in Ca, Cb. rewrite app_nil_r in Ca, Cb. repeat split; auto.
Qed.

Lemma apply_merges_single ps a : apply_merges ps [a] = [a].
Proof. induction ps as [|p ps IH]; [reflexivity|exact IH]. Qed.

Lemma never_again W ps :
  unambiguous W -> Forall proper W -> occurring W ps ->
  forall w p, In w W -> In p ps -> ~ adjacent p (apply_merges ps w).
Proof.
  intros Hu Hw Ho w p Hin Hp Hadj. rewrite Forall_forall in Hw.
  apply in_split in Hp as (ps1 & ps2 & E). destruct (Ho _ _ _ E) as (w' & Hin' & Hadj').
  destruct (adjacent_spans _ _ _ (Hw _ Hin) Hadj) as (u & ya & yb & v & Ew & Ea & Eb & Eab & Ca & Cb).
  destruct (adjacent_spans _ _ _ (Hw _ Hin') Hadj') as (u' & ya' & yb' & v' & Ew' & Ea' & Eb' & Eab' & Ca' & Cb').
  assert (ya' = ya).
  { apply Hu; [..|congruence].
    - exists u', (yb' ++ v'). rewrite !app_assoc in *. rewrite <- Ew'. exact Hin'.
    - exists u, (yb ++ v). rewrite !app_assoc in *. rewrite <- Ew. exact Hin. }
  assert (yb' = yb).
  { apply Hu; [..|congruence].
    - exists (u' ++ ya'), v'. rewrite !app_assoc in *. rewrite <- Ew'. exact Hin'.
    - exists (u ++ ya), v. rewrite !app_assoc in *. rewrite <- Ew. exact Hin. }
  subst ya' yb'. rewrite E, apply_merges_app, apply_merges_cons, Eab' in Eab.
  rewrite merge_pair_cons2 in Eab.
  replace (is_pair p (fst p) (snd p)) with true in Eab by (symmetry; apply is_pair_eq; destruct p; reflexivity).
  change (merge_pair p []) with (@nil sym) in Eab. rewrite apply_merges_single in Eab. discriminate.
Qed.

(** textbook encoding reaches the learned segmentation *)
Lemma learned_is_encoded W ps :
  unambiguous W -> Forall proper W -> occurring W ps ->
  forall w, In w W -> bpe_result ps w (apply_merges ps w).
Proof.
  intros Hu Hw Ho w Hin. split.
  2:{ intros p Hp. eapply never_again; eassumption. }
  assert (G : forall n, n <= length ps ->
              bpe_steps ps (apply_merges (firstn (length ps - n) ps) w) (apply_merges ps w)).
  { induction n as [|n IH]; intros Hn.
    - rewrite Nat.sub_0_r, firstn_all. constructor.
    - specialize (IH ltac:(lia)). set (k := length ps - S n) in *.
      replace (length ps - n) with (S k) in IH by lia.
      assert (Hkl : k < length ps) by lia. clearbody k.
      destruct (nth_error ps k) as [p|] eqn:Ek.
      2:{ apply nth_error_None in Ek. lia. }
      assert (Ef : firstn (S k) ps = firstn k ps ++ [p]).
      { clear -Ek. revert ps Ek. induction k as [|k IHk]; intros [|x ps] Ek; try discriminate.
        - simpl in *. congruence.
        - simpl in Ek. cbn [firstn app]. rewrite <- (IHk _ Ek). reflexivity. }
      rewrite Ef, apply_merges_app in IH. change (apply_merges [p] ?s) with (merge_pair p s) in IH.
      assert (Ho1 : occurring W (firstn k ps)).
      { intros a q b E. apply (Ho a q (b ++ skipn k ps)).
        rewrite <- (firstn_skipn k ps) at 1. rewrite E, <- app_assoc. reflexivity. }
      destruct (in_dec (fun a b => Eqb_dec a b) p (pairs (apply_merges (firstn k ps) w))) as [Hp|Hp].
      + apply in_pairs in Hp. eapply steps_step; [|exact IH]. exists k, p. repeat split; auto.
        intros j q Hj Hq. apply (never_again W (firstn k ps) Hu Hw Ho1 w q Hin).
        assert (H : nth_error (firstn k ps) j = Some q).
        { clear -Hj Hq. revert ps j Hj Hq. induction k as [|k IHk]; intros ps j Hj Hq; [lia|].
          destruct ps as [|x ps]; [destruct j; discriminate|]. destruct j as [|j]; [exact Hq|].
          simpl in *. apply IHk; [lia|exact Hq]. }
        apply nth_error_In in H. exact H.
      + rewrite in_pairs in Hp. rewrite (merge_pair_id _ _ Hp) in IH. exact IH. }
  specialize (G (length ps) (le_n _)). rewrite Nat.sub_diag in G. exact G.
Qed.

(** ** counting *)
Local Notation jn p := ((fst p ++ snd p) : str).
Local Notation nl := ([] : str).
Definition occ (q : pair) (s : list str) : Z := Z.of_nat (length (filter (eqb q) (pairs s))).
Definition bz (b : bool) : Z := if b then 1%Z else 0%Z.

Lemma bz_nonneg b : (0 <= bz b)%Z.
Proof. destruct b; simpl; lia. Qed.
Lemma occ_cons2 q a b t : occ q (a :: b :: t) = (bz (eqb q (a, b)) + occ q (b :: t))%Z.
Proof.
  unfold occ. change (pairs (a :: b :: t)) with ((a, b) :: pairs (b :: t)). cbn [filter].
  destruct (eqb q (a, b)); cbn [bz length]; lia.
Qed.
Lemma occ_app q u (x : str) v : occ q (u ++ x :: v) = (occ q (u ++ [x]) + occ q (x :: v))%Z.
Proof.
  induction u as [|a|a b t _ IH] using list_ind2.
  - change (occ q (x :: v) = 0 + occ q (x :: v))%Z. lia.
  - change ([a] ++ x :: v) with (a :: x :: v). change ([a] ++ [x]) with [a; x].
    rewrite !occ_cons2. change (occ q [x]) with 0%Z. lia.
  - change ((a :: b :: t) ++ x :: v) with (a :: b :: (t ++ x :: v)).
    change ((a :: b :: t) ++ [x]) with (a :: b :: (t ++ [x])). rewrite !occ_cons2.
    change (b :: (t ++ x :: v)) with ((b :: t) ++ x :: v). change (b :: (t ++ [x])) with ((b :: t) ++ [x]).
    rewrite IH. lia.
Qed.
Lemma occ_snoc q u (x : str) :
  occ q (u ++ [x]) = (occ q u + match u with [] => 0 | _ => bz (eqb q (last u nl, x)) end)%Z.
Proof.
  induction u as [|a|a b t _ IH] using list_ind2; [reflexivity| |].
  - change ([a] ++ [x]) with [a; x]. rewrite occ_cons2. change (occ q [x]) with 0%Z.
    change (occ q [a]) with 0%Z. change (last [a] []) with a. lia.
  - change ((a :: b :: t) ++ [x]) with (a :: b :: (t ++ [x])). rewrite !occ_cons2.
    change (b :: (t ++ [x])) with ((b :: t) ++ [x]). rewrite IH.
    cbv iota. change (last (a :: b :: t) []) with (last (b :: t) []). apply Z.add_assoc.
Qed.
Lemma occ_nonneg q s : (0 <= occ q s)%Z.
Proof. unfold occ. lia. Qed.
Lemma occ_adjacent (q : pair) (s : list str) : adjacent q s <-> (0 < occ q s)%Z.
Proof.
  rewrite <- in_pairs. unfold occ.
  assert (G : forall x, In x (filter (eqb q) (pairs s : list pair)) <-> In x (pairs s : list pair) /\ x = q).
  { intros x. rewrite filter_In, eqb_eq. intuition congruence. }
  destruct (filter (eqb q) (pairs s : list pair)) as [|x l].
  - split; [|discriminate]. intros Hin. destruct (proj2 (G q) (conj Hin eq_refl)).
  - split; [reflexivity|]. intros _. destruct (proj1 (G x) (or_introl eq_refl)) as [Hin ->]. exact Hin.
Qed.

Fixpoint dsum (q : pair) (ds : list (pair * Z)) : Z :=
  match ds with
  | [] => 0
  | (k, z) :: t => (if eqb q k then z else 0) + dsum q t
  end.
Lemma dsum_app q a b : dsum q (a ++ b) = (dsum q a + dsum q b)%Z.
Proof. induction a as [|[k z] a IH]; simpl; [reflexivity|]. rewrite IH. lia. Qed.

Definition good_pair (p : pair) : Prop := fst p <> [] /\ snd p <> [].

Lemma good_pair_concat p : good_pair p -> jn p <> fst p /\ jn p <> snd p.
Proof.
  intros [H1 H2]. split; intros E; apply (f_equal (@length N)) in E; rewrite app_length in E.
  - destruct (snd p); [congruence|simpl in E; lia].
  - destruct (fst p); [congruence|simpl in E; lia].
Qed.

(** ** one word *)
Lemma search_pair_spec (p : pair) (s : list str) :
  match search_pair p s with
  | None => ~ adjacent p s
  | Some (u, v) => s = u ++ fst p :: snd p :: v /\ ~ adjacent p (u ++ [fst p])
  end.
Proof.
  induction s as [|a|a b t _ IH] using list_ind2.
  - intros (u & v & E). destruct u; discriminate.
  - intros (u & v & E). destruct u as [|? [|? ?]]; discriminate.
  - change (search_pair p (a :: b :: t)) with
      (if eqb (a, b) p then Some ([], t) else match search_pair p (b :: t) with Some (u, v) => Some (a :: u, v) | None => None end).
    destruct (eqb_spec (a, b) p) as [<-|Hn].
    + split; [reflexivity|]. rewrite <- in_pairs. intros [].
    + destruct (search_pair p (b :: t)) as [[u v]|].
      * destruct IH as [E Hu]. split; [simpl; rewrite E; reflexivity|].
        rewrite <- in_pairs in *. destruct u as [|x u].
        -- simpl in E. injection E as -> ->. simpl. intros [H|[]]. exact (Hn H).
        -- simpl in E. injection E as <- E. change ((a :: b :: u) ++ [fst p]) with (a :: b :: (u ++ [fst p])).
           change (pairs (a :: b :: (u ++ [fst p]))) with ((a, b) :: pairs (b :: (u ++ [fst p]))).
           intros [H|H]; [exact (Hn H)|]. exact (Hu H).
      * rewrite <- in_pairs in *. change (pairs (a :: b :: t)) with ((a, b) :: pairs (b :: t)).
        intros [H|H]; [exact (Hn H)|exact (IH H)].
Qed.

Lemma merge_pair_skip (p : pair) u (x : str) v :
  ~ adjacent p (u ++ [x]) -> merge_pair p (u ++ x :: v) = u ++ merge_pair p (x :: v).
Proof.
  rewrite <- in_pairs. induction u as [|a|a b t _ IH] using list_ind2; intros Hn; [reflexivity| |].
  - change ([a] ++ x :: v) with (a :: x :: v). rewrite merge_pair_cons2.
    replace (is_pair p a x) with false; [reflexivity|]. symmetry. apply is_pair_neq. intros ->.
    apply Hn. left. reflexivity.
  - change ((a :: b :: t) ++ x :: v) with (a :: b :: (t ++ x :: v)). rewrite merge_pair_cons2.
    change ((a :: b :: t) ++ [x]) with (a :: b :: (t ++ [x])) in Hn.
    change (pairs (a :: b :: (t ++ [x]))) with ((a, b) :: pairs ((b :: t) ++ [x])) in Hn.
    replace (is_pair p a b) with false.
    + cbn [app]. f_equal. change (b :: (t ++ x :: v)) with ((b :: t) ++ x :: v). apply IH.
      intros H. apply Hn. right. exact H.
    + symmetry. apply is_pair_neq. intros ->. apply Hn. left. reflexivity.
Qed.

Lemma merge_pair_step (p : pair) (u v : list str) :
  good_pair p -> ~ adjacent p (u ++ [fst p]) ->
  merge_pair p (u ++ (jn p) :: v) = merge_pair p (u ++ fst p :: snd p :: v).
Proof.
  intros Hg Hn. destruct (good_pair_concat p Hg) as [Hc1 Hc2].
  rewrite (merge_pair_skip p u (fst p) (snd p :: v) Hn).
  rewrite merge_pair_cons2. replace (is_pair p (fst p) (snd p)) with true
    by (symmetry; apply is_pair_eq; destruct p; reflexivity).
  rewrite merge_pair_skip.
  - f_equal. destruct v as [|b v]; [reflexivity|]. rewrite merge_pair_cons2.
    replace (is_pair p (jn p) b) with false; [reflexivity|].
    symmetry. apply is_pair_neq. intros E. apply Hc1. rewrite E at 3. reflexivity.
  - rewrite occ_adjacent in *. rewrite occ_snoc in *. destruct u as [|l u]; [exact Hn|].
    pose proof (occ_nonneg p (l :: u)) as Ho.
    destruct (eqb_spec (p : pair) (last (l :: u) nl, jn p)) as [E|_].
    + exfalso. apply Hc2. rewrite E at 3. reflexivity.
    + intros Hc. apply Hn. eapply Z.lt_le_trans; [exact Hc|]. apply Z.add_le_mono_l.
      exact (bz_nonneg _).
Qed.

Lemma match_deltas_sum (p : pair) f (u v : list str) (q : pair) :
  q <> p ->
  (f * occ q (u ++ (jn p) :: v) = f * occ q (u ++ fst p :: snd p :: v) + dsum q (match_deltas p f u v))%Z.
Proof.
  intros Hq. rewrite (occ_app q u (jn p) v), (occ_app q u (fst p) (snd p :: v)), !occ_snoc, occ_cons2.
  assert (Q : eqb q (fst p, snd p) = false) by (apply eqb_neq; destruct p; exact Hq).
  rewrite Q. cbn [bz].
  set (ab := (jn p)).
  assert (A : forall b0 : str, dsum q (((b0, ab), f) :: (if eqb p (b0, fst p) then [] else [((b0, fst p), (- f)%Z)]))
                       = (f * bz (eqb q (b0, ab)) - f * bz (eqb q (b0, fst p)))%Z).
  { intros b0. cbn [dsum]. destruct (eqb_spec p (b0, fst p)) as [E|E].
    - rewrite <- E. rewrite (proj2 (eqb_neq q p) Hq). simpl. destruct (eqb q (b0, ab)); simpl; lia.
    - simpl. destruct (eqb q (b0, ab)), (eqb q (b0, fst p)); simpl; lia. }
  assert (B : forall a0 : str, dsum q (((ab, a0), f) :: (if eqb p (snd p, a0) then [] else [((snd p, a0), (- f)%Z)]))
                       = (f * bz (eqb q (ab, a0)) - f * bz (eqb q (snd p, a0)))%Z).
  { intros a0. cbn [dsum]. destruct (eqb_spec p (snd p, a0)) as [E|E].
    - rewrite <- E. rewrite (proj2 (eqb_neq q p) Hq). simpl. destruct (eqb q (ab, a0)); simpl; lia.
    - simpl. destruct (eqb q (ab, a0)), (eqb q (snd p, a0)); simpl; lia. }
  assert (A' : dsum q (match u with
                       | [] => []
                       | _ => ((last u nl, ab), f) :: (if eqb p (last u nl, fst p) then [] else [((last u nl, fst p), (- f)%Z)])
                       end)
               = (f * match u with [] => 0 | _ => bz (eqb q (last u nl, ab)) end
                  - f * match u with [] => 0 | _ => bz (eqb q (last u nl, fst p)) end)%Z).
  { destruct u as [|x u]; [simpl; lia|]. apply A. }
  assert (B' : dsum q (match v with
                       | [] => []
                       | a0 :: _ => ((ab, a0), f) :: (if eqb p (snd p, a0) then [] else [((snd p, a0), (- f)%Z)])
                       end)
               = (f * occ q (ab :: v) - f * occ q (snd p :: v))%Z).
  { destruct v as [|x v]; [simpl; change (occ q [ab]) with 0%Z; change (occ q [snd p]) with 0%Z; lia|].
    rewrite B, !occ_cons2. lia. }
  assert (M : (dsum q (match_deltas p f u v)
               = f * match u with [] => 0 | _ => bz (eqb q (last u nl, ab)) end
                  - f * match u with [] => 0 | _ => bz (eqb q (last u nl, fst p)) end
                  + (f * occ q (ab :: v) - f * occ q (snd p :: v)))%Z).
  { unfold match_deltas. rewrite dsum_app. f_equal; [exact A'|exact B']. }
  rewrite M. lia.
Qed.

Lemma match_deltas_not_p (p : pair) f (u v : list str) : good_pair p -> Forall (fun d => fst d <> p) (match_deltas p f u v).
Proof.
  intros Hg. destruct (good_pair_concat p Hg) as [Hc1 Hc2]. unfold match_deltas. cbv zeta.
  assert (N1 : forall x, (x, jn p) <> p) by (intros x E; apply Hc2; rewrite <- E at 3; reflexivity).
  assert (N2 : forall x, (jn p, x) <> p) by (intros x E; apply Hc1; rewrite <- E at 3; reflexivity).
  apply Forall_app. split.
  - destruct u as [|x u]; [constructor|]. constructor; [apply N1|].
    destruct (eqb_spec p (last (x :: u) nl, fst p)) as [|E]; constructor; [|constructor]. exact (fun e => E (eq_sym e)).
  - destruct v as [|x v]; [constructor|]. constructor; [apply N2|].
    destruct (eqb_spec p (snd p, x)) as [|E]; constructor; [|constructor]. exact (fun e => E (eq_sym e)).
Qed.

Lemma merge_word_spec fuel (p : pair) f (s : list str) :
  good_pair p -> length s < fuel ->
  exists ds, merge_word fuel p f s = Ok (merge_pair p s, ds)
    /\ (forall q, q <> p -> (f * occ q (merge_pair p s) = f * occ q s + dsum q ds)%Z)
    /\ Forall (fun d => fst d <> p) ds
    /\ occ p (merge_pair p s) = 0%Z.
Proof.
  intros Hg. revert s. induction fuel as [|fuel IH]; intros s Hf; [lia|].
  cbn [merge_word]. pose proof (search_pair_spec p s) as S. destruct (search_pair p s) as [[u v]|].
  - destruct S as [E Hn].
    destruct (IH (u ++ (jn p) :: v)) as (ds & E1 & E2 & E3 & E4).
    { rewrite E in Hf. rewrite app_length in *. simpl in *. lia. }
    rewrite (merge_pair_step p u v Hg Hn), <- E in E1, E2, E4. rewrite E1. cbn [bind fst snd].
    exists (match_deltas p f u v ++ ds). split; [reflexivity|]. split; [|split; [|exact E4]].
    + intros q Hq. rewrite (E2 q Hq), (match_deltas_sum p f u v q Hq), <- E, dsum_app. lia.
    + apply Forall_app. split; [apply match_deltas_not_p, Hg|exact E3].
  - exists []. rewrite (merge_pair_id _ _ S). split; [reflexivity|]. split; [simpl; intros; lia|].
    split; [constructor|]. rewrite occ_adjacent in S. pose proof (occ_nonneg p s). lia.
Qed.

(** ** the whole vocabulary *)
Definition vcount (v : split_vocab) (q : pair) : Z :=
  fold_right (fun wf n => (snd wf * occ q (fst wf) + n)%Z) 0%Z v.
Definition vmerge (p : pair) (v : split_vocab) : split_vocab := map (fun wf => (merge_pair p (fst wf), snd wf)) v.

Record wf_vocab (v : split_vocab) : Prop := {
  wf_proper : Forall (fun wf => proper (fst wf)) v;
  wf_pos : Forall (fun wf => (0 < snd wf)%Z) v;
  wf_distinct : NoDup (map (fun wf => List.concat (fst wf)) v)
}.

Lemma merge_vocab_loop_spec (p : pair) (inp out : split_vocab) added :
  good_pair p ->
  NoDup (map (fun wf => List.concat (fst wf)) (out ++ inp)) ->
  exists ds, merge_vocab_loop p inp out added = Ok (out ++ vmerge p inp, added ++ ds)
    /\ (forall q, q <> p -> vcount (vmerge p inp) q = (vcount inp q + dsum q ds)%Z)
    /\ Forall (fun d => fst d <> p) ds
    /\ vcount (vmerge p inp) p = 0%Z.
Proof.
  intros Hg. revert out added. induction inp as [|[w f] inp IH]; intros out added Hn.
  - exists []. cbn [merge_vocab_loop vmerge map]. rewrite !app_nil_r. repeat split; auto; simpl; intros; lia.
  - cbn [merge_vocab_loop].
    destruct (merge_word_spec (S (length w)) p f w Hg (Nat.lt_succ_diag_r _)) as (ds & E1 & E2 & E3 & E4).
    rewrite E1. cbn [bind fst snd].
    assert (Fr : dget out (merge_pair p w) = None).
    { apply dget_none. intros Hin. unfold dkeys in Hin. apply in_map_iff in Hin as ([w' f'] & Ew & Hin).
      simpl in Ew. subst w'. rewrite map_app in Hn. cbn [map fst] in Hn. apply NoDup_remove_2 in Hn.
      apply Hn, in_or_app. left. rewrite <- (merge_pair_concat p w).
      apply (in_map (fun wf => List.concat (fst wf))) in Hin. exact Hin. }
    rewrite (dset_fresh _ _ _ Fr).
    destruct (IH (out ++ [(merge_pair p w, f)]) (added ++ ds)) as (ds' & F1 & F2 & F3 & F4).
    { rewrite <- app_assoc, map_app in *. cbn [app map fst] in *. rewrite merge_pair_concat. exact Hn. }
    exists (ds ++ ds'). split; [refine (eq_trans F1 _); rewrite <- !app_assoc; reflexivity|]. split; [|split].
    + intros q Hq. cbn [vmerge map vcount fold_right fst snd]. fold (vmerge p inp). rewrite dsum_app.
      unfold vcount in F2. rewrite (F2 q Hq), (E2 q Hq). lia.
    + apply Forall_app. auto.
    + cbn [vmerge map vcount fold_right fst snd]. rewrite E4. unfold vmerge, vcount in F4. rewrite F4. lia.
Qed.

Lemma merge_vocab_spec p v :
  good_pair p -> wf_vocab v ->
  exists ds, merge_vocab p v = Ok (vmerge p v, ds)
    /\ (forall q, q <> p -> vcount (vmerge p v) q = (vcount v q + dsum q ds)%Z)
    /\ Forall (fun d => fst d <> p) ds
    /\ vcount (vmerge p v) p = 0%Z.
Proof. intros Hg Hw. apply (merge_vocab_loop_spec p v [] [] Hg). apply Hw. Qed.

Lemma wf_vmerge p v : wf_vocab v -> wf_vocab (vmerge p v).
Proof.
  intros [H1 H2 H3]. constructor; unfold vmerge.
  - rewrite Forall_map. eapply Forall_impl; [|exact H1]. intros [w f] H. apply proper_merge, H.
  - rewrite Forall_map. exact H2.
  - rewrite map_map. simpl. erewrite map_ext; [exact H3|]. intros [w f]. apply merge_pair_concat.
Qed.

(** ** initial statistics *)
Lemma dget_dincr {K} `{Eqb K} (d : dict K Z) k v q :
  dget (dincr d k v) q = if eqb q k then Some (match dget d k with Some x => x | None => 0 end + v)%Z else dget d q.
Proof. unfold dincr. apply dget_dset. Qed.

Definition dz {K} `{Eqb K} (d : dict K Z) (q : K) : Z := match dget d q with Some x => x | None => 0%Z end.

Lemma word_stats_spec s f d q :
  dz (word_stats s f d) q = (dz d q + f * occ q s)%Z.
Proof.
  revert d. induction s as [|a|a b t _ IH] using list_ind2; intros d.
  - simpl. change (occ q []) with 0%Z. lia.
  - simpl. change (occ q [a]) with 0%Z. lia.
  - change (word_stats (a :: b :: t) f d) with (word_stats (b :: t) f (dincr d (a, b) f)).
    rewrite IH, occ_cons2. unfold dz. rewrite dget_dincr.
    destruct (eqb_spec q (a, b)) as [->|]; simpl bz; lia.
Qed.

Lemma word_stats_nodup s f d : NoDup (dkeys d) -> NoDup (dkeys (word_stats s f d)).
Proof.
  revert d. induction s as [|a|a b t _ IH] using list_ind2; intros d Hd; [exact Hd..|].
  apply (IH (dincr d (a, b) f)), dset_nodup, Hd.
Qed.

Lemma word_stats_pos s f d : (0 < f)%Z -> (forall q x, dget d q = Some x -> (0 < x)%Z) ->
  forall q x, dget (word_stats s f d) q = Some x -> (0 < x)%Z.
Proof.
  intros Hf. revert d. induction s as [|a|a b t _ IH] using list_ind2; intros d Hd; [exact Hd..|].
  apply (IH (dincr d (a, b) f)). intros q x. rewrite dget_dincr. destruct (eqb q (a, b)); [|apply Hd].
  intros E. injection E as <-. destruct (dget d (a, b)) as [y|] eqn:G; [specialize (Hd _ _ G)|]; lia.
Qed.

Lemma get_stats_spec v :
  Forall (fun wf => (0 < snd wf)%Z) v ->
  NoDup (dkeys (get_stats v)) /\ (forall q, dz (get_stats v) q = vcount v q)
  /\ (forall q x, dget (get_stats v) q = Some x -> (0 < x)%Z).
Proof.
  intros Hv. unfold get_stats.
  assert (G : forall v d, Forall (fun wf => (0 < snd wf)%Z) v -> NoDup (dkeys d) ->
              (forall q x, dget d q = Some x -> (0 < x)%Z) ->
              let r := fold_left (fun d wf => word_stats (fst wf) (snd wf) d) v d in
              NoDup (dkeys r) /\ (forall q, dz r q = (dz d q + vcount v q)%Z)
              /\ (forall q x, dget r q = Some x -> (0 < x)%Z)).
  { clear. induction v as [|[w f] v IH]; intros d Hv Hd Hp; cbn [fold_left].
    - repeat split; auto. intros q. simpl. lia.
    - inversion Hv as [|? ? Hf Hv']; subst. cbn [fst snd] in *.
      destruct (IH (word_stats w f d) Hv' (word_stats_nodup w f d Hd) (word_stats_pos w f d Hf Hp)) as (A & B & C).
      repeat split; auto. intros q. rewrite B, word_stats_spec. cbn [vcount fold_right fst snd]. unfold vcount. lia. }
  destruct (G v [] Hv (NoDup_nil _)) as (A & B & C); [discriminate|]. repeat split; auto.
Qed.

Lemma reach_stats v :
  Forall (fun wf => (0 < snd wf)%Z) v ->
  exists h, reach (pc_init (get_stats v)) h /\ forall q, net h q = vcount v q.
Proof.
  intros Hv. destruct (get_stats_spec v Hv) as (A & B & C). eexists. split.
  - apply reach_init; [exact A|]. apply Forall_forall. intros [k x] Hin.
    apply (dget_nodup _ _ _ A) in Hin. apply C in Hin. simpl. lia.
  - intros q. rewrite (net_adds _ _ A), <- B. reflexivity.
Qed.

Lemma reach_adds ds (q : pc pair) h :
  reach q h ->
  exists h', reach (fold_left (fun q a => pc_add q (fst a) (snd a)) ds q) h'
             /\ forall k, net h' k = (net h k + dsum k ds)%Z.
Proof.
  revert q h. induction ds as [|[k z] ds IH]; intros q h R.
  - exists h. split; [exact R|]. intros k. simpl. lia.
  - destruct (IH _ _ (reach_add _ _ k z R)) as (h' & R' & N). exists h'. split; [exact R'|].
    intros k'. rewrite N. cbn [net dsum]. destruct (eqb k' k); lia.
Qed.

Lemma vcount_adjacent v q :
  Forall (fun wf => (0 < snd wf)%Z) v ->
  (0 <= vcount v q)%Z /\ ((0 < vcount v q)%Z <-> exists wf, In wf v /\ adjacent q (fst wf)).
Proof.
  induction v as [|[w f] v IH]; intros Hv.
  - simpl. split; [lia|]. split; [lia|]. intros (wf & [] & _).
  - inversion Hv as [|? ? Hf Hv']; subst. cbn [snd] in Hf. destruct (IH Hv') as [I1 I2].
    cbn [vcount fold_right fst snd]. fold (vcount v q). pose proof (occ_nonneg q w). split; [nia|].
    pose proof (occ_adjacent q w) as Hw. split.
    + intros Hp. destruct (Z.lt_ge_cases 0 (occ q w)) as [L|L].
      * exists (w, f). split; [left; reflexivity|]. apply Hw, L.
      * assert (occ q w = 0%Z) as E0 by lia. rewrite E0, Z.mul_0_r in Hp. apply I2 in Hp.
        destruct Hp as (wf & Hin & Ha). exists wf. split; [right; exact Hin|exact Ha].
    + intros (wf & [<-|Hin] & Ha).
      * apply Hw in Ha. nia.
      * assert (0 < vcount v q)%Z by (apply I2; eauto). nia.
Qed.
