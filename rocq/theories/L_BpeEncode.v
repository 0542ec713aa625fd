(** Lemmas on codeprep/bpepkg/bpe_encode.py. *)
From Verif Require Import M_Base L_Base M_Literal L_Literal M_Merge L_Merge M_BpeEncode S_Bpe L_Bpe.
From Coq Require Import Arith.

(** ** escape, to_char_list, unescape *)
Definition unit_of (c : N) : str := if N.eqb c at_ch then [at_ch; at_ch] else [c].

Lemma replace_at w : replace at_str [at_ch; at_ch] w = List.concat (map unit_of w).
Proof.
  unfold replace, at_str. induction w as [|c w IH]; [reflexivity|].
  cbn [replace_from starts_with map List.concat]. rewrite andb_true_r, N.eqb_sym. unfold unit_of at 1.
  destruct (N.eqb_spec c at_ch) as [->|Hc].
  - change (length [at_ch] - 1) with 0. rewrite IH. reflexivity.
  - rewrite IH. reflexivity.
Qed.

Lemma escape_merged w : escape w true = List.concat (map unit_of w ++ [at_str]).
Proof. unfold escape. rewrite replace_at, concat_app. simpl. reflexivity. Qed.

Lemma to_char_list_escaped w : to_char_list (escape w true) = Ok (map unit_of w ++ [at_str]).
Proof.
  rewrite escape_merged. induction w as [|c w IH]; [reflexivity|].
  cbn [map app List.concat]. unfold unit_of at 1 3. destruct (N.eqb_spec c at_ch) as [->|Hc].
  - cbn [app to_char_list]. change (N.eqb at_ch at_ch) with true. cbn [negb]. rewrite IH. reflexivity.
  - cbn [app to_char_list]. apply N.eqb_neq in Hc. rewrite Hc. cbn [negb]. rewrite IH. reflexivity.
Qed.

Lemma replace_double w : replace [at_ch; at_ch] at_str (List.concat (map unit_of w)) = w.
Proof.
  unfold replace. induction w as [|c w IH]; [reflexivity|].
  cbn [map List.concat]. unfold unit_of at 1. destruct (N.eqb_spec c at_ch) as [->|Hc].
  - cbn [app replace_from starts_with]. change (N.eqb at_ch at_ch) with true. cbn [andb].
    change (length [at_ch; at_ch] - 1) with 1. cbn [replace_from].
    rewrite IH. reflexivity.
  - cbn [app replace_from starts_with].
    destruct (N.eqb_spec at_ch c); [congruence|]. cbn [andb]. rewrite IH. reflexivity.
Qed.

Lemma escape_inj a b m : escape a m = escape b m -> a = b.
Proof.
  unfold escape. intros E.
  assert (E' : replace at_str [at_ch; at_ch] a = replace at_str [at_ch; at_ch] b).
  { destruct m; [apply app_inj_tail in E; tauto|].
    rewrite !app_assoc in E. apply app_inj_tail in E. destruct E as [E _].
    apply app_inj_tail in E. tauto. }
  rewrite !replace_at in E'. rewrite <- (replace_double a), <- (replace_double b), E'. reflexivity.
Qed.

Lemma map_concat_inv {A B} (f : A -> B) w gs :
  List.concat gs = map f w -> exists ws, gs = map (map f) ws /\ List.concat ws = w.
Proof.
  revert w; induction gs as [|g gs IH]; intros w E.
  - exists []. destruct w; [auto|discriminate].
  - simpl in E. symmetry in E. apply map_eq_app in E. destruct E as (w1 & w2 & -> & E1 & E2).
    symmetry in E2. destruct (IH _ E2) as (ws & -> & <-). exists (w1 :: ws). rewrite <- E1. auto.
Qed.

Lemma last_group {A} (gs : list (list A)) l (x : A) :
  List.concat gs = l ++ [x] -> Forall (fun g => g <> []) gs ->
  exists gs1 g, gs = gs1 ++ [g ++ [x]] /\ List.concat gs1 ++ g = l.
Proof.
  intros E Hne. destruct gs as [|g0 gs0] using rev_ind.
  - destruct l; discriminate.
  - clear IHgs0. apply Forall_app in Hne. destruct Hne as [_ Hg]. inversion Hg as [|? ? Hg0 _]; subst.
    destruct g0 as [|y g0] using rev_ind; [congruence|].
    rewrite concat_app in E. simpl in E. rewrite app_nil_r, app_assoc in E.
    apply app_inj_tail in E. destruct E as [E ->]. exists gs0, g0. auto.
Qed.

Lemma unescape_snoc l x :
  unescape (l ++ [x ++ [at_ch]]) = Ok (map (replace [at_ch; at_ch] at_str) (l ++ [x])).
Proof.
  unfold unescape. rewrite last_last, removelast_last, last_last, removelast_last.
  destruct (l ++ [x ++ [at_ch]]) eqn:Eq; [destruct l; discriminate|].
  destruct (x ++ [at_ch]) eqn:Eq2; [destruct x; discriminate|].
  rewrite N.eqb_refl. reflexivity.
Qed.

Lemma unescape_groups gs w :
  List.concat gs = map unit_of w ++ [at_str] -> Forall (fun g => g <> []) gs ->
  exists ws, unescape (map (@List.concat N) gs) = Ok ws /\ List.concat ws = w /\ length ws = length gs /\
             Forall (fun g => g <> []) (removelast ws).
Proof.
  intros E Hne. destruct (last_group _ _ _ E Hne) as (gs1 & g & -> & E1).
  assert (Ew : exists ws, gs1 ++ [g] = map (map unit_of) ws /\ List.concat ws = w).
  { apply map_concat_inv. rewrite concat_app. simpl. rewrite app_nil_r. exact E1. }
  destruct Ew as (ws & Eg & Ec). exists ws.
  assert (U : unescape (map (@List.concat N) (gs1 ++ [g ++ [at_str]])) =
              Ok (map (replace [at_ch; at_ch] at_str) (map (@List.concat N) (gs1 ++ [g])))).
  { rewrite (map_app _ gs1 [g ++ [at_str]]). cbn [map]. rewrite concat_app. change (List.concat [at_str]) with [at_ch].
    rewrite unescape_snoc. f_equal. f_equal. symmetry. apply map_app. }
  rewrite U, Eg. repeat split.
  - f_equal. rewrite !map_map. rewrite <- (map_id ws) at 2. apply map_ext. intros a. apply replace_double.
  - exact Ec.
  - rewrite !app_length. simpl. apply (f_equal (@length _)) in Eg. rewrite app_length, map_length in Eg.
    unfold str, sym in *. simpl in *. lia.
  - destruct ws as [|w0 ws] using rev_ind; [constructor|]. clear IHws.
    rewrite removelast_last. rewrite map_app in Eg. simpl in Eg. apply app_inj_tail in Eg. destruct Eg as [Eg _].
    rewrite Eg in Hne. apply Forall_app in Hne. destruct Hne as [Hne _].
    rewrite Forall_map in Hne. eapply Forall_impl; [|exact Hne]. intros a Ha Hn. subst a. apply Ha. reflexivity.
Qed.

(** ** The encoding loop *)
Section Loop.
  Variable merges : merge_list.
  Let pr := ml_priority merges.
  Hypothesis pr_inj : forall p q k, pr p = Some k -> pr q = Some k -> p = q.

  Fixpoint greedy (p : sym * sym) (i : nat) (s : list sym) : list nat :=
    match s with
    | a :: ((b :: t) as r) => if is_pair p a b then i :: greedy p (S (S i)) t else greedy p (S i) r
    | _ => []
    end.
  Lemma greedy_cons2 p i a b t :
    greedy p i (a :: b :: t) = if is_pair p a b then i :: greedy p (S (S i)) t else greedy p (S i) (b :: t).
  Proof. reflexivity. Qed.

  Definition greedyb (blocked : bool) p i s :=
    if blocked then match s with [] => [] | _ :: r => greedy p (S i) r end else greedy p i s.

  Definition blocked (i : nat) (idxs : list nat) : bool :=
    match idxs with j :: _ => S j =? i | [] => false end.

  Definition all_ge (k : nat) (s : list sym) := forall q kq, In q (pairs s) -> pr q = Some kq -> k <= kq.

  Lemma all_ge_cons k a b t :
    all_ge k (a :: b :: t) <-> (forall kq, pr (a, b) = Some kq -> k <= kq) /\ all_ge k (b :: t).
  Proof.
    unfold all_ge. change (pairs (a :: b :: t)) with ((a, b) :: pairs (b :: t)). split.
    - intros H. split; [intros kq; apply H; left; reflexivity|intros q kq Hq; apply H; right; exact Hq].
    - intros [H1 H2] q kq [<-|Hin]; eauto.
  Qed.

  Lemma greedyb_first b p i a t c : greedyb b p i (a :: c :: t) =
    if b then greedy p (S i) (c :: t) else if is_pair p a c then i :: greedy p (S (S i)) t else greedy p (S i) (c :: t).
  Proof. destruct b; reflexivity. Qed.

  (** scanning with a current best pair [p] *)
  Lemma scan_some s : forall i p k idxs,
    pr p = Some k -> (forall j, In j idxs -> j < i) ->
    (all_ge k s /\ scan merges i (Some k) idxs s = (Some k, rev (greedyb (blocked i idxs) p i s) ++ idxs))
    \/ (exists q kq, pr q = Some kq /\ kq < k /\ In q (pairs s) /\ all_ge kq s /\
                     scan merges i (Some k) idxs s = (Some kq, rev (greedy q i s))).
  Proof.
    induction s as [|a|a b t _ IH] using list_ind2; intros i p k idxs Hp Hidx.
    - left. split; [intros q kq []|]. unfold greedyb. destruct (blocked i idxs); reflexivity.
    - left. split; [intros q kq []|]. unfold greedyb. destruct (blocked i idxs); reflexivity.
    - change (scan merges i (Some k) idxs (a :: b :: t)) with
        (match pr (a, b) with
         | None => scan merges (S i) (Some k) idxs (b :: t)
         | Some p0 =>
             if (p0 <? k)%nat then scan merges (S i) (Some p0) [i] (b :: t)
             else if (p0 =? k)%nat then
               match idxs with
               | j :: _ => if (S j =? i)%nat then scan merges (S i) (Some k) idxs (b :: t)
                           else scan merges (S i) (Some k) (i :: idxs) (b :: t)
               | [] => scan merges (S i) (Some k) (i :: idxs) (b :: t)
               end
             else scan merges (S i) (Some k) idxs (b :: t)
         end).
      assert (Hidx' : forall j, In j idxs -> j < S i) by (intros j Hj; apply Hidx in Hj; lia).
      assert (Hb0 : blocked (S i) idxs = false).
      { unfold blocked. destruct idxs as [|j idxs]; [reflexivity|]. apply Nat.eqb_neq.
        specialize (Hidx j (or_introl eq_refl)). lia. }
      (* moving on without taking position i *)
      assert (Hskip : forall (Hge : forall kq, pr (a, b) = Some kq -> k <= kq)
                             (Hnot : is_pair p a b = true -> blocked i idxs = true),
        (all_ge k (a :: b :: t) /\ scan merges (S i) (Some k) idxs (b :: t)
           = (Some k, rev (greedyb (blocked i idxs) p i (a :: b :: t)) ++ idxs))
        \/ (exists q kq, pr q = Some kq /\ kq < k /\ In q (pairs (a :: b :: t)) /\ all_ge kq (a :: b :: t) /\
               scan merges (S i) (Some k) idxs (b :: t) = (Some kq, rev (greedy q i (a :: b :: t))))).
      { intros Hge Hnot. destruct (IH (S i) p k idxs Hp Hidx') as [[Hall Hsc]|(q & kq & Hq & Hlt & Hin & Hall & Hsc)].
        - left. split; [apply all_ge_cons; auto|]. rewrite Hsc, Hb0. unfold greedyb at 1.
          rewrite greedyb_first. destruct (blocked i idxs) eqn:Eb; [reflexivity|].
          destruct (is_pair p a b); [specialize (Hnot eq_refl); discriminate|reflexivity].
        - right. exists q, kq. repeat split; auto.
          + right. exact Hin.
          + apply all_ge_cons. split; [|exact Hall]. intros k2 Hk2. apply Hge in Hk2. lia.
          + rewrite Hsc, greedy_cons2. destruct (is_pair q a b) eqn:Eq; [|reflexivity].
            apply is_pair_eq in Eq. subst q. apply Hge in Hq. lia. }
      destruct (pr (a, b)) as [p0|] eqn:Epr.
      + destruct (Nat.ltb_spec p0 k) as [Hlt|Hge].
        * (* better *)
          right.
          destruct (IH (S i) (a, b) p0 [i] Epr ltac:(intros j [<-|[]]; lia))
            as [[Hall Hsc]|(q & kq & Hq & Hlt' & Hin & Hall & Hsc)].
          -- exists (a, b), p0. repeat split; auto.
             ++ left. reflexivity.
             ++ apply all_ge_cons. split; [intros kq Hkq; rewrite Epr in Hkq; injection Hkq as <-; lia|exact Hall].
             ++ rewrite Hsc, greedy_cons2.
                replace (is_pair (a, b) a b) with true by (symmetry; apply is_pair_eq; reflexivity).
                unfold blocked. rewrite Nat.eqb_refl. reflexivity.
          -- exists q, kq. repeat split; auto.
             ++ lia.
             ++ right. exact Hin.
             ++ apply all_ge_cons. split; [intros k2 Hk2; rewrite Epr in Hk2; injection Hk2 as <-; lia|exact Hall].
             ++ rewrite Hsc, greedy_cons2. destruct (is_pair q a b) eqn:Eq; [|reflexivity].
                apply is_pair_eq in Eq. subst q. rewrite Epr in Hq. injection Hq as ->. lia.
        * destruct (Nat.eqb_spec p0 k) as [->|Hne].
          -- assert (Ep : p = (a, b)) by (eapply pr_inj; eassumption). subst p.
             destruct idxs as [|j idxs'] eqn:Eidx; [|destruct (Nat.eqb_spec (S j) i) as [Hj|Hj]].
             ++ destruct (IH (S i) (a, b) k [i] Hp ltac:(intros j [<-|[]]; lia))
                  as [[Hall Hsc]|(q & kq & Hq & Hlt' & Hin & Hall & Hsc)].
                ** left. split.
                   { apply all_ge_cons. split; [intros kq Hkq; rewrite Epr in Hkq; injection Hkq as <-; lia|exact Hall]. }
                   rewrite Hsc. cbn [blocked]. rewrite Nat.eqb_refl. unfold greedyb. rewrite greedy_cons2.
                   replace (is_pair (a, b) a b) with true by (symmetry; apply is_pair_eq; reflexivity).
                   cbn [rev]. rewrite app_nil_r. reflexivity.
                ** right. exists q, kq. repeat split; auto.
                   { right. exact Hin. }
                   { apply all_ge_cons. split; [intros k2 Hk2; rewrite Epr in Hk2; injection Hk2 as <-; lia|exact Hall]. }
                   { rewrite Hsc, greedy_cons2. destruct (is_pair q a b) eqn:Eq; [|reflexivity].
                     apply is_pair_eq in Eq. subst q. rewrite Epr in Hq. injection Hq as ->. lia. }
             ++ apply Hskip.
                { intros kq Hkq. injection Hkq as <-. lia. }
                { intros _. unfold blocked. apply Nat.eqb_eq. exact Hj. }
             ++ destruct (IH (S i) (a, b) k (i :: j :: idxs') Hp
                            ltac:(intros j' [<-|Hj']; [lia|apply Hidx'; exact Hj']))
                  as [[Hall Hsc]|(q & kq & Hq & Hlt' & Hin & Hall & Hsc)].
                ** left. split.
                   { apply all_ge_cons. split; [intros kq Hkq; rewrite Epr in Hkq; injection Hkq as <-; lia|exact Hall]. }
                   rewrite Hsc. replace (blocked (S i) (i :: j :: idxs')) with true
                     by (symmetry; unfold blocked; apply Nat.eqb_refl).
                   replace (blocked i (j :: idxs')) with false
                     by (symmetry; unfold blocked; apply Nat.eqb_neq; exact Hj).
                   unfold greedyb. rewrite greedy_cons2.
                   replace (is_pair (a, b) a b) with true by (symmetry; apply is_pair_eq; reflexivity).
                   cbn [rev]. rewrite <- app_assoc. reflexivity.
                ** right. exists q, kq. repeat split; auto.
                   { right. exact Hin. }
                   { apply all_ge_cons. split; [intros k2 Hk2; rewrite Epr in Hk2; injection Hk2 as <-; lia|exact Hall]. }
                   { rewrite Hsc, greedy_cons2. destruct (is_pair q a b) eqn:Eq; [|reflexivity].
                     apply is_pair_eq in Eq. subst q. rewrite Epr in Hq. injection Hq as ->. lia. }
          -- apply Hskip.
             { intros kq Hkq. injection Hkq as <-. lia. }
             { intros Eq. apply is_pair_eq in Eq. subst p. rewrite Epr in Hp. congruence. }
      + apply Hskip.
        { discriminate. }
        { intros Eq. apply is_pair_eq in Eq. subst p. congruence. }
  Qed.

  Lemma scan_none s : forall i,
    ((forall q, In q (pairs s) -> pr q = None) /\ scan merges i None [] s = (None, []))
    \/ (exists q kq, pr q = Some kq /\ In q (pairs s) /\ all_ge kq s /\
                     scan merges i None [] s = (Some kq, rev (greedy q i s))).
  Proof.
    induction s as [|a|a b t _ IH] using list_ind2; intros i.
    - left. split; [intros q []|reflexivity].
    - left. split; [intros q []|reflexivity].
    - change (scan merges i None [] (a :: b :: t)) with
        (match pr (a, b) with
         | None => scan merges (S i) None [] (b :: t)
         | Some p0 => scan merges (S i) (Some p0) [i] (b :: t)
         end).
      destruct (pr (a, b)) as [p0|] eqn:Epr.
      + right. destruct (scan_some (b :: t) (S i) (a, b) p0 [i] Epr ltac:(intros j [<-|[]]; lia))
          as [[Hall Hsc]|(q & kq & Hq & Hlt' & Hin & Hall & Hsc)].
        * exists (a, b), p0. repeat split; auto.
          -- left. reflexivity.
          -- apply all_ge_cons. split; [intros kq Hkq; rewrite Epr in Hkq; injection Hkq as <-; lia|exact Hall].
          -- rewrite Hsc, greedy_cons2.
             replace (is_pair (a, b) a b) with true by (symmetry; apply is_pair_eq; reflexivity).
             unfold blocked. rewrite Nat.eqb_refl. reflexivity.
        * exists q, kq. repeat split; auto.
          -- right. exact Hin.
          -- apply all_ge_cons. split; [intros k2 Hk2; rewrite Epr in Hk2; injection Hk2 as <-; lia|exact Hall].
          -- rewrite Hsc, greedy_cons2. destruct (is_pair q a b) eqn:Eq; [|reflexivity].
             apply is_pair_eq in Eq. subst q. rewrite Epr in Hq. injection Hq as ->. lia.
      + destruct (IH (S i)) as [[Hnone Hsc]|(q & kq & Hq & Hin & Hall & Hsc)].
        * left. split; [|exact Hsc]. intros q [<-|Hq]; auto.
        * right. exists q, kq. repeat split; auto.
          -- right. exact Hin.
          -- apply all_ge_cons. split; [intros k2 Hk2; congruence|exact Hall].
          -- rewrite Hsc, greedy_cons2. destruct (is_pair q a b) eqn:Eq; [|reflexivity].
             apply is_pair_eq in Eq. subst q. congruence.
  Qed.

  (** rebuilding from the greedy indices is [merge_pair] *)
  Lemma rebuild_greedy p s : forall pre mid,
    rebuild (pre ++ mid ++ s) (length pre) (greedy p (length pre + length mid) s) = mid ++ merge_pair p s.
  Proof.
    induction s as [|a|a b t IH1 IH2] using list_ind2; intros pre mid.
    - cbn [greedy rebuild merge_pair]. unfold slice. rewrite skipn_app, skipn_all, Nat.sub_diag. cbn [skipn app].
      rewrite firstn_all2 by (rewrite !app_length; simpl; lia). reflexivity.
    - cbn [greedy rebuild merge_pair]. unfold slice. rewrite skipn_app, skipn_all, Nat.sub_diag. cbn [skipn app].
      rewrite firstn_all2 by (rewrite !app_length; simpl; lia). reflexivity.
    - rewrite greedy_cons2, merge_pair_cons2. destruct (is_pair p a b).
      + cbn [rebuild]. 
        assert (E1 : slice (length pre) (length pre + length mid) (pre ++ mid ++ a :: b :: t) = mid).
        { unfold slice. rewrite skipn_app, skipn_all, Nat.sub_diag. cbn [skipn app].
          replace (length pre + length mid - length pre) with (length mid) by lia.
          rewrite firstn_app, firstn_all, Nat.sub_diag. cbn [firstn]. apply app_nil_r. }
        assert (E2 : nth (length pre + length mid) (pre ++ mid ++ a :: b :: t) [] = a).
        { rewrite app_assoc, <- app_length, app_nth2, Nat.sub_diag by lia. reflexivity. }
        assert (E3 : nth (S (length pre + length mid)) (pre ++ mid ++ a :: b :: t) [] = b).
        { rewrite app_assoc, <- app_length, app_nth2 by lia.
          replace (S (length (pre ++ mid)) - length (pre ++ mid)) with 1 by lia. reflexivity. }
        rewrite E1, E2, E3. f_equal. cbn [app]. f_equal.
        specialize (IH1 (pre ++ mid ++ [a; b]) []).
        rewrite <- !app_assoc in IH1. cbn [app] in IH1. rewrite <- IH1.
        assert (HL : length (pre ++ mid ++ [a; b]) = length pre + length mid + 2)
          by (rewrite !app_length; simpl; lia).
        rewrite HL. cbn [length]. rewrite Nat.add_0_r.
        replace (S (S (length pre + length mid))) with (length pre + length mid + 2) by lia.
        f_equal.
      + specialize (IH2 pre (mid ++ [a])).
        rewrite app_length in IH2. cbn [length] in IH2.
        replace (length pre + (length mid + 1)) with (S (length pre + length mid)) in IH2 by lia.
        rewrite <- !app_assoc in IH2. cbn [app] in IH2. exact IH2.
  Qed.

  Lemma rev_nil_inv {A} (l : list A) : rev l = [] -> l = [].
  Proof. intros E. apply (f_equal (@rev _)) in E. rewrite rev_involutive in E. exact E. Qed.

  Lemma greedy_nonempty p i s : In p (pairs s) -> greedy p i s <> [].
  Proof.
    revert i; induction s as [|a|a b t _ IH] using list_ind2; intros i; [intros []..|].
    change (pairs (a :: b :: t)) with ((a, b) :: pairs (b :: t)).
    rewrite greedy_cons2. destruct (is_pair p a b) eqn:E; [congruence|].
    apply is_pair_neq in E. intros [Hin|Hin]; [congruence|apply IH; exact Hin].
  Qed.

  Lemma encode_round_spec s :
    ((forall q, In q (pairs s) -> pr q = None) /\ encode_round merges s = None)
    \/ (exists q kq, pr q = Some kq /\ In q (pairs s) /\ all_ge kq s /\
                     encode_round merges s = Some (merge_pair q s)).
  Proof.
    destruct (scan_none s 0) as [[Hn Hs]|(q & kq & Hq & Hin & Hall & Hs)].
    - left. split; [exact Hn|]. unfold encode_round. rewrite Hs. reflexivity.
    - right. exists q, kq. repeat split; auto. unfold encode_round. rewrite Hs. cbn [snd].
      rewrite rev_involutive. pose proof (rebuild_greedy q s [] []) as Hr. cbn in Hr.
      pose proof (greedy_nonempty q 0 s Hin) as Hg. destruct (greedy q 0 s); [congruence|].
      rewrite Hr. reflexivity.
  Qed.
End Loop.

(** ** Merge lists with consecutive priorities *)
Definition ml_pairs (ml : merge_list) : list (sym * sym) := map fst ml.

Lemma ml_from_priority l p k :
  NoDup (map fst l) -> ml_priority (ml_from 0 l) p = Some k <-> nth_error (map fst l) k = Some p.
Proof.
  intros Hnd. unfold ml_priority. split.
  - intros H. destruct (dget (ml_from 0 l) p) as [m|] eqn:E; [|discriminate]. simpl in H. injection H as <-.
    assert (Hin : In p (map fst l)) by (rewrite <- (ml_from_keys 0 l); eapply dget_some_key; exact E).
    apply In_nth_error in Hin. destruct Hin as [k Hk]. rewrite nth_error_map in Hk.
    destruct (nth_error l k) as [[p' f]|] eqn:Ek; [|discriminate]. simpl in Hk. injection Hk as ->.
    rewrite (ml_from_get 0 l k p f Hnd Ek) in E. injection E as <-. simpl. rewrite nth_error_map, Ek. reflexivity.
  - intros Hk. rewrite nth_error_map in Hk. destruct (nth_error l k) as [[p' f]|] eqn:Ek; [|discriminate].
    simpl in Hk. injection Hk as ->. rewrite (ml_from_get 0 l k p f Hnd Ek). reflexivity.
Qed.

Lemma ml_from_inj l : NoDup (map fst l) ->
  forall p q k, ml_priority (ml_from 0 l) p = Some k -> ml_priority (ml_from 0 l) q = Some k -> p = q.
Proof. intros Hnd p q k Hp Hq. rewrite ml_from_priority in Hp, Hq by exact Hnd. congruence. Qed.

Lemma encode_round_step l s : NoDup (map fst l) ->
  (encode_round (ml_from 0 l) s = None /\ bpe_normal (map fst l) s)
  \/ (exists s', encode_round (ml_from 0 l) s = Some s' /\ bpe_step (map fst l) s s').
Proof.
  intros Hnd. destruct (encode_round_spec (ml_from 0 l) (ml_from_inj l Hnd) s)
    as [[Hn He]|(q & kq & Hq & Hin & Hall & He)].
  - left. split; [exact He|]. intros p Hp Hadj. apply in_pairs in Hadj. specialize (Hn p Hadj).
    apply In_nth_error in Hp. destruct Hp as [k Hk]. apply ml_from_priority in Hk; [congruence|exact Hnd].
  - right. exists (merge_pair q s). split; [exact He|]. exists kq, q. repeat split.
    + apply ml_from_priority; assumption.
    + apply in_pairs, Hin.
    + intros j p Hj Hp Hadj. apply in_pairs in Hadj. apply ml_from_priority in Hp; [|exact Hnd].
      specialize (Hall p j Hadj Hp). lia.
Qed.

Lemma encode_loop_spec l fuel s : NoDup (map fst l) -> length s <= fuel ->
  exists r, encode_loop (ml_from 0 l) fuel s = Ok r /\ bpe_result (map fst l) s r.
Proof.
  intros Hnd. revert s; induction fuel as [|fuel IH]; intros s Hf.
  - destruct s; [|simpl in Hf; lia]. exists []. split; [reflexivity|]. split; [constructor|].
    intros p _ Hadj. apply in_pairs in Hadj. exact Hadj.
  - cbn [encode_loop]. destruct (encode_round_step l s Hnd) as [[E N]|(s' & E & St)]; rewrite E.
    + exists s. split; [reflexivity|]. split; [constructor|exact N].
    + assert (HL : length s' < length s).
      { destruct St as (i & p & _ & Ap & _ & ->). apply merge_pair_length_lt, Ap. }
      destruct (IH s' ltac:(lia)) as (r & Er & [Sr Nr]). exists r. split; [exact Er|].
      split; [econstructor; eassumption|exact Nr].
Qed.

(** ** Whole words *)
Lemma units_no_space w : no_char 32 w -> Forall (no_char 32) (map unit_of w ++ [at_str]).
Proof.
  intros Hn. apply Forall_app. split.
  - apply Forall_map. rewrite Forall_forall. intros c Hc Hin. unfold unit_of in Hin.
    destruct (N.eqb_spec c at_ch); simpl in Hin.
    + destruct Hin as [E|[E|[]]]; discriminate.
    + destruct Hin as [E|[]]. subst. contradiction.
  - repeat constructor. intros [E|[]]. discriminate.
Qed.

Lemma concat_no_char c gs : no_char c (List.concat gs) -> Forall (no_char c) gs.
Proof.
  intros Hn. rewrite Forall_forall. intros g Hg Hin. apply Hn. apply in_concat. exists g. auto.
Qed.

Lemma Forall_concat_in {A} (P : A -> Prop) (l : list (list A)) : Forall P (List.concat l) <-> Forall (Forall P) l.
Proof.
  induction l as [|x l IH]; simpl; [split; constructor|].
  rewrite Forall_app, IH. split; [intros []; constructor; assumption|inversion 1; auto].
Qed.

Lemma encode_word_spec l w : NoDup (map fst l) -> no_char 32 w ->
  exists r, encode_word (ml_from 0 l) (escape w true) = Ok r /\
            bpe_result (map fst l) (map unit_of w ++ [at_str]) r.
Proof.
  intros Hnd Hn. unfold encode_word. rewrite to_char_list_escaped. cbn [bind].
  assert (Hne : map unit_of w ++ [at_str] <> []) by (destruct (map unit_of w); discriminate).
  change (lit " ") with [32%N]. rewrite split_join by (try apply units_no_space; assumption).
  destruct (encode_loop_spec l _ (map unit_of w ++ [at_str]) Hnd (le_n _)) as (r & Er & Hr).
  rewrite Er. cbn [bind]. exists r. split; [|exact Hr]. f_equal.
  destruct Hr as [Sr _]. pose proof (bpe_steps_concat _ _ _ Sr) as Ec. apply split_join.
  - intros ->. simpl in Ec. rewrite concat_app in Ec. destruct (List.concat (map unit_of w)); discriminate.
  - apply concat_no_char. rewrite Ec. unfold no_char. rewrite in_concat. intros (x & Hx & Hin).
    pose proof (units_no_space w Hn) as Hf. rewrite Forall_forall in Hf. exact (Hf x Hx Hin).
Qed.

Lemma singleton_groups {U} (l : list U) : List.concat (map (fun x => [x]) l) = l.
Proof. induction l; simpl; congruence. Qed.

(** what the symbols are after any number of merges *)
Lemma bpe_result_groups m w r :
  bpe_steps m (map unit_of w ++ [at_str]) r ->
  exists gs, r = map (@List.concat N) gs /\ List.concat gs = map unit_of w ++ [at_str] /\ Forall (fun g => g <> []) gs.
Proof.
  intros Sr.
  destruct (bpe_steps_groups (@List.concat N) (@concat_app N) m _ r (map (fun x => [x]) (map unit_of w ++ [at_str])) Sr)
    as (gs & E1 & E2 & E3).
  - rewrite map_map. rewrite <- (map_id (map unit_of w ++ [at_str])) at 1. apply map_ext.
    intros a. simpl. rewrite app_nil_r. reflexivity.
  - apply Forall_map. rewrite Forall_forall. congruence.
  - exists gs. rewrite singleton_groups in E2. auto.
Qed.

Lemma get_bpe_subwords_spec d l w :
  bd_merges d = ml_from 0 l -> NoDup (map fst l) -> no_char 32 w ->
  dget (bd_cache d) (escape w true) = None ->
  exists r ws, bpe_result (map fst l) (map unit_of w ++ [at_str]) r /\ unescape r = Ok ws /\
               get_bpe_subwords d w = Ok ws /\
               List.concat ws = w /\ ws <> [] /\ Forall (fun p => p <> []) (removelast ws) /\ length ws = length r.
Proof.
  intros Em Hnd Hn Hc. destruct (encode_word_spec l w Hnd Hn) as (r & Er & Hr).
  destruct (bpe_result_groups _ _ _ (proj1 Hr)) as (gs & -> & E2 & E3).
  destruct (unescape_groups gs w E2 E3) as (ws & U & Ew & Lw & Nw).
  exists (map (@List.concat N) gs), ws. repeat split; try assumption; try (apply Hr).
  - unfold get_bpe_subwords. rewrite Hc, Em, Er. cbn [bind]. exact U.
  - intros ->. simpl in Lw. destruct gs; [|discriminate]. simpl in E2. destruct (map unit_of w); discriminate.
  - rewrite map_length. exact Lw.
Qed.

(** with no merges: characters, then the end marker *)
Lemma bpe_result_nil s r : bpe_result [] s r -> r = s.
Proof.
  intros [St _]. inversion St as [|? ? ? (i & p & Hi & _) ?]; subst; [reflexivity|].
  destruct i; discriminate.
Qed.

Lemma unescape_units w :
  unescape (map unit_of w ++ [at_str]) = Ok (map (fun c => [c]) w ++ [[]]).
Proof.
  change at_str with ([] ++ [at_ch]). rewrite unescape_snoc.
  f_equal. rewrite map_app, map_map. f_equal. apply map_ext. intros c.
  unfold unit_of. destruct (N.eqb_spec c at_ch) as [->|Hc]; [reflexivity|].
  unfold replace. cbn [replace_from starts_with].
  destruct (N.eqb_spec at_ch c); [congruence|]. reflexivity.
Qed.
