(** The indices at the start, and the loop of wild_bpe.run, for C84. *)
From Verif Require Import M_Base L_Base M_Wild M_WildRun P_Wild L_WildText L_WildLoc L_WildQueue L_WildStep L_WildNb.
From Coq Require Import Lia Sorting.Sorted Sorting.Permutation.
Local Open Scope Z_scope.

(** ** The first indices *)
Lemma places_snoc p0 A u c x y : places p0 (A ++ [u; c]) x y = places p0 (A ++ [u]) x y ++ (if eqb u x && eqb c y then [p0 + total A] else []).
Proof.
  revert p0. induction A as [|z A IH]; intros p0.
  - cbn [app places total]. destruct (eqb u x && eqb c y); [rewrite Z.add_0_r|]; reflexivity.
  - assert (E : forall t, A ++ u :: t <> []) by (intros t H; apply app_eq_nil in H; destruct H; discriminate).
    destruct (A ++ [u; c]) as [|w1 t1] eqn:E1; [destruct (E _ E1)|]. destruct (A ++ [u]) as [|w2 t2] eqn:E2; [destruct (E _ E2)|].
    assert (w1 = w2) as -> by (destruct A as [|r A]; cbn in E1, E2; congruence).
    cbn [app total]. rewrite E1, E2. change (places p0 (z :: w2 :: t1) x y) with (if eqb z x && eqb w2 y then p0 :: places (p0 + len z) (w2 :: t1) x y else places (p0 + len z) (w2 :: t1) x y).
    change (places p0 (z :: w2 :: t2) x y) with (if eqb z x && eqb w2 y then p0 :: places (p0 + len z) (w2 :: t2) x y else places (p0 + len z) (w2 :: t2) x y).
    rewrite IH, Z.add_assoc. destruct (eqb z x && eqb w2 y); reflexivity.
Qed.
Lemma triple_split s p u v w : Forall good s -> sym s p = Some u -> sym s (p + len u) = Some v -> sym s (p + len u + len v) = Some w ->
  exists A B, s = A ++ u :: v :: w :: B.
Proof.
  intros G U V W. destruct (sym_find s p u G U) as (A & B & -> & ->). apply Forall_app in G. destruct G as [GA G]. inversion G as [|? ? Gu GB]; subst.
  assert (Sk : forall q, 0 <= q -> sym (A ++ u :: B) (total A + len u + q) = sym B q).
  { intros q Hq. replace (A ++ u :: B) with ((A ++ [u]) ++ B) by (rewrite <- app_assoc; reflexivity).
    replace (total A + len u + q) with (total (A ++ [u]) + q) by (rewrite total_app; cbn; lia). rewrite sym_app by (apply Forall_app; auto).
    destruct (Z.ltb_spec q 0); [lia|reflexivity]. }
  rewrite <- (Z.add_0_r (total A + len u)) in V. rewrite Sk in V by lia. rewrite Sk in W by (unfold len; lia).
  destruct B as [|v' B]; [discriminate|]. cbn in V. injection V as ->. inversion GB as [|? ? Gv GB']; subst. pose proof (good_len v Gv).
  cbn in W. destruct (Z.eqb_spec (len v) 0); [lia|]. rewrite Z.ltb_irrefl, Z.sub_diag in W. destruct B as [|w' B]; [discriminate|]. cbn in W. injection W as ->.
  exists A, B. reflexivity.
Qed.
Definition letters (s : list str) : Prop := Forall (fun x => exists c, x = [c] /\ c <> blank) s.
Lemma letters_good s : letters s -> Forall good s.
Proof. intros H. eapply Forall_impl; [|exact H]. intros x (c & -> & N). split; [discriminate|]. intros [X|[]]. congruence. Qed.
Lemma letter_settled c : settled [] [c].
Proof. reflexivity. Qed.
Lemma letters_settled s x : letters s -> In x s -> settled [] x.
Proof. intros H I. unfold letters in H. rewrite Forall_forall in H. destruct (H x I) as (c & -> & _). apply letter_settled. Qed.
Lemma letters_chars t : no_char blank t -> letters (chars t).
Proof.
  intros H. unfold letters, chars. apply Forall_forall. intros x X. apply in_map_iff in X. destruct X as (c & <- & C). exists c. split; [reflexivity|]. intros ->. exact (H C).
Qed.
Lemma letters_total s : letters s -> total s = Z.of_nat (length s).
Proof. intros H. induction H as [|x s (c & -> & _) H IH]; [reflexivity|]. cbn [total length]. rewrite IH. unfold len. cbn [length]. lia. Qed.
Lemma letters_app s t : letters (s ++ t) <-> letters s /\ letters t.
Proof. apply Forall_app. Qed.

Lemma build_loop_spec it : forall A u i lk li ni, letters (A ++ u :: it) -> i = total A ->
  lk = match rev A with [] => None | l :: _ => Some (mkp l u) end ->
  loc_ok li (A ++ [u]) -> nb_ok [] (A ++ [u]) ni ->
  let (li', ni') := build_loop it i u lk li ni in loc_ok li' (A ++ u :: it) /\ nb_ok [] (A ++ u :: it) ni'.
Proof.
  induction it as [|c it IH]; intros A u i lk li ni Lt Ei El Ol On; [cbn; auto|]. cbn [build_loop].
  assert (Lt2 : letters ((A ++ [u]) ++ c :: it)) by (rewrite <- app_assoc; exact Lt).
  assert (LA : letters A /\ letters [u; c]).
  { apply letters_app in Lt. destruct Lt as [L1 L2]. split; [exact L1|]. inversion L2 as [|? ? L3 L4]; subst. inversion L4; subst. repeat constructor; assumption. }
  destruct LA as [LA Luc]. assert (Gu : good u) by (pose proof (letters_good _ Luc) as H; inversion H; assumption).
  assert (Gc : good c) by (pose proof (letters_good _ Luc) as H; inversion H as [|? ? ? H2]; subst; inversion H2; assumption).
  assert (Gs : Forall good (A ++ [u; c])) by (apply letters_good, letters_app; auto).
  specialize (IH (A ++ [u]) c (i + 1) (Some (mkp u c)) (dset li (mkp u c) (lget li (mkp u c) ++ [i]))
    (match lk with None => ni | Some lk => nadd (nadd ni lk Right (mkp u c)) (mkp u c) Left lk end) Lt2).
  rewrite <- !app_assoc in IH. cbn [app] in IH. apply IH; clear IH.
  - rewrite total_app, Ei. cbn [total]. inversion Luc as [|? ? (z & -> & _) _]; subst. unfold len. cbn [length]. lia.
  - rewrite rev_app_distr. reflexivity.
  - destruct Ol as (O1 & O2 & O3 & O4). split; [apply dset_nodup, O1|]. split; [|split].
    + intros x y Gx Gy. rewrite lget_dset, places_snoc. destruct (eqb_spec (mkp x y) (mkp u c)) as [E|N].
      * apply mkp_inj in E; [|assumption..]. destruct E as [-> ->]. rewrite !eqb_refl, O2 by assumption. cbn [andb]. rewrite Ei. reflexivity.
      * rewrite O2 by assumption. destruct (eqb_spec u x) as [->|]; [destruct (eqb_spec c y) as [->|]; [congruence|]|]; cbn [andb]; rewrite app_nil_r; reflexivity.
    + intros k. rewrite dget_dset. destruct (eqb k (mkp u c)); [|apply O3]. destruct (lget li (mkp u c)); discriminate.
    + intros k. unfold dmem. rewrite dget_dset. destruct (eqb_spec k (mkp u c)) as [->|]; [intros _; exists u, c; auto|]. apply O4.
  - destruct On as [W C].
    assert (Su : settled [] u /\ settled [] c) by (split; apply (letters_settled [u; c]); cbn; auto). destruct Su as [Su Sc].
    destruct (rev A) as [|l rA] eqn:ErA.
    + subst lk. apply (f_equal (@rev str)) in ErA. rewrite rev_involutive in ErA. cbn in ErA. subst A. split; [exact W|]. intros p x y z X Y Z0.
      destruct (triple_split _ _ _ _ _ Gs X Y Z0) as (A' & B' & E). exfalso. cbn [app] in E. apply (f_equal (@length str)) in E. rewrite app_length in E. cbn in E. lia.
    + subst lk. apply (f_equal (@rev str)) in ErA. rewrite rev_involutive in ErA. cbn [rev] in ErA.
      assert (Ll : letters [l]) by (rewrite ErA in LA; apply letters_app in LA; apply LA).
      assert (Gl : good l) by (pose proof (letters_good _ Ll) as H; inversion H; assumption).
      assert (Sl : settled [] l) by (apply (letters_settled [l]); cbn; auto).
      split.
      * apply (add_both_wf [] ni (mkp l u) (mkp u c) Right W).
        -- unfold can_be_concat. rewrite psnd_mkp, pfst_mkp by assumption. apply eqb_refl.
        -- exists l, u. auto 10.
        -- exists u, c. auto 10.
      * intros p x y z X Y Z0. destruct (triple_split _ _ _ _ _ Gs X Y Z0) as (A' & B' & E).
        destruct (exists_last (l := A' ++ x :: y :: z :: B')) as (pre & e & Ee); [intros H; apply app_eq_nil in H; destruct H; discriminate|].
        assert (Eg : forall n1 n2 k, grows n1 n2 -> link n1 x y z -> link n2 x y k \/ link n2 x y z) by (intros n1 n2 k Gr [H1 H2]; right; split; apply Gr; assumption).
        destruct B' as [|b0 B'] using rev_ind.
        -- (* the new triple *)
           assert (E3 : A = A' ++ [x] /\ u = y /\ c = z).
           { replace (A ++ [u; c]) with ((A ++ [u]) ++ [c]) in E by (rewrite <- app_assoc; reflexivity).
             replace (A' ++ [x; y; z]) with (((A' ++ [x]) ++ [y]) ++ [z]) in E by (rewrite <- !app_assoc; reflexivity).
             apply app_inj_tail in E. destruct E as [E ->]. apply app_inj_tail in E. destruct E as [-> ->]. auto. }
           destruct E3 as (E3 & <- & <-). rewrite E3 in ErA. apply app_inj_tail in ErA. destruct ErA as [_ <-]. split.
           ++ rewrite nget_nadd. cbn [side_eqb]. rewrite andb_false_r, nget_nadd, eqb_refl. cbn [andb side_eqb]. apply in_sadd. auto.
           ++ rewrite nget_nadd, eqb_refl. cbn [andb side_eqb]. apply in_sadd. auto.
        -- (* an old triple *)
           assert (E3 : A ++ [u] = A' ++ x :: y :: z :: B').
           { replace (A ++ [u; c]) with ((A ++ [u]) ++ [c]) in E by (rewrite <- app_assoc; reflexivity).
             replace (A' ++ x :: y :: z :: B' ++ [b0]) with ((A' ++ x :: y :: z :: B') ++ [b0]) in E by (rewrite <- app_assoc; reflexivity).
             apply app_inj_tail in E. apply E. }
           assert (Gp : Forall good (A ++ [u])) by (apply Forall_app in Gs; apply Forall_app; split; [apply Gs|repeat constructor; apply Gu]).
           assert (Lk : link ni x y z).
           { rewrite E3 in Gp, C. pose proof Gp as Gp'. apply Forall_app in Gp'. destruct Gp' as [Ga Gxyz]. inversion Gxyz as [|? ? Gx Gyz]; subst. inversion Gyz as [|? ? Gy _]; subst.
             apply (C (total A')).
             - apply sym_at, Ga.
             - replace (A' ++ x :: y :: z :: B') with ((A' ++ [x]) ++ y :: z :: B') by (rewrite <- app_assoc; reflexivity).
               replace (total A' + len x) with (total (A' ++ [x])) by (rewrite total_app; cbn; lia). apply sym_at, Forall_app. auto.
             - replace (A' ++ x :: y :: z :: B') with ((A' ++ [x; y]) ++ z :: B') by (rewrite <- app_assoc; reflexivity).
               replace (total A' + len x + len y) with (total (A' ++ [x; y])) by (rewrite total_app; cbn; lia). apply sym_at, Forall_app. auto. }
           destruct Lk as [K1 K2]. split; apply grows_nadd, grows_nadd; assumption.
Qed.
Lemma build_spec t : t <> [] -> no_char blank t ->
  exists li ni, build_indices (chars t) = Ok (li, ni) /\ loc_ok li (chars t) /\ nb_ok [] (chars t) ni.
Proof.
  intros N B. destruct t as [|c t]; [congruence|]. cbn [chars map build_indices]. fold (chars t).
  pose proof (build_loop_spec (chars t) [] [c] 0 None [] [] (letters_chars _ B) eq_refl eq_refl) as H.
  destruct (build_loop (chars t) 0 [c] None [] []) as [li ni]. exists li, ni. split; [reflexivity|]. apply H.
  - split; [constructor|]. split; [reflexivity|]. split; [discriminate|]. intros k K. discriminate.
  - split.
    + split; [constructor|]. split; [intros k sd x []|]. split; [intros; constructor|]. intros k. cbn. tauto.
    + intros p u v w U V W. exfalso. assert (Gc : Forall good ([] ++ [[c]])).
      { apply letters_good. pose proof (letters_chars _ B) as L. inversion L; subst. repeat constructor. assumption. }
      destruct (triple_split _ _ _ _ _ Gc U V W) as (A' & B' & E). apply (f_equal (@length str)) in E. rewrite !app_length in E. cbn in E. lia.
Qed.

(** ** The loop *)
Lemma merge_nonempty a b s : s <> [] -> merge_text a b s <> [].
Proof.
  intros N H. destruct s as [|x [|y t]]; [congruence|discriminate|]. cbn in H. destruct (eqb x a && eqb y b); discriminate.
Qed.
Lemma places_hd s a b : Forall good s -> adjacent s a b -> exists p t, places 0 s a b = p :: t.
Proof.
  intros G Adj. destruct (proj1 (adjacent_sym s a b G) Adj) as (p & X & Y). assert (I : In p (places 0 s a b)) by (apply occ_places; [exact G|split; assumption]).
  destruct (places 0 s a b) as [|q t]; [destruct I|eauto].
Qed.
Lemma nil_dget {V} (d : dict str V) : (forall k, dget d k = None) -> d = [].
Proof. destruct d as [|[k v] d]; [reflexivity|]. intros H. specialize (H k). cbn in H. rewrite eqb_refl in H. discriminate. Qed.
Lemma run_loop_spec ord n : (forall l, Permutation (ord l) l) -> forall ms s li ni q,
  Forall good s -> s <> [] -> local ms s -> loc_ok li s -> nb_ok ms s ni -> qinv q -> (forall k, dget (w_finder q) k = entry_of (lget li k)) ->
  exists out s', run_loop ord n li ni q = (out, None) /\ bpe_text s out s' /\ (length out <= n)%nat /\ (length out = n \/ length s' = 1%nat).
Proof.
  intros Ho. induction n as [|n IH]; intros ms s li ni q G Ns Lc Ol On Q F.
  - exists [], s. split; [reflexivity|]. split; [constructor|]. split; [cbn; lia|]. left. reflexivity.
  - cbn [run_loop]. destruct (wq_pop_spec q Q) as [[Ef ->]|(k & m & pos & q1 & -> & Q1 & F1 & D1 & Best)].
    + (* nothing left to merge *)
      exists [], s. split; [reflexivity|]. split; [constructor|]. split; [cbn; lia|]. right. destruct s as [|x [|y t]]; [congruence|reflexivity|]. exfalso.
      assert (Adj : adjacent (x :: y :: t) x y) by (exists [], t; reflexivity). destruct (places_hd _ x y G Adj) as (p & l & E).
      inversion G as [|? ? Gx G2]; subst. inversion G2 as [|? ? Gy _]; subst. destruct Ol as (_ & O2 & _). specialize (F (mkp x y)). rewrite Ef, O2, E in F by assumption. discriminate.
    + pose proof D1 as D2. rewrite F in D2. destruct Ol as (O1 & O2 & O3 & O4).
      assert (Wk : wf k).
      { apply O4. apply lget_dmem. intros E. rewrite E in D2. discriminate. }
      destruct Wk as (a & b & Ga & Gb & ->). rewrite O2 in D2 by assumption.
      destruct (places 0 s a b) as [|p0 pl] eqn:Ep; [discriminate|]. cbn [entry_of] in D2. assert (Em : m = Z.of_nat (length (p0 :: pl))) by (assert (Em : - Z.of_nat (length (p0 :: pl)) = - m) by congruence; lia). assert (Epos : p0 = pos) by congruence.
      assert (Om : occ s a b p0) by (apply occ_places; [exact G|rewrite Ep; left; reflexivity]).
      assert (Adj : adjacent s a b) by (apply adjacent_sym; [exact G|]; exists p0; exact Om).
      assert (B : best_pair s a b).
      { split; [exact Adj|]. intros c d Acd. destruct (places_hd s c d G Acd) as (p1 & l1 & E1).
        assert (Gcd : good c /\ good d) by (apply (Gab ms s c d G Lc Acd)). destruct Gcd as [Gc Gd].
        specialize (Best (mkp c d) (- Z.of_nat (length (p1 :: l1)), p1)). rewrite F, O2, E1 in Best by assumption. specialize (Best eq_refl).
        rewrite E1, Ep. cbn [hd]. unfold lexle in Best. cbn [fst snd] in Best. rewrite <- Epos in Best. lia. }
      assert (Emz : m = Z.of_nat (length (places 0 s a b))) by (rewrite Ep; exact Em).
      destruct On as [Wn Cn]. pose proof Wn as (Wn1 & Wn2 & Wn3 & Wn4).
      destruct (update_location ord ms s a b li ni q1 Ho G Lc Adj) as (li' & ch & q2 & E1 & E2 & Q2 & Ol2 & F2); try assumption.
      { split; [exact O1|auto]. }
      { intros k K. apply Wn2 in K. destruct K as (C & _ & (u & v & -> & Gu & Gv & _ & Sv)). unfold can_be_concat in C. rewrite psnd_mkp, pfst_mkp in C by assumption.
        apply (proj1 (eqb_eq _ _)) in C. subst u. exists v. auto. }
      { intros k K. apply Wn2 in K. destruct K as (C & _ & (u & v & -> & Gu & Gv & Su & _)). unfold can_be_concat in C. rewrite psnd_mkp, pfst_mkp in C by assumption.
        apply (proj1 (eqb_eq _ _)) in C. subst v. exists u. auto. }
      { apply Wn3. }
      { apply Wn3. }
      { intros p y [X Y] Z0. apply (Cn p a b y X Y Z0). }
      { intros p x X [Y Z0]. apply (Cn p x a b X Y Z0). }
      { apply Wn4. }
      { rewrite F1, dget_ddel, eqb_refl by apply Q. reflexivity. }
      { intros k Nk. rewrite F1, dget_ddel by apply Q. destruct (eqb_spec k (mkp a b)); [contradiction|]. apply F. }
      rewrite E1. cbn [bind]. rewrite Emz, E2.
      destruct (update_neighbours ord ms s a b li' ni Ho G Lc Adj) as (ni' & E3 & On2).
      { split; assumption. }
      { unfold dmem. destruct (dget li' (mkp a b)) as [l|] eqn:El; [|reflexivity]. exfalso. destruct Ol2 as (_ & P2 & P3 & _).
        assert (El2 : lget li' (mkp a b) = l) by (unfold lget; rewrite El; reflexivity). rewrite P2 in El2 by assumption. destruct l as [|z l]; [exact (P3 _ El)|].
        assert (Z0 : occ (merge_text a b s) a b z) by (apply occ_places; [apply merge_good; assumption|rewrite El2; left; reflexivity]).
        apply (occ_gone ms) in Z0; assumption. }
      { intros p x y H. apply lget_dmem. destruct Ol2 as (_ & P2 & _). pose proof (merge_good a b s Ga Gb G) as G'. pose proof H as [H1 H2].
        rewrite P2 by (eapply sym_good; eassumption). intros E. apply occ_places in H; [|exact G']. rewrite E in H. destruct H. }
      rewrite E3. cbn [bind].
      destruct (IH (ms ++ [(a, b)]) (merge_text a b s) li' ni' q2) as (out & s' & E4 & T & L1 & L2); try assumption.
      { apply merge_good; assumption. }
      { apply merge_nonempty, Ns. }
      { apply local_step, Lc. }
      rewrite E4. exists ((mkp a b, n_merged a b s) :: out), s'. split; [reflexivity|]. split; [constructor; assumption|]. cbn [length]. split; [lia|]. destruct L2; [left; lia|right; assumption].
Qed.

(** ** There is only one such run *)
Lemma best_unique s a b c d : Forall good s -> best_pair s a b -> best_pair s c d -> a = c /\ b = d.
Proof.
  intros G [A1 B1] [A2 B2]. destruct (places_hd s a b G A1) as (p & l & E1). destruct (places_hd s c d G A2) as (p' & l' & E2).
  specialize (B1 c d A2). specialize (B2 a b A1). rewrite E1, E2 in B1, B2. cbn [hd] in B1, B2. assert (p = p') by lia. subst p'.
  assert (O1 : occ s a b p) by (apply occ_places; [exact G|rewrite E1; left; reflexivity]).
  assert (O2 : occ s c d p) by (apply occ_places; [exact G|rewrite E2; left; reflexivity]).
  destruct O1 as [X1 Y1]. destruct O2 as [X2 Y2]. assert (a = c) by congruence. subst c. split; [reflexivity|congruence].
Qed.
Lemma bpe_text_unique n : forall s out1 s1 out2 s2, Forall good s ->
  bpe_text s out1 s1 -> (length out1 <= n)%nat -> (length out1 = n \/ length s1 = 1%nat) ->
  bpe_text s out2 s2 -> (length out2 <= n)%nat -> (length out2 = n \/ length s2 = 1%nat) -> out1 = out2 /\ s1 = s2.
Proof.
  assert (One : forall s a b, best_pair s a b -> length s <> 1%nat).
  { intros s a b [(A & B & ->) _] H. rewrite app_length in H. cbn in H. lia. }
  induction n as [|n IH]; intros s out1 s1 out2 s2 G T1 L1 E1 T2 L2 E2.
  - destruct T1; [|cbn in L1; lia]. destruct T2; [|cbn in L2; lia]. auto.
  - destruct T1 as [s|s a b out1 s1 B1 T1].
    + destruct T2 as [s|s a b out2 s2 B2 T2]; [auto|]. exfalso. destruct E1 as [E1|E1]; [discriminate|]. exact (One s a b B2 E1).
    + inversion T2 as [s0|s0 c d out2' s2' B2 T2']; subst.
      * exfalso. destruct E2 as [E2|E2]; [discriminate|]. exact (One _ a b B1 E2).
      * destruct (best_unique s a b c d G B1 B2) as [<- <-]. cbn [length] in *.
        assert (Gm : Forall good (merge_text a b s)) by (destruct B1 as [A1 _]; destruct A1 as (A & B & EA); rewrite EA in G; apply Forall_app in G; destruct G as [GA G];
          inversion G as [|? ? Ga G2]; subst; inversion G2 as [|? ? Gb G3]; subst; apply merge_good; [assumption..|]; apply Forall_app; auto).
        destruct (IH (merge_text a b s) out1 s1 out2' s2 Gm T1 ltac:(lia) ltac:(lia) T2' ltac:(lia) ltac:(lia)) as [-> ->]. auto.
Qed.
