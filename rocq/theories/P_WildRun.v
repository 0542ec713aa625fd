(** * C84, C85: BPE over whole texts and files *)
From Verif Require Import M_Base L_Base M_Literal L_Literal M_Files P_Files M_Wild M_WildRun P_Wild L_WildText L_WildLoc L_WildQueue L_WildStep L_WildNb L_WildMain M_WildFile.
From Coq Require Import Lia Sorting.Permutation.
Import ListNotations.
Local Open Scope list_scope.

Lemma text_good t : no_char blank t -> Forall good (chars t).
Proof. intros H. apply letters_good, letters_chars, H. Qed.
Lemma bpe_text_concat s out s' : bpe_text s out s' -> List.concat s' = List.concat s.
Proof. intros H. induction H as [|s a b out s' B T IH]; [reflexivity|]. rewrite IH. apply merge_concat. Qed.
Lemma bpe_text_size s out s' : Forall good s -> bpe_text s out s' -> (length s' + length out <= length s)%nat.
Proof.
  intros G T. induction T as [|s a b out s' B T IH]; [cbn; lia|].
  assert (Ga : good a /\ good b).
  { destruct B as [(A & B & ->) _]. apply Forall_app in G. destruct G as [_ G]. inversion G as [|? ? Ga G2]; subst. inversion G2; subst. auto. }
  destruct Ga as [Ga Gb]. specialize (IH (merge_good a b s Ga Gb G)). cbn [length].
  destruct B as [Adj _]. assert (L : (length (merge_text a b s) < length s)%nat); [|lia].
  clear - Adj. destruct Adj as (A & B & ->).
  assert (Le : forall k t, (length t <= k)%nat -> (length (merge_text a b t) <= length t)%nat).
  { induction k as [|k IH]; intros t Ht; [destruct t; [cbn; lia|cbn in Ht; lia]|]. destruct t as [|x [|y t]]; [cbn; lia..|].
    assert (E : (x = a /\ y = b) \/ ~ (x = a /\ y = b)) by (destruct (eqb_spec x a); destruct (eqb_spec y b); tauto). destruct E as [[-> ->]|E].
    - rewrite merge_yes. cbn [length] in *. specialize (IH t ltac:(lia)). lia.
    - rewrite merge_no by exact E. cbn [length] in *. specialize (IH (y :: t) ltac:(cbn [length]; lia)). cbn [length] in IH. lia. }
  remember (length A) as k eqn:Ek. assert (Hk : (length A <= k)%nat) by lia. clear Ek. revert A Hk.
  induction k as [|k IH]; intros A Hk.
  - destruct A; [|cbn in Hk; lia]. cbn [app]. rewrite merge_yes. cbn [length]. specialize (Le _ B (le_n _)). lia.
  - destruct A as [|x A]; [cbn [app]; rewrite merge_yes; cbn [length]; specialize (Le _ B (le_n _)); lia|].
    cbn [app]. destruct (A ++ a :: b :: B) as [|y t] eqn:Et; [destruct A; discriminate|].
    assert (E : (x = a /\ y = b) \/ ~ (x = a /\ y = b)) by (destruct (eqb_spec x a); destruct (eqb_spec y b); tauto). destruct E as [[-> ->]|E].
    + rewrite merge_yes. cbn [length]. specialize (Le _ t (le_n _)). lia.
    + rewrite merge_no by exact E. cbn [length] in *. specialize (IH A ltac:(lia)). rewrite Et in IH. cbn [length] in IH. lia.
Qed.

(** For every text without blanks, and whatever the order in which Python goes through its sets, the merges are those of the
    textbook algorithm: at each step the pair that occurs most often, the first one in the text if several do; the number reported is
    that of the merges really made; it goes on until enough merges are made or the text is one symbol. *)
Theorem C84_greedy : forall ord text n, (forall l, Permutation (ord l) l) -> text <> [] -> no_char blank text ->
  exists out s', run_from_text ord text n = (out, None) /\ bpe_text (chars text) out s' /\ List.concat s' = text /\
    (length out <= n)%nat /\ (length out = n \/ s' = [text]).
Proof.
  intros ord text n Ho Ne Nb. unfold run_from_text, run. fold (chars text). destruct (build_spec text Ne Nb) as (li & ni & -> & Ol & On).
  destruct (wq_init_spec li) as [Q F]; [apply Ol|apply Ol|].
  destruct (run_loop_spec ord n Ho [] (chars text) li ni (wq_init li)) as (out & s' & E & T & L1 & L2); try assumption.
  { apply text_good, Nb. }
  { destruct text; [congruence|discriminate]. }
  { apply local_init. }
  exists out, s'. assert (C : List.concat s' = text) by (rewrite (bpe_text_concat _ _ _ T); apply chars_concat).
  repeat split; try assumption. destruct L2 as [L2|L2]; [left; exact L2|right]. destruct s' as [|x [|]]; try discriminate. cbn in C. rewrite app_nil_r in C. rewrite C. reflexivity.
Qed.
Print Assumptions C84_greedy.

(** These requirements determine the merges: the order of the sets has no influence. *)
Theorem C84_same : forall ord ord' text n, (forall l, Permutation (ord l) l) -> (forall l, Permutation (ord' l) l) -> no_char blank text ->
  run_from_text ord text n = run_from_text ord' text n.
Proof.
  intros ord ord' text n Ho Ho' Nb. destruct text as [|c t]; [reflexivity|].
  destruct (C84_greedy ord (c :: t) n Ho ltac:(discriminate) Nb) as (o1 & s1 & -> & T1 & _ & L1 & E1).
  destruct (C84_greedy ord' (c :: t) n Ho' ltac:(discriminate) Nb) as (o2 & s2 & -> & T2 & _ & L2 & E2).
  destruct (bpe_text_unique n (chars (c :: t)) o1 s1 o2 s2) as [-> _]; try assumption; [apply text_good, Nb|..|reflexivity].
  - destruct E1 as [E1| ->]; auto.
  - destruct E2 as [E2| ->]; auto.
Qed.
Print Assumptions C84_same.

(** Asking for enough merges leaves one symbol, which is the text; there are fewer merges than characters. *)
Theorem C84_whole : forall ord text n, (forall l, Permutation (ord l) l) -> text <> [] -> no_char blank text -> (length text <= n)%nat ->
  exists out, run_from_text ord text n = (out, None) /\ bpe_text (chars text) out [text] /\ (length out < length text)%nat.
Proof.
  intros ord text n Ho Ne Nb Hn. destruct (C84_greedy ord text n Ho Ne Nb) as (out & s' & E & T & C & L1 & L2).
  pose proof (bpe_text_size _ _ _ (text_good _ Nb) T) as S. unfold chars in S. rewrite map_length in S.
  assert (Hs : (1 <= length s')%nat) by (destruct s'; [cbn in C; congruence|cbn; lia]).
  exists out. split; [exact E|]. destruct L2 as [L2| ->]; [lia|]. split; [exact T|lia].
Qed.
Print Assumptions C84_whole.
Example C84_whole_ex : exists out, run_from_text (fun l => l) (lit "abcdbc") 6 = (out, None) /\ bpe_text (chars (lit "abcdbc")) out [lit "abcdbc"].
Proof.
  destruct (C84_whole (fun l => l) (lit "abcdbc") 6) as (out & E & T & _); [apply Permutation_refl|discriminate|intros H; cbn in H; intuition discriminate|cbn; lia|eauto].
Qed.

(** Fewer merges are the first of them. *)
Lemma bpe_text_firstn k : forall s out s', bpe_text s out s' -> exists s'', bpe_text s (firstn k out) s''.
Proof.
  induction k as [|k IH]; intros s out s' T; [exists s; constructor|]. destruct T as [s|s a b out s' B T]; [exists s; constructor|].
  destruct (IH _ _ _ T) as [s'' T2]. exists s''. cbn [firstn]. constructor; assumption.
Qed.
Theorem C84_prefix : forall ord text n m, (forall l, Permutation (ord l) l) -> no_char blank text -> text <> [] -> (n <= m)%nat ->
  fst (run_from_text ord text n) = firstn n (fst (run_from_text ord text m)).
Proof.
  intros ord text n m Ho Nb Ne Hnm. destruct (C84_greedy ord text n Ho Ne Nb) as (o1 & s1 & -> & T1 & _ & L1 & E1).
  destruct (C84_greedy ord text m Ho Ne Nb) as (o2 & s2 & -> & T2 & _ & L2 & E2). cbn [fst].
  destruct (Nat.le_gt_cases (length o2) n) as [Hle|Hgt].
  - rewrite firstn_all2 by exact Hle. apply (bpe_text_unique n (chars text) o1 s1 o2 s2); try assumption; [apply text_good, Nb| |].
    + destruct E1 as [E1| ->]; auto.
    + destruct E2 as [E2| ->]; [left; lia|right; reflexivity].
  - destruct (bpe_text_firstn n _ _ _ T2) as [s'' T3]. apply (bpe_text_unique n (chars text) o1 s1 (firstn n o2) s''); try assumption; [apply text_good, Nb|..].
    + destruct E1 as [E1| ->]; auto.
    + rewrite firstn_length. lia.
    + left. rewrite firstn_length. lia.
Qed.
Print Assumptions C84_prefix.
Definition same_order (l : list str) : list str := l.
Example C84_ex : run_from_text same_order (lit "abcdbc") 10
  = ([(lit "b c", 2); (lit "a bc", 1); (lit "abc d", 1); (lit "abcd bc", 1)]%Z, None) /\ run_from_text same_order (lit "aaaaa") 2 = ([(lit "a a", 2); (lit "aa aa", 1)]%Z, None)
  /\ (forall l, Permutation (same_order l) l) /\ no_char blank (lit "abcdbc").
Proof. repeat split; try (intros l; apply Permutation_refl). intros H. cbn in H. repeat (destruct H as [H|H]; [discriminate|]). exact H. Qed.
Example C84_order_ex : run_from_text (@rev str) (lit "there|is|a|thin|tooth|in|the|tooth") 40 = run_from_text same_order (lit "there|is|a|thin|tooth|in|the|tooth") 40
  /\ length (fst (run_from_text (@rev str) (lit "there|is|a|thin|tooth|in|the|tooth") 40)) = 23%nat.
Proof. vm_compute. split; reflexivity. Qed.

(** With a blank in the text it fails: run_from_text does not escape blanks as the readers of files do.  Or the merges are wrong. *)
Theorem C84_blank_refuted : exists ord text text', (forall l, Permutation (ord l) l) /\
  snd (run_from_text ord text 10) = Some AssertionError /\
  (exists out, run_from_text ord text' 10 = (out, None) /\ forall s', ~ bpe_text (chars text') out s').
Proof.
  exists same_order, (lit "ab cd"), (lit "a b"). split; [intros l; apply Permutation_refl|]. split; [vm_compute; reflexivity|].
  exists [(lit "a  ", 1%Z); (lit "a ", 1%Z)]. split; [vm_compute; reflexivity|]. intros s' T. inversion T as [|s a b out s1 B T1 E1 E2]; subst. clear T.
  inversion T1 as [|s2 c d out2 s3 B2 T2 E3 E4]; subst. destruct B2 as [(A & R & E) _].
  destruct B as [(A2 & R2 & E0) _]. destruct A2 as [|x [|y A2]].
  - cbn in E0. injection E0 as <- <- <-. assert (Em : merge_text [97%N] [32%N] (chars (lit "a b")) = [[97; 32]%N; [98%N]]) by (vm_compute; reflexivity).
    rewrite Em in E. destruct A as [|z A]; [|apply (f_equal (@length str)) in E; cbn in E; rewrite app_length in E; cbn in E; lia].
    cbn in E. injection E as <- <- <-. vm_compute in E4. discriminate.
  - cbn in E0. injection E0 as <- <- <- <-. vm_compute in E2. discriminate.
  - exfalso. apply (f_equal (@length str)) in E0. cbn in E0. rewrite app_length in E0. cbn in E0. lia.
Qed.
Print Assumptions C84_blank_refuted.
(** An empty text is an error. *)
Theorem C84_empty_refuted : forall ord n, run_from_text ord [] n = ([], Some RuntimeError).
Proof. reflexivity. Qed.
Print Assumptions C84_empty_refuted.
(** The pair chosen need not be the one merged most often: overlapping occurrences are counted for the choice. *)
Theorem C84_most_refuted : exists ord text p n q m, (forall l, Permutation (ord l) l) /\ no_char blank text /\
  run_from_text ord text 2 = ([(p, n); (q, m)], None) /\ (n < m)%Z.
Proof.
  exists same_order, (lit "aaabcbc"), (lit "a a"), 1%Z, (lit "b c"), 2%Z. split; [intros l; apply Permutation_refl|]. split; [|split; [vm_compute; reflexivity|lia]].
  intros H. cbn in H. repeat (destruct H as [H|H]; [discriminate|]). exact H.
Qed.
Print Assumptions C84_most_refuted.

(** ** Files *)
Lemma scan_decode n : forall bs ext, (length bs <= n)%nat ->
  utf8_decode (bs ++ ext) = match utf8_scan bs with None => None | Some (t, r) => option_map (app t) (utf8_decode (r ++ ext)) end.
Proof.
  assert (K : forall c r (ext : str), match keep c r with None => None | Some (t, r) => option_map (app t) (utf8_decode (r ++ ext)) end
    = option_map (cons c) (match r with None => None | Some (t, r) => option_map (app t) (utf8_decode (r ++ ext)) end)).
  { intros c [[t r]|] ext; cbn; [|reflexivity]. destruct (utf8_decode (r ++ ext)); reflexivity. }
  assert (I : forall o : option str, option_map (app []) o = o) by (intros [o|]; reflexivity).
  induction n as [|n IH]; intros bs ext Hn; (destruct bs as [|a t1]; [cbn; rewrite I; reflexivity|]); [cbn in Hn; lia|]. cbn [length] in Hn.
  cbn [utf8_scan app]. destruct (N.ltb a 128) eqn:Ea.
  { rewrite K, <- IH by lia. cbn [utf8_decode]. rewrite Ea. reflexivity. }
  destruct t1 as [|b t2].
  { destruct ((194 <=? a)%N && (a <=? 244)%N) eqn:E; [rewrite I; reflexivity|]. cbn [app utf8_decode]. rewrite Ea. destruct ext as [|b t2]; [reflexivity|].
    assert (L2 : lead2 a b = false).
    { unfold lead2. apply andb_false_iff in E. apply not_true_iff_false. intros L. repeat (apply andb_true_iff in L; destruct L as [L ?]).
      destruct E as [E|E]; [congruence|]. apply N.leb_gt in E. apply N.leb_le in H0. lia. }
    assert (L3 : lead3 a b = false).
    { unfold lead3. apply andb_false_iff in E. apply not_true_iff_false. intros L. repeat (apply andb_true_iff in L; destruct L as [L ?]).
      apply N.leb_le in L. apply N.leb_le in H2. destruct E as [E|E]; apply N.leb_gt in E; lia. }
    assert (L4 : lead4 a b = false).
    { unfold lead4. apply andb_false_iff in E. apply not_true_iff_false. intros L. repeat (apply andb_true_iff in L; destruct L as [L ?]).
      apply N.leb_le in L. apply N.leb_le in H2. destruct E as [E|E]; apply N.leb_gt in E; lia. }
    rewrite L2. destruct t2 as [|c t3]; [reflexivity|]. rewrite L3. cbn [andb]. destruct t3 as [|d t4]; [reflexivity|]. rewrite L4. reflexivity. }
  cbn [length] in Hn. destruct (lead2 a b) eqn:L2.
  { rewrite K, <- IH by lia. cbn [app utf8_decode]. rewrite Ea, L2. reflexivity. }
  destruct t2 as [|c t3].
  { destruct (lead3 a b || lead4 a b) eqn:E; [rewrite I; reflexivity|]. apply orb_false_iff in E. destruct E as [L3 L4]. cbn [app utf8_decode]. rewrite Ea, L2.
    destruct ext as [|c t3]; [reflexivity|]. rewrite L3. cbn [andb]. destruct t3 as [|d t4]; [reflexivity|]. rewrite L4. reflexivity. }
  cbn [length] in Hn. destruct (lead3 a b && cont c) eqn:L3.
  { rewrite K, <- IH by lia. cbn [app utf8_decode]. rewrite Ea, L2, L3. reflexivity. }
  destruct t3 as [|d t4].
  { destruct (lead4 a b && cont c) eqn:E; [rewrite I; reflexivity|]. cbn [app utf8_decode]. rewrite Ea, L2, L3. destruct ext as [|d t4]; [reflexivity|]. rewrite E. reflexivity. }
  cbn [length] in Hn. destruct (lead4 a b && cont c && cont d) eqn:L4.
  { rewrite K, <- IH by lia. cbn [app utf8_decode]. rewrite Ea, L2, L3, L4. reflexivity. }
  cbn [app utf8_decode]. rewrite Ea, L2, L3, L4. reflexivity.
Qed.
(** what is kept is not a text by itself *)
Lemma scan_kept n : forall bs t r, (length bs <= n)%nat -> utf8_scan bs = Some (t, r) -> r <> [] -> utf8_decode r = None.
Proof.
  assert (K : forall c o t r, keep c o = Some (t, r) -> exists t', o = Some (t', r)).
  { intros c [[t' r']|] t r E; cbn in E; [|discriminate]. injection E as <- <-. eauto. }
  induction n as [|n IH]; intros bs t r Hn; (destruct bs as [|a t1]; [intros [= <- <-]; congruence|]); [cbn in Hn; lia|]. cbn [length] in Hn.
  cbn [utf8_scan]. destruct (N.ltb a 128) eqn:Ea.
  { intros E. apply K in E. destruct E as [t' E]. apply (IH t1 t' r ltac:(lia) E). }
  destruct t1 as [|b t2].
  { destruct ((194 <=? a)%N && (a <=? 244)%N) eqn:E; [|discriminate]. intros [= <- <-] _. cbn [utf8_decode]. rewrite Ea. reflexivity. }
  cbn [length] in Hn. destruct (lead2 a b) eqn:L2.
  { intros E. apply K in E. destruct E as [t' E]. apply (IH t2 t' r ltac:(lia) E). }
  destruct t2 as [|c t3].
  { destruct (lead3 a b || lead4 a b) eqn:E; [|discriminate]. intros [= <- <-] _. cbn [utf8_decode]. rewrite Ea, L2. reflexivity. }
  cbn [length] in Hn. destruct (lead3 a b && cont c) eqn:L3.
  { intros E. apply K in E. destruct E as [t' E]. apply (IH t3 t' r ltac:(lia) E). }
  destruct t3 as [|d t4].
  { destruct (lead4 a b && cont c) eqn:E; [|discriminate]. intros [= <- <-] _. cbn [utf8_decode]. rewrite Ea, L2, L3. reflexivity. }
  cbn [length] in Hn. destruct (lead4 a b && cont c && cont d) eqn:L4; [|discriminate].
  intros E. apply K in E. destruct E as [t' E]. apply (IH t4 t' r ltac:(lia) E).
Qed.
(** reading in chunks comes to the same as decoding at once, as far as the whole is text *)
Lemma feed_decode chunks : forall kept, (kept = [] \/ utf8_decode kept = None) ->
  utf8_decode (kept ++ List.concat chunks) = (let (t, e) := utf8_feed kept chunks in if e then None else Some t).
Proof.
  induction chunks as [|ch t IH]; intros kept Hk.
  - cbn. rewrite app_nil_r. destruct kept as [|x kept]; [reflexivity|]. destruct Hk as [Hk|Hk]; [discriminate|exact Hk].
  - cbn [List.concat utf8_feed]. rewrite app_assoc, (scan_decode _ _ _ (le_n _)). destruct (utf8_scan (kept ++ ch)) as [[t1 r]|] eqn:E; [|reflexivity].
    rewrite IH.
    + destruct (utf8_feed r t) as [t2 e]. destruct e; reflexivity.
    + destruct r as [|x r]; [left; reflexivity|right]. apply (scan_kept _ _ _ _ (le_n _) E). discriminate.
Qed.
(** what is kept can be completed *)
Lemma scan_complete n : forall bs t r, (length bs <= n)%nat -> utf8_scan bs = Some (t, r) -> exists ext u, utf8_decode (r ++ ext) = Some u.
Proof.
  assert (K : forall c o t r, keep c o = Some (t, r) -> exists t', o = Some (t', r)).
  { intros c [[t' r']|] t r E; cbn in E; [|discriminate]. injection E as <- <-. eauto. }
  assert (C128 : cont 128 = true) by reflexivity.
  induction n as [|n IH]; intros bs t r Hn; (destruct bs as [|a t1]; [intros [= <- <-]; exists [], []; reflexivity|]); [cbn in Hn; lia|]. cbn [length] in Hn.
  cbn [utf8_scan]. destruct (N.ltb a 128) eqn:Ea.
  { intros E. apply K in E. destruct E as [t' E]. apply (IH t1 t' r ltac:(lia) E). }
  destruct t1 as [|b t2].
  { destruct ((194 <=? a)%N && (a <=? 244)%N) eqn:E; [|discriminate]. intros [= <- <-]. apply andb_true_iff in E. destruct E as [E1 E2]. apply N.leb_le in E1, E2.
    assert (G : (exists b, lead2 a b = true) \/ (exists b, lead2 a b = false /\ lead3 a b = true) \/ (exists b, lead2 a b = false /\ lead3 a b = false /\ lead4 a b = true)).
    { unfold lead2, lead3, lead4. destruct (N.le_gt_cases a 223) as [H1|H1].
      - left. exists 128%N. apply N.leb_le in E1, H1. rewrite E1, H1. reflexivity.
      - destruct (N.leb_spec a 223) as [?|_]; [lia|]. rewrite andb_false_r. cbn [andb]. right. destruct (N.le_gt_cases a 239) as [H2|H2].
        + left. destruct (N.leb_spec 224 a) as [_|?]; [|lia]. destruct (N.leb_spec a 239) as [_|?]; [|lia]. destruct (N.eqb_spec a 224) as [->|N1]; [exists 160%N; split; reflexivity|].
          exists 128%N. split; [reflexivity|]. destruct (N.eqb_spec a 237); reflexivity.
        + right. destruct (N.leb_spec a 239) as [?|_]; [lia|]. rewrite andb_false_r. cbn [andb]. destruct (N.leb_spec 240 a) as [_|?]; [|lia].
          destruct (N.leb_spec a 244) as [_|?]; [|lia]. destruct (N.eqb_spec a 240) as [->|N1]; [exists 144%N; repeat split; reflexivity|].
          exists 128%N. repeat split. destruct (N.eqb_spec a 244); reflexivity. }
    destruct G as [(b & L2)|[(b & L2 & L3)|(b & L2 & L3 & L4)]].
    - exists [b], [((a - 192) * 64 + (b - 128))%N]. cbn [app utf8_decode]. rewrite Ea, L2. reflexivity.
    - exists [b; 128%N]. eexists. cbn [app utf8_decode]. rewrite Ea, L2, L3, C128. reflexivity.
    - exists [b; 128%N; 128%N]. eexists. cbn [app utf8_decode]. rewrite Ea, L2, L3, L4, C128. reflexivity. }
  cbn [length] in Hn. destruct (lead2 a b) eqn:L2.
  { intros E. apply K in E. destruct E as [t' E]. apply (IH t2 t' r ltac:(lia) E). }
  destruct t2 as [|c t3].
  { destruct (lead3 a b || lead4 a b) eqn:E; [|discriminate]. intros [= <- <-]. destruct (lead3 a b) eqn:L3.
    - exists [128%N]. eexists. cbn [app utf8_decode]. rewrite Ea, L2, L3, C128. reflexivity.
    - cbn [orb] in E. exists [128%N; 128%N]. eexists. cbn [app utf8_decode]. rewrite Ea, L2, L3, E, C128. reflexivity. }
  cbn [length] in Hn. destruct (lead3 a b && cont c) eqn:L3.
  { intros E. apply K in E. destruct E as [t' E]. apply (IH t3 t' r ltac:(lia) E). }
  destruct t3 as [|d t4].
  { destruct (lead4 a b && cont c) eqn:E; [|discriminate]. intros [= <- <-]. exists [128%N]. eexists. cbn [app utf8_decode]. rewrite Ea, L2, L3, E, C128. reflexivity. }
  cbn [length] in Hn. destruct (lead4 a b && cont c && cont d) eqn:L4; [|discriminate].
  intros E. apply K in E. destruct E as [t' E]. apply (IH t4 t' r ltac:(lia) E).
Qed.
Lemma newlines_univ s t : newlines s t -> t = univ_newlines s.
Proof. intros H. exact (newlines_fun _ _ _ H (univ_newlines_spec s)). Qed.
Lemma not_text bs : (forall t, valid_str t -> utf8 t <> Ok bs) -> utf8_decode bs = None.
Proof. intros H. destruct (utf8_decode bs) as [t|] eqn:E; [|reflexivity]. destruct (encode_decode _ _ E) as [E1 V]. destruct (H t V E1). Qed.

(** blanks are replaced: a pair is written with a blank between its symbols *)
Definition no_blanks (s : str) : str := map (fun c => if (c =? 32)%N then 160%N else c) s.
(** A file is read as the text it holds, with uniform ends of lines and without blanks: if it is UTF-8, or if it is not, and that
    shows in the first chunk. *)
Theorem C85_text : forall chunks chars text, holds (List.concat chunks) chars -> newlines chars text ->
  (exists t, valid_str t /\ utf8 t = Ok (List.concat chunks)) \/
  (exists c0 rest, chunks = c0 :: rest /\ forall more t, valid_str t -> utf8 t <> Ok (c0 ++ more)) ->
  chars_of_file chunks = no_blanks text.
Proof.
  intros chunks chars text H Nl C. unfold chars_of_file, chars_utf8. pose proof (feed_decode chunks [] (or_introl eq_refl)) as F. cbn [app] in F.
  destruct C as [(t & V & U)|(c0 & rest & E & C)].
  - assert (chars = t) as ->.
    { destruct H as [[V' U']|[H _]]; [|destruct (H t V U)]. apply decode_encode in U, U'; try assumption. congruence. }
    rewrite (decode_encode t _ V U) in F. destruct (utf8_feed [] chunks) as [t' e]. destruct e; [discriminate|]. injection F as <-.
    rewrite app_nil_r, <- (newlines_univ _ _ Nl). reflexivity.
  - destruct (utf8_scan c0) as [[t r]|] eqn:Es.
    + exfalso. destruct (scan_complete _ _ _ _ (le_n _) Es) as (more & u & Eu). pose proof (scan_decode _ c0 more (le_n _)) as D. rewrite Es, Eu in D.
      destruct (encode_decode _ _ D) as [D1 D2]. exact (C more _ D2 D1).
    + subst chunks. cbn [utf8_feed app]. rewrite Es. cbn [drop_cr rev univ_newlines map app]. unfold chars_latin.
      destruct H as [[V U]|[_ ->]]; [destruct (C _ _ V U)|]. rewrite <- (newlines_univ _ _ Nl). reflexivity.
Qed.
Print Assumptions C85_text.
Example C85_text_ex : chars_of_file [[99; 32; 195]; [169; 13]; [10; 120]]%N = [99; 160; 233; 10; 120]%N /\
  chars_of_file [[99; 233; 10]; [97]]%N = [99; 233; 10; 97]%N /\ (forall more t, valid_str t -> utf8 t <> Ok ([99; 233; 10] ++ more)%N) /\
  utf8 [99; 32; 233; 13; 10; 120]%N = Ok (List.concat [[99; 32; 195]; [169; 13]; [10; 120]])%N.
Proof.
  split; [reflexivity|]. split; [reflexivity|]. split; [|reflexivity]. intros more t V E. apply (decode_encode _ _ V) in E. destruct more as [|c [|d more]]; discriminate.
Qed.

(** Otherwise what was read before the error is there twice: the first chunk at least. *)
Theorem C85_twice : forall c0 rest t text, valid_str t -> utf8 t = Ok c0 -> no_char 13%N t ->
  (forall u, valid_str u -> utf8 u <> Ok (c0 ++ List.concat rest)) -> newlines (c0 ++ List.concat rest) text ->
  exists more, chars_of_file (c0 :: rest) = no_blanks (t ++ more) ++ no_blanks text.
Proof.
  intros c0 rest t text V U R Nt Nl. unfold chars_of_file, chars_utf8. pose proof (feed_decode (c0 :: rest) [] (or_introl eq_refl)) as F. cbn [app List.concat] in F.
  rewrite (not_text _ Nt) in F.
  assert (Es : utf8_scan c0 = Some (t, [])).
  { pose proof (scan_decode _ c0 [] (le_n _)) as D. rewrite app_nil_r, (decode_encode _ _ V U) in D. destruct (utf8_scan c0) as [[t' r]|] eqn:E; [|discriminate].
    rewrite app_nil_r in D. destruct r as [|x r].
    - cbn in D. rewrite app_nil_r in D. injection D as ->. reflexivity.
    - rewrite (scan_kept _ _ _ _ (le_n _) E) in D by discriminate. discriminate. }
  cbn [utf8_feed app] in *. rewrite Es in *. destruct (utf8_feed [] rest) as [t2 e]. destruct e; [|discriminate].
  unfold chars_latin. cbn [List.concat]. rewrite <- (newlines_univ _ _ Nl).
  assert (D : exists t3, drop_cr (t ++ t2) = t ++ t3).
  { unfold drop_cr. destruct (rev (t ++ t2)) as [|c r] eqn:Er.
    - apply (f_equal (@rev N)) in Er. rewrite rev_involutive in Er. exists t2. rewrite Er. reflexivity.
    - destruct (N.eqb_spec c 13) as [->|]; [|exists t2; reflexivity]. apply (f_equal (@rev N)) in Er. rewrite rev_involutive in Er. cbn [rev] in Er.
      destruct (exists_last (l := t2)) as (t3 & z & ->).
      { intros ->. rewrite app_nil_r in Er. apply R. rewrite Er. apply in_or_app. right. left. reflexivity. }
      rewrite app_assoc in Er. apply app_inj_tail in Er. destruct Er as [<- _]. exists t3. reflexivity. }
  destruct D as [t3 ->].
  assert (Ua : forall x, no_char 13%N x -> univ_newlines (x ++ t3) = x ++ univ_newlines t3).
  { intros x. induction x as [|c x IH]; intros Hx; [reflexivity|]. cbn [app univ_newlines]. destruct (N.eqb_spec c 13) as [->|].
    - destruct (Hx (or_introl eq_refl)).
    - rewrite IH; [reflexivity|]. intros I. apply Hx. right. exact I. }
  rewrite (Ua t R). exists (univ_newlines t3). reflexivity.
Qed.
Print Assumptions C85_twice.
Example C85_twice_ex : exists more, chars_of_file [[97; 98]; [233]]%N = no_blanks ([97; 98]%N ++ more) ++ [97; 98; 233]%N.
Proof.
  apply (C85_twice [97; 98]%N [[233]]%N [97; 98]%N [97; 98; 233]%N).
  - repeat constructor; lia.
  - reflexivity.
  - intros [H|[H|[]]]; discriminate.
  - intros u V E. apply (decode_encode _ _ V) in E. discriminate.
  - repeat constructor; discriminate.
Qed.
(** So a file need not be read as the text it holds.  A short file in ISO-8859-1 with an accented letter at its end suffices. *)
Theorem C85_refuted : exists chunks chars text, holds (List.concat chunks) chars /\ newlines chars text /\
  length chunks = 1%nat /\ chars_of_file chunks = lit "caf" ++ no_blanks text /\ chars_of_file chunks <> no_blanks text.
Proof.
  exists [[99; 97; 102; 233]%N], [99; 97; 102; 233]%N, [99; 97; 102; 233]%N. split.
  { right. split; [|reflexivity]. intros t V E. apply (decode_encode _ _ V) in E. discriminate. }
  split; [apply (univ_newlines_spec [99; 97; 102; 233]%N)|]. split; [reflexivity|]. split; [reflexivity|]. discriminate.
Qed.
Print Assumptions C85_refuted.

(** ** BPE over files and directories *)
Lemma escaped s : no_char blank (map escape_char s).
Proof. intros H. apply in_map_iff in H. destruct H as (c & E & _). unfold escape_char, blank in E. destruct (N.eqb_spec c 32); [discriminate|congruence]. Qed.
Lemma file_no_blank chunks : no_char blank (chars_of_file chunks).
Proof.
  unfold chars_of_file. destruct (chars_utf8 chunks) as [t e]. intros H. apply in_app_or in H. destruct H as [H|H]; [exact (escaped _ H)|].
  destruct e; [exact (escaped _ H)|destruct H].
Qed.
Lemma univ_nonempty s : s <> [] -> univ_newlines s <> [].
Proof. destruct s as [|c s]; [congruence|]. intros _. cbn. destruct (N.eqb c 13); [|discriminate]. destruct s as [|d s]; [discriminate|]. destruct (N.eqb d 10); discriminate. Qed.
Lemma file_nonempty chunks : List.concat chunks <> [] -> chars_of_file chunks <> [].
Proof.
  intros N. unfold chars_of_file, chars_utf8, chars_latin. pose proof (feed_decode chunks [] (or_introl eq_refl)) as F. cbn [app] in F. destruct (utf8_feed [] chunks) as [t e].
  destruct e; intros E; apply app_eq_nil in E; destruct E as [E1 E2].
  - apply map_eq_nil in E2. exact (univ_nonempty _ N E2).
  - apply map_eq_nil in E1. apply (univ_nonempty t); [|exact E1]. intros ->. apply N. destruct (encode_decode _ _ F) as [U _]. cbn in U. congruence.
Qed.
(** On every file that is not empty, and every directory with a Python file, it succeeds and follows the textbook. *)
Theorem C85_file : forall ord chunks n, (forall l, Permutation (ord l) l) -> List.concat chunks <> [] ->
  exists out s', run_from_file ord chunks n = (out, None) /\ bpe_text (chars (chars_of_file chunks)) out s' /\
    (length out <= n)%nat /\ (length out = n \/ s' = [chars_of_file chunks]).
Proof.
  intros ord chunks n Ho N. destruct (C84_greedy ord (chars_of_file chunks) n Ho (file_nonempty _ N) (file_no_blank _)) as (out & s' & E & T & _ & L). exists out, s'. auto.
Qed.
Print Assumptions C85_file.
Example C85_file_ex : run_from_file same_order [lit "ab"; lit " ab"]%string 3 = ([([97; 32; 98]%N, 2%Z); (lit "ab " ++ [160%N], 1%Z); (lit "ab" ++ [160; 32]%N ++ lit "ab", 1%Z)], None).
Proof. vm_compute. reflexivity. Qed.
Theorem C85_dir : forall ord files n, (forall l, Permutation (ord l) l) -> (exists stem chunks, In (stem ++ lit ".py", chunks) files) ->
  exists out s', run_from_dir ord files n = (out, None) /\ bpe_text (chars (chars_of_dir files)) out s' /\
    (length out <= n)%nat /\ (length out = n \/ s' = [chars_of_dir files]).
Proof.
  intros ord files n Ho (stem & ck & I).
  assert (Ne : chars_of_dir files <> []).
  { intros E. assert (J : In 10%N (chars_of_dir files)); [|rewrite E in J; destruct J]. unfold chars_of_dir. apply in_flat_map. exists (stem ++ lit ".py", ck). split; [exact I|].
    cbn [fst snd]. replace (ends_with (lit ".py") (stem ++ lit ".py")) with true; [apply in_or_app; right; left; reflexivity|].
    unfold ends_with. rewrite rev_app_distr. symmetry. cbn. reflexivity. }
  assert (Nb : no_char blank (chars_of_dir files)).
  { intros H. unfold chars_of_dir in H. apply in_flat_map in H. destruct H as ([name c] & _ & H). cbn [fst snd] in H. destruct (ends_with (lit ".py") name); [|destruct H].
    apply in_app_or in H. destruct H as [H|H]; [exact (file_no_blank _ H)|]. unfold blank in H. cbn in H. repeat (destruct H as [H|H]; [discriminate|]). exact H. }
  destruct (C84_greedy ord (chars_of_dir files) n Ho Ne Nb) as (out & s' & E & T & _ & L). exists out, s'. auto.
Qed.
Print Assumptions C85_dir.
(** An empty file, or a directory without Python files, is an error. *)
Theorem C85_empty_refuted : forall ord n, run_from_file ord [] n = ([], Some RuntimeError) /\
  (forall files, (forall name c, In (name, c) files -> ends_with (lit ".py") name = false) -> run_from_dir ord files n = ([], Some RuntimeError)).
Proof.
  intros ord n. split; [reflexivity|]. intros files H. unfold run_from_dir. replace (chars_of_dir files) with (@nil N); [reflexivity|]. symmetry.
  unfold chars_of_dir. induction files as [|[name c] files IH]; [reflexivity|]. cbn [flat_map fst snd]. rewrite (H name c (or_introl eq_refl)). apply IH.
  intros name' c' I. apply (H name' c'). right. exact I.
Qed.
Print Assumptions C85_empty_refuted.
Example C85_dir_ex : run_from_dir same_order [(lit "a.py", [lit "x x"]); (lit "b.txt", [lit "zz"])] 2 = ([([10; 32; 10]%N, 1%Z); ([120; 32; 160]%N, 1%Z)], None) /\
  In (lit "a" ++ lit ".py", [lit "x x"]) [(lit "a.py", [lit "x x"]); (lit "b.txt", [lit "zz"])].
Proof. split; [vm_compute; reflexivity|left; reflexivity]. Qed.
