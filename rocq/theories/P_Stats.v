(** C49: the whole file vocabsize. *)
From Verif Require Import M_Base L_Base M_Literal L_Literal M_Tokens M_Learn L_Learn M_Vocab L_Vocab P_Vocab M_Stats.
From Coq Require Import Lia Permutation Sorted.

(** A vocabulary that was obtained by merging in any order, with the words it stands for and all vocabularies that
    there were on the way to it (itself included): of how many initial vocabularies and of which words. *)
Inductive history : pvocab -> list str -> list (nat * list str) -> Prop :=
| history_new i c chunk ws : counts_exactly c ws -> history (new_pvocab i c chunk) ws [(1, ws)]
| history_add i p q wp wq hp hq : history p wp hp -> history q wq hq ->
    history (add_vocab i p q) (wp ++ wq) (hp ++ hq ++ [(pv_files p + pv_files q, wp ++ wq)]).

Definition distinct (ws : list str) : Z := Z.of_nat (length (nodup str_dec ws)).
Definition of_number (k : nat) (h : list (nat * list str)) : list (list str) :=
  map snd (filter (fun e => Nat.eqb (fst e) k) h).
(** the average, without the digits behind the point *)
Definition mean (f : list str -> Z) (l : list (list str)) : Z :=
  (fold_right Z.add 0 (map f l) / Z.of_nat (length l))%Z.

Lemma history_built p ws h : history p ws h -> built p ws.
Proof. induction 1; [apply built_new|apply built_add]; assumption. Qed.

Lemma entry_of p ws : counts_exactly (pv_counts p) ws ->
  (size_of (pv_counts p), counter_get (pv_counts p) ph_non_eng) = (distinct ws, zcount ph_non_eng ws).
Proof.
  intros H. f_equal; [apply size_of_distinct; exact H|]. apply (proj1 (counts_exactly_get _ _ H)).
Qed.

Lemma history_stats p ws h : history p ws h ->
  pv_stats p = map (fun e => (fst e, (distinct (snd e), zcount ph_non_eng (snd e)))) h.
Proof.
  induction 1 as [i c chunk ws H|i p q wp wq hp hq Hp Ep Hq Eq].
  - cbn [pv_stats new_pvocab map fst snd]. f_equal. f_equal. exact (entry_of (new_pvocab i c chunk) ws H).
  - assert (C : counts_exactly (pv_counts (add_vocab i p q)) (wp ++ wq)).
    { apply built_counts. apply built_add; eapply history_built; eassumption. }
    apply entry_of in C. rewrite !map_app. cbn [map fst snd]. rewrite <- C, <- Ep, <- Eq. reflexivity.
Qed.

Lemma history_last p ws h : history p ws h ->
  1 <= pv_files p /\ exists pre, h = pre ++ [(pv_files p, ws)] /\ Forall (fun e => fst e < pv_files p) pre.
Proof.
  induction 1 as [i c chunk ws H|i p q wp wq hp hq Hp (Fp & pp & Ep & Lp) Hq (Fq & pq & Eq & Lq)].
  - cbn. split; [lia|]. exists []. split; [reflexivity|constructor].
  - cbn [pv_files add_vocab]. split; [lia|]. exists (hp ++ hq). rewrite <- app_assoc. split; [reflexivity|].
    rewrite Ep, Eq. rewrite !Forall_app. repeat split; try (constructor; [cbn; lia|constructor]).
    + eapply Forall_impl; [|exact Lp]. cbn. intros; lia.
    + eapply Forall_impl; [|exact Lq]. cbn. intros; lia.
Qed.

Lemma insert_key_in k l x : In x (insert_key k l) <-> x = k \/ In x l.
Proof.
  induction l as [|y t IH]; cbn [insert_key]; [cbn; firstorder congruence|].
  destruct (Nat.ltb_spec k y); [cbn; firstorder congruence|].
  destruct (Nat.eqb_spec k y) as [->|N]; cbn [In]; [firstorder congruence|]. rewrite IH. firstorder congruence.
Qed.
Lemma insert_key_sorted k l : StronglySorted lt l -> StronglySorted lt (insert_key k l).
Proof.
  induction 1 as [|y t Ht IH Hy]; cbn [insert_key]; [repeat constructor|].
  destruct (Nat.ltb_spec k y).
  - constructor; [constructor; assumption|]. constructor; [assumption|].
    eapply Forall_impl; [|exact Hy]. cbn; intros; lia.
  - destruct (Nat.eqb_spec k y) as [->|N]; [constructor; assumption|]. constructor; [assumption|].
    rewrite Forall_forall in *. intros x Hx. apply insert_key_in in Hx. destruct Hx as [->|Hx]; [lia|auto].
Qed.
Lemma sorted_keys_sorted l : StronglySorted lt (sorted_keys l).
Proof. unfold sorted_keys. induction (map fst l); cbn; [constructor|apply insert_key_sorted; assumption]. Qed.
Lemma sorted_keys_in l x : In x (sorted_keys l) <-> In x (map fst l).
Proof.
  unfold sorted_keys. induction (map fst l) as [|k t IH]; cbn [fold_right In]; [tauto|].
  rewrite insert_key_in, IH. intuition congruence.
Qed.

Lemma sorted_last l m : StronglySorted lt l -> In m l -> Forall (fun x => x <= m) l ->
  exists pre, l = pre ++ [m] /\ Forall (fun x => x < m) pre.
Proof.
  induction 1 as [|y t Ht IH Hy]; intros Hm Hl; [destruct Hm|]. inversion Hl; subst.
  destruct t as [|z t].
  - destruct Hm as [->|[]]. exists []. split; [reflexivity|constructor].
  - destruct Hm as [->|Hm]; [inversion Hy; inversion H2; lia|].
    destruct (IH Hm H2) as (pre & E & Hp). exists (y :: pre). split; [cbn; congruence|]. constructor; [|assumption].
    rewrite Forall_forall in Hy. apply Hy. exact Hm.
Qed.

Lemma entries_of_history k h :
  entries_for k (map (fun e => (fst e, (distinct (snd e), zcount ph_non_eng (snd e)))) h)
  = map (fun ws => (distinct ws, zcount ph_non_eng ws)) (of_number k h).
Proof.
  unfold entries_for, of_number. induction h as [|e t IH]; [reflexivity|]. cbn [map filter fst].
  destruct (Nat.eqb (fst e) k); cbn [map snd]; [f_equal|]; exact IH.
Qed.

Lemma percent_all up n : 1 <= n -> percent_text up n n = lit "1.0000".
Proof.
  intros H. unfold percent_text.
  assert (B : N.of_nat n <> 0%N) by lia.
  rewrite N.mod_mul by exact B. rewrite N.div_mul by exact B.
  destruct (N.ltb_spec (N.of_nat n) (2 * 0)); [lia|]. destruct (N.eqb_spec (N.of_nat n) (2 * 0)); [lia|]. reflexivity.
Qed.

(** In whatever order the vocabularies are merged: the first line of the file is the number of distinct words; then there
    is one line for each number of initial vocabularies of which there was a merged one, in increasing order, with the
    mean size and the mean number of non-English words of the vocabularies merged of so many; the last line has the share
    1.0000 with the size and the number of non-English words of the whole corpus. *)
Theorem C49_stats up p ws h : history p ws h ->
  exists ks,
    StronglySorted lt (ks ++ [pv_files p])
    /\ (forall k, In k (ks ++ [pv_files p]) <-> In k (map fst h))
    /\ write_stats up p = Ok (write_lines (decZ (distinct ws)
         :: map (fun k => percent_text up k (pv_files p) ++ lit " " ++ decZ (mean distinct (of_number k h))
                           ++ lit " " ++ decZ (mean (zcount ph_non_eng) (of_number k h))) ks
         ++ [lit "1.0000 " ++ decZ (distinct ws) ++ lit " " ++ decZ (zcount ph_non_eng ws)])).
Proof.
  intros H. destruct (history_last p ws h H) as (F & pre & E & L).
  assert (K : In (pv_files p) (sorted_keys (pv_stats p))).
  { apply sorted_keys_in. rewrite (history_stats p ws h H), map_map. cbn [fst]. rewrite E, map_app. apply in_or_app.
    right. left. reflexivity. }
  assert (M : Forall (fun x => x <= pv_files p) (sorted_keys (pv_stats p))).
  { apply Forall_forall. intros x Hx. apply sorted_keys_in in Hx. rewrite (history_stats p ws h H), map_map in Hx.
    cbn [fst] in Hx. rewrite E in Hx. apply in_map_iff in Hx. destruct Hx as (e & <- & He). apply in_app_or in He.
    destruct He as [He|[<-|[]]]; [|apply le_n]. rewrite Forall_forall in L. specialize (L _ He). lia. }
  destruct (sorted_last _ _ (sorted_keys_sorted (pv_stats p)) K M) as (ks & Eks & Lks). exists ks.
  assert (O : of_number (pv_files p) h = [ws]).
  { unfold of_number. rewrite E, filter_app. cbn [filter fst]. rewrite Nat.eqb_refl.
    replace (filter _ pre) with (@nil (nat * list str)); [reflexivity|].
    clear -L. induction L as [|e t He Ht IH]; [reflexivity|]. cbn [filter].
    destruct (Nat.eqb_spec (fst e) (pv_files p)); [lia|exact IH]. }
  rewrite <- Eks. split; [apply sorted_keys_sorted|]. split.
  { intros k. rewrite sorted_keys_in, (history_stats p ws h H), map_map. cbn [fst]. tauto. }
  assert (G : generate_stats p = map (fun k => (k, (mean distinct (of_number k h), mean (zcount ph_non_eng) (of_number k h)))) ks
              ++ [(pv_files p, (distinct ws, zcount ph_non_eng ws))]).
  { unfold generate_stats. rewrite Eks, map_app. f_equal.
    - apply map_ext. intros k. rewrite (history_stats p ws h H), entries_of_history. unfold mean, average.
      rewrite !map_map, !map_length. reflexivity.
    - cbn [map]. rewrite (history_stats p ws h H), entries_of_history, O. unfold average. cbn [map fst snd fold_right length].
      rewrite !Z.add_0_r. change (Z.of_nat 1) with 1%Z. rewrite !Z.div_1_r. reflexivity. }
  unfold write_stats. rewrite G, rev_app_distr. cbn [rev app]. do 3 f_equal. rewrite map_app, map_map. cbn [map].
  unfold stats_line at 2. cbn [fst snd]. rewrite (percent_all up _ F). reflexivity.
Qed.
Print Assumptions C49_stats.

(** Three groups of files, one of them large: the line for two thirds has a smaller vocabulary than that for one third, as
    each line is about other vocabularies; the last one is about all. *)
Example C49_stats_ex :
  let big := map (fun k => [N.of_nat k]) (seq 97 9) in
  let a := new_pvocab 1 (count_words big []) 0 in
  let b := new_pvocab 2 (count_words [lit "x"; ph_non_eng; ph_non_eng] []) 1 in
  let c := new_pvocab 3 (count_words [lit "x"] []) 2 in
  let p := add_vocab 5 a (add_vocab 4 b c) in
  (exists ws h, history p ws h /\ length h = 5)
  /\ write_stats (fun _ _ => false) p
     = Ok (write_lines [lit "11"; lit "0.3333 4 0"; lit "0.6667 2 2"; lit "1.0000 11 2"]).
Proof.
  cbn zeta. split; [|vm_compute; reflexivity]. eexists; eexists; split; [|].
  - apply history_add; [|apply history_add]; apply history_new;
      match goal with |- counts_exactly (count_words ?l []) _ => instantiate (1 := l) end;
      (apply counts_exactly_intro; [apply count_words_nodup; constructor
        |intros w; rewrite count_words_spec, counter_get_nil; reflexivity|intros w; rewrite count_words_keys; cbn [dkeys map In]; tauto]).
  - reflexivity.
Qed.

Lemma digit_mod x : is_digit (48 + x mod 10) = true.
Proof.
  pose proof (N.mod_lt x 10 ltac:(discriminate)) as H. unfold is_digit. apply andb_true_intro.
  generalize dependent (x mod 10)%N. intros y H. split; apply N.leb_le; lia.
Qed.

(** The share of a line is right to four places: with m the number of ten-thousandths in the text, m / 10000 differs from
    k / n by at most half a ten-thousandth. *)
Theorem C49_share up k n : 1 <= n ->
  exists m d, percent_text up k n = dec (m / 10000) ++ lit "." ++ d
    /\ length d = 4 /\ parse_digits 0 d = Some (m mod 10000)%N
    /\ (2 * Z.abs (Z.of_N m * Z.of_nat n - 10000 * Z.of_nat k) <= Z.of_nat n)%Z.
Proof.
  intros H. unfold percent_text. set (a := (10000 * N.of_nat k)%N). set (b := N.of_nat n).
  assert (B : b <> 0%N) by (unfold b; lia).
  pose proof (N.div_mod a b B) as D. pose proof (N.mod_lt a b B) as R.
  match goal with |- context [dec (?x / 10000)] => set (m := x) end.
  exists m, (four_digits m). split; [reflexivity|]. split; [reflexivity|]. split.
  - unfold four_digits.
    clearbody m. cbn [parse_digits]. rewrite !digit_mod. f_equal.
    replace (m mod 10000)%N with (m mod 1000 + 1000 * ((m / 1000) mod 10))%N
      by (rewrite <- (N.mod_mul_r m 1000 10) by discriminate; reflexivity).
    replace (m mod 1000)%N with (m mod 100 + 100 * ((m / 100) mod 10))%N
      by (rewrite <- (N.mod_mul_r m 100 10) by discriminate; reflexivity).
    replace (m mod 100)%N with (m mod 10 + 10 * ((m / 10) mod 10))%N
      by (rewrite <- (N.mod_mul_r m 10 10) by discriminate; reflexivity).
    generalize (m mod 10)%N ((m / 10) mod 10)%N ((m / 100) mod 10)%N ((m / 1000) mod 10)%N. clear. intros. lia.
  - replace (10000 * Z.of_nat k)%Z with (Z.of_N a) by (unfold a; lia).
    replace (Z.of_nat n) with (Z.of_N b) by (unfold b; lia).
    unfold m. clear m. clearbody a b. revert D R. generalize (a / b)%N (a mod b)%N. intros q r D R.
    assert (E : (Z.of_N a = Z.of_N b * Z.of_N q + Z.of_N r)%Z) by (rewrite D; lia). clear D.
    assert (T : forall x, (Z.of_N (q + x) * Z.of_N b - Z.of_N a = Z.of_N x * Z.of_N b - Z.of_N r)%Z) by (intros; rewrite E; nia).
    destruct (N.ltb_spec b (2 * r)); [|destruct (N.eqb_spec b (2 * r)); [destruct (up k n)|]].
    + rewrite (T 1%N). lia.
    + rewrite (T 1%N). lia.
    + rewrite <- (N.add_0_r q), (T 0%N). lia.
    + rewrite <- (N.add_0_r q), (T 0%N). lia.
Qed.
Print Assumptions C49_share.

Example C49_share_ex : percent_text (fun _ _ => true) 2 3 = lit "0.6667" /\ percent_text (fun _ _ => false) 1 32 = lit "0.0312"
  /\ percent_text (fun _ _ => false) 255 256 = lit "0.9961".
Proof. repeat split. Qed.
