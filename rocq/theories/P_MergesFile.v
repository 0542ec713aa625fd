(** C22: the format of a merges file and the exact condition for reading it back. *)
From Verif Require Import M_Base L_Base M_Literal L_Literal M_Merge L_Merge P_Merge.
From Coq Require Import Arith Lia.

Lemma parse_entry_line e : valid_str (fst (fst e)) -> valid_str (snd (fst e)) ->
  parse_file_entry (entry_line e)
  = match split_on 32 (fst (fst e)) ++ split_on 32 (snd (fst e)) ++ [freq_str (snd e)] with
    | [a; b] => Ok ((a, b), None)
    | a :: b :: f :: _ => z <- parse_int f ;; Ok ((a, b), Some z)
    | _ => Err ValueError
    end.
Proof.
  destruct e as [[a b] f]. cbn [fst snd]. intros Va Vb. unfold entry_line. cbn [fst snd]. unfold parse_file_entry, to_non_literal_str.
  rewrite join2. set (p := lit " " ++ freq_str f).
  assert (Pp : Forall printable p).
  { unfold p. apply Forall_app. split; [repeat constructor; unfold printable; simpl; lia|].
    destruct f; [apply decZ_printable|]. repeat constructor; unfold printable; simpl; lia. }
  assert (P92 : no_char 92 p).
  { unfold p. intros Hin. apply in_app_or in Hin. destruct Hin as [Hin|Hin].
    - simpl in Hin. destruct Hin as [Hin|[]]. discriminate.
    - destruct f as [z|]; [revert Hin; apply decZ_no_char; reflexivity|]. cbv in Hin. intuition discriminate. }
  rewrite utf8_ascii by (apply L_Literal.printable_ascii, Forall_app; split; [apply literal_printable|exact Pp]).
  cbn [bind]. rewrite unescape_plain_app; [|apply valid_app; [exact Va|apply valid_app; [apply valid_lit_space|exact Vb]]|exact Pp|exact P92].
  cbn [bind].
  assert (E : split_on 32 ((a ++ lit " " ++ b) ++ p) = split_on 32 a ++ split_on 32 b ++ [freq_str f]).
  { unfold p. change (lit " ") with [32%N]. rewrite <- app_assoc. cbn [app].
    rewrite split_on_app_sep. f_equal. rewrite split_on_app_sep. f_equal. apply split_on_no_char.
    destruct f; [apply decZ_no_char; reflexivity|]. intros H. cbv in H. intuition discriminate. }
  rewrite E. reflexivity.
Qed.

(** an entry is read back from its line just if it has a frequency and no space in its symbols *)
Lemma entry_line_back e : valid_str (fst (fst e)) -> valid_str (snd (fst e)) ->
  parse_file_entry (entry_line e) = Ok e -> good_entry e.
Proof.
  intros Va Vb H. rewrite parse_entry_line in H by assumption. destruct e as [[a b] f]. cbn [fst snd] in *.
  pose proof (split_on_nonempty 32 a) as Na. pose proof (split_on_nonempty 32 b) as Nb.
  pose proof (split_on_pieces 32 a) as Pa. pose proof (split_on_pieces 32 b) as Pb.
  destruct (split_on 32 a) as [|a1 at_] eqn:Ea; [congruence|]. destruct (split_on 32 b) as [|b1 bt] eqn:Eb; [congruence|].
  inversion Pa as [|? ? Pa1 Pat]; subst. inversion Pb as [|? ? Pb1 Pbt]; subst. cbn [app] in H.
  destruct at_ as [|a2 at_].
  - cbn [app] in H. destruct bt as [|b2 bt].
    + cbn [app] in H. apply bind_ok in H. destruct H as (z & _ & H). injection H as -> -> <-.
      split; [split; assumption|]. split; [split; assumption|discriminate].
    + cbn [app] in H. destruct bt; apply bind_ok in H; destruct H as (z & _ & H); injection H as -> -> <-;
        (split; [split; assumption|]; split; [split; assumption|discriminate]).
  - cbn [app] in H. inversion Pat as [|? ? Pa2 _]; subst. destruct (at_ ++ (b1 :: bt) ++ [freq_str f]) as [|f1 r] eqn:Er.
    + exfalso. destruct at_; discriminate.
    + cbn [app] in Er. rewrite Er in H. apply bind_ok in H. destruct H as (z & _ & H). injection H as -> -> <-.
      split; [split; assumption|]. split; [split; assumption|discriminate].
Qed.

Lemma entry_line_printable_all e : Forall printable (entry_line e).
Proof.
  destruct (snd e) as [z|] eqn:E; [apply entry_line_printable; congruence|]. unfold entry_line. rewrite E.
  apply Forall_app. split; [apply literal_printable|]. cbn [freq_str]. repeat constructor; unfold printable; simpl; lia.
Qed.
Lemma lines_of_dump_all l : file_lines (write_lines (map entry_line l)) = map entry_line l.
Proof.
  apply file_lines_write; apply Forall_map; apply Forall_forall; intros e _; apply printable_no_char; try (unfold printable; lia);
    apply entry_line_printable_all.
Qed.

(** What the file holds: one line per merge, in the order of the list, with the two symbols in escaped form and the frequency,
    separated by spaces; a missing frequency is written as the word None. *)
Theorem C22_format : forall l ml, built l ml -> NoDup (map fst l) ->
  dump_merges ml
  = List.concat (map (fun e => to_literal_str (fst (fst e)) ++ [32%N] ++ to_literal_str (snd (fst e)) ++ [32%N]
                        ++ match snd e with Some z => decZ z | None => lit "None" end ++ [10%N]) l).
Proof.
  intros l ml Hb Hn. rewrite (built_ml_from l ml Hb Hn), dump_ml_from. clear. unfold write_lines. rewrite map_map. f_equal.
  apply map_ext. intros [[a b] f]. unfold entry_line. cbn [fst snd]. rewrite (literal_join [a; b]). cbn [map join].
  change (lit " ") with [32%N]. cbn [app]. rewrite <- !app_assoc. reflexivity.
Qed.
Print Assumptions C22_format.

(** A dumped merge list is read back just if every merge has a frequency and no symbol holds a space. *)
Theorem C22_exactly : forall l ml, built l ml -> NoDup (map fst l) ->
  Forall (fun e => Forall (fun c => (c <= 1114111)%N) (fst (fst e)) /\ Forall (fun c => (c <= 1114111)%N) (snd (fst e))) l ->
  (read_merges (dump_merges ml) None = Ok ml
   <-> Forall (fun e => ~ In 32%N (fst (fst e)) /\ ~ In 32%N (snd (fst e)) /\ snd e <> None) l).
Proof.
  intros l ml Hb Hn Hv. split.
  - rewrite (built_ml_from l ml Hb Hn). unfold read_merges. rewrite dump_ml_from, lines_of_dump_all. intros H.
    destruct (read_loop_appends _ _ _ _ H) as (es & He & Ha). pose proof (mapM_length _ _ _ He) as HL. rewrite map_length in HL.
    destruct (appends_len ml_empty (entry_ops 0 es) _ (NoDup_nil _) Ha) as [_ Hnd].
    rewrite entry_ops_length, ml_from_length in Hnd. cbn [length ml_empty dkeys map app] in Hnd. specialize (Hnd ltac:(simpl; lia)).
    pose proof (appends_nodup [] (entry_ops 0 es) _ Hnd Ha) as E. rewrite entry_ops_pairs in E. cbn [app] in E.
    apply (f_equal (fun m => map (fun m => (m_pair m, m_freq m)) (ml_iter m))) in E. rewrite !ml_from_iter_pairs in E. subst es.
    apply Forall_forall. intros e Hin. rewrite Forall_forall in Hv. destruct (Hv e Hin) as [Va Vb].
    apply In_nth_error in Hin. destruct Hin as [k Hk].
    destruct (mapM_nth _ _ _ k (entry_line e) He) as (y & Hy & Hp); [exact (map_nth_error entry_line k l Hk)|].
    assert (y = e) by (pose proof (eq_trans (eq_sym Hy) Hk) as Q; congruence). subst y. destruct (entry_line_back e Va Vb Hp) as ([_ Ga] & [_ Gb] & Gf).
    split; [exact Ga|]. split; [exact Gb|exact Gf].
  - intros Hg. apply (C22_merges_file_round_trip l ml Hb Hn). rewrite Forall_forall in *. intros e Hin.
    destruct (Hg e Hin) as (A & B & C). destruct (Hv e Hin) as [Va Vb]. split; [split; assumption|]. split; [split; assumption|exact C].
Qed.
Print Assumptions C22_exactly.

(** A single merge without a frequency makes the whole file unreadable, whatever the other merges are. *)
Theorem C22_one_without_frequency_refuted : forall l ml, built l ml -> NoDup (map fst l) ->
  Forall (fun e => symbol (fst (fst e)) /\ symbol (snd (fst e))) l -> Exists (fun e => snd e = None) l ->
  read_merges (dump_merges ml) None = Err ValueError.
Proof.
  intros l ml Hb Hn Hs He. rewrite (built_ml_from l ml Hb Hn). unfold read_merges. rewrite dump_ml_from, lines_of_dump_all.
  assert (G : forall l2 l1, NoDup (map fst (l1 ++ l2)) -> Forall (fun e => symbol (fst (fst e)) /\ symbol (snd (fst e))) l2 ->
              Exists (fun e => snd e = None) l2 ->
              read_merges_loop None (length l1) (ml_from 0 l1) (map entry_line l2) = Err ValueError).
  { induction l2 as [|[[a b] f] l2 IH]; intros l1 Hnd Hg Hx; [inversion Hx|].
    inversion Hg as [|? ? [[Va Na] [Vb Nb]] Hg']; subst. cbn [fst snd] in *. cbn [map read_merges_loop].
    rewrite parse_entry_line by assumption. cbn [fst snd]. rewrite !split_on_no_char by assumption. cbn [app].
    destruct f as [z|]; [|reflexivity]. cbn [freq_str]. rewrite parse_int_decZ. cbn [bind fst snd].
    rewrite ml_append_fresh; [| |right; reflexivity].
    2:{ rewrite map_app in Hnd. simpl in Hnd. apply NoDup_remove_2 in Hnd. intros Hin; apply Hnd, in_or_app; left; exact Hin. }
    cbn [bind]. replace (S (length l1)) with (length (l1 ++ [((a, b), Some z)])) by (rewrite app_length; simpl; lia).
    apply IH; [rewrite <- app_assoc; exact Hnd|exact Hg'|]. inversion Hx as [? ? Hx1|? ? Hx1]; subst; [discriminate|exact Hx1]. }
  apply (G l []); assumption.
Qed.
Print Assumptions C22_one_without_frequency_refuted.

Example C22_format_example :
  let l := [((lit "a", [247; 64]%N), Some 12%Z); (([92; 9]%N, lit "c"), None)] in
  exists ml, built l ml /\ NoDup (map fst l) /\ dump_merges ml = lit "a \xf7@ 12" ++ [10%N] ++ lit "\\\t c None" ++ [10%N]
    /\ read_merges (dump_merges ml) None = Err ValueError.
Proof.
  exists (ml_from 0 [((lit "a", [247; 64]%N), Some 12%Z); (([92; 9]%N, lit "c"), None)]). split.
  - apply (built_append [((lit "a", [247; 64]%N), Some 12%Z)] (ml_from 0 [((lit "a", [247; 64]%N), Some 12%Z)]) _ _ None);
      [apply (built_append [] [] _ _ None); [constructor|reflexivity]|reflexivity].
  - split; [|split; vm_compute; reflexivity]. repeat constructor; simpl; intuition congruence.
Qed.
