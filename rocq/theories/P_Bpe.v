(** C16 - C20: splitting words with byte-pair merges. *)
From Verif Require Import M_Base L_Base M_Literal M_Merge L_Merge M_BpeEncode S_Bpe L_Bpe L_BpeEncode P_Merge.

(** the symbols a word starts from: its characters, @ written as @@, and the end mark @ *)
Definition letters (w : str) : list str :=
  map (fun c => if N.eqb c 64 then [64; 64]%N else [c]) w ++ [[64%N]].

(** * C20 *)
Theorem C20_escape_injective : forall a b merged, escape a merged = escape b merged -> a = b.
Proof. exact escape_inj. Qed.
Print Assumptions C20_escape_injective.

Theorem C20_char_splitter_accepts :
  forall w, to_char_list (escape w true) = Ok (letters w) /\ List.concat (letters w) = escape w true.
Proof. intros w. split; [apply to_char_list_escaped|]. symmetry. apply escape_merged. Qed.
Print Assumptions C20_char_splitter_accepts.

Example C20_example : escape (lit "a@") true <> escape (lit "a") true /\
  to_char_list (escape (lit "a@@b") true) = Ok [lit "a"; lit "@@"; lit "@@"; lit "b"; lit "@"].
Proof. split; [vm_compute; discriminate|vm_compute; reflexivity]. Qed.

(** * C17 *)
(** [built] (P_Merge): any merge list made by appends and additions *)
Theorem C17_encode_is_textbook_bpe :
  forall l ml w, built l ml -> NoDup (map fst l) -> ~ In 32%N w ->
  exists r, encode_word ml (escape w true) = Ok r /\
            bpe_result (map fst l) (letters w) r /\
            (forall r', bpe_result (map fst l) (letters w) r' -> r' = r).
Proof.
  intros l ml w Hb Hnd Hs. rewrite (built_ml_from l ml Hb Hnd).
  destruct (encode_word_spec l w Hnd Hs) as (r & Er & Hr). exists r.
  split; [exact Er|]. split; [exact Hr|]. intros r' Hr'. eapply bpe_result_det; eassumption.
Qed.
Print Assumptions C17_encode_is_textbook_bpe.

Example C17_example :
  let l := [((lit "a", lit "b"), Some 3%Z); ((lit "ab", lit "ab"), Some 2%Z); ((lit "b", lit "a"), Some 1%Z)] in
  NoDup (map fst l) /\
  encode_word (ml_from 0 l) (escape (lit "bababab@") true) = Ok [lit "b"; lit "abab"; lit "ab"; lit "@@"; lit "@"].
Proof.
  split; [|vm_compute; reflexivity].
  repeat constructor; simpl; intuition discriminate.
Qed.

(** overlapping occurrences are taken from the left *)
Example C17_overlap :
  encode_word (ml_from 0 [((lit "a", lit "a"), Some 1%Z)]) (escape (lit "aaaaa") true)
  = Ok [lit "aa"; lit "aa"; lit "a"; lit "@"].
Proof. vm_compute. reflexivity. Qed.

(** * C16 *)
(** the cache holds, for escaped words, what encoding them gives (that is what learning writes, see C30) *)
Definition faithful (d : bpe_data) (l : list (pair * option Z)) : Prop :=
  forall w parts, dget (bd_cache d) (escape w true) = Some parts -> bpe_result (map fst l) (letters w) parts.

Theorem C16_subwords_concatenate :
  forall d l w, built l (bd_merges d) -> NoDup (map fst l) -> faithful d l -> ~ In 32%N w ->
  exists ws, get_bpe_subwords d w = Ok ws /\ List.concat ws = w /\ ws <> [] /\
             (* only the last subword can be empty *)
             Forall (fun p => p <> []) (removelast ws).
Proof.
  intros d l w Hb Hnd Hf Hs.
  destruct (dget (bd_cache d) (escape w true)) as [parts|] eqn:Ec.
  - destruct (bpe_result_groups _ _ _ (proj1 (Hf w parts Ec))) as (gs & -> & E2 & E3).
    destruct (unescape_groups gs w E2 E3) as (ws & U & Ew & Lw & Nw). exists ws.
    split; [unfold get_bpe_subwords; rewrite Ec; exact U|]. split; [exact Ew|]. split; [|exact Nw].
    intros ->. destruct gs; [|discriminate]. simpl in E2. destruct (map unit_of w); discriminate.
  - destruct (get_bpe_subwords_spec d l w (built_ml_from _ _ Hb Hnd) Hnd Hs Ec)
      as (r & ws & _ & _ & E & E1 & E2 & E3 & _).
    exists ws. auto.
Qed.
Print Assumptions C16_subwords_concatenate.

Example C16_example :
  let l := [((lit "@@", lit "b"), Some 3%Z); ((lit "b", lit "@"), Some 2%Z)] in
  let d := {| bd_merges := ml_from 0 l; bd_cache := [(escape (lit "ab") true, [lit "a"; lit "b@"])] |} in
  get_bpe_subwords d (lit "a@@bb") = Ok [lit "a"; lit "@"; lit "@b"; lit "b"] /\
  get_bpe_subwords d (lit "ab") = Ok [lit "a"; lit "b"] /\
  get_bpe_subwords d (lit "b@") = Ok [lit "b"; lit "@"; []].
Proof. vm_compute. repeat split. Qed.

Example C16_example_faithful :
  let l := [((lit "@@", lit "b"), Some 3%Z); ((lit "b", lit "@"), Some 2%Z)] in
  let d := {| bd_merges := ml_from 0 l; bd_cache := [(escape (lit "ab") true, [lit "a"; lit "b@"])] |} in
  faithful d l.
Proof.
  cbv zeta. intros w parts H. cbn [bd_cache dget] in H.
  destruct (eqb_spec (escape w true) (escape (lit "ab") true)) as [E|E]; [|discriminate].
  apply escape_inj in E. subst w.
  assert (Ep : parts = [lit "a"; lit "b@"]) by congruence. subst parts.
  split.
  - apply (steps_step _ _ (merge_pair (lit "b", lit "@") (letters (lit "ab")))); [|apply steps_refl].
    exists 1, (lit "b", lit "@"). repeat split.
    + exists [lit "a"], []. reflexivity.
    + intros [|j] q Hj Hq; [|lia]. cbn in Hq. injection Hq as <-.
      intros Hadj. apply in_pairs in Hadj. vm_compute in Hadj. intuition discriminate.
  - intros p Hp Hadj. apply in_pairs in Hadj. cbn in Hp, Hadj.
    destruct Hp as [<-|[<-|[]]]; destruct Hadj as [Hadj|[]]; discriminate.
Qed.

(** * C19 *)
Theorem C19_chars_mode :
  forall d w, bd_merges d = ml_empty -> bd_cache d = [] -> ~ In 32%N w ->
  get_bpe_subwords d w = Ok (map (fun c => [c]) w ++ [[]]).
Proof.
  intros d w Hm Hc Hs.
  destruct (get_bpe_subwords_spec d [] w Hm (NoDup_nil _) Hs ltac:(rewrite Hc; reflexivity))
    as (r & ws & Hr & U & E & _).
  rewrite E. apply bpe_result_nil in Hr. subst r. rewrite unescape_units in U. congruence.
Qed.
Print Assumptions C19_chars_mode.

Example C19_example :
  get_bpe_subwords {| bd_merges := ml_empty; bd_cache := [] |} (lit "a@b") = Ok [lit "a"; lit "@"; lit "b"; []].
Proof. vm_compute. reflexivity. Qed.

(** * C18 *)
(** encode a sequence of words with the same bpe data; results are dropped *)
Fixpoint run (d : bpe_data) (ws : list str) : bpe_data :=
  match ws with [] => d | w :: t => run (snd (get_bpe_subwords_st d w)) t end.

Lemma st_merges d w : bd_merges (snd (get_bpe_subwords_st d w)) = bd_merges d.
Proof.
  unfold get_bpe_subwords_st. destruct (dget (bd_cache d) (escape w true)); [|reflexivity].
  destruct (unescape l); reflexivity.
Qed.
Lemma st_other d w w' : w <> w' ->
  dget (bd_cache (snd (get_bpe_subwords_st d w))) (escape w' true) = dget (bd_cache d) (escape w' true).
Proof.
  intros Hne. unfold get_bpe_subwords_st. destruct (dget (bd_cache d) (escape w true)) as [l|] eqn:E; [|reflexivity].
  destruct (unescape l); [|reflexivity]. cbn [snd bd_cache]. apply dget_dset_neq. intros E'. apply escape_inj in E'. contradiction.
Qed.
Lemma st_uncached d w w' : dget (bd_cache d) (escape w' true) = None ->
  dget (bd_cache (snd (get_bpe_subwords_st d w))) (escape w' true) = None.
Proof.
  intros Hn. destruct (Eqb_dec w w') as [->|Hne]; [|rewrite st_other; assumption].
  unfold get_bpe_subwords_st. rewrite Hn. exact Hn.
Qed.
Lemma run_merges d ws : bd_merges (run d ws) = bd_merges d.
Proof. revert d; induction ws as [|w ws IH]; intros d; simpl; [reflexivity|]. rewrite IH. apply st_merges. Qed.
Lemma st_result d w : fst (get_bpe_subwords_st d w) = get_bpe_subwords d w.
Proof.
  unfold get_bpe_subwords_st, get_bpe_subwords. destruct (dget (bd_cache d) (escape w true)) as [l|]; [|reflexivity].
  cbn [bind]. destruct (unescape l); reflexivity.
Qed.

(** words outside the cache: same answer whatever was encoded before, themselves included *)
Theorem C18_uncached_repeatable :
  forall d history w, dget (bd_cache d) (escape w true) = None ->
  fst (get_bpe_subwords_st (run d history) w) = fst (get_bpe_subwords_st d w).
Proof.
  intros d h w Hn. rewrite !st_result. unfold get_bpe_subwords.
  assert (Hn' : dget (bd_cache (run d h)) (escape w true) = None).
  { clear -Hn. revert d Hn; induction h as [|x h IH]; intros d Hn; simpl; [exact Hn|].
    apply IH, st_uncached, Hn. }
  rewrite Hn, Hn', run_merges. reflexivity.
Qed.
Print Assumptions C18_uncached_repeatable.

(** cached words: encoding other words does not disturb them *)
Theorem C18_cached_undisturbed :
  forall d history w, ~ In w history ->
  fst (get_bpe_subwords_st (run d history) w) = fst (get_bpe_subwords_st d w).
Proof.
  intros d h w Hn. rewrite !st_result. unfold get_bpe_subwords. rewrite run_merges.
  assert (E : dget (bd_cache (run d h)) (escape w true) = dget (bd_cache d) (escape w true)).
  { revert d; induction h as [|x h IH]; intros d; simpl; [reflexivity|].
    rewrite IH by (intros H; apply Hn; right; exact H). apply st_other. intros ->. apply Hn. left. reflexivity. }
  rewrite E. reflexivity.
Qed.
Print Assumptions C18_cached_undisturbed.

Lemma unescape_unmarked l x : last x 0%N <> at_ch -> exists e, unescape (l ++ [x]) = Err e.
Proof.
  intros Hx. unfold unescape. rewrite last_last.
  destruct (l ++ [x]) eqn:Eq; [eexists; reflexivity|].
  destruct x as [|c t]; [eexists; reflexivity|].
  destruct (N.eqb_spec (last (c :: t) 0%N) at_ch); [contradiction|eexists; reflexivity].
Qed.

(** finding: a cached word can be encoded only once, with any faithful cache: the lookup strips the end mark from
    the list inside the cache, so the second lookup fails, unless the word happens to end with @ *)
Theorem C18_cached_word_refuted :
  forall d l w parts, faithful d l -> dget (bd_cache d) (escape w true) = Some parts -> last w 0%N <> 64%N ->
  (exists ws, fst (get_bpe_subwords_st d w) = Ok ws /\ List.concat ws = w) /\
  (exists e, fst (get_bpe_subwords_st (run d [w]) w) = Err e).
Proof.
  intros d l w parts Hf Hc Hl.
  destruct (bpe_result_groups _ _ _ (proj1 (Hf w parts Hc))) as (gs & -> & E2 & E3).
  destruct (unescape_groups gs w E2 E3) as (ws & U & Ew & _ & _).
  split.
  - exists ws. split; [|exact Ew]. rewrite st_result. unfold get_bpe_subwords. rewrite Hc. exact U.
  - cbn [run]. rewrite st_result. unfold get_bpe_subwords.
    unfold get_bpe_subwords_st. rewrite Hc, U. cbn [snd bd_cache]. rewrite dget_dset_eq. cbn [bind].
    destruct (last_group _ _ _ E2 E3) as (gs1 & g & -> & E1).
    rewrite map_app. cbn [map]. rewrite last_last, removelast_last, concat_app.
    change (List.concat [at_str]) with [at_ch]. rewrite removelast_last.
    apply unescape_unmarked. intros Elast. apply Hl.
    (* the last unit of g spells the last character of w *)
    destruct g as [|u g _] using rev_ind; [discriminate|].
    destruct w as [|x w _] using rev_ind.
    { apply app_eq_nil in E1. destruct E1 as [_ E1]. destruct g; discriminate. }
    rewrite map_app in E1. cbn [map] in E1. rewrite app_assoc in E1. apply app_inj_tail in E1. destruct E1 as [_ ->].
    rewrite last_last. rewrite concat_app in Elast. cbn [List.concat] in Elast. rewrite app_nil_r in Elast.
    unfold unit_of in Elast. destruct (N.eqb_spec x at_ch) as [->|Hx]; [reflexivity|].
    rewrite last_last in Elast. contradiction.
Qed.
Print Assumptions C18_cached_word_refuted.

Example C18_example :
  let d := {| bd_merges := ml_from 0 [((lit "b", lit "@"), Some 2%Z)];
              bd_cache := [(escape (lit "ab") true, [lit "a"; lit "b@"])] |} in
  fst (get_bpe_subwords_st d (lit "ab")) = Ok [lit "a"; lit "b"] /\
  fst (get_bpe_subwords_st (run d [lit "x"; lit "b"]) (lit "ab")) = Ok [lit "a"; lit "b"] /\
  fst (get_bpe_subwords_st (run d [lit "ab"]) (lit "ab")) = Err ValueError /\
  fst (get_bpe_subwords_st (run d [lit "ab"; lit "cb"]) (lit "cb")) = Ok [lit "c"; lit "b"].
Proof. vm_compute. repeat split. Qed.
