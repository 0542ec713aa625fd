(** C106: removing the cache does not change the results. *)
From Coq Require Import Permutation Lia.
From Verif Require Import M_Base L_Base M_Literal M_Vocab M_Merge L_Merge M_BpeEncode S_Bpe L_Bpe L_BpeEncode P_Merge P_Bpe P_Repr M_Dataset P_Vocab P_Dataset M_Pipeline P_Pipeline M_Corpus P_Corpus M_FileList P_FileList.

Section Pipeline.
  Variable content : Type.
  Variable n : nat.
  Variable src : nat -> option content.
  Variable parse repr : content -> content.
  Variable nonprocessable : content -> list str.
  Variable placeholder_tokens : list str.
  Variable base_bpe : bool.
  Hypothesis tokens_valid : forall c, Forall valid_str (nonprocessable c).

  Local Notation state := (state content).
  Local Notation step := (step content n src parse repr nonprocessable placeholder_tokens base_bpe).
  Local Notation restart := (restart content nonprocessable).
  Local Notation modified := (modified content).
  Local Notation reach_mod := (reach_mod content n src parse repr nonprocessable placeholder_tokens base_bpe).
  Local Notation reach_clean := (reach_clean content n src parse repr nonprocessable placeholder_tokens base_bpe).
  Local Notation dest := (dest content).
  Local Notation parsed := (parsed content).
  Local Notation prep := (prep content).
  Local Notation mark := (mark content).
  Local Notation ph := (ph content).
  Local Notation nonbpe := (nonbpe content).
  Local Notation collect := (collect content).
  Local Notation INV := (INV content n src parse repr nonprocessable placeholder_tokens base_bpe).

  Ltac fields := cbn [set_ph set_parsed set_prep set_wk set_parts set_nonbpe set_collect set_clock
    M_Pipeline.clock M_Pipeline.ph M_Pipeline.parsed M_Pipeline.prep M_Pipeline.wk M_Pipeline.parts
    M_Pipeline.nonbpe M_Pipeline.collect] in *.

  (** more runs, killed or not, and more removals *)
  Inductive goes_on : state -> state -> Prop :=
  | go_here s : goes_on s s
  | go_step s s1 s2 : goes_on s s1 -> step s1 s2 -> goes_on s s2
  | go_restart s s1 s2 : goes_on s s1 -> restart s1 s2 -> goes_on s s2
  | go_modified s s1 s2 : goes_on s s1 -> modified s1 s2 -> goes_on s s2.
  Lemma goes_reach s s' : goes_on s s' -> reach_mod s -> reach_mod s'.
  Proof.
    induction 1 as [s|s s1 s2 _ IH H|s s1 s2 _ IH H|s s1 s2 _ IH H]; intros R; [exact R| | |]; specialize (IH R);
      [eapply reach_mod_step; [exact IH|exact H]|eapply reach_mod_restart; [exact IH|exact H]|eapply reach_mod_modified; [exact IH|exact H]].
  Qed.

  Lemma run_goes s s1 s2 : run content n src parse repr nonprocessable placeholder_tokens base_bpe s1 s2 -> goes_on s s1 -> goes_on s s2.
  Proof. induction 1 as [|s1 a b _ IH H]; intros G; [exact G|]. eapply go_step; [apply IH, G|exact H]. Qed.

  Lemma special_stays s s' : goes_on s s' -> reach_mod s -> ph s <> Gathering -> (nonbpe s = Missing -> base_bpe = false) ->
    nonbpe s' = nonbpe s /\ ph s' <> Gathering.
  Proof.
    induction 1 as [s|s a b Hl IH H|s a b Hl IH H|s a b Hl IH H]; intros R Hp Hm; [auto| | |].
    - destruct (IH R Hp Hm) as [Hn' Hp']. pose proof (inv_reach_mod _ _ _ _ _ _ _ _ tokens_valid _ (goes_reach s a Hl R)) as (_ & _ & _ & PH).
      destruct H as [sa t sb Ht Hst]. unfold phase_ok in PH.
      destruct Hst as [Hq Hr|Hq Hr Ho|Hq|Hq Hr Ho|i Hq Hi Hw He|i u Hu Hq Hi Hw He|i c u Hu Hq Hi Hw Hc|i Hq Hi Hw Hc|i u Hu Hq Hi Hw|Hq Ha|Hq|Hq Ha
        |Hq Hr|Hq Hr Ho|Hq|Hq Hr Ho|i Hq Hi Hw He|i c u Hu Hq Hi Hw He Hc|i Hq Hi Hw He Hc|i c u Hu Hq Hi Hw Hc|i c Hq Hi Hw Hc|i u Hu Hq Hi Hw
        |Hq Ha Hco|ls Hq Ha Hco Hls|e Hq Ha Hco He|ls Hq Hn2 Hls|v Hq Hn2|Hq]; rewrite Hq in PH; fields;
        try (split; [assumption|congruence]).
      + destruct (collect sa); fields; split; try assumption; congruence.
      + exfalso. destruct PH as (_ & _ & _ & _ & Hc). rewrite Hn' in Hc. destruct (nonbpe s) eqn:En.
        * rewrite (Hm eq_refl) in Hc. simpl in Hc. congruence.
        * simpl in Hc. rewrite andb_false_r in Hc. congruence.
        * simpl in Hc. rewrite andb_false_r in Hc. congruence.
      + congruence.
    - destruct (IH R Hp Hm) as [Hn' _]. destruct H. fields. split; [exact Hn'|discriminate].
    - destruct (IH R Hp Hm) as [Hn' Hp']. destruct H; fields; split; try exact Hn'; try exact Hp'; congruence.
  Qed.

  (** Whatever is removed of the parsed and the preprocessed files after a run has ended: when a run ends again all files and the
      vocabulary of special tokens are what they were; *)
  Theorem C106_same : forall s s', reach_mod s -> ph s = Done -> goes_on s s' -> ph s' = Done ->
    (forall i, i < n -> dest (parsed s') i = dest (parsed s) i /\ dest (prep s') i = dest (prep s) i) /\ nonbpe s' = nonbpe s.
  Proof.
    intros s s' R D G D'. pose proof (goes_reach _ _ G R) as R'. split.
    - intros i Hi. destruct (C50_result _ _ _ _ _ _ _ _ tokens_valid s i R D Hi) as (x & E1 & E2 & E3).
      destruct (C50_result _ _ _ _ _ _ _ _ tokens_valid s' i R' D' Hi) as (x' & E1' & E2' & E3'). assert (x' = x) by congruence. subst x'.
      split; congruence.
    - apply (special_stays s s' G R); [congruence|]. intros Hm. destruct base_bpe eqn:Eb; [|reflexivity].
      destruct (C62_there _ _ _ _ _ _ _ _ tokens_valid s R eq_refl D Hm).
  Qed.

  (** and a run after that ends, regularly. *)
  Theorem C106_finish : forall s s1 s2, reach_clean s -> (forall i, i < n -> src i <> None) -> modified s s1 ->
    run content n src parse repr nonprocessable placeholder_tokens base_bpe s1 s2 -> (forall s', ~ step s2 s') -> ph s2 = Done.
  Proof.
    intros s s1 s2 R Hs M H Hno. eapply C50_finish; [exact tokens_valid| |exact Hs|exact Hno].
    assert (R1 : reach_clean s1) by (eapply clean_modified; eassumption). clear -R1 H.
    induction H as [|s1 sa sb _ IH H]; [exact R1|]. eapply clean_step; [apply IH, R1|exact H].
  Qed.
End Pipeline.

(** The list of files is made again, and is that of the dataset. *)
Lemma hist_inv now ds s : f_hist (f_init now ds) s -> SI (f_init now ds) s /\ unchanged ds s.
Proof.
  induction 1 as [|c s R [[SO SM SG SR] (U1 & U2 & U3)] D|s s' R [IS (U1 & U2 & U3)] S|s s' R [[SO SM SG SR] (U1 & U2 & U3)] K|s s' R [[SO SM SG SR] (U1 & U2 & U3)] D K].
  - split.
    + constructor; cbn; try discriminate; try tauto. intros l1 p l2 E. destruct l1; discriminate.
    + split; [reflexivity|]. split; intros; contradiction.
  - split.
    + constructor; cbn [f_started l_procs l_mark l_folder l_walks].
      * apply only_one_intro. rewrite app_nil_r. exact D.
      * intros m E. destruct (SM m E) as [X Y]. split; [exact X|]. intros p H. apply in_app_or in H. destruct H as [H|[<-|[]]]; [auto|right; eauto].
      * intros got H. apply SG. destruct H as [H|H]; apply in_app_or in H; destruct H as [H|[H|[]]]; try discriminate; auto.
      * intros l H. apply in_app_or in H. destruct H as [H|[H|[]]]; [apply SR, H|discriminate].
    + split; [exact U1|]. split; [|exact U3]. cbn. intros c0 got rest H. apply in_app_or in H. destruct H as [H|[H|[]]]; [apply (U2 c0), H|discriminate].
  - split; [apply (si_step _ s s' IS S)|].
    destruct S as [now' ds' l t w c l1 l2|now' ds' fo m w c l1 l2 HN|now' ds' fo m w c l1 l2|now' ds' fo m w c got f rest l1 l2
      |now' ds' fo m w c got rest l1 l2|now' ds' fo m w c got rest l1 l2|now' ds' fo m w c got l1 l2|now' ds' fo m w got l1 l2|now' ds' l t m w got l1 l2|now' ds' fo m w ps];
      unfold unchanged; cbn [l_procs l_ds l_walks] in *; subst ds'; (split; [reflexivity|]).
    3: { split; [|exact U3]. intros c0 g r H. cases H; [injection H as -> -> ->; reflexivity|]. apply (U2 c0), fin_mid. auto. }
    3: { split; [|exact U3]. intros c0 g r H. cases H.
         - injection H as -> -> ->. rewrite <- app_assoc. apply (U2 c), fin_mid. auto.
         - apply (U2 c0), fin_mid. auto. }
    5: { split.
         - intros c0 g r H. cases H; [destruct c; discriminate|]. apply (U2 c0), fin_mid. auto.
         - intros l [<-|H]; [|apply U3, H]. rewrite <- (U2 c got []); [symmetry; apply app_nil_r|apply fin_mid; auto]. }
    all: split; [|exact U3]; first [exact U2|intros c0 g r H; cases H; [discriminate|]; apply (U2 c0), fin_mid; auto].
  - destruct K as [now' ds' fo m w p l1 l2 Np]. unfold unchanged. cbn [l_procs l_mark l_folder l_walks l_ds] in *.
    assert (OV : forall q, In q (l1 ++ l2) -> fdone q) by (apply (only_one_others l1 p l2 SO); intros [r X]; apply (Np r X)). split.
    + constructor; cbn [l_procs l_mark l_folder l_walks].
      * apply only_one_intro, OV.
      * intros t E. destruct (SM t E) as [X Y]. split; [exact X|]. intros q H. left. cases H; [eexists; exact H|apply OV, H].
      * intros got H. apply SG. destruct H as [H|H]; cases H; try discriminate; [left|right]; apply fin_mid; auto.
      * intros l H. cases H; [discriminate|]. apply SR, fin_mid; auto.
    + split; [exact U1|]. split; [|exact U3]. intros c0 g r H'. cases H'; [discriminate|]. apply (U2 c0), fin_mid. auto.
  - destruct K as [now' ds' fo fo' m w ps Hfo]. unfold unchanged. cbn [l_procs l_mark l_folder l_walks l_ds] in *. split; [|auto].
    constructor; cbn [l_procs l_mark l_folder l_walks]; try assumption; try discriminate.
    intros got [H|H]; destruct (D _ H) as (r & E); discriminate.
Qed.
Theorem C106_list : forall now ds s l, f_hist (f_init now ds) s -> In (FDone (Some l)) (l_procs s) -> l = ds.
Proof. intros now ds s l R H. destruct (hist_inv _ _ _ R) as [S (_ & _ & U)]. apply U, (si_results _ _ S), H. Qed.

Section Corpora.
  Variables prep_root vocab_root sizes_root : str.
  Variable tokens : M_Dataset.run -> list (list str).
  Notation session := (session prep_root vocab_root sizes_root (files_of tokens)).
  Notation preprocess_corpus := (preprocess_corpus prep_root vocab_root sizes_root (files_of tokens)).
  Notation corpus_of := (corpus_of prep_root vocab_root sizes_root).

  (** A corpus has the size and the vocabulary that it had, and all its files. *)
  Theorem C106_corpus : forall output (allowed : M_Dataset.run -> Prop) d l r calc sizes,
    (forall r, allowed r -> plain_run r /\ slashless r /\ r_output r = Some output) ->
    (forall r r', allowed r -> allowed r' -> same_task r r' -> tokens r = tokens r') ->
    session allowed d l -> In (r, calc) l -> Forall writable (tokens r) -> (forall q, sizes q = d_size d q \/ sizes q = None) ->
    let d' := {| d_prep := d_prep d; d_vocab := d_vocab d; d_size := sizes |} in
    snd (get_corpus_size d' (corpus_of r calc)) = snd (get_corpus_size d (corpus_of r calc)) /\
    (calc = true -> exists v, load_vocab d' (corpus_of r calc) = Ok v /\ counts_exactly v (List.concat (tokens r))) /\
    d_prep d' (c_prep (corpus_of r calc)) = Some (map preprocessed_file (tokens r)).
  Proof.
    intros output allowed d l r calc sizes Hal Htk S Hin Hw Hq d'.
    assert (S' : session allowed d' l) by (apply session_cleared; assumption).
    destruct (C64_one_output _ _ _ _ _ _ Hal Htk _ _ _ _ S Hin Hw) as [E _]. destruct (C64_one_output _ _ _ _ _ _ Hal Htk _ _ _ _ S' Hin Hw) as (E' & V' & _).
    split; [congruence|]. split; [exact V'|]. exact (C63_one_output _ _ _ _ _ _ Hal Htk _ _ _ _ S' Hin).
  Qed.

  (** Not so for the preprocessed dataset itself, if its vocabulary was calculated: it is not made again, and the corpus that the same
      call returns has no files. *)
  Definition without_output (d : disk) (p : str) : disk :=
    {| d_prep := fun q => if eqb q p then None else d_prep d q; d_vocab := d_vocab d; d_size := d_size d |}.
  Theorem C106_output_refuted : forall r, tokens r <> [] -> exists d,
    session (fun r' => r' = r) d [(r, true)] /\
    let d' := without_output d (prep_path prep_root r) in
    preprocess_corpus d' r true d' (Ok (corpus_of r true)) /\ d_prep d' (c_prep (corpus_of r true)) = None /\
    forall d'' c, preprocess_corpus d' r true d'' c -> d_prep d'' (c_prep (corpus_of r true)) = None.
  Proof.
    intros r Ht. set (d0 := run_until_preprocessing prep_root (files_of tokens) empty_disk r).
    assert (P0 : d_prep d0 (prep_path prep_root r) = Some (files_of tokens r)) by apply put_same.
    set (d := {| d_prep := d_prep d0; d_vocab := put (d_vocab empty_disk) (vocab_path vocab_root r) (write_vocab (get_vocab (files_of tokens r)));
                 d_size := d_size empty_disk |}).
    assert (N0 : d_prep (without_output d (prep_path prep_root r)) (c_prep (corpus_of r true)) = None)
      by (cbn [d_prep without_output c_prep M_Corpus.corpus_of]; rewrite eqb_refl; reflexivity).
    assert (V : d_vocab d (vocab_path vocab_root r) = Some (write_vocab (get_vocab (files_of tokens r)))) by apply put_same.
    exists d. split; [|split; [|split; [exact N0|]]].
    - eapply session_call with (c := corpus_of r true); [apply session_start|reflexivity|].
      apply corpus_vocab_counted; [reflexivity| |]; fold d0; unfold contents; rewrite P0; [|apply Permutation_refl].
      unfold files_of. intros E. apply Ht. destruct (tokens r); [reflexivity|discriminate E].
    - eapply corpus_vocab_exists. exact V.
    - intros d'' c H. inversion H; subst; [exact N0| |]; exfalso;
        match goal with E : d_vocab _ _ = None |- _ => cbn [d_vocab without_output] in E; rewrite V in E; discriminate end.
  Qed.
End Corpora.
(** Splittings kept for words, of which some or all are removed, are those that the merges give. *)
Theorem C106_word : forall b l kept w, usable b l -> (forall x parts, dget kept x = Some parts -> dget (bd_cache b) x = Some parts) -> ~ In 32%N w ->
  get_bpe_subwords {| bd_merges := bd_merges b; bd_cache := kept |} w = get_bpe_subwords b w.
Proof.
  intros b l kept w (B & ND & F) K Hw. unfold get_bpe_subwords. cbn [bd_merges bd_cache].
  destruct (dget kept (escape w true)) as [p|] eqn:E; [rewrite (K _ _ E); reflexivity|].
  destruct (dget (bd_cache b) (escape w true)) as [p|] eqn:E'; [|reflexivity].
  destruct (C17_encode_is_textbook_bpe l (bd_merges b) w B ND Hw) as (r & Er & _ & U). rewrite Er, (U p (F w p E')). reflexivity.
Qed.
Print Assumptions C106_word.
Print Assumptions C106_same.
Print Assumptions C106_finish.
Print Assumptions C106_list.
Print Assumptions C106_corpus.
Print Assumptions C106_output_refuted.

(** Examples: a run has ended, all parsed files and one preprocessed file are removed, and a run ends again; *)
Definition one_gone (d : stage str) (t : N) : stage str :=
  {| dest := fun i => match i with 0 => Missing | _ => dest str d i end; temp := temp str d; mark := None; stamp := t |}.
Lemma parsed_gone s t : ph str s = Start -> (clock str s <= t)%N -> modified str s (set_clock str (set_parsed str s (fresh str t)) t).
Proof.
  intros P C. apply removed_parsed; [exact P| |exact C|apply N.le_refl]. split; [|split; [reflexivity|right; reflexivity]].
  intros i. split; right; reflexivity.
Qed.
Lemma prep_gone s t : ph str s = Start -> outdated str (prep str s) = false -> (clock str s <= t)%N ->
  modified str s (set_clock str (set_prep str s (one_gone (prep str s) t)) t).
Proof.
  intros P O C. apply removed_prep; [exact P| |exact C|apply N.le_refl]. split; [|split; [reflexivity|left; exact O]].
  intros [|i]; (split; [|left; reflexivity]); [right|left]; reflexivity.
Qed.
Definition two_again_later := two_again 9%N (fun _ => []) two_whole.
Definition two_parsed_gone := set_clock str (set_parsed str two_again_later (fresh str 9%N)) 9%N.
Definition two_gone := set_clock str (set_prep str two_parsed_gone (one_gone (prep str two_parsed_gone) 9%N)) 9%N.
Definition two_redone := two_go 40 two_gone.
Lemma two_parsed_modified : modified str two_again_later two_parsed_gone.
Proof. apply (parsed_gone two_again_later 9%N); vm_compute; [reflexivity|discriminate]. Qed.
Lemma two_prep_modified : modified str two_parsed_gone two_gone.
Proof. apply (prep_gone two_parsed_gone 9%N); vm_compute; [reflexivity|reflexivity|discriminate]. Qed.
Lemma two_redone_run : run str 2 two_src two_parse two_repr two_special two_holders true two_gone two_redone.
Proof. exact (go_run str 2 two_src two_parse two_repr two_special two_holders true 40 two_gone). Qed.
Example C106_same_ex :
  reach_mod str 2 two_src two_parse two_repr two_special two_holders true two_whole /\ ph str two_whole = Done /\
  goes_on str 2 two_src two_parse two_repr two_special two_holders true two_whole two_redone /\
  dest str (parsed str two_gone) 1 = Missing /\ dest str (prep str two_gone) 0 = Missing /\ dest str (prep str two_gone) 1 = Full (lit "b!?") /\
  ph str two_redone = Done /\ dest str (parsed str two_redone) 1 = Full (lit "b!") /\ dest str (prep str two_redone) 0 = Full (lit "a!?") /\
  nonbpe str two_redone = Full [lit "\x"; lit "yy"; lit "<p>"].
Proof.
  split; [apply reach_reach_mod, (proj1 C50_example)|]. split; [vm_compute; reflexivity|]. split; [|vm_compute; auto 10].
  assert (G : goes_on str 2 two_src two_parse two_repr two_special two_holders true two_whole two_gone).
  { apply go_modified with (s1 := two_parsed_gone); [|exact two_prep_modified].
    apply go_modified with (s1 := two_again_later); [|exact two_parsed_modified].
    apply go_restart with (s1 := two_whole); [apply go_here|]. apply (again_restart str two_special 9%N two_whole). vm_compute. reflexivity. }
  exact (run_goes _ _ _ _ _ _ _ _ _ _ _ two_redone_run G).
Qed.
(** it has ended: nothing is left to do, and only what is allowed was done, *)
Example C106_finish_ex :
  reach_clean str 2 two_src two_parse two_repr two_special two_holders true two_parsed_gone /\ (forall i, i < 2 -> two_src i <> None) /\
  modified str two_parsed_gone two_gone /\ run str 2 two_src two_parse two_repr two_special two_holders true two_gone two_redone /\
  forall s', ~ step str 2 two_src two_parse two_repr two_special two_holders true two_redone s'.
Proof.
  assert (RC : forall s s', run str 2 two_src two_parse two_repr two_special two_holders true s s' ->
    reach_clean str 2 two_src two_parse two_repr two_special two_holders true s -> reach_clean str 2 two_src two_parse two_repr two_special two_holders true s').
  { induction 1 as [|s a b _ IH H]; intros G; [exact G|]. eapply clean_step; [apply IH, G|exact H]. }
  assert (AG : forall t s, reach_clean str 2 two_src two_parse two_repr two_special two_holders true s -> (clock str s < t)%N ->
    reach_clean str 2 two_src two_parse two_repr two_special two_holders true (two_again t (fun _ => []) s)).
  { intros t s R C. apply clean_restart with (s := s); [exact R|apply (again_restart str two_special t s C)|]. intros i. reflexivity. }
  split; [|split; [|split; [exact two_prep_modified|split; [exact two_redone_run|]]]].
  - apply clean_modified with (s := two_again_later); [|exact two_parsed_modified].
    apply (AG 9%N two_whole); [|vm_compute; reflexivity].
    apply (RC (two_again 7%N (fun _ => []) two_half)); [exact (go_run str 2 two_src two_parse two_repr two_special two_holders true 40 _)|].
    apply (AG 7%N two_half); [|vm_compute; reflexivity].
    apply (RC two_start); [exact (go_run str 2 two_src two_parse two_repr two_special two_holders true 15 two_start)|]. apply clean_initial.
  - intros [|[|i]] H; try discriminate; lia.
  - assert (E : ph str two_redone = Done) by (vm_compute; reflexivity). revert E. generalize two_redone. intros s E s' H.
    destruct H as [sa t sb Ht Hst]. destruct Hst; congruence.
Qed.
(** a list of files is made, removed and made again; *)
Example C106_list_ex : forall f : str, exists s, f_hist (f_init 0 [f]) s /\ l_walks s = [[f]; [f]] /\ In (FDone (Some [f])) (l_procs s) /\ length (l_procs s) = 2.
Proof.
  intros f. eexists. split.
  { eapply fh_step; [|eapply (f_mark_write 0 [f] [f] 0 (Some None) [[f]; [f]] [f] [FDone (Some [f])] [])].
    eapply fh_step; [|eapply (f_mark_open 0 [f] (Some ([f], 0)) None [[f]; [f]] [f] [FDone (Some [f])] [])].
    eapply fh_step; [|eapply (f_end 0 [f] (Some ([], 0)) None [[f]] true [f] [FDone (Some [f])] [])].
    eapply fh_step; [|eapply (f_deliver 0 [f] (Some ([], 0)) None [[f]] true [] f [] [FDone (Some [f])] [])].
    eapply fh_step; [|eapply (f_open 0 [f] None None [[f]] true [FDone (Some [f])] [])].
    eapply fh_step; [|eapply (f_need 0 [f] None None [[f]] true [FDone (Some [f])] []); reflexivity].
    eapply (fh_start _ true {| l_now := 0; l_ds := [f]; l_folder := None; l_mark := None; l_walks := [[f]]; l_procs := [FDone (Some [f])] |});
      [|intros p [<-|[]]; eexists; reflexivity].
    eapply (fh_removed _ {| l_now := 0; l_ds := [f]; l_folder := Some ([f], 0); l_mark := Some (Some 0); l_walks := [[f]]; l_procs := [FDone (Some [f])] |});
      [|intros p [<-|[]]; eexists; reflexivity|apply (f_removed_intro 0 [f] (Some ([f], 0)) None (Some (Some 0)) [[f]] [FDone (Some [f])]); right; reflexivity].
    eapply fh_step; [|eapply (f_mark_write 0 [f] [f] 0 (Some None) [[f]] [f] [] [])].
    eapply fh_step; [|eapply (f_mark_open 0 [f] (Some ([f], 0)) None [[f]] [f] [] [])].
    eapply fh_step; [|eapply (f_end 0 [f] (Some ([], 0)) None [] true [f] [] [])].
    eapply fh_step; [|eapply (f_deliver 0 [f] (Some ([], 0)) None [] true [] f [] [] [])].
    eapply fh_step; [|eapply (f_open 0 [f] None None [] true [] [])].
    eapply fh_step; [|eapply (f_need 0 [f] None None [] true [] []); reflexivity].
    eapply (fh_start _ true (f_init 0 [f])); [apply fh_here|intros p []]. }
  split; [reflexivity|]. split; [right; left; reflexivity|reflexivity].
Qed.
(** a size is asked for, removed and asked for again; *)
Example C106_corpus_ex : exists d, let r := to_output (lit "/out1") ex_run in
  (forall r', r' = r -> plain_run r' /\ slashless r' /\ r_output r' = Some (lit "/out1")) /\ Forall writable (ex_tokens r) /\
  session [] [] [] (files_of ex_tokens) (fun r' => r' = r) d [(r, true)] /\
  snd (get_corpus_size d (corpus_of [] [] [] r true)) = 3 /\ d_size d (c_size (corpus_of [] [] [] r true)) = Some 3.
Proof.
  destruct C64_one_output_example as (d & S & E & _). set (r := to_output (lit "/out1") ex_run) in *.
  exists (fst (get_corpus_size d (corpus_of [] [] [] r true))). cbn zeta.
  assert (Z : d_size (fst (get_corpus_size d (corpus_of [] [] [] r true))) (c_size (corpus_of [] [] [] r true)) = Some 3).
  { unfold get_corpus_size in *. destruct (d_size d (c_size (corpus_of [] [] [] r true))) as [k|] eqn:Ek; cbn [fst snd d_size] in *.
    - congruence.
    - rewrite E. apply put_same. }
  split; [|split; [|split; [|split]]].
  - intros r' ->. destruct C63_second_output_example as (_ & _ & P & L). split; [exact P|]. split; [exact L|reflexivity].
  - repeat constructor; vm_compute; intuition discriminate.
  - apply session_size; [exact S|left; reflexivity].
  - unfold get_corpus_size at 1. rewrite Z. reflexivity.
  - exact Z.
Qed.
(** and a dataset with a file. *)
Example C106_output_ex : ex_tokens (to_output (lit "/out1") ex_run) <> [].
Proof. discriminate. Qed.
(** A kept splitting, all of which are removed: *)
Example C106_word_ex :
  let l := [((lit "@@", lit "b"), Some 3%Z); ((lit "b", lit "@"), Some 2%Z)] in
  let d := {| bd_merges := ml_from 0 l; bd_cache := [(escape (lit "ab") true, [lit "a"; lit "b@"])] |} in
  usable d l /\ ~ In 32%N (lit "ab") /\ dget (bd_cache d) (escape (lit "ab") true) <> None /\ get_bpe_subwords d (lit "ab") = Ok [lit "a"; lit "b"].
Proof.
  cbv zeta. split; [split; [|split; [|exact C16_example_faithful]]|].
  - pose proof (built_append [] ml_empty (lit "@@", lit "b") (Some 3%Z) None _ built_empty eq_refl) as H1.
    exact (built_append _ _ (lit "b", lit "@") (Some 2%Z) None _ H1 eq_refl).
  - constructor; [intros [H|[]]; discriminate|]. constructor; [intros []|constructor].
  - split; [intros H; vm_compute in H; intuition discriminate|]. split; [discriminate|vm_compute; reflexivity].
Qed.
