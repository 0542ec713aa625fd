(** C54: learning merges end to end, repeated and interrupted. *)
From Verif Require Import M_Base L_Base M_Literal L_Literal S_Bpe L_Bpe M_Merge L_Merge M_BpeEncode L_BpeEncode
  M_Learn P_Queue L_Learn P_Learn M_Vocab L_Vocab P_Vocab M_Registry P_Registry M_BpeRun.
From Coq Require Import Lia Permutation.

(** ** Specification *)

(** a corpus: distinct, non-empty words of characters, without spaces, that occur; the same for the words that
    are not to be split *)
Definition corpus_ok (c : corpus) : Prop :=
  NoDup (dkeys (all_vocab c))
  /\ Forall (fun kv => fst kv <> [] /\ no_char 32 (fst kv) /\ valid_str (fst kv) /\ (0 < snd kv)%Z) (all_vocab c)
  /\ Forall (no_char 32) (nonbpe c).

(** the words to be split, and the others *)
Definition words (c : corpus) : dict str Z := filter (fun kv => negb (mem (fst kv) (nonbpe c))) (all_vocab c).
Definition others (c : corpus) : dict str Z := filter (fun kv => mem (fst kv) (nonbpe c)) (all_vocab c).

(** the words split into characters *)
Definition characters (c : corpus) : split_vocab := map (fun kv => (initial_split (fst kv), snd kv)) (words c).

(** all words with their splits, the others being one symbol each *)
Definition split_words (c : corpus) (v : split_vocab) : split_vocab :=
  v ++ map (fun kv => ([escape (fst kv) true], snd kv)) (others c).

(** A directory with complete results for the learned merges [l] and the words [v] split by them: all four
    files are there, the merges read from the file are [l], the other files are read as the split words, their
    subwords with frequencies, and the split of every word. *)
Definition has_results (c : corpus) (l : list (pair * Z)) (v : split_vocab) (d : bdir) : Prop :=
  exists res cache merges reass ml,
    d = {| f_res := Some res; f_cache := Some cache; f_merges := Some merges; f_reass := Some reass |}
    /\ read_merges merges None = Ok ml
    /\ map (fun m => (m_pair m, m_freq m)) (ml_iter ml) = map (fun pn => (fst pn, Some (snd pn))) l
    /\ load_vocab_dict reass = Ok (map (fun wf => (join (lit " ") (fst wf), snd wf)) (split_words c v))
    /\ read_bpe_cache cache = Ok (map (fun wf => (List.concat (fst wf), fst wf)) (split_words c v))
    /\ exists r, load_vocab_dict res = Ok r /\ descending r
        /\ forall x, dget r x =
             if existsb (fun wf => mem x (fst wf)) (split_words c v)
             then Some (fold_right (fun wf n => (snd wf * occurrences x (fst wf) + n)%Z) 0%Z (split_words c v))
             else None.

(** ** Lemmas *)
Lemma NoDup_filter_map {A B} (f : A -> B) (g : A -> bool) l : NoDup (map f l) -> NoDup (map f (filter g l)).
Proof.
  induction l as [|x l IH]; [auto|]. cbn [map filter]. intros H. inversion H as [|? ? H1 H2]; subst.
  destruct (g x); [|auto]. cbn [map]. constructor; [|auto]. intros Hin. apply H1.
  apply in_map_iff in Hin as (y & Ey & Hy). apply filter_In in Hy as [Hy _]. rewrite <- Ey. apply in_map, Hy.
Qed.

Lemma words_base c : corpus_ok c -> base_ok (words c).
Proof.
  intros (H1 & H2 & _). split; [apply NoDup_filter_map, H1|]. apply Forall_forall. intros kv Hin.
  apply filter_In in Hin as [Hin _]. rewrite Forall_forall in H2. destruct (H2 _ Hin) as (A & B & _ & C). auto.
Qed.

Lemma greedy_state c l v : corpus_ok c -> greedy (characters c) l v -> corpus_state (words c) l v.
Proof. intros H G. split; [apply words_base, H|exact G]. Qed.

Lemma characters_scratch c : corpus_ok c -> characters c = scratch_vocab (words c).
Proof. intros H. apply initial_vocab, words_base, H. Qed.

(** a property of symbols that is kept by concatenation *)
Definition all_syms (P : str -> Prop) (v : split_vocab) : Prop := Forall (fun wf => Forall P (fst wf)) v.

Lemma merge_pair_syms (P : str -> Prop) p s :
  (forall a b, P a -> P b -> P (a ++ b)) -> Forall P s -> Forall P (merge_pair p s).
Proof.
  intros HP. induction s as [|a|a b t IH1 IH2] using list_ind2; intros Hs; [exact Hs..|].
  rewrite merge_pair_cons2. inversion Hs as [|? ? Ha Hs']; subst. inversion Hs' as [|? ? Hb Ht]; subst.
  destruct (is_pair p a b); constructor; auto.
Qed.

Lemma greedy_syms (P : str -> Prop) v l v' :
  (forall a b, P a -> P b -> P (a ++ b)) -> Forall (fun wf => (0 < snd wf)%Z) v -> greedy v l v' -> all_syms P v ->
  all_syms P v' /\ Forall (fun pn => P (fst (fst pn)) /\ P (snd (fst pn))) l.
Proof.
  intros HP Hpos G. induction G as [v|v p n l v' M G IH]; intros Hv; [split; [exact Hv|constructor]|].
  destruct IH as [I1 I2].
  - rewrite Forall_map. exact Hpos.
  - unfold all_syms in *. rewrite Forall_map. eapply Forall_impl; [|exact Hv]. intros wf H. apply merge_pair_syms; auto.
  - split; [exact I1|]. constructor; [|exact I2]. destruct M as (M1 & M2 & _). rewrite M1, corpus_count_vcount in M2.
    apply (vcount_adjacent v p Hpos) in M2. destruct M2 as ([w f] & Hin & x & y & E). cbn [fst] in *.
    unfold all_syms in Hv. rewrite Forall_forall in Hv. specialize (Hv _ Hin). cbn [fst] in Hv. rewrite E in Hv.
    apply Forall_app in Hv as [_ Hv]. inversion Hv as [|? ? H1 Hv']; subst. inversion Hv' as [|? ? H2 _]; subst. auto.
Qed.

Lemma good_sym_app a b : good_sym a -> good_sym b -> good_sym (a ++ b).
Proof.
  intros [A1 A2] [B1 B2]. split; [apply valid_app; assumption|].
  intros Hin. apply in_app_or in Hin as [Hin|Hin]; [exact (A2 Hin)|exact (B2 Hin)].
Qed.

Lemma unit_good ch k : In ch k -> no_char 32 k -> valid_str k -> good_sym (unit_of ch).
Proof.
  intros Hin Hn Hv. unfold valid_str in Hv. rewrite Forall_forall in Hv. specialize (Hv _ Hin).
  assert (Hc : ch <> 32%N) by (intros ->; exact (Hn Hin)).
  destruct (unit_of_cases ch) as [[-> ->]|[_ ->]]; split.
  - repeat constructor; exact Hv.
  - intros [H|[H|[]]]; discriminate.
  - repeat constructor; exact Hv.
  - intros [H|[]]. congruence.
Qed.

Lemma at_good : good_sym at_str.
Proof. split; [repeat constructor; unfold at_ch; lia|]. intros [H|[]]; discriminate. Qed.

Lemma characters_good c : corpus_ok c -> all_syms good_sym (characters c).
Proof.
  intros (_ & H & _). unfold all_syms, characters. rewrite Forall_map. apply Forall_forall. intros kv Hin.
  apply filter_In in Hin as [Hin _]. rewrite Forall_forall in H. destruct (H _ Hin) as (H1 & H2 & H3 & _).
  change (Forall good_sym (initial_split (fst kv))). rewrite (initial_split_units (fst kv) H1 H2). apply Forall_app. split; [|constructor; [apply at_good|constructor]].
  rewrite Forall_map. apply Forall_forall. intros ch Hc. exact (unit_good _ _ Hc H2 H3).
Qed.

Lemma characters_pos c : corpus_ok c -> Forall (fun wf => (0 < snd wf)%Z) (characters c).
Proof.
  intros (_ & H & _). unfold characters. rewrite Forall_map. apply Forall_forall. intros kv Hin.
  apply filter_In in Hin as [Hin _]. rewrite Forall_forall in H. apply (H _ Hin).
Qed.

Lemma escape_good k : no_char 32 k -> valid_str k -> good_sym (escape k true).
Proof.
  intros H1 H2. rewrite escape_merged. rewrite concat_app. cbn [List.concat]. rewrite app_nil_r.
  apply good_sym_app; [|apply at_good]. assert (G : forall l, (forall x, In x l -> In x k) -> good_sym (List.concat (map unit_of l))).
  { induction l as [|x l IH]; intros Hl; [split; [constructor|intros []]|]. cbn [map List.concat].
    apply good_sym_app; [exact (unit_good x k (Hl x (or_introl eq_refl)) H1 H2)|]. apply IH. intros y Hy. apply Hl. right. exact Hy. }
  apply G. auto.
Qed.

(** the words of a vocabulary reached by learning *)
Lemma greedy_words c l v : corpus_ok c -> greedy (characters c) l v ->
  map (fun wf => (List.concat (fst wf), snd wf)) v = map (fun kv => (escape (fst kv) true, snd kv)) (words c)
  /\ all_syms good_sym v /\ Forall (fun wf => fst wf <> []) v
  /\ Forall (fun pn => good_sym (fst (fst pn)) /\ good_sym (snd (fst pn))) l
  /\ NoDup (map fst l).
Proof.
  intros Hc G. pose proof (greedy_state _ _ _ Hc G) as C. pose proof (corpus_state_learnable _ _ _ C) as L.
  assert (W : map (fun wf => (List.concat (fst wf), snd wf)) v = map (fun kv => (escape (fst kv) true, snd kv)) (words c)).
  { exact (C27_corpus _ _ _ 0 _ _ C eq_refl). }
  destruct (greedy_syms good_sym _ _ _ good_sym_app (characters_pos c Hc) G (characters_good c Hc)) as [S1 S2].
  repeat split; auto.
  - apply Forall_forall. intros [w f] Hin. cbn [fst]. intros ->.
    apply (in_map (fun wf => (List.concat (fst wf), snd wf))) in Hin. rewrite W in Hin. cbn [fst snd List.concat] in Hin.
    apply in_map_iff in Hin as (kv & E & _). apply (f_equal fst) in E. cbn [fst] in E.
    change (escape (fst kv) true = []) in E. rewrite escape_merged, concat_app in E.
    destruct (List.concat (map unit_of (fst kv))); discriminate.
  - exact (learnable_nodup _ _ _ L).
Qed.

(** the same for all words *)
Lemma others_in c kv : corpus_ok c -> In kv (others c) ->
  fst kv <> [] /\ no_char 32 (fst kv) /\ valid_str (fst kv) /\ In (fst kv) (nonbpe c).
Proof.
  intros (_ & H & _) Hin. apply filter_In in Hin as [Hin Hm]. rewrite Forall_forall in H.
  destruct (H _ Hin) as (H1 & H2 & H3 & _). repeat split; auto. apply mem_in in Hm. exact Hm.
Qed.

Lemma split_words_good c l v : corpus_ok c -> greedy (characters c) l v ->
  all_syms good_sym (split_words c v) /\ Forall (fun wf => fst wf <> []) (split_words c v)
  /\ NoDup (map (fun wf => List.concat (fst wf)) (split_words c v)).
Proof.
  intros Hc G. destruct (greedy_words _ _ _ Hc G) as (W & S1 & S2 & _). unfold split_words, all_syms. split; [|split].
  - apply Forall_app. split; [exact S1|]. rewrite Forall_map. apply Forall_forall. intros kv Hin.
    destruct (others_in _ _ Hc Hin) as (_ & H2 & H3 & _). cbn [fst]. constructor; [apply escape_good; assumption|constructor].
  - apply Forall_app. split; [exact S2|]. rewrite Forall_map. apply Forall_forall. intros kv _. discriminate.
  - assert (E : map (fun wf => List.concat (fst wf)) (v ++ map (fun kv => ([escape (fst kv) true], snd kv)) (others c))
        = map (fun k => escape k true) (map fst (words c ++ others c))).
    { apply (f_equal (map fst)) in W. rewrite !map_map in W. cbn [fst] in W.
      refine (eq_trans (map_app _ _ _) _). rewrite (map_app fst), map_app, !map_map. f_equal; [exact W|].
      apply map_ext. intros kv. apply app_nil_r. }
    rewrite E.
    apply FinFun.Injective_map_NoDup; [intros a b; apply escape_inj|].
    destruct Hc as (Hn & _ & _). unfold dkeys in Hn. revert Hn. unfold words, others. clear.
    induction (all_vocab c) as [|[k f] d IH]; [intros _; constructor|]. cbn [map filter fst]. intros Hn.
    inversion Hn as [|? ? H1 H2]; subst. specialize (IH H2).
    assert (Hk : ~ In k (map fst (filter (fun kv : str * Z => negb (mem (fst kv) (nonbpe c))) d
                      ++ filter (fun kv : str * Z => mem (fst kv) (nonbpe c)) d))).
    { rewrite map_app. intros Hin. apply H1. apply in_app_or in Hin as [Hin|Hin]; apply in_map_iff in Hin as (y & Ey & Hy);
        apply filter_In in Hy as [Hy _]; rewrite <- Ey; apply in_map, Hy. }
    destruct (mem k (nonbpe c)); cbn [negb].
    + rewrite map_app in *. cbn [map fst]. apply NoDup_Add with (a := k) (l := map fst (filter (fun kv : str * Z => negb (mem (fst kv) (nonbpe c))) d) ++ map fst (filter (fun kv : str * Z => mem (fst kv) (nonbpe c)) d)).
      * apply Add_app.
      * split; assumption.
    + cbn [map app fst]. constructor; assumption.
Qed.

(** *** What is written is read back *)
Lemma valid_join l : Forall good_sym l -> valid_str (join (lit " ") l).
Proof.
  induction 1 as [|x l [Hx _] Hl IH]; [constructor|]. destruct l as [|y l]; [exact Hx|].
  rewrite join_cons by discriminate. apply valid_app; [exact Hx|]. apply valid_app; [apply valid_lit_space|exact IH].
Qed.

Lemma good_no_space l : Forall good_sym l -> Forall (no_char 32) l.
Proof. apply Forall_impl. intros x H. apply H. Qed.

Lemma symbols_strings v : all_syms good_sym v -> Forall (fun wf => fst wf <> []) v -> to_symbols (to_strings v) = v.
Proof.
  intros H1 H2. unfold to_symbols, to_strings. rewrite map_map. cbn [fst snd]. rewrite <- (map_id v) at 2.
  apply map_ext_in. intros [w f] Hin. cbn [fst snd]. unfold all_syms in H1. rewrite Forall_forall in H1, H2.
  f_equal. apply split_join; [exact (H2 _ Hin)|]. apply good_no_space. exact (H1 _ Hin).
Qed.

Lemma strings_nodup v : all_syms good_sym v -> Forall (fun wf => fst wf <> []) v ->
  NoDup (map (fun wf => List.concat (fst wf)) v) -> NoDup (map fst (to_strings v)).
Proof.
  intros H1 H2 Hn. pose proof (symbols_strings v H1 H2) as E.
  rewrite <- E in Hn. unfold to_symbols in Hn. rewrite map_map in Hn. cbn [fst] in Hn.
  rewrite <- (map_map fst (fun k => List.concat (split_on 32 k))) in Hn. exact (NoDup_map_inv _ _ Hn).
Qed.

Lemma reass_back v : all_syms good_sym v -> Forall (fun wf => fst wf <> []) v ->
  NoDup (map (fun wf => List.concat (fst wf)) v) ->
  load_vocab_dict (dump_vocab_dict true (to_strings v)) = Ok (to_strings v).
Proof.
  intros H1 H2 H3. apply C26_round_trip; [apply strings_nodup; assumption|]. unfold to_strings.
  rewrite map_map. cbn [fst]. rewrite Forall_map. unfold all_syms in H1. eapply Forall_impl; [|exact H1].
  intros wf H. apply valid_join, H.
Qed.

Lemma cache_of v : NoDup (map (fun wf => List.concat (fst wf)) v) ->
  create_bpe_cache v = map (fun wf => (List.concat (fst wf), fst wf)) v.
Proof.
  intros Hn. unfold create_bpe_cache.
  assert (G : forall b (d : dict str (list str)), NoDup (dkeys d ++ map (fun wf : list str * Z => List.concat (fst wf)) b) ->
     fold_left (fun d wf => dset d (List.concat (fst wf)) (fst wf)) b d
       = d ++ map (fun wf => (List.concat (fst wf), fst wf)) b).
  { clear. induction b as [|[w f] b IH]; intros d Hn; [rewrite app_nil_r; reflexivity|]. cbn [fold_left map fst].
    cbn [map fst] in Hn. rewrite dset_fresh.
    - rewrite IH; [rewrite <- app_assoc; reflexivity|]. unfold dkeys. rewrite map_app, <- app_assoc. exact Hn.
    - apply dget_none. intros Hin. apply NoDup_remove_2 in Hn. apply Hn, in_or_app. left. exact Hin. }
  exact (G v [] Hn).
Qed.

Lemma valid_concat l : Forall good_sym l -> valid_str (List.concat l).
Proof. induction 1 as [|x l [Hx _] _ IH]; [constructor|]. apply valid_app; assumption. Qed.

Lemma cache_back v : all_syms good_sym v -> Forall (fun wf => fst wf <> []) v ->
  NoDup (map (fun wf => List.concat (fst wf)) v) ->
  read_bpe_cache (dump_bpe_cache (create_bpe_cache v)) = Ok (map (fun wf => (List.concat (fst wf), fst wf)) v).
Proof.
  intros H1 H2 H3. rewrite (cache_of v H3). apply read_dump_cache.
  - unfold dkeys. rewrite map_map. exact H3.
  - rewrite Forall_map. unfold all_syms in H1. rewrite Forall_forall in *. intros wf Hin.
    specialize (H1 _ Hin). repeat split; cbn [fst snd]; [apply valid_concat, H1|exact (H2 _ Hin)|exact H1].
Qed.

Lemma resulting_nodup v : NoDup (dkeys (create_resulting_vocab v)).
Proof.
  unfold create_resulting_vocab. assert (G : forall v (d : dict str Z), NoDup (dkeys d) ->
    NoDup (dkeys (fold_left (fun d wf => fold_left (fun d s => dincr d s (snd wf)) (fst wf) d) v d))).
  { clear. induction v as [|[w f] v IH]; intros d Hd; [exact Hd|]. cbn [fold_left fst snd]. apply IH.
    revert d Hd. induction w as [|x w IHw]; intros d Hd; [exact Hd|]. cbn [fold_left]. apply IHw. apply dset_nodup, Hd. }
  apply G. constructor.
Qed.

Lemma res_back v : all_syms good_sym v ->
  load_vocab_dict (dump_vocab_dict true (sort_desc (create_resulting_vocab v))) = Ok (sort_desc (create_resulting_vocab v)).
Proof.
  intros H1. pose proof (resulting_nodup v) as Hn. pose proof (sort_desc_perm (create_resulting_vocab v)) as P.
  apply C26_round_trip.
  - eapply Permutation_NoDup; [apply Permutation_map, Permutation_sym, P|exact Hn].
  - apply Forall_forall. intros x Hin. assert (Hx : In x (dkeys (create_resulting_vocab v))).
    { eapply Permutation_in; [apply Permutation_map, P|exact Hin]. }
    destruct (dget (create_resulting_vocab v) x) eqn:E; [|apply dget_none in E; contradiction].
    rewrite C32_resulting_vocab in E. destruct (existsb _ v) eqn:Ex; [|discriminate].
    apply existsb_exists in Ex as (wf & Hw & Hm). apply mem_in in Hm. unfold all_syms in H1. rewrite Forall_forall in H1.
    specialize (H1 _ Hw). cbv beta in H1. rewrite Forall_forall in H1. apply (H1 _ Hm).
Qed.

Lemma merges_back l : NoDup (map fst l) ->
  Forall (fun pn : pair * Z => good_sym (fst (fst pn)) /\ good_sym (snd (fst pn))) l ->
  read_merges (dump_merges (ml_of l)) None = Ok (ml_of l).
Proof.
  intros Hn Hg. unfold ml_of. apply read_dump; [rewrite map_map; exact Hn| |left; reflexivity].
  rewrite Forall_map. eapply Forall_impl; [|exact Hg]. intros [p n] [H1 H2]. repeat split; try apply H1; try apply H2. discriminate.
Qed.

Definition saved (c : corpus) (k : nat) (d : bdir) : Prop :=
  exists l v, greedy (characters c) l v /\ length l = k /\ d = complete (results (split_words c v) (ml_of l)).

Lemma saved_results c l v : corpus_ok c -> greedy (characters c) l v ->
  has_results c l v (complete (results (split_words c v) (ml_of l))).
Proof.
  intros Hc G. destruct (split_words_good _ _ _ Hc G) as (S1 & S2 & S3).
  destruct (greedy_words _ _ _ Hc G) as (_ & _ & _ & P1 & P2).
  exists (c_res (results (split_words c v) (ml_of l))), (c_cache (results (split_words c v) (ml_of l))),
    (c_merges (results (split_words c v) (ml_of l))), (c_reass (results (split_words c v) (ml_of l))), (ml_of l).
  cbn [results c_res c_cache c_merges c_reass]. split; [reflexivity|].
  split; [apply merges_back; assumption|]. split; [apply recorded_from|].
  split; [apply reass_back; assumption|]. split; [apply cache_back; assumption|].
  exists (sort_desc (create_resulting_vocab (split_words c v))). split; [apply res_back, S1|].
  split; [apply sort_desc_sorted|]. intros x. rewrite <- C32_resulting_vocab.
  pose proof (sort_desc_perm (create_resulting_vocab (split_words c v))) as P.
  pose proof (resulting_nodup (split_words c v)) as Hn.
  assert (Hn' : NoDup (dkeys (sort_desc (create_resulting_vocab (split_words c v))))).
  { eapply Permutation_NoDup; [apply Permutation_map, Permutation_sym, P|exact Hn]. }
  destruct (dget (create_resulting_vocab (split_words c v)) x) as [z|] eqn:E.
  - apply dget_nodup; [exact Hn'|]. eapply Permutation_in; [apply Permutation_sym, P|]. apply dget_in, E.
  - apply dget_none. apply dget_none in E. intros Hin. apply E. eapply Permutation_in; [apply Permutation_map, P|exact Hin].
Qed.

(** *** A run without interruption *)
Lemma fold_dset_fresh {A K V} `{Eqb K} (g : A -> K) (h : A -> V) l (d : dict K V) :
  NoDup (dkeys d ++ map g l) ->
  fold_left (fun d x => dset d (g x) (h x)) l d = d ++ map (fun x => (g x, h x)) l.
Proof.
  revert d. induction l as [|x l IH]; intros d Hn; [rewrite app_nil_r; reflexivity|]. cbn [fold_left map] in *.
  rewrite dset_fresh.
  - rewrite IH; [rewrite <- app_assoc; reflexivity|]. unfold dkeys. rewrite map_app, <- app_assoc. exact Hn.
  - apply dget_none. intros Hin. apply NoDup_remove_2 in Hn. apply Hn, in_or_app. left. exact Hin.
Qed.

Definition other_strings (c : corpus) : dict str Z := map (fun kv => (escape (fst kv) true, snd kv)) (others c).

Lemma add_others c l v : corpus_ok c -> greedy (characters c) l v ->
  fold_left (fun d kv => dset d (split_on 32 (fst kv)) (snd kv)) (other_strings c) v = split_words c v.
Proof.
  intros Hc G. destruct (split_words_good _ _ _ Hc G) as (_ & _ & S3).
  assert (E : map (fun kv => split_on 32 (fst kv)) (other_strings c) = map (fun kv => [escape (fst kv) true]) (others c)).
  { unfold other_strings. rewrite map_map. apply map_ext_in. intros kv Hin. cbn [fst].
    destruct (others_in _ _ Hc Hin) as (_ & H2 & H3 & _). apply split_on_no_char. apply (escape_good _ H2 H3). }
  rewrite fold_dset_fresh.
  - unfold split_words. f_equal. unfold other_strings in *. rewrite map_map in *. cbn [fst snd] in *.
    apply map_ext_in. intros kv Hin. f_equal.
    destruct (others_in _ _ Hc Hin) as (_ & H2 & H3 & _). apply split_on_no_char. apply (escape_good _ H2 H3).
  - refine (eq_ind_r (fun m => NoDup (dkeys v ++ m)) _ E). unfold split_words in S3.
    rewrite <- (map_map fst (fun w : list str => List.concat w)) in S3. apply NoDup_map_inv in S3.
    rewrite map_app, map_map in S3. exact S3.
Qed.

Lemma scratch_prepared c : corpus_ok c -> prepare_scratch c = (characters c, other_strings c).
Proof.
  intros Hc. unfold prepare_scratch, separate_vocabs. fold (words c) (others c). rewrite (characters_scratch c Hc). f_equal.
  unfold dict_of. rewrite fold_dset_fresh.
  - cbn [app]. unfold other_strings. rewrite <- (map_id (map _ (others c))) at 2. apply map_ext. intros [a b]. reflexivity.
  - cbn [dkeys map app]. rewrite map_map. cbn [fst].
    rewrite <- (map_map fst (fun k => escape k true)). apply FinFun.Injective_map_NoDup; [intros a b; apply escape_inj|].
    apply NoDup_filter_map. apply Hc.
Qed.

Lemma separate_split_words c l v : corpus_ok c -> greedy (characters c) l v ->
  separate_vocabs (to_strings (split_words c v)) (map (fun k => escape k true) (nonbpe c)) = (to_strings v, other_strings c).
Proof.
  intros Hc G. destruct (greedy_words _ _ _ Hc G) as (W & S1 & S2 & _).
  assert (E2 : forall kv, In kv (other_strings c) -> mem (fst kv) (map (fun k => escape k true) (nonbpe c)) = true).
  { intros kv Hin. apply mem_in. unfold other_strings in Hin. apply in_map_iff in Hin as (x & <- & Hin). cbn [fst].
    apply (in_map (fun k => escape k true)). apply (others_in _ _ Hc Hin). }
  assert (E1 : forall kv, In kv (to_strings v) -> mem (fst kv) (map (fun k => escape k true) (nonbpe c)) = false).
  { intros kv Hin. apply mem_not_in. intros Hm. unfold to_strings in Hin. apply in_map_iff in Hin as ([w f] & <- & Hin).
    cbn [fst] in Hm. apply in_map_iff in Hm as (k & Ek & Hk).
    assert (Hsp : no_char 32 (escape k true)).
    { destruct Hc as (_ & _ & Hb). rewrite Forall_forall in Hb. specialize (Hb _ Hk).
      rewrite escape_merged. rewrite concat_app. cbn [List.concat]. rewrite app_nil_r. intros Hi. apply in_app_or in Hi as [Hi|Hi].
      - apply in_concat in Hi as (u & Hu & Hi). apply in_map_iff in Hu as (ch & <- & Hch).
        destruct (unit_of_cases ch) as [[-> Eu]|[_ Eu]]; rewrite Eu in Hi.
        + destruct Hi as [Hi|[Hi|[]]]; discriminate.
        + destruct Hi as [Hi|[]]. subst ch. exact (Hb Hch).
      - destruct Hi as [Hi|[]]. discriminate. }
    unfold all_syms in S1. rewrite Forall_forall in S1, S2. specialize (S1 _ Hin). specialize (S2 _ Hin). cbn [fst] in S1, S2.
    assert (Ew : w = [escape k true]).
    { rewrite <- (split_join 32 w S2 (good_no_space _ S1)). refine (eq_trans (f_equal (split_on 32) (eq_sym Ek)) _).
      apply split_on_no_char, Hsp. }
    apply (in_map (fun wf => (List.concat (fst wf), snd wf))) in Hin. rewrite W in Hin. rewrite Ew in Hin.
    cbn [fst snd List.concat] in Hin. rewrite app_nil_r in Hin. apply in_map_iff in Hin as (kv & Ekv & Hin).
    apply (f_equal fst) in Ekv. cbn [fst] in Ekv. apply escape_inj in Ekv. apply filter_In in Hin as [_ Hin].
    rewrite Ekv in Hin. apply negb_true_iff, mem_not_in in Hin. contradiction. }
  assert (E : to_strings (split_words c v) = to_strings v ++ other_strings c).
  { unfold split_words, to_strings, other_strings. rewrite map_app, map_map. reflexivity. }
  rewrite E. unfold separate_vocabs. rewrite !filter_app.
  assert (F : forall (g : str * Z -> bool) l, (forall x, In x l -> g x = true) -> filter g l = l).
  { intros g. induction l0 as [|x l0 IH]; intros Hg; [reflexivity|]. cbn [filter]. rewrite (Hg x (or_introl eq_refl)), IH; auto.
    intros y Hy. apply Hg. right. exact Hy. }
  assert (F0 : forall (g : str * Z -> bool) l, (forall x, In x l -> g x = false) -> filter g l = []).
  { intros g. induction l0 as [|x l0 IH]; intros Hg; [reflexivity|]. cbn [filter]. rewrite (Hg x (or_introl eq_refl)), IH; auto.
    intros y Hy. apply Hg. right. exact Hy. }
  rewrite (F _ (to_strings v)), (F0 _ (other_strings c)), (F0 _ (to_strings v)), (F _ (other_strings c)).
  - rewrite app_nil_r. reflexivity.
  - exact E2.
  - exact E1.
  - intros x Hx. rewrite (E2 x Hx). reflexivity.
  - intros x Hx. rewrite (E1 x Hx). reflexivity.
Qed.

Lemma resume_prepared c l v (d : bdir) : corpus_ok c -> greedy (characters c) l v ->
  f_reass d = Some (c_reass (results (split_words c v) (ml_of l))) ->
  prepare_resume c d = Ok (v, other_strings c).
Proof.
  intros Hc G Hd. unfold prepare_resume. rewrite Hd. cbn [open_file bind results c_reass].
  destruct (split_words_good _ _ _ Hc G) as (T1 & T2 & T3). rewrite (reass_back _ T1 T2 T3). cbn [bind].
  rewrite (separate_split_words c l v Hc G). destruct (greedy_words _ _ _ Hc G) as (_ & S1 & S2 & _).
  rewrite (symbols_strings v S1 S2). reflexivity.
Qed.

(** what is left to do once the earlier merges [l0] and their vocabulary are there *)
Lemma learn_rest c l0 v0 n : corpus_ok c -> greedy (characters c) l0 v0 ->
  exists l v' new, greedy (characters c) (l0 ++ l) v'
    /\ do_merges v0 (n - length l0) = Ok (v', new)
    /\ fold_left (fun d kv => dset d (split_on 32 (fst kv)) (snd kv)) (other_strings c) v' = split_words c v'
    /\ ml_add (ml_of l0) new = Ok (ml_of (l0 ++ l))
    /\ length l <= n - length l0
    /\ (length l < n - length l0 -> Forall (fun wf => length (fst wf) = 1) v')
    /\ (l = [] -> v' = v0).
Proof.
  intros Hc G0. pose proof (greedy_state _ _ _ Hc G0) as C. pose proof (corpus_state_learnable _ _ _ C) as L.
  destruct (do_merges_spec (n - length l0) _ _ v0 L) as (l & v' & E & Ev & L' & G & Hl & _).
  exists l, v', (ml_of l). assert (G' : greedy (characters c) (l0 ++ l) v') by (eapply greedy_app; eassumption).
  split; [exact G'|]. split; [exact E|]. split; [exact (add_others _ _ _ Hc G')|]. split.
  - unfold ml_of. rewrite map_app. apply ml_add_ml_from. rewrite !map_map. rewrite <- map_app.
    pose proof (learnable_nodup _ _ _ L') as Hn. rewrite <- map_app in Hn. exact Hn.
  - split; [exact Hl|]. split; [|intros ->; rewrite Ev; apply vapply_nil].
    intros Hlt. pose proof (C29_distinct _ _ _ _ _ _ C E) as (_ & _ & _ & H). apply H.
    unfold ml_iter, dvals. rewrite map_length, ml_from_length, map_length. exact Hlt.
Qed.

Lemma do_merges_single v n : Forall (fun wf : list str * Z => length (fst wf) = 1) v -> do_merges v n = Ok (v, ml_empty).
Proof.
  intros H. assert (E : get_stats v = []).
  { unfold get_stats. induction H as [|[w f] v Hw Hv IH]; [reflexivity|]. cbn [fold_left fst snd] in *.
    destruct w as [|a [|b w]]; try discriminate. exact IH. }
  unfold do_merges. rewrite E. destruct n; reflexivity.
Qed.

(** *** Files that end early *)
Lemma file_lines_cons l p : no_char 10 l -> no_char 13 l -> no_char 13 p -> file_lines (l ++ 10%N :: p) = l :: file_lines p.
Proof.
  intros H1 H2 H3. unfold file_lines. rewrite !univ_newlines_id.
  - rewrite split_on_app_sep, (split_on_no_char 10 l H1). cbn [app].
    destruct (split_on 10 p) as [|x xs] eqn:E; [exfalso; exact (split_on_nonempty _ _ E)|].
    change (last (l :: x :: xs) []) with (last (x :: xs) []). destruct (last (x :: xs) []); reflexivity.
  - exact H3.
  - intros Hin. apply in_app_or in Hin as [Hin|[Hin|Hin]]; [exact (H2 Hin)|discriminate|exact (H3 Hin)].
Qed.

Lemma app_prefix (l r p q : str) : l ++ r = p ++ q ->
  (exists y, l = p ++ y) \/ (exists p', p = l ++ p' /\ p' <> [] /\ r = p' ++ q).
Proof.
  revert p. induction l as [|a l IH]; intros [|b p] E.
  - left. exists []. reflexivity.
  - right. exists (b :: p). repeat split; [discriminate|exact E].
  - left. exists (a :: l). reflexivity.
  - injection E as -> E. destruct (IH _ E) as [(y & ->)|(p' & -> & H)]; [left; exists y; reflexivity|right; exists p'; auto].
Qed.

Lemma file_lines_prefix ls p q x : Forall (no_char 10) ls -> Forall (no_char 13) ls -> write_lines ls = p ++ q ->
  In x (file_lines p) -> exists l y, In l ls /\ l = x ++ y.
Proof.
  intros H10 H13. revert p. induction ls as [|l ls IH]; intros p E Hin.
  - destruct p; [|discriminate]. destruct Hin.
  - inversion H10; subst. inversion H13; subst. unfold write_lines in E. cbn [map List.concat] in E. fold (write_lines ls) in E.
    rewrite <- app_assoc in E. cbn [app] in E. destruct (app_prefix _ _ _ _ E) as [(y & ->)|(p' & -> & Hp & E')].
    + assert (N1 : no_char 10 p) by (intros Hi; apply H1, in_or_app; left; exact Hi).
      assert (N2 : no_char 13 p) by (intros Hi; apply H3, in_or_app; left; exact Hi).
      unfold file_lines in Hin. rewrite univ_newlines_id in Hin by exact N2. rewrite split_on_no_char in Hin by exact N1.
      cbn [last removelast] in Hin. destruct p as [|ch p]; [destruct Hin|]. destruct Hin as [<-|[]].
      exists ((ch :: p) ++ y), y. split; [left; reflexivity|reflexivity].
    + destruct p' as [|ch p']; [congruence|]. injection E' as <- E'.
      assert (N2 : no_char 13 p').
      { pose proof (write_lines_no_cr ls H4) as W. rewrite E' in W. intros Hi. apply W, in_or_app. left. exact Hi. }
      rewrite file_lines_cons in Hin by assumption. destruct Hin as [<-|Hin].
      * exists l, []. split; [left; reflexivity|rewrite app_nil_r; reflexivity].
      * destruct (IH H2 H4 _ E' Hin) as (l1 & y & Hl & Hy). exists l1, y. split; [right; exact Hl|exact Hy].
Qed.

Lemma load_prefix (L : list (str * Z)) p q loaded : Forall valid_str (map fst L) ->
  dump_vocab_dict true L = p ++ q -> load_vocab_dict p = Ok loaded -> incl (dkeys loaded) (map fst L).
Proof.
  intros Hv E. unfold dump_vocab_dict in E. unfold load_vocab_dict.
  assert (Sf : forall wf, In wf L -> no_char tab (to_literal_str (fst wf)) /\ no_char 10%N (to_literal_str (fst wf))
     /\ no_char 13%N (to_literal_str (fst wf)) /\ to_non_literal_str (to_literal_str (fst wf)) = Ok (fst wf)).
  { intros wf Hin. apply literal_safe. rewrite Forall_map, Forall_forall in Hv. exact (Hv _ Hin). }
  assert (Pf : forall x, In x (file_lines p) -> exists wf y, In wf L /\ vocab_line (to_literal_str (fst wf)) (snd wf) = x ++ y).
  { intros x Hx. set (ls := map (fun wf : str * Z => vocab_line (to_literal_str (fst wf)) (snd wf)) L) in *.
    assert (N10 : Forall (no_char 10) ls).
    { unfold ls. rewrite Forall_map. apply Forall_forall. intros wf Hin. destruct (Sf _ Hin) as (_ & H & _).
      apply vocab_line_no_char; [exact H|discriminate|reflexivity]. }
    assert (N13 : Forall (no_char 13) ls).
    { unfold ls. rewrite Forall_map. apply Forall_forall. intros wf Hin. destruct (Sf _ Hin) as (_ & _ & H & _).
      apply vocab_line_no_char; [exact H|discriminate|reflexivity]. }
    destruct (file_lines_prefix _ p q x N10 N13 E Hx) as (l & y & Hl & Hy).
    apply in_map_iff in Hl as (wf & <- & Hw). exists wf, y. auto. }
  assert (G : forall ls d, (forall x, In x ls -> exists wf y, In wf L /\ vocab_line (to_literal_str (fst wf)) (snd wf) = x ++ y) ->
     incl (dkeys d) (map fst L) -> load_vocab_lines ls d = Ok loaded -> incl (dkeys loaded) (map fst L)).
  { clear Pf E. induction ls as [|x ls IH]; intros d Hx Hd Hl; cbn [load_vocab_lines] in Hl.
    - injection Hl as <-. exact Hd.
    - destruct (load_vocab_line x d) as [d1|] eqn:E1; [|discriminate]. cbn [bind] in Hl.
      apply (IH d1); [intros z Hz; apply Hx; right; exact Hz| |exact Hl].
      destruct (Hx x (or_introl eq_refl)) as (wf & y & Hin & Ey). destruct (Sf _ Hin) as (T1 & _ & _ & T2).
      unfold load_vocab_line in E1. unfold vocab_line in Ey. destruct (app_prefix _ _ _ _ Ey) as [(z & Ez)|(p' & -> & Hp & E')].
      + assert (Nx : no_char tab x) by (intros Hi; apply T1; rewrite Ez; apply in_or_app; left; exact Hi).
        rewrite split_on_no_char in E1 by exact Nx. discriminate.
      + destruct p' as [|ch p']; [congruence|]. injection E' as <- E'. rewrite split_on_app_sep, (split_on_no_char tab _ T1) in E1.
        cbn [app] in E1. destruct (split_on tab p') as [|f fs]; [discriminate|]. rewrite T2 in E1. cbn [bind] in E1.
        destruct (parse_int f) as [z|]; [|discriminate]. cbn [bind] in E1. injection E1 as <-.
        intros k Hk. apply in_dkeys_dset in Hk as [->|Hk]; [apply in_map, Hin|apply Hd, Hk]. }
  intros Hl. apply (G (file_lines p) []); [exact Pf|intros k []|exact Hl].
Qed.

Lemma strings_valid v : all_syms good_sym v -> Forall valid_str (map fst (to_strings v)).
Proof.
  intros H1. unfold to_strings. rewrite map_map. rewrite Forall_map. unfold all_syms in H1. eapply Forall_impl; [|exact H1].
  intros wf H. apply valid_join, H.
Qed.

Section Runs.
  Variable py_int : str -> option Z.
  (** int() of a number written by str() *)
  Hypothesis py_int_dec : forall k, py_int (dec k) = Some (Z.of_N k).

  Definition good_state (c : corpus) (st : bstate) : Prop :=
    NoDup (dkeys st) /\ forall k d, In (k, d) st -> saved c k d.

  Lemma learned_iff (st : bstate) (m : Z) :
    learned py_int (map (fun k => dec (N.of_nat k)) (dkeys st)) m <-> exists k, In k (dkeys st) /\ m = Z.of_nat k.
  Proof.
    unfold learned. split.
    - intros (s & Hin & E). apply in_map_iff in Hin as (k & <- & Hin). rewrite py_int_dec in E. injection E as <-.
      exists k. split; [exact Hin|lia].
    - intros (k & Hin & ->). exists (dec (N.of_nat k)). split; [apply in_map_iff; eauto|]. rewrite py_int_dec. f_equal. lia.
  Qed.

  Lemma most_merges_spec (st : bstate) n :
    match most_merges py_int st n with
    | Some k => In k (dkeys st) /\ 0 < k <= n /\ forall k', In k' (dkeys st) -> k' <= n -> k' <= k
    | None => forall k, In k (dkeys st) -> 0 < k -> n < k
    end.
  Proof.
    unfold most_merges. pose proof (C35_max py_int (map (fun k => dec (N.of_nat k)) (dkeys st)) (Z.of_nat n)) as H.
    destruct (get_max_merges _ _ _) as [m|].
    - destruct H as (H1 & H2 & H3). destruct (Z.eqb_spec m 0) as [->|Hm]; [lia|].
      apply learned_iff in H1 as (k & Hk & ->). rewrite Nat2Z.id. split; [exact Hk|]. split; [lia|].
      intros k' Hk' Hle. assert (Z.of_nat k' <= Z.of_nat k)%Z; [|lia]. apply H3; [apply learned_iff; eauto|lia].
    - intros k Hk Hpos. assert (Z.of_nat n < Z.of_nat k)%Z; [|lia]. apply H; [apply learned_iff; eauto|lia].
  Qed.

  (** a run from complete results only *)
  Lemma learn_good c st n : corpus_ok c -> good_state c st ->
    exists l v, greedy (characters c) l v /\ length l <= n
      /\ (length l < n -> Forall (fun wf => length (fst wf) = 1) v)
      /\ (forall k, In k (dkeys st) -> k <= n -> k <= length l)
      /\ (dmem st (length l) = true -> dget st (length l) = Some (complete (results (split_words c v) (ml_of l))))
      /\ learn py_int c st n =
         Ok (if dmem st (length l) then None else Some (length l, results (split_words c v) (ml_of l))).
  Proof.
    intros Hc [Hn Hs]. unfold learn. pose proof (most_merges_spec st n) as M. destruct (most_merges py_int st n) as [k|].
    - destruct M as (Hin & Hk & Hmax). apply in_map_iff in Hin as ([k' d] & E & Hin). cbn [fst] in E. subst k'.
      rewrite (dget_nodup _ _ _ Hn Hin). destruct (Hs _ _ Hin) as (l0 & v0 & G0 & Hl0 & ->).
      cbn [complete f_merges open_file bind results c_merges].
      destruct (greedy_words _ _ _ Hc G0) as (_ & _ & _ & P1 & P2). rewrite (merges_back l0 P2 P1). cbn [bind].
      rewrite (resume_prepared c l0 v0 _ Hc G0) by reflexivity. cbn [bind].
      assert (Lm : length (ml_of l0) = length l0) by (unfold ml_of; rewrite ml_from_length, map_length; reflexivity).
      rewrite Lm. destruct (learn_rest c l0 v0 n Hc G0) as (l & v' & new & G & E1 & E2 & E3 & E4 & E5 & E6).
      exists (l0 ++ l), v'. split; [exact G|]. rewrite app_length. split; [lia|]. split; [intros; apply E5; lia|].
      split; [intros k1 Hk1 Hle; specialize (Hmax _ Hk1 Hle); lia|].
      split.
      { intros Hd. unfold dmem in Hd. destruct (dget st (length l0 + length l)) eqn:Eg; [|discriminate].
        pose proof (dget_some_key _ _ _ Eg) as Ek. specialize (Hmax _ Ek ltac:(lia)).
        destruct l; [|cbn [length] in Hmax; lia]. rewrite (E6 eq_refl), app_nil_r. rewrite <- Eg. cbn [length].
        rewrite Nat.add_0_r, Hl0. exact (dget_nodup _ _ _ Hn Hin). }
      rewrite E1. cbn [bind]. rewrite E3. cbn [bind]. rewrite E2.
      unfold ml_of at 1 2 3. rewrite ml_from_length, map_length, app_length. reflexivity.
    - cbn [bind]. rewrite (scratch_prepared c Hc).
      destruct (learn_rest c [] (characters c) n Hc (greedy_stop _)) as (l & v' & new & G & E1 & E2 & E3 & E4 & E5 & E6).
      cbn [app length] in *. exists l, v'. split; [exact G|]. split; [lia|]. split; [intros; apply E5; lia|].
      split; [intros k Hk Hle; destruct k; [lia|]; specialize (M _ Hk ltac:(lia)); lia|].
      split.
      { intros Hd. unfold dmem in Hd. destruct (dget st (length l)) as [d|] eqn:Eg; [|discriminate].
        apply dget_in in Eg. destruct (Hs _ _ Eg) as (l1 & v1 & G1 & Hl1 & ->). apply (in_map fst) in Eg. cbn [fst] in Eg.
        assert (Hz : length l = 0). { destruct (length l) as [|q]; [reflexivity|]. specialize (M _ Eg ltac:(lia)). lia. }
        destruct l; [|discriminate]. destruct l1; [|discriminate]. rewrite (E6 eq_refl). inversion G1; subst. reflexivity. }
      change (ml_of []) with ml_empty in E3. change (length ml_empty) with 0. rewrite E1. cbn [bind]. rewrite E3. cbn [bind]. rewrite E2.
      unfold ml_of at 1 2. rewrite ml_from_length, map_length. reflexivity.
  Qed.

  Lemma run_good c st n : corpus_ok c -> good_state c st -> good_state c (run py_int c st n).
  Proof.
    intros Hc Hg. destruct (learn_good c st n Hc Hg) as (l & v & G & _ & _ & _ & _ & E). unfold run. rewrite E.
    destruct (dmem st (length l)) eqn:Em; [exact Hg|]. destruct Hg as [Hn Hs]. split; [apply dset_nodup, Hn|].
    intros k d Hin. rewrite dset_fresh in Hin.
    - apply in_app_or in Hin as [Hin|[Hin|[]]]; [exact (Hs _ _ Hin)|]. injection Hin as <- <-.
      exists l, v. auto.
    - unfold dmem in Em. destruct (dget st (length l)); [discriminate|reflexivity].
  Qed.

  (** [runs c ns]: the directories after learning with the numbers [ns] of merges, one after the other, none of
      the runs being interrupted *)
  Definition runs (c : corpus) (ns : list nat) : bstate := fold_left (run py_int c) ns [].

  Lemma runs_good c ns : corpus_ok c -> good_state c (runs c ns).
  Proof.
    intros Hc. unfold runs. assert (G : forall st, good_state c st -> good_state c (fold_left (run py_int c) ns st)).
    { induction ns as [|n ns IH]; intros st H; [exact H|]. cbn [fold_left]. apply IH, run_good; assumption. }
    apply G. split; [constructor|]. intros k d [].
  Qed.

  (** Learning never fails: every run, whatever was learned before, ends with a directory of at most the
      requested number of merges, fewer only if every word has become one symbol; and this and every other
      directory holds complete results of textbook learning. *)
  Theorem C54_runs c ns n : corpus_ok c ->
    (exists r, learn py_int c (runs c ns) n = Ok r)
    /\ (forall k d, dget (runs c ns) k = Some d -> dget (runs c (ns ++ [n])) k = Some d)
    /\ (exists l v d, greedy (characters c) l v /\ length l <= n
          /\ (length l < n -> Forall (fun wf => length (fst wf) = 1) v)
          /\ dget (runs c (ns ++ [n])) (length l) = Some d /\ has_results c l v d)
    /\ (forall k d, dget (runs c (ns ++ [n])) k = Some d ->
          exists l v, greedy (characters c) l v /\ length l = k /\ has_results c l v d).
  Proof.
    intros Hc. pose proof (runs_good c ns Hc) as Hg.
    destruct (learn_good c _ n Hc Hg) as (l & v & G & H1 & H2 & _ & H3 & E).
    assert (R : runs c (ns ++ [n]) = run py_int c (runs c ns) n) by (unfold runs; rewrite fold_left_app; reflexivity).
    split; [eauto|]. split.
    { rewrite R. intros k d Hd. unfold run. rewrite E. destruct (dmem (runs c ns) (length l)) eqn:Em; [exact Hd|].
      rewrite dget_dset_neq; [exact Hd|]. intros Ek. subst k. unfold dmem in Em. rewrite Hd in Em. discriminate. }
    split.
    - exists l, v, (complete (results (split_words c v) (ml_of l))). split; [exact G|]. split; [exact H1|]. split; [exact H2|].
      split; [|apply saved_results; assumption]. rewrite R. unfold run. rewrite E.
      destruct (dmem (runs c ns) (length l)) eqn:Em; [apply H3; reflexivity|]. apply dget_dset_eq.
    - intros k d Hd. apply dget_in in Hd. destruct (runs_good c (ns ++ [n]) Hc) as [_ Hs].
      destruct (Hs _ _ Hd) as (l1 & v1 & G1 & Hl1 & ->). exists l1, v1. split; [exact G1|]. split; [exact Hl1|].
      apply saved_results; assumption.
  Qed.


  (** nothing is learned when the merges of the corpus are there already *)
  Lemma most_merges_max (st : bstate) n k : In k (dkeys st) -> 0 < k <= n ->
    (forall k', In k' (dkeys st) -> k' <= n -> k' <= k) -> most_merges py_int st n = Some k.
  Proof.
    intros Hin Hk Hmax. pose proof (most_merges_spec st n) as M. destruct (most_merges py_int st n) as [m|].
    - destruct M as (M1 & M2 & M3). f_equal. specialize (M3 _ Hin ltac:(lia)). specialize (Hmax _ M1 ltac:(lia)). lia.
    - specialize (M _ Hin ltac:(lia)). lia.
  Qed.

  Lemma most_merges_zero (st : bstate) n :
    (forall k', In k' (dkeys st) -> k' <= n -> k' <= 0) -> most_merges py_int st n = None.
  Proof.
    intros Hmax. pose proof (most_merges_spec st n) as M. destruct (most_merges py_int st n) as [m|]; [|reflexivity].
    destruct M as (M1 & M2 & _). specialize (Hmax _ M1 ltac:(lia)). lia.
  Qed.

  Lemma learn_nothing c (st : bstate) n k d l v other :
    most_merges py_int st n = Some k -> dget st k = Some d -> length l = k ->
    (s <- open_file (f_merges d) ;; read_merges s None) = Ok (ml_of l) ->
    prepare_resume c d = Ok (v, other) -> (n = k \/ Forall (fun wf => length (fst wf) = 1) v) ->
    learn py_int c st n = Ok None.
  Proof.
    intros M D Hl R P S. unfold learn. rewrite M, D. destruct (open_file (f_merges d)) as [s|]; [|discriminate].
    cbn [bind] in *. rewrite R. cbn [bind]. rewrite P. cbn [bind].
    assert (Lm : length (ml_of l) = k) by (unfold ml_of; rewrite ml_from_length, map_length; exact Hl). rewrite Lm.
    assert (E : do_merges v (n - k) = Ok (v, ml_empty)).
    { destruct S as [->|S]; [rewrite Nat.sub_diag; reflexivity|apply do_merges_single, S]. }
    rewrite E. cbn [bind]. change (ml_add (ml_of l) ml_empty) with (Ok (ml_of l)). cbn [bind]. rewrite Lm.
    unfold dmem. rewrite D. reflexivity.
  Qed.

  (** Learning the same number again changes nothing. *)
  Theorem C54_again c ns n : corpus_ok c ->
    learn py_int c (runs c (ns ++ [n])) n = Ok None /\ runs c (ns ++ [n; n]) = runs c (ns ++ [n]).
  Proof.
    intros Hc. assert (A : learn py_int c (runs c (ns ++ [n])) n = Ok None).
    { pose proof (runs_good c ns Hc) as Hg. destruct (learn_good c _ n Hc Hg) as (l & v & G & H1 & H2 & H3 & H4 & E).
      assert (R : runs c (ns ++ [n]) = run py_int c (runs c ns) n) by (unfold runs; rewrite fold_left_app; reflexivity).
      set (st' := runs c (ns ++ [n])) in *.
      assert (D : dget st' (length l) = Some (complete (results (split_words c v) (ml_of l)))).
      { rewrite R. unfold run. rewrite E. destruct (dmem (runs c ns) (length l)) eqn:Em; [apply H4; reflexivity|apply dget_dset_eq]. }
      assert (Mx : forall k', In k' (dkeys st') -> k' <= n -> k' <= length l).
      { intros k' Hk'. rewrite R in Hk'. unfold run in Hk'. rewrite E in Hk'. destruct (dmem (runs c ns) (length l)) eqn:Em; [apply H3, Hk'|].
        rewrite dset_fresh in Hk'; [|unfold dmem in Em; destruct (dget (runs c ns) (length l)); [discriminate|reflexivity]].
        unfold dkeys in Hk'. rewrite map_app in Hk'. apply in_app_or in Hk' as [Hk'|[<-|[]]]; [apply H3, Hk'|auto]. }
      destruct (greedy_words _ _ _ Hc G) as (_ & _ & _ & P1 & P2).
      assert (S : n = length l \/ Forall (fun wf => length (fst wf) = 1) v).
      { destruct (Nat.eq_dec n (length l)); [left; assumption|right; apply H2; lia]. }
      destruct (length l) as [|q] eqn:El.
      - destruct l; [|discriminate]. assert (Ev : v = characters c) by (inversion G; reflexivity). subst v.
        pose proof (most_merges_zero _ _ Mx) as M. unfold learn. rewrite M. cbn [bind]. rewrite (scratch_prepared c Hc).
        change (length ml_empty) with 0. rewrite Nat.sub_0_r. assert (E0 : do_merges (characters c) n = Ok (characters c, ml_empty)).
        { destruct S as [->|S]; [reflexivity|apply do_merges_single, S]. }
        rewrite E0. cbn [bind]. change (ml_add ml_empty ml_empty) with (Ok ml_empty). cbn [bind]. unfold dmem.
        change (length ml_empty) with 0. rewrite D. reflexivity.
      - apply (learn_nothing c st' n (Datatypes.S q) (complete (results (split_words c v) (ml_of l))) l v (other_strings c)).
        + apply most_merges_max; [eapply dget_some_key; exact D|lia|exact Mx].
        + exact D.
        + exact El.
        + cbn [complete f_merges open_file bind results c_merges]. apply merges_back; assumption.
        + apply (resume_prepared c l v _ Hc G); reflexivity.
        + exact S. }
    split; [exact A|]. change [n; n] with ([n] ++ [n]). rewrite app_assoc. unfold runs at 1. rewrite fold_left_app.
    cbn [fold_left]. fold (runs c (ns ++ [n])). unfold run. rewrite A. reflexivity.
  Qed.

  (** *** Interruption *)
  Lemma dset_keys_fresh (st : bstate) k d : dget st k = None -> dkeys (dset st k d) = dkeys st ++ [k].
  Proof. intros H. rewrite dset_fresh by exact H. unfold dkeys. rewrite map_app. reflexivity. Qed.

  (** no later run touches an existing directory *)
  Lemma run_keeps c st n k d : dget st k = Some d -> dget (run py_int c st n) k = Some d.
  Proof.
    intros H. unfold run. destruct (learn py_int c st n) as [[[k' f]|]|] eqn:E; [|exact H..].
    rewrite dget_dset_neq; [exact H|]. intros <-. unfold learn in E.
    destruct (match most_merges py_int st n with Some _ => _ | None => _ end) as [[done [v other]]|]; [|discriminate].
    cbn [bind] in E. destruct (do_merges v (n - length done)) as [[v' new]|]; [|discriminate]. cbn [bind] in E.
    destruct (ml_add done new) as [ml|]; [|discriminate]. cbn [bind] in E. unfold dmem in E.
    destruct (dget st (length ml)) eqn:D; [discriminate|]. injection E as <- _. congruence.
  Qed.

  (** Killing the process while it saves the results of a run cannot be made good: the directory is incomplete,
      running the command again fails or reports that the merges are learned already, and no number of later runs
      with any numbers of merges ever changes the directory. *)
  Theorem C54_refuted c ns n k files d : corpus_ok c ->
    learn py_int c (runs c ns) n = Ok (Some (k, files)) -> stopped files d ->
    let st := dset (runs c ns) k d in
    d <> complete files
    /\ (forall r, learn py_int c st n = Ok r -> r = None)
    /\ (0 < k -> f_reass d = None -> exists e, learn py_int c st n = Err e)
    /\ (forall ns', dget (fold_left (run py_int c) ns' st) k = Some d).
  Proof.
    intros Hc E K. cbv zeta. set (st := dset (runs c ns) k d).
    pose proof (runs_good c ns Hc) as Hg. destruct (learn_good c _ n Hc Hg) as (l & v & G & H1 & H2 & H3 & _ & E').
    rewrite E in E'. destruct (dmem (runs c ns) (length l)) eqn:Em; [discriminate|]. injection E' as -> ->.
    assert (Fr : dget (runs c ns) (length l) = None).
    { unfold dmem in Em. destruct (dget (runs c ns) (length l)); [discriminate|reflexivity]. }
    assert (D : dget st (length l) = Some d) by apply dget_dset_eq.
    assert (Mx : forall k', In k' (dkeys st) -> k' <= n -> k' <= length l).
    { intros k' Hk'. unfold st in Hk'. rewrite dset_keys_fresh in Hk' by exact Fr.
      apply in_app_or in Hk' as [Hk'|[<-|[]]]; [apply H3, Hk'|auto]. }
    destruct (greedy_words _ _ _ Hc G) as (_ & _ & _ & P1 & P2). destruct (split_words_good _ _ _ Hc G) as (S1 & S2 & S3).
    assert (Single : n = length l \/ Forall (fun wf => length (fst wf) = 1) v).
    { destruct (Nat.eq_dec n (length l)); [left; assumption|right; apply H2; lia]. }
    assert (Rd : f_reass d = None -> 0 < length l -> exists e, learn py_int c st n = Err e).
    { intros Hr Hpos. unfold learn. rewrite (most_merges_max st n (length l)); [|eapply dget_some_key; exact D|lia|exact Mx].
      rewrite D. destruct (open_file (f_merges d)) as [s|e]; [|exists e; reflexivity]. cbn [bind].
      destruct (read_merges s None) as [m|e]; [|exists e; reflexivity]. cbn [bind]. unfold prepare_resume. rewrite Hr.
      exists FileNotFoundError. reflexivity. }
    split; [|split; [|split]].
    - intros Hd. destruct K as [|p q Hp|p q Hp|p q Hp|p q Hp Hq]; try discriminate. apply (f_equal f_reass) in Hd. cbn [complete f_reass] in Hd. injection Hd as Hd. change (p = c_reass (results (split_words c v) (ml_of l))) in Hd.
      rewrite Hp in Hd. rewrite <- (app_nil_r p) in Hd at 1. apply app_inv_head in Hd. congruence.
    - intros r Hr. destruct (length l) as [|q] eqn:El.
      + destruct l; [|discriminate]. assert (Ev : v = characters c) by (inversion G; reflexivity). subst v.
        unfold learn in Hr. rewrite (most_merges_zero _ _ Mx) in Hr. cbn [bind] in Hr. rewrite (scratch_prepared c Hc) in Hr.
        change (length ml_empty) with 0 in Hr. rewrite Nat.sub_0_r in Hr.
        assert (E0 : do_merges (characters c) n = Ok (characters c, ml_empty)).
        { destruct Single as [->|S]; [reflexivity|apply do_merges_single, S]. }
        rewrite E0 in Hr. cbn [bind] in Hr. change (ml_add ml_empty ml_empty) with (Ok ml_empty) in Hr. cbn [bind] in Hr.
        unfold dmem in Hr. change (length ml_empty) with 0 in Hr. rewrite D in Hr. injection Hr as <-. reflexivity.
      + destruct (f_reass d) as [p|] eqn:Er.
        2:{ destruct (Rd eq_refl ltac:(lia)) as (e & Ee). rewrite Ee in Hr. discriminate. }
        inversion K as [Kd|? ? Hp Kd|? ? Hp Kd|? ? Hp Kd|p' q' Hp Hq Kd]; subst d; try discriminate. injection Er as ->.
        cbn [results c_res c_cache c_merges c_reass] in *.
        set (d := {| f_res := _ |}) in *.
        destruct (prepare_resume c d) as [[v1 o1]|e] eqn:P.
        * rewrite (learn_nothing c st n (Datatypes.S q) d l v1 o1) in Hr; [congruence|..].
          -- apply most_merges_max; [eapply dget_some_key; exact D|lia|exact Mx].
          -- exact D.
          -- exact El.
          -- cbn [d f_merges open_file bind]. apply merges_back; assumption.
          -- exact P.
          -- destruct Single as [->|Sg]; [left; reflexivity|right].
             unfold prepare_resume in P. cbn [d f_reass open_file bind] in P.
             destruct (load_vocab_dict p) as [loaded|] eqn:El1; [|discriminate]. cbn [bind separate_vocabs] in P. injection P as <- _.
             unfold to_symbols. rewrite Forall_map. apply Forall_forall. intros kv Hin. apply filter_In in Hin as [Hin _]. cbn [fst].
             pose proof (load_prefix _ _ _ _ (strings_valid _ S1) Hp El1 (fst kv) (in_map fst _ _ Hin)) as Hk.
             unfold to_strings in Hk. rewrite map_map in Hk. apply in_map_iff in Hk as (wf & Ek & Hw). cbn [fst] in Ek.
             rewrite <- Ek. unfold all_syms in S1. rewrite Forall_forall in S1, S2. specialize (S1 _ Hw). specialize (S2 _ Hw).
             change (length (split_on 32 (join [32%N] (fst wf))) = 1). rewrite (split_join 32 (fst wf) S2 (good_no_space _ S1)).
             unfold split_words in Hw. apply in_app_or in Hw as [Hw|Hw].
             ++ rewrite Forall_forall in Sg. exact (Sg _ Hw).
             ++ apply in_map_iff in Hw as (x & <- & _). reflexivity.
        * exfalso. unfold learn in Hr. rewrite (most_merges_max st n (Datatypes.S q)) in Hr; [|eapply dget_some_key; exact D|lia|exact Mx].
          rewrite D in Hr. cbn [d f_merges open_file bind] in Hr. rewrite (merges_back l P2 P1) in Hr. cbn [bind] in Hr.
          fold d in Hr. rewrite P in Hr. discriminate.
    - intros Hpos Hr. exact (Rd Hr Hpos).
    - intros ns'. assert (Kp : forall ns' st, dget st (length l) = Some d -> dget (fold_left (run py_int c) ns' st) (length l) = Some d).
      { induction ns'0 as [|m ns'0 IH]; intros st0 H0; [exact H0|]. cbn [fold_left]. apply IH, run_keeps, H0. }
      apply Kp, D.
  Qed.

  (** Learning fewer merges is not affected by an incomplete directory of more. *)
  Theorem C54_smaller c ns n k files d m : corpus_ok c ->
    learn py_int c (runs c ns) n = Ok (Some (k, files)) -> m < k ->
    learn py_int c (dset (runs c ns) k d) m = learn py_int c (runs c ns) m
    /\ exists r, learn py_int c (runs c ns) m = Ok r.
  Proof.
    intros Hc E Hm. pose proof (runs_good c ns Hc) as Hg.
    destruct (learn_good c _ n Hc Hg) as (l & v & _ & _ & _ & _ & _ & E'). rewrite E in E'.
    destruct (dmem (runs c ns) (length l)) eqn:Em; [discriminate|]. injection E' as -> ->.
    assert (Fr : dget (runs c ns) (length l) = None).
    { unfold dmem in Em. destruct (dget (runs c ns) (length l)); [discriminate|reflexivity]. }
    destruct (learn_good c _ m Hc Hg) as (l1 & v1 & _ & L1 & _ & _ & _ & E1). split; [|eauto].
    assert (M : most_merges py_int (dset (runs c ns) (length l) d) m = most_merges py_int (runs c ns) m).
    { pose proof (most_merges_spec (runs c ns) m) as A. destruct (most_merges py_int (runs c ns) m) as [k0|].
      - destruct A as (A1 & A2 & A3). apply most_merges_max; [rewrite dset_keys_fresh by exact Fr; apply in_or_app; left; exact A1|exact A2|].
        intros k' Hk' Hle. rewrite dset_keys_fresh in Hk' by exact Fr. apply in_app_or in Hk' as [Hk'|[<-|[]]]; [auto|lia].
      - apply most_merges_zero. intros k' Hk' Hle. rewrite dset_keys_fresh in Hk' by exact Fr.
        apply in_app_or in Hk' as [Hk'|[<-|[]]]; [|lia]. destruct k' as [|k']; [lia|]. specialize (A _ Hk' ltac:(lia)). lia. }
    revert E1. unfold learn. rewrite M. pose proof (most_merges_spec (runs c ns) m) as A.
    assert (Dm : forall x, x <= m -> dmem (dset (runs c ns) (length l) d) x = dmem (runs c ns) x).
    { intros x Hx. unfold dmem. rewrite dget_dset_neq by lia. reflexivity. }
    assert (Dg : match most_merges py_int (runs c ns) m with
                 | Some k0 => dget (dset (runs c ns) (length l) d) k0 = dget (runs c ns) k0 | None => True end).
    { destruct (most_merges py_int (runs c ns) m) as [k0|]; [|exact I]. apply dget_dset_neq. lia. }
    assert (St : match most_merges py_int (runs c ns) m with
             | Some k0 => match dget (dset (runs c ns) (length l) d) k0 with
                 | Some d0 => s <- open_file (f_merges d0) ;; done <- read_merges s None ;;
                              vo <- prepare_resume c d0 ;; Ok (done, vo)
                 | None => Err FileNotFoundError end
             | None => Ok (ml_empty, prepare_scratch c) end
           = match most_merges py_int (runs c ns) m with
             | Some k0 => match dget (runs c ns) k0 with
                 | Some d0 => s <- open_file (f_merges d0) ;; done <- read_merges s None ;;
                              vo <- prepare_resume c d0 ;; Ok (done, vo)
                 | None => Err FileNotFoundError end
             | None => Ok (ml_empty, prepare_scratch c) end).
    { destruct (most_merges py_int (runs c ns) m) as [k0|]; [rewrite Dg|]; reflexivity. }
    rewrite St. clear St. destruct (match most_merges py_int (runs c ns) m with Some _ => _ | None => _ end) as [[done [v0 other]]|]; [|discriminate].
    cbn [bind]. destruct (do_merges v0 (m - length done)) as [[v' new]|]; [|discriminate]. cbn [bind].
    destruct (ml_add done new) as [ml|]; [|discriminate]. cbn [bind]. intros E1.
    assert (Hl : length ml = length l1 \/ dmem (runs c ns) (length ml) = true).
    { destruct (dmem (runs c ns) (length ml)); [auto|]. destruct (dmem (runs c ns) (length l1)); [discriminate|].
      injection E1 as H _. auto. }
    assert (Q : dmem (dset (runs c ns) (length l) d) (length ml) = dmem (runs c ns) (length ml)).
    { destruct Hl as [Hl|Hl]; [apply Dm; lia|]. rewrite Hl. unfold dmem in *. rewrite dget_dset_neq; [exact Hl|].
      intros Eq. rewrite <- Eq, Fr in Hl. discriminate. }
    rewrite Q. reflexivity.
  Qed.
End Runs.

(** *** Examples *)
Definition ex_corpus : corpus :=
  {| all_vocab := [(lit "low", 5%Z); (lit "lower", 2%Z); (lit "x@y", 3%Z); (lit "if", 9%Z)]; nonbpe := [lit "if"; lit "for"] |}.

Definition of_run (c : corpus) (st : bstate) (n : nat) : contents :=
  match learn ascii_int c st n with
  | Ok (Some (_, f)) => f
  | _ => {| c_res := []; c_cache := []; c_merges := []; c_reass := [] |}
  end.

(** killed before the last file is opened, and in the middle of it *)
Definition ex_early (f : contents) : bdir :=
  {| f_res := Some (c_res f); f_cache := Some (c_cache f); f_merges := Some (c_merges f); f_reass := None |}.
Definition ex_late (f : contents) (n : nat) : bdir :=
  {| f_res := Some (c_res f); f_cache := Some (c_cache f); f_merges := Some (c_merges f); f_reass := Some (firstn n (c_reass f)) |}.

Example C54_ex :
  corpus_ok ex_corpus
  /\ dkeys (runs ascii_int ex_corpus [2; 4; 3; 100]) = [2; 4; 3; 9]
  /\ stopped (of_run ex_corpus (runs ascii_int ex_corpus [2]) 4) (ex_early (of_run ex_corpus (runs ascii_int ex_corpus [2]) 4))
  /\ stopped (of_run ex_corpus (runs ascii_int ex_corpus [2]) 4) (ex_late (of_run ex_corpus (runs ascii_int ex_corpus [2]) 4) 7)
  /\ learn ascii_int ex_corpus (dset (runs ascii_int ex_corpus [2]) 4 (ex_early (of_run ex_corpus (runs ascii_int ex_corpus [2]) 4))) 4
     = Err FileNotFoundError
  /\ learn ascii_int ex_corpus (dset (runs ascii_int ex_corpus [2]) 4 (ex_late (of_run ex_corpus (runs ascii_int ex_corpus [2]) 4) 7)) 4
     = Ok None
  /\ learn ascii_int ex_corpus (dset (runs ascii_int ex_corpus [2]) 4 (ex_late (of_run ex_corpus (runs ascii_int ex_corpus [2]) 4) 4)) 4
     = Err IndexError.
Proof.
  split; [|split; [vm_compute; reflexivity|split; [|split; [|repeat split; vm_compute; reflexivity]]]].
  - split; [|split].
    + repeat constructor; cbn; intuition congruence.
    + cbn [ex_corpus all_vocab]. repeat apply Forall_cons; [..|apply Forall_nil]; (split; [discriminate|split; [intros Hi; repeat (destruct Hi as [Hi|Hi]; [discriminate|]); exact Hi|split;
        [unfold valid_str; cbn; repeat apply Forall_cons; [..|apply Forall_nil]; lia|reflexivity]]]).
    + cbn [ex_corpus nonbpe]. repeat apply Forall_cons; [..|apply Forall_nil]; intros Hi; repeat (destruct Hi as [Hi|Hi]; [discriminate|]); exact Hi.
  - unfold ex_early. apply (stop_merges _ _ []). symmetry. apply app_nil_r.
  - unfold ex_late. apply (stop_reass _ _ (skipn 7 (c_reass (of_run ex_corpus (runs ascii_int ex_corpus [2]) 4)))).
    + symmetry. apply firstn_skipn.
    + vm_compute. discriminate.
Qed.

Definition bperun_theorems := (C54_runs, C54_again, C54_refuted, C54_smaller, C54_ex).
Print Assumptions bperun_theorems.
