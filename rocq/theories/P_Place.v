(** * C95: preprocessing leaves the dataset as it is *)
From Verif Require Import M_Base L_Base M_PrepConfig M_Dataset P_Dataset P_Corpus M_Timestamp M_Place.
From Coq Require Import Lia.

(** ** Operations that do not touch a path *)
Definition apart (a b : list str) : Prop := ~ below a b /\ ~ below b a.
Definition untouched (ds : list str) (o : op) : Prop :=
  match o with
  | MakeDirs p => ~ below ds p
  | WriteFile p _ => ~ below ds p
  | Rename p q => apart ds p /\ apart ds q
  | Remove p => apart ds p
  end.

Lemma below_refl d : below d d.
Proof. exists []. symmetry. apply app_nil_r. Qed.
Lemma below_nil d : below [] d.
Proof. exists d. reflexivity. Qed.
Lemma below_cons n d p : below (n :: d) (n :: p) <-> below d p.
Proof. split; intros [x E]; exists x; [injection E; auto|cbn; congruence]. Qed.
Lemma below_trans a b c : below a b -> below b c -> below a c.
Proof. intros [x ->] [y ->]. exists (x ++ y). symmetry. apply app_assoc. Qed.

Lemma dget_ddel_neq {V} (d : dict str V) k k' : k <> k' -> dget (ddel d k) k' = dget d k'.
Proof.
  intros H. induction d as [|[a v] d IH]; [reflexivity|]. cbn [ddel dget].
  destruct (eqb_spec k a) as [->|N].
  - cbn [dget]. destruct (eqb_spec k' a) as [->|_]; [congruence|reflexivity].
  - cbn [dget]. rewrite IH. reflexivity.
Qed.

Lemma look_edit p : forall f ds e d, look ds e = Some d -> ~ below ds p ->
  (forall rest e', ds = p ++ rest -> rest <> [] -> look p e = Some e' -> look rest e' = Some d -> look rest (f e') = Some d) ->
  look ds (edit p f e) = Some d.
Proof.
  induction p as [|n p IH]; intros f ds e d L B H; cbn [edit].
  - destruct ds as [|x ds]; [destruct (B (below_nil _))|]. apply (H (x :: ds)); auto. discriminate.
  - destruct e as [m c|m es]; [exact L|]. destruct (dget es n) as [e'|] eqn:E; [|exact L].
    destruct ds as [|x ds]; [destruct (B (below_nil _))|]. cbn [look] in *. destruct (eqb_spec x n) as [->|N].
    + rewrite E in L. rewrite dget_dset_eq. apply IH; [exact L|rewrite below_cons in B; exact B|].
      intros rest e'' -> R L1 L2. apply (H rest e''); auto. rewrite E. exact L1.
    + rewrite dget_dset_neq by congruence. exact L.
Qed.

Lemma look_make_dirs t p : forall ds e d, look ds e = Some d -> ~ below ds p -> look ds (make_dirs t p e) = Some d.
Proof.
  induction p as [|n p IH]; intros ds e d L B; cbn [make_dirs]; [exact L|]. destruct e as [m c|m es]; [exact L|].
  destruct ds as [|x ds]; [destruct (B (below_nil _))|]. cbn [look] in L. destruct (dget es n) as [e'|] eqn:E; cbn [look].
  - destruct (eqb_spec x n) as [->|N].
    + rewrite E in L. rewrite dget_dset_eq. apply IH; [exact L|rewrite below_cons in B; exact B].
    + rewrite dget_dset_neq by congruence. exact L.
  - rewrite dget_dset_neq; [exact L|]. intros ->. rewrite E in L. discriminate.
Qed.

Lemma split_parent p : p <> [] -> p = parent p ++ [name_of p].
Proof. apply app_removelast_last. Qed.

Lemma look_put_file t p c ds e d : p <> [] -> look ds e = Some d -> ~ below ds p ->
  look ds (edit (parent p) (put_file t (name_of p) c) e) = Some d.
Proof.
  intros P L B. rewrite (split_parent p P) in B. apply look_edit; [exact L|intros [x E]; apply B; rewrite E, <- app_assoc; eexists; reflexivity|].
  intros rest e' E R L1 L2. destruct rest as [|x rest]; [congruence|]. cbn [look] in L2. destruct e' as [m c'|m es]; [discriminate|].
  cbn [put_file]. destruct (eqb_spec x (name_of p)) as [->|N].
  - destruct (dget es (name_of p)) as [[m' c'|m' es']|] eqn:G; [|cbn [look]; rewrite G; exact L2|discriminate].
    destruct rest as [|y rest]; [|discriminate]. destruct B. rewrite E. apply below_refl.
  - assert (N' : name_of p <> x) by congruence.
    destruct (dget es (name_of p)) as [[m' c'|m' es']|]; cbn [look]; rewrite ?(dget_dset_neq _ _ _ _ N'); exact L2.
Qed.

Lemma sibling ds p x rest : p <> [] -> ds = parent p ++ x :: rest -> ~ below p ds -> x <> name_of p.
Proof. intros P E B ->. apply B. rewrite (split_parent p P), E. exists rest. rewrite <- app_assoc. reflexivity. Qed.

Lemma not_below_parent ds p : p <> [] -> ~ below ds p -> ~ below ds (parent p).
Proof. intros P B H. apply B. eapply below_trans; [exact H|]. rewrite (split_parent p P) at 2. eexists. reflexivity. Qed.

Lemma look_take_out t p ds e d : p <> [] -> look ds e = Some d -> apart ds p ->
  look ds (edit (parent p) (take_out t (name_of p)) e) = Some d.
Proof.
  intros P L [B B']. apply look_edit; [exact L|apply not_below_parent; assumption|].
  intros rest e' E R L1 L2. destruct rest as [|x rest]; [congruence|]. cbn [look] in L2. destruct e' as [m c'|m es]; [discriminate|].
  pose proof (sibling _ _ _ _ P E B') as N. cbn [take_out]. destruct (dmem es (name_of p)); cbn [look]; rewrite ?dget_ddel_neq by congruence; exact L2.
Qed.
Lemma look_put_in t p y ds e d : p <> [] -> look ds e = Some d -> apart ds p ->
  look ds (edit (parent p) (put_in t (name_of p) y) e) = Some d.
Proof.
  intros P L [B B']. apply look_edit; [exact L|apply not_below_parent; assumption|].
  intros rest e' E R L1 L2. destruct rest as [|x rest]; [congruence|]. cbn [look] in L2. destruct e' as [m c'|m es]; [discriminate|].
  pose proof (sibling _ _ _ _ P E B') as N. cbn [put_in look]. rewrite dget_dset_neq by congruence. exact L2.
Qed.

Lemma perform_untouched t o ds e d : look ds e = Some d -> untouched ds o -> look ds (perform t o e) = Some d.
Proof.
  intros L U. destruct o as [p|p c|p q|p]; cbn [untouched perform] in *.
  - apply look_make_dirs; assumption.
  - destruct p as [|x p]; [exact L|]. cbn [is_nil]. apply look_put_file; auto. discriminate.
  - destruct U as [U1 U2]. destruct p as [|x p]; [exact L|]. destruct q as [|y q]; [exact L|]. cbn [is_nil orb].
    destruct (look (x :: p) e); [|exact L]. destruct (look (parent (y :: q)) e) as [[? ?|? ?]|]; [exact L| |exact L].
    apply look_put_in; [discriminate| |exact U2]. apply look_take_out; auto. discriminate.
  - destruct p as [|x p]; [exact L|]. cbn [is_nil]. apply look_take_out; auto. discriminate.
Qed.

Lemma perform_all_untouched os ds : forall e d, look ds e = Some d -> Forall (fun to => untouched ds (snd to)) os ->
  look ds (perform_all os e) = Some d.
Proof.
  induction os as [|[t o] os IH]; intros e d L F; [exact L|]. inversion F as [|? ? U F']; subst.
  unfold perform_all. cbn [fold_left fst snd]. apply IH; [|exact F']. apply perform_untouched; assumption.
Qed.

(** ** The paths of a run *)
Lemma parts_join1 cwd base n : valid_name n -> abs_parts cwd (path_join base n) = abs_parts cwd base ++ [n].
Proof.
  intros V. rewrite abs_parts_join by (apply starts_slash_name; exact V). rewrite split_on_no_char by apply V.
  apply norm_valid. constructor; [exact V|constructor].
Qed.

(** names of extensions and of codes are not paths *)
Definition plain_names (r : run) : Prop :=
  valid_stamp (r_stamp r) /\ mk_prep_config (r_config r) = Ok (r_config r) /\
  Forall (no_char slash) (listed (r_exts r)) /\
  match r_custom r with Some (i, _) => no_char slash i | None => True end.

Lemma join_no_char c sep l : no_char c sep -> Forall (no_char c) l -> no_char c (join sep l).
Proof.
  intros S F. induction F as [|x l H F IH]; [intros []|]. destruct l as [|y l]; [exact H|].
  rewrite join_cons by discriminate. apply no_char_app. split; [exact H|]. apply no_char_app. auto.
Qed.

Lemma stamp_no_slash t : valid_stamp t -> no_char slash (stamp_str t).
Proof.
  intros (A1 & A2 & A3 & A4 & A5 & A6). unfold stamp_str.
  repeat (apply no_char_app; split);
    try (apply two_digits_no; [assumption|unfold slash; lia]); (intros [E|[]]; discriminate).
Qed.
Lemma basename_no_slash p : no_char slash (basename p).
Proof.
  pose proof (split_on_pieces slash p) as HF. rewrite Forall_forall in HF. unfold basename. apply HF.
  destruct (exists_last (split_on_nonempty slash p)) as (l & x & El). rewrite El, last_last. apply in_app_iff. right. left. reflexivity.
Qed.

Lemma valid_long n : no_char slash n -> 2 < length n -> valid_name n.
Proof. intros H L. repeat split; [intros ->; cbn in L; lia|exact H|intros ->; cbn in L; lia|intros ->; cbn in L; lia]. Qed.

Lemma dir_name_valid r : plain_names r -> valid_name (dataset_dir_name r).
Proof.
  intros (S & _ & X & _). apply valid_long.
  - unfold dataset_dir_name. apply no_char_app. split; [apply basename_no_slash|]. apply no_char_app. split; [intros [E|[]]; discriminate|].
    apply no_char_app. split; [apply stamp_no_slash; exact S|]. destruct (r_exts r) as [[|e es]|]; [intros []| |intros []].
    apply no_char_app. split; [intros [E|[]]; discriminate|]. apply join_no_char; [intros [E|[]]; discriminate|exact X].
  - unfold dataset_dir_name, stamp_str, two_digits. rewrite !app_length. cbn [length lit]. cbn. lia.
Qed.

Lemma suffix_no_slash r : plain_names r -> no_char slash (get_prep_suffix r).
Proof.
  intros (_ & C & _ & I). destruct (config_str_shape _ C) as [_ A]. unfold get_prep_suffix. apply no_char_app. split.
  - intros H. rewrite Forall_forall in A. specialize (A _ H). vm_compute in A. intuition discriminate.
  - destruct (r_custom r) as [[i n]|]; [|intros []]. apply no_char_app. split; [intros [E|[]]; discriminate|].
    apply no_char_app. split; [exact I|]. apply no_char_app. split; [intros [E|[]]; discriminate|].
    intros H. pose proof (dec_digits n) as D. rewrite Forall_forall in D. specialize (D _ H). vm_compute in D. discriminate.
Qed.

Lemma vocab_name_valid r : plain_names r -> valid_name (dataset_dir_name r ++ lit "_-_" ++ get_prep_suffix r).
Proof.
  intros H. apply valid_long.
  - apply no_char_app. split; [apply (dir_name_valid r H)|]. apply no_char_app. split; [|apply suffix_no_slash; exact H].
    intros Hi. vm_compute in Hi. intuition discriminate.
  - rewrite !app_length. cbn. lia.
Qed.
Lemma prep_basename_valid r : plain_names r -> valid_name (prep_basename r).
Proof.
  intros H. pose proof (vocab_name_valid r H) as (_ & V & _). unfold prep_basename. apply valid_long.
  - rewrite !no_char_app in *. destruct V as (V1 & V2 & V3). repeat (split; [assumption|]).
    destruct (r_output r) as [[|c o]|]; [intros []| |intros []]. intros Hi. vm_compute in Hi. intuition discriminate.
  - rewrite !app_length. cbn. lia.
Qed.

Lemma below_app d x : below d (d ++ x).
Proof. eexists. reflexivity. Qed.
Lemma below_both (a : list str) : forall b p, below a p -> below b p -> below a b \/ below b a.
Proof.
  induction a as [|x a IH]; intros b p [u ->] [v E]; [left; apply below_nil|].
  destruct b as [|y b]; [right; apply below_nil|]. cbn [app] in E. injection E as -> E.
  rewrite !below_cons. apply (IH b (a ++ u)); [apply below_app|rewrite E; apply below_app].
Qed.
Lemma apart_below ds c p : apart ds c -> below c p -> apart ds p.
Proof.
  intros [A B] H. split; intros X.
  - destruct (below_both _ _ _ X H); contradiction.
  - apply B. eapply below_trans; eassumption.
Qed.

(** where the results go: the directory given, or the working directory (api/corpus.py 228) *)
Definition output_of (cache : str) (r : run) : str :=
  match r_output r with Some (c :: o) => c :: o | _ => path_join cache (lit "prep_datasets") end.

Section Area.
  Variable cwd : list str.
  Variables cache config : str.
  Variable r : run.
  Variable t : node.
  Notation parts := (abs_parts cwd).

  (** the directory with the results, and the file that says when it was finished *)
  Definition results : list str := parts (output_of cache r) ++ [prep_basename r].
  Definition finished : list str := parts (output_of cache r) ++ [lit "." ++ prep_basename r ++ lit ".lastmodif"].
  Definition area (p : list str) : Prop := below (parts cache) p \/ below (parts config) p \/ below results p \/ p = finished.

  Definition in_area (o : op) : Prop :=
    match o with MakeDirs p => area p | WriteFile p _ => area p | Rename p q => area p /\ area q | Remove p => area p end.

  Hypothesis plain : plain_names r.
  Hypothesis wft : wf t.
  Hypothesis single : is_dir t = false -> valid_name (basename (r_path r)).

  Lemma ascii_name s : no_char slash (lit s) -> 2 < length (lit s) -> valid_name (lit s).
  Proof. apply valid_long. Qed.
  Ltac vn := apply ascii_name; [intros Hi; vm_compute in Hi; intuition discriminate|vm_compute; lia].

  Lemma cache_sub n : valid_name n -> parts (path_join cache n) = parts cache ++ [n].
  Proof. apply parts_join1. Qed.
  Lemma lists_parts : parts (lists_dir cache) = parts cache ++ [lit "file_lists"].
  Proof. apply cache_sub. vn. Qed.
  Lemma parsed_parts : parts (parsed_at cache r) = parts cache ++ [lit "parsed_datasets"; dataset_dir_name r].
  Proof.
    unfold parsed_at, parsed_path, parsed_dir. rewrite parts_join1 by (apply dir_name_valid; exact plain). rewrite cache_sub by vn.
    rewrite <- app_assoc. reflexivity.
  Qed.
  Lemma folder_parts : parts (list_folder cache r) = parts cache ++ [lit "file_lists"; dataset_dir_name r].
  Proof.
    unfold list_folder. rewrite parts_join1 by (apply dir_name_valid; exact plain). rewrite lists_parts, <- app_assoc. reflexivity.
  Qed.
  Lemma preps_parts : parts (preps_dir cache) = parts cache ++ [lit "prep_datasets"].
  Proof. apply cache_sub. vn. Qed.
  Lemma prep_parts : parts (prep_at cache r) = results.
  Proof. unfold prep_at, prep_path. apply parts_join1. apply prep_basename_valid. exact plain. Qed.
  Lemma sizes_parts : parts (sizes_dir cache) = parts cache ++ [lit "corpus_sizes"].
  Proof. apply cache_sub. vn. Qed.
  Lemma vocab_parts : below (parts config) (parts (vocab_path (vocabs_dir config) r)).
  Proof.
    unfold vocab_path. rewrite parts_join1 by (apply vocab_name_valid; exact plain).
    unfold vocabs_dir. rewrite parts_join1; [|apply (valid_long (lit "vocab")); [intros Hi; vm_compute in Hi; intuition discriminate|vm_compute; lia]].
    rewrite <- app_assoc. apply below_app.
  Qed.

  Lemma in_cache p x : p = parts cache ++ x -> area p.
  Proof. intros ->. left. apply below_app. Qed.

  Lemma marker_app p a n : p = a ++ [n] -> marker p = a ++ [lit "." ++ n ++ lit ".lastmodif"].
  Proof. intros ->. unfold marker, parent, name_of. rewrite removelast_last, last_last. reflexivity. Qed.

  Lemma stage_parts p : In p [parsed_at cache r; prep_at cache r] -> exists a n, parts p = a ++ [n] /\ area (parts p) /\ area (marker (parts p)).
  Proof.
    intros [<-|[<-|[]]].
    - rewrite parsed_parts. exists (parts cache ++ [lit "parsed_datasets"]), (dataset_dir_name r).
      assert (E : parts cache ++ [lit "parsed_datasets"; dataset_dir_name r] = (parts cache ++ [lit "parsed_datasets"]) ++ [dataset_dir_name r])
        by (rewrite <- app_assoc; reflexivity).
      split; [exact E|]. split; [eapply in_cache; reflexivity|]. rewrite (marker_app _ _ _ E), <- app_assoc. eapply in_cache. reflexivity.
    - rewrite prep_parts. exists (parts (output_of cache r)), (prep_basename r). split; [reflexivity|]. split; [right; right; left; apply below_refl|].
      right. right. right. apply marker_app. reflexivity.
  Qed.

  (** the outputs of both stages, and their temporary files *)
  Lemma output_parts o : In o (parse_outputs cwd cache r t ++ prep_outputs cwd cache r t) ->
    exists base p n, area base /\ (forall x, area (base ++ x)) /\ parts o = base ++ p ++ [n] /\ exists n', parts (temp_name o) = base ++ p ++ [n'].
  Proof.
    destruct (parts_exist (r_path r) t (r_exts r) wft single) as (ps & Hps & Hf).
    change (parse_outputs cwd cache r t) with (parse_targets cwd (r_path r) (parsed_at cache r) t (r_exts r)).
    change (prep_outputs cwd cache r t) with (prep_targets cwd (r_path r) (parsed_at cache r) (prep_at cache r) t (r_exts r)).
    rewrite (parse_targets_spec _ _ _ _ _ _ Hps Hf), (prep_targets_spec _ _ _ _ _ _ _ Hps).
    destruct Hps as (_ & HF & _). rewrite Forall_forall in HF.
    assert (G : forall base suf, plain_suffix suf -> suf <> [] -> (forall x, area (parts base ++ x)) ->
      In o (map (fun pn => path_join base (join [slash] (fst pn ++ [snd pn]) ++ suf)) ps) ->
      exists base p n, area base /\ (forall x, area (base ++ x)) /\ parts o = base ++ p ++ [n] /\ exists n', parts (temp_name o) = base ++ p ++ [n']).
    { intros base suf Hs Hne A H. apply in_map_iff in H. destruct H as ([p n] & <- & H). destruct (HF _ H) as [Hp Hn]. cbn [fst snd] in *.
      exists (parts base), p, (n ++ suf). split; [rewrite <- (app_nil_r (parts base)); apply A|]. split; [exact A|].
      split; [apply new_file_parts; assumption|]. exists (n ++ (suf ++ not_finished)). unfold temp_name.
      rewrite path_join_suffix by (intros X; apply app_eq_nil in X; destruct X; contradiction). rewrite <- app_assoc.
      apply new_file_parts; [assumption|assumption|]. destruct Hs as [Hs1 Hs2]. split; [|right; rewrite app_length; simpl; lia].
      apply no_char_app. split; [exact Hs1|]. intros X. vm_compute in X. intuition discriminate. }
    intros H. apply in_app_or in H. destruct H as [H|H].
    - apply (G (parsed_at cache r) parsed_suffix plain_parsed); [discriminate| |exact H]. intros x. rewrite parsed_parts, <- app_assoc. eapply in_cache. reflexivity.
    - apply (G (prep_at cache r) prep_suffix plain_prep); [discriminate| |exact H]. intros x. rewrite prep_parts. right. right. left. apply below_app.
  Qed.

  Lemma run_in_area o : run_op cwd cache config r t o -> in_area o.
  Proof.
    assert (S : forall p, In p [parsed_at cache r; prep_at cache r] -> area (parts p) /\ area (marker (parts p)))
      by (intros p H; destruct (stage_parts p H) as (a & n & _ & A); exact A).
    assert (V : forall p, below (parts (vocab_path (vocabs_dir config) r)) p -> area p)
      by (intros p H; right; left; eapply below_trans; [apply vocab_parts|exact H]).
    assert (Fm : area (marker (parts (list_folder cache r)))).
    { rewrite folder_parts. assert (E : parts cache ++ [lit "file_lists"; dataset_dir_name r] = (parts cache ++ [lit "file_lists"]) ++ [dataset_dir_name r])
        by (rewrite <- app_assoc; reflexivity). rewrite (marker_app _ _ _ E), <- app_assoc. eapply in_cache. reflexivity. }
    intros H. destruct H as [p H| |f c H|p c H|o H|o c H|o H| |p s H Hs|p s H Hs|p H|p c H|p q H H'|p H|c]; cbn [in_area].
    - destruct H as [<-|[<-|[<-|[<-|[<-|[]]]]]].
      + apply S. left. reflexivity.
      + apply S. right. left. reflexivity.
      + unfold M_Place.parts. rewrite lists_parts. eapply in_cache. reflexivity.
      + unfold M_Place.parts. rewrite sizes_parts. eapply in_cache. reflexivity.
      + unfold M_Place.parts. rewrite parts_join1 by (apply dir_name_valid; exact plain). unfold bpes_dir.
        rewrite parts_join1 by (apply (valid_long (lit "bpe")); [intros Hi; vm_compute in Hi; intuition discriminate|vm_compute; lia]).
        right. left. rewrite <- app_assoc. apply below_app.
    - unfold M_Place.parts. rewrite folder_parts. eapply in_cache. reflexivity.
    - unfold M_Place.parts. destruct H as [<-|[<-|[]]]; rewrite parts_join1 by vn; rewrite folder_parts, <- app_assoc; eapply in_cache; reflexivity.
    - destruct H as [<-|H]; [exact Fm|]. apply S. exact H.
    - destruct (output_parts o H) as (base & p & n & A & A' & E & _). unfold M_Place.parts, parent. rewrite E, app_assoc, removelast_last. apply A'.
    - destruct (output_parts o H) as (base & p & n & A & A' & E & n' & E'). unfold M_Place.parts. rewrite E'. apply A'.
    - destruct (output_parts o H) as (base & p & n & A & A' & E & n' & E'). unfold M_Place.parts. rewrite E, E'. split; apply A'.
    - unfold M_Place.parts. rewrite preps_parts. eapply in_cache. reflexivity.
    - split; [apply S; exact H|]. unfold M_Place.parts. rewrite preps_parts, <- app_assoc. eapply in_cache. reflexivity.
    - split; [apply S; exact H|]. unfold M_Place.parts. rewrite preps_parts, <- app_assoc. eapply in_cache. reflexivity.
    - apply V. exact H.
    - apply V. exact H.
    - split; apply V; assumption.
    - apply V. exact H.
    - unfold M_Place.parts, corpus_size_path. change (prep_path (preps_dir cache) r) with (path_join (output_of cache r) (prep_basename r)).
      rewrite basename_join by (apply prep_basename_valid; exact plain). rewrite parts_join1 by (apply prep_basename_valid; exact plain).
      rewrite sizes_parts, <- app_assoc. eapply in_cache. reflexivity.
  Qed.
End Area.

(** ** C95: a run changes nothing but its own directories: caches, vocabularies, the directory with the results and the file
    beside it that says when it was finished. *)
Definition changed (o : op) : list (list str) :=
  match o with MakeDirs p => [p] | WriteFile p _ => [p] | Rename p q => [p; q] | Remove p => [p] end.

Theorem C95_where : forall cwd cache config r t o p,
  plain_names r -> wf t -> (is_dir t = false -> valid_name (basename (r_path r))) ->
  run_op cwd cache config r t o -> In p (changed o) ->
  below (abs_parts cwd cache) p \/ below (abs_parts cwd config) p
  \/ below (abs_parts cwd (output_of cache r) ++ [prep_basename r]) p
  \/ p = abs_parts cwd (output_of cache r) ++ [lit "." ++ prep_basename r ++ lit ".lastmodif"].
Proof.
  intros cwd cache config r t o p N W S H I. pose proof (run_in_area cwd cache config r t N W S o H) as A.
  destruct o; cbn [changed in_area] in *; repeat (destruct I as [<-|I]); try destruct I; try exact A; apply A.
Qed.
Print Assumptions C95_where.

(** So the dataset stays as it is, down to the times of modification, whatever happens (interruptions, changes of other files by the
    run): if the results do not go into the dataset, and the dataset is not itself a result or in a cache.  A later call with the
    same arguments sees the same dataset, so that it has the same name and its results are found (C52). *)
Theorem C95_leaves : forall cwd cache config r t os fs d,
  plain_names r -> wf t -> (is_dir t = false -> valid_name (basename (r_path r))) ->
  let ds := abs_parts cwd (r_path r) in let out := abs_parts cwd (output_of cache r) in
  apart ds (abs_parts cwd cache) -> apart ds (abs_parts cwd config) ->
  ~ below ds out -> ~ below (out ++ [prep_basename r]) ds -> ~ below (out ++ [lit "." ++ prep_basename r ++ lit ".lastmodif"]) ds ->
  Forall (fun to => run_op cwd cache config r t (snd to)) os ->
  look ds fs = Some d -> look ds (perform_all os fs) = Some d.
Proof.
  intros cwd cache config r t os fs d N W S ds out A1 A2 B1 B2 B3 F L.
  apply perform_all_untouched; [exact L|]. eapply Forall_impl; [|exact F]. intros [s o] H. cbn [snd] in *.
  assert (L1 : forall n, ~ below (out ++ [n]) ds -> apart ds (out ++ [n])).
  { intros n Hn. split; [|exact Hn]. intros [x E]. destruct (exists_last (l := x)) as (x' & y & ->).
    - intros ->. rewrite app_nil_r in E. apply Hn. rewrite E. apply below_refl.
    - rewrite app_assoc in E. apply app_inj_tail in E. destruct E as [E _]. apply B1. rewrite E. apply below_app. }
  assert (G : forall p, area cwd cache config r p -> apart ds p).
  { intros p [H'|[H'|[H'|H']]].
    - exact (apart_below _ _ _ A1 H').
    - exact (apart_below _ _ _ A2 H').
    - exact (apart_below _ _ _ (L1 _ B2) H').
    - rewrite H'. apply L1. exact B3. }
  pose proof (run_in_area cwd cache config r t N W S o H) as A. destruct o; cbn [untouched in_area] in *.
  - apply G. exact A.
  - apply G. exact A.
  - destruct A. split; apply G; assumption.
  - apply G. exact A.
Qed.
Print Assumptions C95_leaves.

(** ** Examples *)
Definition ex_place (path : string) (exts : option (list str)) (out : string) (s : N) : run :=
  {| r_path := lit path; r_stamp := civil s; r_exts := exts; r_config := r_config (run_ex [] None None); r_custom := None; r_output := Some (lit out) |}.
Definition ex_fs : entry :=
  EDir 1 [(lit "home", EDir 1 [(lit "proj", EDir 5 [(lit "a.py", EFile 7 (lit "x = 1"))])]); (lit "c", EDir 1 []); (lit "u", EDir 1 [])].
(** a whole run for one file: the list, the parsed file, the result, the markers *)
Definition ex_ops (cwd : list str) (r : run) (t : node) : list op :=
  let c := lit "/c" in let u := lit "/u" in
  map (fun p => MakeDirs (parts cwd p)) [parsed_at c r; prep_at c r; lists_dir c; sizes_dir c; path_join (bpes_dir u) (dataset_dir_name r); list_folder c r]
  ++ map (fun f => WriteFile (parts cwd (path_join (list_folder c r) f)) []) [lit "dirlist"; lit "filelist"]
  ++ [WriteFile (marker (parts cwd (list_folder c r))) (lit "list")]
  ++ flat_map (fun o => [MakeDirs (parent (parts cwd o)); WriteFile (parts cwd (temp_name o)) (lit "parsed"); Rename (parts cwd (temp_name o)) (parts cwd o)])
       (parse_outputs cwd c r t)
  ++ [WriteFile (marker (parts cwd (parsed_at c r))) (lit "t")]
  ++ flat_map (fun o => [MakeDirs (parent (parts cwd o)); WriteFile (parts cwd (temp_name o)) (lit "x = 1"); Rename (parts cwd (temp_name o)) (parts cwd o)])
       (prep_outputs cwd c r t)
  ++ [WriteFile (marker (parts cwd (prep_at c r))) (lit "t")].

Lemma ex_ops_run cwd r t : Forall (run_op cwd (lit "/c") (lit "/u") r t) (ex_ops cwd r t).
Proof.
  unfold ex_ops. repeat (apply Forall_app; split).
  - cbn [map]. repeat apply Forall_cons; try apply Forall_nil; try (apply op_create; cbn [In]; tauto). apply op_list_folder.
  - cbn [map]. repeat apply Forall_cons; try apply Forall_nil; apply op_list; cbn [In]; tauto.
  - apply Forall_cons; [|apply Forall_nil]. apply op_ready. cbn [In]. tauto.
  - apply Forall_flat_map, Forall_forall. intros o H. assert (I : In o (parse_outputs cwd (lit "/c") r t ++ prep_outputs cwd (lit "/c") r t)) by (apply in_or_app; auto).
    repeat apply Forall_cons; try apply Forall_nil; [apply op_output_dir|apply op_output|apply op_output_done]; exact I.
  - apply Forall_cons; [|apply Forall_nil]. apply op_ready. cbn [In]. tauto.
  - apply Forall_flat_map, Forall_forall. intros o H. assert (I : In o (parse_outputs cwd (lit "/c") r t ++ prep_outputs cwd (lit "/c") r t)) by (apply in_or_app; auto).
    repeat apply Forall_cons; try apply Forall_nil; [apply op_output_dir|apply op_output|apply op_output_done]; exact I.
  - apply Forall_cons; [|apply Forall_nil]. apply op_ready. cbn [In]. tauto.
Qed.

Definition at_nine (os : list op) : list (N * op) := map (fun o => (9%N, o)) os.
Definition shape_at (p : list str) (fs : entry) : option node := option_map shape (look p fs).
Definition ex_src : node := Dir false 5 [(lit "a.py", File 7)].
Lemma ex_src_wf : wf ex_src.
Proof.
  constructor; [repeat constructor; intros []|]. intros n u [E|[]]. injection E as <- <-.
  split; [repeat split; try discriminate; intros H; vm_compute in H; intuition discriminate|constructor].
Qed.

Lemma at_nine_run cwd r t os : Forall (run_op cwd (lit "/c") (lit "/u") r t) os ->
  Forall (fun to => run_op cwd (lit "/c") (lit "/u") r t (snd to)) (at_nine os).
Proof. intros F. apply Forall_map. exact F. Qed.

(** the dataset in the working directory, the usual case: all conditions hold, and the results are beside the dataset *)
Example C95_example :
  let cwd := [lit "home"] in let r := ex_place "proj" (Some [lit "py"]) "/home" 7 in
  let fs := perform_all (at_nine (ex_ops cwd r ex_src)) ex_fs in
  plain_names r /\ shape_at [lit "home"; lit "proj"] ex_fs = Some ex_src /\
  abs_parts cwd (r_path r) = [lit "home"; lit "proj"] /\ abs_parts cwd (output_of (lit "/c") r) = [lit "home"] /\
  prep_basename r = lit "proj_70-01-01T00-00-07_py_-_Uc140u_-_prep" /\
  Forall (fun to => run_op cwd (lit "/c") (lit "/u") r ex_src (snd to)) (at_nine (ex_ops cwd r ex_src)) /\
  shape_at [lit "home"] fs
  = Some (Dir false 9 [(lit "proj", ex_src); (prep_basename r, Dir false 9 [(lit "a.py.prep", File 9)]);
                       (lit "." ++ prep_basename r ++ lit ".lastmodif", File 9)]).
Proof.
  split; [|repeat split; try (vm_compute; reflexivity); apply at_nine_run, ex_ops_run].
  split; [vm_compute; auto 10|]. split; [vm_compute; reflexivity|]. split; [|exact I].
  repeat constructor. intros H. vm_compute in H. intuition discriminate.
Qed.

(** By default the results go to the working directory.  If this is the dataset, preprocessing changes the dataset: the time in its name
    is another one afterwards, so that nothing is found again, and without an extension the results are themselves read the next time. *)
Theorem C95_inside_refuted : exists cwd cache config r t os fs d,
  plain_names r /\ wf t /\
  apart (abs_parts cwd (r_path r)) (abs_parts cwd cache) /\ apart (abs_parts cwd (r_path r)) (abs_parts cwd config) /\
  abs_parts cwd (output_of cache r) = cwd /\ r_path r = lit "." /\
  Forall (fun to => run_op cwd cache config r t (snd to)) os /\
  shape_at cwd fs = Some t /\ shape_at cwd (perform_all os fs) = Some d /\
  scan_files (r_path r) t None = [lit "./a.py"] /\
  scan_files (r_path r) d None = [lit "./a.py"; lit "./." ++ prep_basename r ++ lit ".lastmodif"; prep_basename r ++ lit "/a.py.prep"] /\
  scan_files (r_path r) d (Some [lit "py"]) = [lit "./a.py"] /\
  (forall clock, get_timestamp clock 1000 t = Ok (civil (clock 7%N)) /\ get_timestamp clock 1000 d = Ok (civil (clock 9%N))).
Proof.
  pose (cwd := [lit "home"; lit "proj"]). pose (r := ex_place "." None "/home/proj" 7).
  exists cwd, (lit "/c"), (lit "/u"), r, ex_src, (at_nine (ex_ops cwd r ex_src)), ex_fs.
  destruct (shape_at cwd (perform_all (at_nine (ex_ops cwd r ex_src)) ex_fs)) as [d|] eqn:E; [|vm_compute in E; discriminate].
  exists d. split; [|split; [exact ex_src_wf|]].
  { split; [vm_compute; auto 10|]. split; [vm_compute; reflexivity|]. split; [constructor|exact I]. }
  assert (A : forall x, x <> lit "home" -> apart (abs_parts cwd (r_path r)) [x]).
  { intros x Hx. change (abs_parts cwd (r_path r)) with [lit "home"; lit "proj"]. split; intros [y Y]; [discriminate|]. cbn [app] in Y. injection Y. congruence. }
  split; [apply (A (lit "c")); discriminate|]. split; [apply (A (lit "u")); discriminate|]. split; [vm_compute; reflexivity|]. split; [reflexivity|].
  split; [apply at_nine_run, ex_ops_run|]. split; [vm_compute; reflexivity|]. split; [reflexivity|].
  vm_compute in E. injection E as <-. split; [vm_compute; reflexivity|]. split; [vm_compute; reflexivity|]. split; [vm_compute; reflexivity|].
  intros clock. split; reflexivity.
Qed.
Print Assumptions C95_inside_refuted.

(** A path that ends with a slash has no last component: all datasets given in this way have the same name, whatever they are called. *)
Theorem C41_slash_refuted : forall a b s e c i o dir,
  let at_path p := {| r_path := p; r_stamp := s; r_exts := e; r_config := c; r_custom := i; r_output := o |} in
  parsed_path dir (at_path (a ++ [slash])) = parsed_path dir (at_path (b ++ [slash])) /\
  prep_path dir (at_path (a ++ [slash])) = prep_path dir (at_path (b ++ [slash])) /\
  vocab_path dir (at_path (a ++ [slash])) = vocab_path dir (at_path (b ++ [slash])).
Proof.
  intros a b s e c i o dir at_path.
  assert (E : forall p, basename (p ++ [slash]) = []).
  { intros p. unfold basename. rewrite (split_on_app_slash p []). change (split_on slash []) with [@nil N]. apply last_last. }
  assert (D : dataset_dir_name (at_path (a ++ [slash])) = dataset_dir_name (at_path (b ++ [slash]))).
  { unfold dataset_dir_name, at_path. cbn [r_path r_stamp r_exts]. rewrite !E. reflexivity. }
  unfold parsed_path, prep_path, vocab_path, prep_basename. rewrite D. repeat split.
Qed.
Print Assumptions C41_slash_refuted.
Example C41_slash_example : parsed_path (lit "/c") (run_ex (lit "/a/x/") None None) = parsed_path (lit "/c") (run_ex (lit "/b/y/") None None)
  /\ parsed_path (lit "/c") (run_ex (lit "/a/x") None None) <> parsed_path (lit "/c") (run_ex (lit "/b/y") None None).
Proof. split; [vm_compute; reflexivity|vm_compute; discriminate]. Qed.
