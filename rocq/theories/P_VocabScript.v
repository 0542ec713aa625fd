(** C91: the vocabulary script counts the words of the files with an extension. *)
From Verif Require Import M_Base L_Base M_Literal M_Vocab L_Vocab P_Vocab M_Merger L_Merger P_Merger M_Dataset P_Dataset M_VocabScript.
From Coq Require Import Permutation.

(** ** What is below a directory without following links to directories *)
Inductive below : node -> list str -> node -> Prop :=
| below_here t : below t [] t
| below_entry l m es n t p u : In (n, t) es -> (forall m' es', t <> Dir true m' es') -> below t p u ->
    below (Dir l m es) (n :: p) u.

Lemma below_dir_inv l m es q u : below (Dir l m es) q u ->
  (q = [] /\ u = Dir l m es)
  \/ exists n t p, q = n :: p /\ In (n, t) es /\ (forall m' es', t <> Dir true m' es') /\ below t p u.
Proof. intros H. inversion H; subst; [left; auto|right; eauto 10]. Qed.

Lemma below_at t p u : below t p u -> at_path t p u.
Proof. induction 1; econstructor; eassumption. Qed.

Lemma walk_plain_spec t : forall root root' es,
  In (root', es) (walk false root t) <-> exists p l m, root' = root ++ p /\ below t p (Dir l m es).
Proof.
  induction t as [mt| |l m es0 IH] using node_ind2; intros root root' es.
  - split; [intros []|]. intros (p & l & m & _ & H). inversion H.
  - split; [intros []|]. intros (p & l & m & _ & H). inversion H.
  - cbn [walk]. cbn [In]. split.
    + intros [E|H].
      * injection E as <- <-. exists [], l, m. rewrite app_nil_r. split; [reflexivity|constructor].
      * apply in_flat_map in H. destruct H as ((n, t') & Hin & H). destruct t' as [| |l' m' es']; [destruct H|destruct H|].
        destruct l'; [destruct H|]. cbn [orb negb] in H. apply (IH n _ Hin) in H. destruct H as (p & l2 & m2 & -> & H).
        exists (n :: p), l2, m2. split; [rewrite <- app_assoc; reflexivity|].
        econstructor; [exact Hin|intros ? ? E; discriminate E|exact H].
    + intros (p & l2 & m2 & -> & H). apply below_dir_inv in H.
      destruct H as [[-> E]|(n & t' & p' & -> & Hin & Hl & H)].
      * injection E as <- <- <-. left. rewrite app_nil_r. reflexivity.
      * right. apply in_flat_map. exists (n, t'). split; [exact Hin|].
        destruct t' as [| |l' m' es']; [inversion H|inversion H|].
        destruct l'; [destruct (Hl _ _ eq_refl)|]. cbn [orb negb].
        apply (IH n _ Hin). exists p', l2, m2. split; [rewrite <- app_assoc; reflexivity|exact H].
Qed.

Lemma walk_plain_nodup t : forall root, wf t -> NoDup (map fst (walk false root t)).
Proof.
  induction t as [mt| |l m es IH] using node_ind2; intros root Hw; [constructor|constructor|].
  apply wf_dir_inv in Hw. destruct Hw as [Hd Hw]. cbn [walk map fst].
  assert (Hroots : forall es' r, (forall n t, In (n, t) es' -> In (n, t) es) ->
    In r (map fst (flat_map (fun e => match e with
       | (n, t') => match t' with Dir link _ _ => if false || negb link then walk false (root ++ [n]) t' else [] | _ => [] end
       end) es')) -> exists n p, In n (map fst es') /\ r = root ++ n :: p).
  { intros es' r Hsub Hr. apply in_map_iff in Hr. destruct Hr as ((r', ess) & <- & Hr). apply in_flat_map in Hr.
    destruct Hr as ((n, t') & Hin & Hr). destruct t' as [| |l' m' es'']; [destruct Hr|destruct Hr|].
    destruct l'; [destruct Hr|]. cbn [orb negb] in Hr. apply walk_plain_spec in Hr. destruct Hr as (p & l2 & m2 & -> & _). exists n, p. split.
    - apply in_map_iff. exists (n, Dir false m' es''). auto.
    - cbn [fst]. rewrite <- app_assoc. reflexivity. }
  constructor.
  - intros Hin. apply Hroots in Hin; [|auto]. destruct Hin as (n & p & _ & E).
    apply (f_equal (@length str)) in E. rewrite app_length in E. simpl in E. lia.
  - assert (Hsub : forall n t, In (n, t) es -> In (n, t) es) by auto. revert Hsub Hd Hroots.
    generalize es at 1 3 5 as es'. intros es'. induction es' as [|[n t] es' IHe]; intros Hsub Hd Hroots; [constructor|].
    cbn [flat_map]. rewrite map_app. inversion Hd as [|? ? Hn Hd']; subst. apply NoDup_app_disj.
    + destruct t as [| |l' m' es'']; [constructor|constructor|]. destruct l'; [constructor|]. cbn [orb negb].
      apply (IH n); [apply Hsub; left; reflexivity|]. apply (Hw n). apply Hsub. left. reflexivity.
    + apply IHe; [intros; apply Hsub; right; assumption|exact Hd'|exact Hroots].
    + intros r Hr Hr'. apply Hroots in Hr'; [|intros; apply Hsub; right; assumption].
      destruct Hr' as (n' & p' & Hn' & ->).
      destruct t as [| |l' m' es'']; [destruct Hr|destruct Hr|]. destruct l'; [destruct Hr|]. cbn [orb negb] in Hr.
      apply in_map_iff in Hr. destruct Hr as ((r', ess) & E & Hr). cbn [fst] in E. subst r'.
      apply walk_plain_spec in Hr. destruct Hr as (p & l2 & m2 & E & _). rewrite <- app_assoc in E.
      apply app_inv_head in E. cbn [app] in E. injection E as <- _. contradiction.
Qed.

(** ** Paths *)
Lemma ends_slash_app a n : valid_name n -> ends_with [slash] (a ++ slash :: n) = false.
Proof.
  intros (Hne & Hs & _). unfold ends_with. rewrite rev_app_distr. cbn [rev app starts_with].
  destruct (rev n) as [|c r] eqn:R; [apply (f_equal (@rev N)) in R; rewrite rev_involutive in R; contradiction|].
  cbn [app starts_with]. destruct (N.eqb_spec slash c) as [<-|]; [|reflexivity]. exfalso. apply Hs, in_rev. rewrite R. left. reflexivity.
Qed.

Lemma root_path_join p : forall path n, path <> [] -> ends_with [slash] path = false -> Forall valid_name p -> valid_name n ->
  path_join (root_path path p) n = path ++ slash :: join [slash] (p ++ [n]).
Proof.
  induction p as [|k p IH]; intros path n Hp He Hf Hn.
  - cbn. apply path_join_plain; auto using starts_slash_name.
  - inversion Hf as [|? ? Hk Hf']; subst. unfold root_path in *. cbn [fold_left].
    rewrite (path_join_plain path k) by auto using starts_slash_name.
    rewrite IH; [|destruct path; discriminate|apply ends_slash_app; exact Hk|exact Hf'|exact Hn].
    rewrite <- app_assoc. cbn [app]. do 2 f_equal. destruct p; reflexivity.
Qed.

Lemma joined_inj path a b : Forall valid_name a -> Forall valid_name b -> a <> [] -> b <> [] ->
  path ++ slash :: join [slash] a = path ++ slash :: join [slash] b -> a = b.
Proof.
  intros Ha Hb Na Nb E. apply app_inv_head in E. injection E as E.
  assert (G : forall l, Forall valid_name l -> l <> [] -> split_on slash (join [slash] l) = l).
  { intros l Hl Hn. apply split_join; [exact Hn|]. apply Forall_forall. intros x Hx. rewrite Forall_forall in Hl. apply (Hl x Hx). }
  rewrite <- (G a), <- (G b) by assumption. rewrite E. reflexivity.
Qed.

Lemma extension_fits_spec ext n : extension_fits ext n = true <-> exists stem, n = stem ++ ext.
Proof.
  unfold extension_fits. rewrite orb_true_iff, ends_with_spec. split.
  - intros [H|H]; [|exact H]. destruct (eqb_spec ext []) as [->|]; [|discriminate]. exists n. rewrite app_nil_r. reflexivity.
  - intros H. right. exact H.
Qed.

(** what is not a directory *)
Definition leaf (t : node) : Prop := t = Link \/ exists m, t = File m.

Lemma below_last l m es p n u : below (Dir l m es) (p ++ [n]) u -> leaf u ->
  exists l' m' es', below (Dir l m es) p (Dir l' m' es') /\ In (n, u) es'.
Proof.
  intros H Hu. revert H. generalize (Dir l m es) as t. induction p as [|k p IH]; intros t H; cbn [app] in H.
  - destruct t as [| |l' m' es']; [inversion H|inversion H|]. apply below_dir_inv in H.
    destruct H as [[E _]|(n' & t' & p' & E & Hin & Hl & H)]; [discriminate|]. injection E as <- <-.
    inversion H; subst. exists l', m', es'. split; [constructor|assumption].
  - destruct t as [| |l0 m0 es0]; [inversion H|inversion H|]. apply below_dir_inv in H.
    destruct H as [[E _]|(n' & t' & p' & E & Hin & Hl & H)]; [discriminate|]. injection E as <- <-.
    apply IH in H. destruct H as (l' & m' & es' & Ha & Hi). exists l', m', es'. split; [|exact Hi].
    econstructor; eassumption.
Qed.

Lemma below_snoc t p l m es n u : below t p (Dir l m es) -> In (n, u) es -> leaf u -> below t (p ++ [n]) u.
Proof.
  intros H Hin Hu. remember (Dir l m es) as d eqn:E. revert E. induction H as [t|l0 m0 es0 k t q v Hin' Hl H IH]; intros ->.
  - cbn [app]. econstructor; [exact Hin| |constructor]. destruct Hu as [->|(? & ->)]; discriminate.
  - cbn [app]. econstructor; [exact Hin'|exact Hl|]. apply IH. reflexivity.
Qed.

Lemma not_dir_leaf t : negb (is_dir t) = true <-> leaf t.
Proof.
  split.
  - destruct t; cbn; intros H; [right; eauto|left; reflexivity|discriminate].
  - intros [->|(m & ->)]; reflexivity.
Qed.

(** ** C91 *)
(** Exactly the files below the directory whose names end with the extension are read, ... *)
Theorem C91_files path l m es ext x : wf (Dir l m es) -> path <> [] -> ends_with [slash] path = false ->
  (In x (walk_files path (Dir l m es) ext) <->
   exists p n u stem, below (Dir l m es) (p ++ [n]) u /\ leaf u /\ n = stem ++ ext
     /\ x = path ++ slash :: join [slash] (p ++ [n])).
Proof.
  intros Hw Hp He. cbn [walk_files]. rewrite in_flat_map. split.
  - intros ((r, ess) & HinW & Hx). apply walk_plain_spec in HinW. destruct HinW as (p & l' & m' & -> & Hb).
    cbn [app fst snd] in Hx. apply in_map_iff in Hx. destruct Hx as ((n, u) & <- & Hf). apply filter_In in Hf.
    destruct Hf as [Hin Hf]. cbn [fst snd] in Hf. apply andb_true_iff in Hf. destruct Hf as [Hd Hx].
    apply not_dir_leaf in Hd. apply extension_fits_spec in Hx. destruct Hx as [stem Hx].
    destruct (wf_at _ _ _ Hw (below_at _ _ _ Hb)) as [Hw' Hv]. apply wf_dir_inv in Hw'. destruct Hw' as [_ Hw'].
    destruct (Hw' _ _ Hin) as [Hn _]. cbn [fst].
    exists p, n, u, stem. repeat split; [eapply below_snoc; eassumption|exact Hd|exact Hx|apply root_path_join; assumption].
  - intros (p & n & u & stem & Hb & Hu & Hx & ->). destruct (below_last _ _ _ _ _ _ Hb Hu) as (l' & m' & es' & Hb' & Hin).
    destruct (wf_at _ _ _ Hw (below_at _ _ _ Hb')) as [Hw' Hv]. apply wf_dir_inv in Hw'. destruct Hw' as [_ Hw'].
    destruct (Hw' _ _ Hin) as [Hn _].
    exists (p, es'). split; [apply walk_plain_spec; exists p, l', m'; auto|]. cbn [fst snd].
    apply in_map_iff. exists (n, u). split; [apply root_path_join; assumption|]. apply filter_In. split; [exact Hin|].
    cbn [fst snd]. apply andb_true_iff. split; [apply not_dir_leaf; exact Hu|]. apply extension_fits_spec. eauto.
Qed.

(** ... each once. *)
Theorem C91_once path l m es ext : wf (Dir l m es) -> path <> [] -> ends_with [slash] path = false ->
  NoDup (walk_files path (Dir l m es) ext).
Proof.
  intros Hw Hp He. cbn [walk_files]. pose proof (walk_plain_nodup _ [] Hw) as HN.
  assert (HW : forall r ess, In (r, ess) (walk false [] (Dir l m es)) ->
    Forall valid_name r /\ NoDup (map fst ess) /\ forall n t, In (n, t) ess -> valid_name n).
  { intros r ess Hin. apply walk_plain_spec in Hin. destruct Hin as (p & l' & m' & -> & Hat). cbn [app].
    destruct (wf_at _ _ _ Hw (below_at _ _ _ Hat)) as [Hw' Hv]. apply wf_dir_inv in Hw'. destruct Hw' as [Hd Hw'].
    split; [exact Hv|]. split; [exact Hd|]. intros n t Hin. apply (Hw' _ _ Hin). }
  revert HN HW. generalize (walk false [] (Dir l m es)) as W.
  induction W as [|[r ess] W IH]; intros HN HW; [constructor|].
  cbn [map fst] in HN. inversion HN as [|? ? Hr HN']; subst.
  destruct (HW r ess (or_introl eq_refl)) as (Hv & Hd & Hn). cbn [flat_map fst snd].
  apply NoDup_app_disj.
  - apply NoDup_map_filter. clear IH HW HN Hr. induction ess as [|[n t] ess IH]; [constructor|].
    cbn [map fst] in *. inversion Hd as [|? ? Hx Hd']; subst. constructor; [|apply IH; [exact Hd'|intros; apply (Hn n0 t0); right; assumption]].
    intros Hin. apply in_map_iff in Hin. destruct Hin as ((n2, t2) & E & Hin). cbn [fst] in E.
    assert (V : valid_name n) by (apply (Hn n t); left; reflexivity).
    assert (V2 : valid_name n2) by (apply (Hn n2 t2); right; exact Hin).
    rewrite !root_path_join in E by assumption. apply joined_inj in E; [|apply Forall_app; auto..|destruct r; discriminate|destruct r; discriminate].
    apply app_inj_tail in E. destruct E as [_ E]. subst n2. apply Hx. apply in_map_iff. exists (n, t2). auto.
  - apply IH; [exact HN'|]. intros r' ess' Hin. apply HW. right. exact Hin.
  - intros x Hx Hx'. apply in_map_iff in Hx. destruct Hx as ((n, t) & <- & He1). apply filter_In in He1. destruct He1 as [He1 _].
    apply in_flat_map in Hx'. destruct Hx' as ((r2, ess2) & HinW & Hx'). apply in_map_iff in Hx'.
    destruct Hx' as ((n2, t2) & E & He2). apply filter_In in He2. destruct He2 as [He2 _]. cbn [fst snd] in *.
    destruct (HW r2 ess2 (or_intror HinW)) as (Hv2 & _ & Hn2). pose proof (Hn _ _ He1) as V. pose proof (Hn2 _ _ He2) as V2.
    rewrite !root_path_join in E by assumption.
    apply joined_inj in E; [|apply Forall_app; auto..|destruct r2; discriminate|destruct r; discriminate].
    apply app_inj_tail in E. destruct E as [E _]. subst r2. apply Hr. apply in_map_iff. exists (r, ess2). auto.
Qed.

(** A path that is a file itself: it alone is read, if its name fits. *)
Theorem C91_single path u ext : leaf u ->
  (forall stem, path = stem ++ ext -> walk_files path u ext = [path])
  /\ ((forall stem, path <> stem ++ ext) -> walk_files path u ext = []).
Proof.
  intros L. assert (E : walk_files path u ext = if extension_fits ext path then [path] else []).
  { destruct L as [-> | [m ->]]; reflexivity. }
  rewrite E. split.
  - intros stem H. replace (extension_fits ext path) with true; [reflexivity|]. symmetry. apply extension_fits_spec. eauto.
  - intros H. destruct (extension_fits ext path) eqn:F; [|reflexivity]. apply extension_fits_spec in F. destruct F as [stem F].
    destruct (H stem F).
Qed.
Print Assumptions C91_single.
Example C91_single_example : walk_files (lit "d/a.py") (File 0) (lit ".py") = [lit "d/a.py"] /\ walk_files (lit "d/a.py") (File 0) (lit ".c") = [].
Proof. split; reflexivity. Qed.

(** At any moment, also after interruptions, a completely written vocabulary consists of one line for each word
    of these files: the word, a tab and how often it occurs; more frequent words come first. *)
Theorem C91_vocab content path t ext max_groups n_chunks d ready size text : max_groups <> 0 -> n_chunks <> 0 ->
  reachable max_groups n_chunks (script_corpus content path t ext) (Down d ready size (Full text)) ->
  let ws := flat_map (fun f => file_tokens (content f)) (walk_files path t ext) in
  exists entries, text = write_lines (map (fun e => fst e ++ tab :: decZ (snd e)) entries)
    /\ NoDup (map fst entries)
    /\ (forall w, In w (map fst entries) <-> In w ws)
    /\ (forall w k, In (w, k) entries -> k = Z.of_nat (count_occ str_dec ws w))
    /\ descending entries.
Proof.
  intros Hm Hc R ws. destruct (C42_written _ _ _ _ _ _ _ Hm Hc R) as (c & -> & C & _).
  assert (E : corpus_tokens (script_corpus content path t ext) = ws).
  { unfold corpus_tokens, script_corpus, ws. induction (walk_files path t ext) as [|f fs IH]; [reflexivity|].
    cbn [map flat_map]. rewrite IH. reflexivity. }
  rewrite E in C. clear E R. exists (sort_desc c).
  pose proof (sort_desc_perm c) as P. destruct (counts_exactly_get _ _ C) as [_ K]. destruct C as [Nd G].
  assert (Pf : Permutation (map fst (sort_desc c)) (dkeys c)) by (apply Permutation_map; exact P).
  split; [reflexivity|]. split; [|split; [|split]].
  - eapply Permutation_NoDup; [symmetry; exact Pf|exact Nd].
  - intros w. rewrite <- (K w). split; intros H; [exact (Permutation_in _ Pf H)|exact (Permutation_in _ (Permutation_sym Pf) H)].
  - intros w k H. apply (Permutation_in _ P) in H. apply (dget_nodup _ _ _ Nd) in H. rewrite G in H.
    destruct (in_dec str_dec w ws); [|discriminate]. injection H as <-. reflexivity.
  - apply sort_desc_sorted.
Qed.

(** If no name ends with the extension no vocabulary is ever written. *)
Lemma nothing_reachable max_groups n_chunks nd : reachable max_groups n_chunks [] nd -> exists d, nd = Down d false Absent Absent.
Proof.
  intros R. induction R as [|a b R IH S]; [eauto|].
  destruct IH as (d & ->). inversion S; subst; [eauto|contradiction].
Qed.

Theorem C91_nothing content path l m es ext max_groups n_chunks d ready size vocab : wf (Dir l m es) ->
  path <> [] -> ends_with [slash] path = false ->
  (forall p n u stem, below (Dir l m es) (p ++ [n]) u -> leaf u -> n <> stem ++ ext) ->
  reachable max_groups n_chunks (script_corpus content path (Dir l m es) ext) (Down d ready size vocab) ->
  size = Absent /\ vocab = Absent.
Proof.
  intros Hw Hp He Hno R. unfold script_corpus in R.
  destruct (walk_files path (Dir l m es) ext) as [|x xs] eqn:E.
  - destruct (nothing_reachable _ _ _ R) as (d' & Ed). injection Ed as -> -> -> ->. auto.
  - assert (I : In x (walk_files path (Dir l m es) ext)) by (rewrite E; left; reflexivity).
    apply C91_files in I; [|assumption..]. destruct I as (p & n & u & stem & Hb & Hu & Hn & _).
    destruct (Hno p n u stem Hb Hu Hn).
Qed.

(** The extension is only the end of the name: a file called happy has the extension py here, although it has
    not elsewhere (has_one_of_extensions wants the dot). *)
Theorem C91_suffix_refuted : let t := Dir false 0 [(lit "happy", File 0)] in
  wf t /\ walk_files (lit "d") t (lit "py") = [lit "d/happy"] /\ scan_files (lit "d") t (Some [lit "py"]) = [].
Proof.
  split; [|split; reflexivity]. constructor; [repeat constructor; intros []|].
  intros n t [E|[]]. injection E as <- <-. split; [|constructor].
  repeat split; try discriminate. intros H. cbn in H. repeat (destruct H as [H|H]; [discriminate H|]). exact H.
Qed.

(** Links to files are read here and left out elsewhere; a file that is also linked to is counted twice.  With
    linked directories it is the other way round: they are left out here and read elsewhere. *)
Theorem C91_links_refuted : let t := Dir false 0 [(lit "a.py", File 0); (lit "b.py", Link); (lit "l", Dir true 0 [(lit "c.py", File 0)])] in
  walk_files (lit "d") t (lit ".py") = [lit "d/a.py"; lit "d/b.py"]
  /\ scan_files (lit "d") t (Some [lit "py"]) = [lit "./a.py"; lit "l/c.py"].
Proof. split; reflexivity. Qed.

(** The files are raw files: a word with a tab gives a vocabulary that cannot be loaded. *)
Theorem C91_tab_refuted : let t := Dir false 0 [(lit "a.py", File 0)] in let content := fun _ => lit "if" ++ tab :: lit "x" in
  (exists r, reachable 3 2 (script_corpus content (lit "d") t (lit ".py")) (Up r) /\
     exists n r' text, steps n r r' /\ sh_vocab (r_shared r') = Full text)
  /\ forall d ready size text, reachable 3 2 (script_corpus content (lit "d") t (lit ".py")) (Down d ready size (Full text)) ->
       load_vocab_dict text = Err ValueError.
Proof.
  intros t content. assert (M : 3 <> 0) by discriminate. assert (M2 : 2 <> 0) by discriminate.
  set (files := script_corpus content (lit "d") t (lit ".py")).
  assert (Ef : files = [lit "if" ++ tab :: lit "x"]) by reflexivity. split.
  - destruct (reachable_start 3 2 files) as (r & R & _); [exact M|exact M2|rewrite Ef; discriminate|].
    exists r. split; [exact R|]. destruct (C43_ends 3 2 files r M M2 R) as (n & r' & d & S & V & _). eauto.
  - intros d ready size text R. destruct (C42_written _ _ _ _ _ _ _ M M2 R) as (c & -> & C & _).
    assert (Et : corpus_tokens files = [lit "if" ++ tab :: lit "x"]) by (rewrite Ef; reflexivity). rewrite Et in C.
    assert (Ec : c = [(lit "if" ++ tab :: lit "x", 1%Z)]).
    { destruct (counts_exactly_get _ _ C) as [_ K]. destruct C as [Nd G].
      destruct c as [|[w k] c].
      - destruct (proj2 (K (lit "if" ++ tab :: lit "x"))). left. reflexivity.
      - assert (W : w = lit "if" ++ tab :: lit "x").
        { destruct (proj1 (K w)) as [<-|[]]; [left; reflexivity|reflexivity]. }
        destruct c as [|[w2 k2] c].
        + specialize (G w). subst w. cbn [dget] in G. rewrite eqb_refl in G. 
          destruct (in_dec str_dec _ _) as [_|N]; [|destruct N; left; reflexivity]. injection G as ->.
          unfold zcount. cbn [count_occ]. destruct (str_dec _ _) as [_|N]; [reflexivity|congruence].
        + assert (W2 : w2 = lit "if" ++ tab :: lit "x").
          { destruct (proj1 (K w2)) as [<-|[]]; [right; left; reflexivity|reflexivity]. }
          cbn [dkeys map fst] in Nd. inversion Nd as [|? ? Hx _]; subst. destruct Hx. left. reflexivity. }
    subst c. reflexivity.
Qed.
Print Assumptions C91_files.
Print Assumptions C91_once.
Print Assumptions C91_vocab.
Print Assumptions C91_nothing.
Print Assumptions C91_suffix_refuted.
Print Assumptions C91_links_refuted.
Print Assumptions C91_tab_refuted.

(** ** Concrete cases *)
Definition tree91 : node := Dir false 0
  [(lit "a.py", File 0); (lit "s", Dir false 0 [(lit "b.py", File 0); (lit "c.txt", File 0)]); (lit "l", Dir true 0 [(lit "x.py", File 0)])].
Lemma tree91_wf : wf tree91.
Proof.
  assert (V : forall n, n <> [] -> existsb (N.eqb slash) n = false -> n <> lit "." -> n <> lit ".." -> valid_name n).
  { intros n H1 H2 H3 H4. repeat split; auto. intros Hin. assert (T : existsb (N.eqb slash) n = true).
    - apply existsb_exists. exists slash. split; [exact Hin|reflexivity].
    - congruence. }
  assert (D : forall l m es, NoDup (map fst es) -> Forall (fun e => valid_name (fst e) /\ wf (snd e)) es -> wf (Dir l m es)).
  { intros l m es H1 H2. constructor; [exact H1|]. intros n t Hin. rewrite Forall_forall in H2. apply (H2 _ Hin). }
  unfold tree91.
  repeat match goal with
         | |- wf (File _) => apply wf_file
         | |- wf (Dir _ _ _) => apply D
         | |- Forall _ [] => apply Forall_nil
         | |- Forall _ (_ :: _) => apply Forall_cons; cbn [fst snd]
         | |- NoDup _ => cbn [map fst]; first [apply NoDup_nil | apply NoDup_cons]
         | |- valid_name _ => apply V; [discriminate|reflexivity|discriminate|discriminate]
         | |- _ /\ _ => split
         | |- ~ In _ _ => intros H; cbn in H; repeat (destruct H as [H|H]; [discriminate H|]); exact H
         end.
Qed.
Example C91_example :
  walk_files (lit "d") tree91 (lit ".py") = [lit "d/a.py"; lit "d/s/b.py"]
  /\ walk_files (lit "d") tree91 [] = [lit "d/a.py"; lit "d/s/b.py"; lit "d/s/c.txt"]
  /\ walk_files (lit "d") tree91 (lit ".java") = []
  /\ walk_files (lit "d/a.py") (File 0) (lit ".py") = [lit "d/a.py"]
  /\ walk_files (lit "d/a.py") (File 0) (lit ".java") = [].
Proof. repeat split. Qed.
Example C91_vocab_example : let content := fun p => if eqb p (lit "d/a.py") then lit "x = y" else lit "y = y" in
  exists d ready size text, reachable 3 2 (script_corpus content (lit "d") tree91 (lit ".py")) (Down d ready size (Full text))
    /\ flat_map (fun f => file_tokens (content f)) (walk_files (lit "d") tree91 (lit ".py"))
       = [lit "x"; lit "="; lit "y"; lit "y"; lit "="; lit "y"].
Proof.
  intros content. assert (M : 3 <> 0) by discriminate. assert (M2 : 2 <> 0) by discriminate.
  set (files := script_corpus content (lit "d") tree91 (lit ".py")).
  destruct (reachable_start 3 2 files) as (r & R & _); [exact M|exact M2|discriminate|].
  destruct (C43_ends 3 2 files r M M2 R) as (n & r' & dd & S & V & _).
  assert (R' : reachable 3 2 files (Up r')).
  { clear V. induction S as [|n r r1 r2 St S IH]; [exact R|]. apply IH. eapply reach_sys; [exact R|constructor; exact St]. }
  pose proof (reach_sys _ _ _ _ _ R' (sys_down _ _ _ r')) as D. rewrite V in D.
  do 4 eexists. split; [exact D|reflexivity].
Qed.
