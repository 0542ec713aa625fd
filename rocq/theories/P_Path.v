(** * C99: a dataset is the same however its path is written *)
From Coq Require Import List NArith ZArith Bool String Lia.
From Verif Require Import M_Base L_Base M_PrepConfig M_Dataset P_Dataset P_Corpus M_Timestamp M_Place P_Place M_Registry M_Learned M_LearnCli.
Import ListNotations.
Local Open Scope list_scope.

(** ** What a path means *)
(** going through the components of a path, from one directory (given by its components from the root) to another *)
Inductive leads : list str -> list str -> list str -> Prop :=
| leads_here q : leads q [] q
| leads_stay q x l q' : x = [] \/ x = lit "." -> leads q l q' -> leads q (x :: l) q'
| leads_up q n l q' : leads q l q' -> leads (q ++ [n]) (lit ".." :: l) q'
| leads_root l q' : leads [] l q' -> leads [] (lit ".." :: l) q'
| leads_down q n l q' : valid_name n -> leads (q ++ [n]) l q' -> leads q (n :: l) q'.

(** in the directory [cwd] the path [p] means [q] *)
Definition means (cwd : list str) (p : str) (q : list str) : Prop :=
  exists l, l <> [] /\ Forall (no_char slash) l /\ p = join [slash] l /\
  leads (match p with c :: _ => if N.eqb c slash then [] else cwd | [] => cwd end) l q.

(** the path ends with a name: no slash at the end, no dots *)
Definition ends_in_name (p : str) : Prop := exists d n, valid_name n /\ (p = n \/ p = d ++ [slash] ++ n).

Lemma leads_norm q l q' : leads q l q' -> norm q l = q'.
Proof.
  induction 1 as [q|q x l q' Hx _ IH|q n l q' _ IH|l q' _ IH|q n l q' Hn _ IH]; cbn [norm].
  - reflexivity.
  - destruct Hx as [->| ->]; exact IH.
  - change (eqb (lit "..") [] || eqb (lit "..") (lit ".")) with false. change (eqb (lit "..") (lit "..")) with true. cbn iota.
    rewrite removelast_last. exact IH.
  - exact IH.
  - destruct Hn as (H1 & _ & H2 & H3). rewrite (proj2 (eqb_neq n []) H1), (proj2 (eqb_neq n (lit ".")) H2), (proj2 (eqb_neq n (lit "..")) H3).
    exact IH.
Qed.

Lemma means_parts cwd p q : means cwd p q -> abs_parts cwd p = q.
Proof.
  intros (l & Hl & Hn & -> & H). unfold abs_parts. rewrite split_join by assumption. apply leads_norm in H. rewrite <- H. f_equal.
  destruct (join [slash] l) as [|c r]; [reflexivity|]. cbn [starts_with]. rewrite N.eqb_sym. destruct (N.eqb c slash); reflexivity.
Qed.

Lemma basename_name p d n : valid_name n -> p = n \/ p = d ++ [slash] ++ n -> basename p = n.
Proof.
  intros Hn H. unfold basename. destruct H as [->| ->].
  - rewrite split_on_no_char by apply Hn. reflexivity.
  - cbn [app]. rewrite split_on_app_slash, (split_on_no_char slash n) by apply Hn. apply last_last.
Qed.

Lemma norm_last acc l n : valid_name n -> norm acc (l ++ [n]) = norm acc l ++ [n].
Proof. intros Hn. rewrite norm_app. apply norm_valid. constructor; [exact Hn|constructor]. Qed.

Lemma ends_last cwd p q : means cwd p q -> ends_in_name p -> basename p = last q [] /\ valid_name (basename p).
Proof.
  intros H (d & n & Hn & E). rewrite (basename_name p d n Hn E). split; [|exact Hn]. rewrite <- (means_parts _ _ _ H).
  unfold abs_parts. destruct E as [->| ->].
  - rewrite (split_on_no_char slash n) by apply Hn. rewrite (norm_last _ [] n Hn). symmetry. apply last_last.
  - cbn [app]. rewrite split_on_app_slash, (split_on_no_char slash n), norm_last by apply Hn. symmetry. apply last_last.
Qed.

(** the components of what a path means are names, if those of the working directory are *)
Lemma leads_valid q l q' : leads q l q' -> Forall valid_name q -> Forall valid_name q'.
Proof.
  induction 1 as [q|q x l q' Hx _ IH|q n l q' _ IH|l q' _ IH|q n l q' Hn _ IH]; intros F; auto.
  - apply IH. apply Forall_app in F. apply F.
  - apply IH. apply Forall_app. split; [exact F|]. constructor; [exact Hn|constructor].
Qed.

Lemma means_valid cwd p q : means cwd p q -> Forall valid_name cwd -> Forall valid_name q.
Proof.
  intros (l & _ & _ & _ & L) F. eapply leads_valid; [exact L|]. destruct p as [|c p]; [exact F|]. destruct (N.eqb c slash); [constructor|exact F].
Qed.
Lemma slash_base_app q : Forall valid_name q -> forall d : str, basename (d ++ slash :: join [slash] q) = last q [].
Proof.
  intros Fq d. unfold basename. rewrite split_on_app_slash. destruct q as [|x q]; [apply last_last|].
  rewrite split_join by (discriminate || (apply valid_no_slash; exact Fq)).
  pose proof (app_removelast_last (l := x :: q) [] ltac:(discriminate)) as E. rewrite E at 1. rewrite app_assoc. apply last_last.
Qed.
Lemma slash_base q : Forall valid_name q -> basename (slash :: join [slash] q) = last q [].
Proof. intros Fq. apply (slash_base_app q Fq []). Qed.

Lemma abspath_base cwd p q : means cwd p q -> Forall valid_name cwd -> basename (abspath cwd p) = last q [].
Proof.
  intros H F. pose proof (means_valid _ _ _ H F) as Fq. unfold abspath. rewrite (means_parts _ _ _ H).
  destruct (_ && _); [apply (slash_base_app q Fq [slash])|apply (slash_base_app q Fq [])].
Qed.

(** ** learn-bpe *)
(** The working directory and the way the path is written make no difference. *)
Theorem C99_learn : forall py_int maxsize strip number_of source cwd cwd' p p' q t w a,
  Forall valid_name cwd -> Forall valid_name cwd' -> means cwd p q -> means cwd' p' q ->
  let at_path x := {| l_n := l_n a; l_path := x; l_ext := l_ext a; l_id := l_id a; l_no_unicode := l_no_unicode a;
                      l_bytes := l_bytes a; l_word_end := l_word_end a; l_legacy := l_legacy a |} in
  handle_learnbpe_at py_int maxsize strip number_of source cwd t w (at_path p) =
  handle_learnbpe_at py_int maxsize strip number_of source cwd' t w (at_path p') /\
  handle_learnbpe_at py_int maxsize strip number_of source cwd t w (at_path p) =
  handle_learnbpe py_int maxsize strip number_of source t w (at_path (slash :: join [slash] q)) /\
  basename (l_path (absolute cwd (at_path p))) = last q [].
Proof.
  intros py_int maxsize strip number_of source cwd cwd' p p' q t w a F F' H H'. cbv zeta.
  set (at_path := fun x => {| l_n := l_n a; l_path := x; l_ext := l_ext a; l_id := l_id a; l_no_unicode := l_no_unicode a;
                      l_bytes := l_bytes a; l_word_end := l_word_end a; l_legacy := l_legacy a |}).
  assert (G : forall cwd p, Forall valid_name cwd -> means cwd p q ->
    handle_learnbpe_at py_int maxsize strip number_of source cwd t w (at_path p) =
    handle_learnbpe py_int maxsize strip number_of source t w (at_path (slash :: join [slash] q))).
  { clear. intros cwd p F H. pose proof (abspath_base _ _ _ H F) as E. unfold handle_learnbpe_at, handle_learnbpe.
    set (x := absolute cwd _). set (y := at_path (slash :: _)). change (legacy_refused x) with (legacy_refused y).
    replace (command_of t x) with (command_of t y); [reflexivity|].
    assert (B : basename (l_path y) = basename (l_path x)).
    { unfold x, y. cbn [at_path absolute l_path]. rewrite E. apply slash_base. eapply means_valid; eassumption. }
    unfold command_of. rewrite B.
    replace (dataset_dir_name (dataset_of t y)) with (dataset_dir_name (dataset_of t x)).
    - reflexivity.
    - unfold dataset_dir_name. cbn [dataset_of r_path r_stamp r_exts]. rewrite B. reflexivity. }
  split; [|split].
  - transitivity (handle_learnbpe py_int maxsize strip number_of source t w (at_path (slash :: join [slash] q))); [|symmetry]; apply G; assumption.
  - apply G; assumption.
  - apply (abspath_base _ _ _ H F).
Qed.
Print Assumptions C99_learn.

(** ** Preprocessing *)
Definition with_path (p : str) (r : run) : run :=
  {| r_path := p; r_stamp := r_stamp r; r_exts := r_exts r; r_config := r_config r; r_custom := r_custom r; r_output := r_output r |}.

(** If the path ends with a name, everything that a run reads and writes has the same place: the sources, the parsed files, the results
    and the directories that are looked up to see what is already done. *)
Theorem C99_preprocessing : forall cwd cwd' cache r p p' q t,
  means cwd p q -> means cwd' p' q -> ends_in_name p -> ends_in_name p' -> wf t ->
  let a := with_path p r in let b := with_path p' r in
  dataset_dir_name a = dataset_dir_name b /\ list_folder cache a = list_folder cache b /\
  parsed_at cache a = parsed_at cache b /\ prep_at cache a = prep_at cache b /\
  (forall dir, vocab_path dir a = vocab_path dir b) /\
  map (abs_parts cwd) (parse_sources p t (r_exts r)) = map (abs_parts cwd') (parse_sources p' t (r_exts r)) /\
  parse_outputs cwd cache a t = parse_outputs cwd' cache b t /\ prep_outputs cwd cache a t = prep_outputs cwd' cache b t.
Proof.
  intros cwd cwd' cache r p p' q t H H' N1 N2 W. cbv zeta.
  destruct (ends_last _ _ _ H N1) as [B1 V1]. destruct (ends_last _ _ _ H' N2) as [B2 V2].
  assert (B : basename p = basename p') by congruence.
  assert (D : dataset_dir_name (with_path p r) = dataset_dir_name (with_path p' r)).
  { unfold dataset_dir_name. cbn [with_path r_path r_stamp r_exts]. rewrite B. reflexivity. }
  assert (P1 : parsed_at cache (with_path p r) = parsed_at cache (with_path p' r)) by (unfold parsed_at, parsed_path; rewrite D; reflexivity).
  assert (Q : prep_basename (with_path p r) = prep_basename (with_path p' r)) by (unfold prep_basename; rewrite D; reflexivity).
  assert (P2 : prep_at cache (with_path p r) = prep_at cache (with_path p' r)) by (unfold prep_at, prep_path; rewrite Q; reflexivity).
  assert (S : scan_files p t (r_exts r) = scan_files p' t (r_exts r)).
  { destruct t; cbn [scan_files]; rewrite ?B; reflexivity. }
  destruct (parts_exist p t (r_exts r) W (fun _ => V1)) as (ps & F1 & F2).
  assert (F1' : file_parts p' t (r_exts r) ps) by (destruct F1 as (X & Y); split; [rewrite <- S; exact X|exact Y]).
  assert (F2' : is_dir t = false -> ps = [([], basename p')]) by (intros X; rewrite <- B; exact (F2 X)).
  split; [exact D|]. split; [unfold list_folder; rewrite D; reflexivity|]. split; [exact P1|]. split; [exact P2|].
  split; [intros dir; unfold vocab_path, get_prep_suffix; rewrite D; reflexivity|].
  split; [|split].
  - unfold parse_sources, file_iterator. cbn [original sd_path sd_suffix]. rewrite S.
    destruct F1' as (X & Y & _). revert X Y. generalize (scan_files p' t (r_exts r)). clear -H H'. intros fs X Y.
    induction X as [|f pn fs ps' Hn X IH]; [reflexivity|]. inversion Y as [|? ? [Y1 Y2] Y']; subst.
    cbn [map]. f_equal; [|exact (IH Y')].
    destruct (negb (is_dir t)); unfold original_suffix; rewrite ?app_nil_r; [rewrite (means_parts _ _ _ H), (means_parts _ _ _ H'); reflexivity|].
    pose proof (names_start f (fst pn) (snd pn) [] Hn Y1 Y2) as St. rewrite app_nil_r in St.
    rewrite !abs_parts_join by exact St. rewrite (means_parts _ _ _ H), (means_parts _ _ _ H'). reflexivity.
  - transitivity (parse_targets cwd p (parsed_at cache (with_path p r)) t (r_exts r)); [reflexivity|].
    transitivity (parse_targets cwd' p' (parsed_at cache (with_path p' r)) t (r_exts r)); [|reflexivity].
    rewrite (parse_targets_spec _ _ _ _ _ _ F1 F2), (parse_targets_spec _ _ _ _ _ _ F1' F2'), P1. reflexivity.
  - transitivity (prep_targets cwd p (parsed_at cache (with_path p r)) (prep_at cache (with_path p r)) t (r_exts r)); [reflexivity|].
    transitivity (prep_targets cwd' p' (parsed_at cache (with_path p' r)) (prep_at cache (with_path p' r)) t (r_exts r)); [|reflexivity].
    rewrite (prep_targets_spec _ _ _ _ _ _ _ F1), (prep_targets_spec _ _ _ _ _ _ _ F1'), P2. reflexivity.
Qed.
Print Assumptions C99_preprocessing.

(** ** Examples *)
Ltac name_ok := repeat split; try discriminate; intros Hname; vm_compute in Hname; intuition discriminate.
Ltac no_slash := repeat constructor; intros Hname; vm_compute in Hname; intuition discriminate.

(** a directory beside the dataset is the working directory; the dataset is given by a path with dots or by the whole path *)
Lemma ex_up : means [lit "home"; lit "u"; lit "other"] (lit "../x/.././/proj") [lit "home"; lit "u"; lit "proj"].
Proof.
  exists [lit ".."; lit "x"; lit ".."; lit "."; []; lit "proj"]. split; [discriminate|]. split; [no_slash|]. split; [reflexivity|].
  change (leads ([lit "home"; lit "u"] ++ [lit "other"]) [lit ".."; lit "x"; lit ".."; lit "."; []; lit "proj"] [lit "home"; lit "u"; lit "proj"]).
  apply leads_up, leads_down; [name_ok|]. apply leads_up, leads_stay; [auto|]. apply leads_stay; [auto|]. apply leads_down; [name_ok|]. apply leads_here.
Qed.
Lemma ex_whole cwd : means cwd (lit "/home/u/proj") [lit "home"; lit "u"; lit "proj"].
Proof.
  exists [[]; lit "home"; lit "u"; lit "proj"]. split; [discriminate|]. split; [no_slash|]. split; [reflexivity|].
  change (leads [] [[]; lit "home"; lit "u"; lit "proj"] [lit "home"; lit "u"; lit "proj"]).
  apply leads_stay; [auto|]. repeat (apply leads_down; [name_ok|]; cbn [app]). apply leads_here.
Qed.
Lemma ex_slash cwd : means cwd (lit "/home/u/proj/") [lit "home"; lit "u"; lit "proj"].
Proof.
  exists [[]; lit "home"; lit "u"; lit "proj"; []]. split; [discriminate|]. split; [no_slash|]. split; [reflexivity|].
  change (leads [] [[]; lit "home"; lit "u"; lit "proj"; []] [lit "home"; lit "u"; lit "proj"]).
  apply leads_stay; [auto|]. repeat (apply leads_down; [name_ok|]; cbn [app]). apply leads_stay; [auto|]. apply leads_here.
Qed.
Lemma ex_dot x : valid_name x -> means [lit "home"; x] (lit ".") [lit "home"; x].
Proof.
  intros _. exists [lit "."]. split; [discriminate|]. split; [no_slash|]. split; [reflexivity|].
  change (leads [lit "home"; x] [lit "."] [lit "home"; x]). apply leads_stay; [auto|]. apply leads_here.
Qed.
Lemma ex_proj : valid_name (lit "proj").
Proof. name_ok. Qed.

Example C99_example :
  let cwd := [lit "home"; lit "u"; lit "other"] in let r := ex_place "" (Some [lit "py"]) "/out" 7 in
  let a := with_path (lit "../x/.././/proj") r in let b := with_path (lit "/home/u/proj") r in
  (ends_in_name (r_path a) /\ ends_in_name (r_path b)) /\
  abspath cwd (r_path a) = lit "/home/u/proj" /\ abspath [] (lit "/home/u/proj/") = lit "/home/u/proj" /\
  dataset_dir_name a = lit "proj_70-01-01T00-00-07_py" /\
  map (abs_parts cwd) (parse_sources (r_path a) ex_src (r_exts r)) = [[lit "home"; lit "u"; lit "proj"; lit "a.py"]] /\
  parse_sources (r_path a) ex_src (r_exts r) = [lit "../x/.././/proj/./a.py"] /\
  prep_outputs cwd (lit "/c") a ex_src = [lit "/out/proj_70-01-01T00-00-07_py_-_Uc140u_-_prep/a.py.prep"] /\
  prep_outputs cwd (lit "/c") a ex_src = prep_outputs [] (lit "/c") b ex_src.
Proof.
  cbv zeta. split; [split|repeat split; vm_compute; reflexivity].
  - exists (lit "../x/.././"), (lit "proj"). split; [exact ex_proj|]. right. reflexivity.
  - exists (lit "/home/u"), (lit "proj"). split; [exact ex_proj|]. right. reflexivity.
Qed.

(** ** Without a name at the end *)
(** A slash at the end makes it another dataset for preprocessing: nothing that has been done is found. *)
Theorem C99_slash_refuted : forall cwd cache r q,
  let a := with_path (lit "/home/u/proj") r in let b := with_path (lit "/home/u/proj/") r in
  (means cwd (r_path a) q <-> means cwd (r_path b) q) /\ dataset_dir_name a <> dataset_dir_name b /\
  parsed_at cache a <> parsed_at cache b /\ list_folder cache a <> list_folder cache b.
Proof.
  intros cwd cache r q. cbv zeta. split.
  - cbn [with_path r_path]. split; intros H; apply means_parts in H.
    + rewrite <- H. replace (abs_parts cwd (lit "/home/u/proj")) with [lit "home"; lit "u"; lit "proj"] by reflexivity. apply ex_slash.
    + rewrite <- H. replace (abs_parts cwd (lit "/home/u/proj/")) with [lit "home"; lit "u"; lit "proj"] by reflexivity. apply ex_whole.
  - assert (D : dataset_dir_name (with_path (lit "/home/u/proj") r) <> dataset_dir_name (with_path (lit "/home/u/proj/") r)).
    { unfold dataset_dir_name. cbn [with_path r_path r_stamp r_exts]. change (basename (lit "/home/u/proj")) with (lit "proj").
      change (basename (lit "/home/u/proj/")) with (@nil N). intros E. discriminate E. }
    assert (J : forall d, path_join d (dataset_dir_name (with_path (lit "/home/u/proj") r)) <> path_join d (dataset_dir_name (with_path (lit "/home/u/proj/") r))).
    { intros d E. apply D. revert E. unfold path_join.
      change (starts_with [slash] (dataset_dir_name (with_path (lit "/home/u/proj") r))) with false.
      change (starts_with [slash] (dataset_dir_name (with_path (lit "/home/u/proj/") r))) with false. cbn iota.
      destruct (_ || _); intros E; apply app_inv_head in E; [exact E|]. apply (f_equal (@tl N)) in E. exact E. }
    split; [exact D|]. split; apply J.
Qed.
Print Assumptions C99_slash_refuted.

(** The working directory given as a dot has no name at all: two datasets that were modified last in the same second share their results. *)
Theorem C99_dot_refuted : forall cache r x y, valid_name x -> valid_name y -> x <> y ->
  let d := with_path (lit ".") r in
  means [lit "home"; x] (r_path d) [lit "home"; x] /\ means [lit "home"; y] (r_path d) [lit "home"; y] /\
  dataset_dir_name d = dataset_dir_name (with_path (lit "anything/.") r) /\
  (forall t, wf t -> is_dir t = true ->
     parse_outputs [lit "home"; x] cache d t = parse_outputs [lit "home"; y] cache d t /\
     prep_outputs [lit "home"; x] cache d t = prep_outputs [lit "home"; y] cache d t).
Proof.
  intros cache r x y Hx Hy Hxy d. split; [apply ex_dot; exact Hx|]. split; [apply ex_dot; exact Hy|]. split; [reflexivity|].
  intros t W T. destruct (parts_exist (lit ".") t (r_exts r) W ltac:(congruence)) as (ps & F1 & F2). split.
  - transitivity (parse_targets [lit "home"; x] (lit ".") (parsed_at cache d) t (r_exts r)); [reflexivity|].
    transitivity (parse_targets [lit "home"; y] (lit ".") (parsed_at cache d) t (r_exts r)); [|reflexivity].
    rewrite !(parse_targets_spec _ _ _ _ _ _ F1 F2). reflexivity.
  - transitivity (prep_targets [lit "home"; x] (lit ".") (parsed_at cache d) (prep_at cache d) t (r_exts r)); [reflexivity|].
    transitivity (prep_targets [lit "home"; y] (lit ".") (parsed_at cache d) (prep_at cache d) t (r_exts r)); [|reflexivity].
    rewrite !(prep_targets_spec _ _ _ _ _ _ _ F1). reflexivity.
Qed.
Print Assumptions C99_dot_refuted.
