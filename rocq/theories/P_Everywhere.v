(** * Findings of other files for all inputs

    Other files show by an example that a property fails (C36, C37, C41, C53, C55, C59).  Here it is said for which inputs. *)
From Coq Require Import String List NArith ZArith Lia Arith.
From Verif Require Import M_Base L_Base M_Tokens M_Literal M_Repr M_Merge M_BpeEncode M_PrepConfig M_Registry M_Pipeline
  P_Repr P_Registry M_Dataset P_Dataset M_Timestamp P_Timestamp M_Api P_Api.
Import ListNotations.
Local Open Scope list_scope.

(** ** C37: exactly the configurations with the base "code" are recovered from the suffix *)
Theorem C37_exact : forall c, bc_valid c = true -> (from_suffix (to_suffix c) = Ok c <-> bc_base c = lit "code").
Proof.
  intros c H. rewrite (C37_suffix c H). destruct c as [ca we ba un]. cbn [bc_case bc_word_end bc_base bc_unicode]. split.
  - intros [= E]. symmetry. exact E.
  - intros ->. reflexivity.
Qed.
Print Assumptions C37_exact.
Example C37_exact_example :
  let c b := {| bc_case := lit "yes"; bc_word_end := true; bc_base := b; bc_unicode := lit "no" |} in
  bc_valid (c (lit "code")) = true /\ bc_valid (c (lit "java")) = true /\
  from_suffix (to_suffix (c (lit "code"))) = Ok (c (lit "code")) /\ from_suffix (to_suffix (c (lit "java"))) <> Ok (c (lit "java")).
Proof. vm_compute. repeat split; try reflexivity; discriminate. Qed.

(** ** C41: all datasets of the same name and second share their directories, wherever they are *)
Theorem C41_same_name_refuted : forall p p' s e c i o dir, basename p = basename p' ->
  let at_path p := {| r_path := p; r_stamp := s; r_exts := e; r_config := c; r_custom := i; r_output := o |} in
  dataset_dir_name (at_path p) = dataset_dir_name (at_path p') /\ parsed_path dir (at_path p) = parsed_path dir (at_path p') /\
  prep_path dir (at_path p) = prep_path dir (at_path p') /\ vocab_path dir (at_path p) = vocab_path dir (at_path p').
Proof.
  intros p p' s e c i o dir H at_path.
  assert (D : dataset_dir_name (at_path p) = dataset_dir_name (at_path p')).
  { unfold dataset_dir_name, at_path. cbn [r_path r_stamp r_exts]. rewrite H. reflexivity. }
  split; [exact D|]. unfold parsed_path, prep_path, vocab_path, prep_basename. rewrite D. repeat split.
Qed.
Print Assumptions C41_same_name_refuted.
Example C41_same_name_example : basename (lit "/a/x") = basename (lit "../b/x") /\
  parsed_path (lit "/c") (run_ex (lit "/a/x") None None) = parsed_path (lit "/c") (run_ex (lit "../b/x") None None).
Proof. vm_compute. auto. Qed.

(** ** C36 *)
Section Ids.
  Variables (py_int : str -> option Z) (maxsize : Z) (strip : str -> str) (number_of : str -> str -> option str).

  (** no codes have been learned in the directory *)
  Definition no_codes (d : bpe_dir) : Prop := forall s m, In s (snd d) -> py_int s = Some m -> ~ (0 < m <= maxsize)%Z.

  Lemma no_codes_max d : no_codes d -> get_max_merges py_int (snd d) maxsize = None \/ get_max_merges py_int (snd d) maxsize = Some 0%Z.
  Proof.
    intros H. unfold get_max_merges, get_extreme.
    match goal with |- context [fold_left ?f (snd d) 0%Z] => assert (E : fold_left f (snd d) 0%Z = 0%Z) end.
    { unfold no_codes in H. induction (snd d) as [|s l IH]; [reflexivity|]. cbn [fold_left].
      destruct (py_int s) as [m|] eqn:Es; [|apply IH; intros s' m' Hi; apply H; right; exact Hi].
      destruct ((0 <? m)%Z && (m <=? maxsize)%Z) eqn:Em; [|apply IH; intros s' m' Hi; apply H; right; exact Hi].
      apply andb_true_iff in Em. destruct Em as [E1 E2]. apply Z.ltb_lt in E1. apply Z.leb_le in E2.
      destruct (H s m (or_introl eq_refl) Es). lia. }
    rewrite E. cbn. auto.
  Qed.
  Lemma no_codes_ids d dirs : no_codes d -> existing_ids py_int maxsize strip (d :: dirs) = existing_ids py_int maxsize strip dirs.
  Proof.
    intros H. unfold existing_ids. cbn [flat_map]. destruct (codes_id strip d) as [i|]; [|reflexivity].
    destruct (no_codes_max d H) as [-> | ->]; [reflexivity|]. rewrite Bool.orb_true_r. reflexivity.
  Qed.

  (** Directories without codes do not count, whatever their ids are: if there are no others, the id is the name. *)
  Theorem C36_unfinished_ids_refuted : forall basename suffix dirs others, Forall no_codes dirs ->
    create_new_id py_int maxsize strip number_of basename suffix (dirs ++ others) = create_new_id py_int maxsize strip number_of basename suffix others /\
    create_new_id py_int maxsize strip number_of basename suffix dirs = Ok (id_base basename suffix).
  Proof.
    intros b s dirs others H.
    assert (X : forall others, existing_ids py_int maxsize strip (dirs ++ others) = existing_ids py_int maxsize strip others).
    { intros o. induction H as [|d dirs Hd _ IH]; [reflexivity|]. cbn [app]. rewrite no_codes_ids by exact Hd. exact IH. }
    split; unfold create_new_id; [rewrite X; reflexivity|]. specialize (X []). rewrite app_nil_r in X. rewrite X. reflexivity.
  Qed.

  (** If the name, inserted into the pattern, matches none of the ids that are there, the new id ends with 1, whether it is there or not. *)
  Theorem C36_unmatched_refuted : forall basename suffix dirs, let base := id_base basename suffix in
    (forall i, In i (existing_ids py_int maxsize strip dirs) -> number_of base i = None) -> In base (existing_ids py_int maxsize strip dirs) ->
    create_new_id py_int maxsize strip number_of basename suffix dirs = Ok (base ++ lit "_1").
  Proof.
    intros b s dirs base Hn Hin. unfold create_new_id. fold base. rewrite (proj2 (mem_in _ _) Hin).
    assert (X : forall l, (forall i, In i l -> number_of base i = None) ->
      exists zs, mapM (fun d => extract_number number_of d base) l = Ok zs /\ fold_right N.max 0%N zs = 0%N).
    { intros l. induction l as [|x l IH]; intros H; [exists []; auto|]. destruct IH as (zs & Hz & H0); [intros i Hi; apply H; right; exact Hi|].
      exists (0%N :: zs). split; [|cbn [fold_right]; rewrite H0; reflexivity]. cbn [mapM]. unfold extract_number at 1. rewrite (H x (or_introl eq_refl)), Hz. reflexivity. }
    destruct (X _ Hn) as (zs & -> & H0). cbn [bind]. rewrite H0. reflexivity.
  Qed.
End Ids.
Print Assumptions C36_unfinished_ids_refuted.
Print Assumptions C36_unmatched_refuted.
Example C36_unfinished_ids_example : no_codes ascii_int 5000 (Some (lit "proj"), []) /\
  create_new_id ascii_int 5000 (fun s => s) literal_number (lit "proj") [] [(Some (lit "proj"), []); dir_of "other"] = Ok (lit "proj") /\
  create_new_id ascii_int 5000 (fun s => s) literal_number (lit "proj") [] [dir_of "proj"; dir_of "other"] = Ok (lit "proj_1").
Proof. split; [intros s m []|]. vm_compute. auto. Qed.
Example C36_unmatched_example :
  create_new_id ascii_int 5000 (fun s => s) (fun _ _ => None) (lit "a+b") [] [dir_of "a+b"; dir_of "a+b_1"] = Ok (lit "a+b_1").
Proof. reflexivity. Qed.

(** ** C55: exactly when two lists of extensions mean the same *)
Lemma requested_nil es : es <> [] -> (requested es = [] <-> es = [[]]).
Proof.
  intros H. split; [|intros ->; reflexivity]. destruct es as [|e [|e' es]]; [contradiction| |].
  - unfold requested. cbn [join]. intros ->. reflexivity.
  - unfold requested. cbn [join]. intros E. apply app_eq_nil in E. destruct E as [_ E]. discriminate E.
Qed.
Theorem C55_exact : forall es es', es <> [] -> es' <> [] -> Forall (no_char bar) es -> Forall (no_char bar) es' ->
  (normalize_extension_string (requested es) = normalize_extension_string (requested es') <->
   (forall e, In e es <-> In e es') /\ (es = [[]] <-> es' = [[]])).
Proof.
  intros es es' Hn Hn' Hb Hb'. pose proof (requested_nil es Hn) as R. pose proof (requested_nil es' Hn') as R'.
  destruct (list_eq_dec N.eq_dec (requested es) []) as [E|E]; destruct (list_eq_dec N.eq_dec (requested es') []) as [E'|E'].
  - rewrite E, E'. apply R in E. apply R' in E'. subst es es'. split; [|reflexivity]. intros _. split; [reflexivity|split; reflexivity].
  - rewrite (normalize_requested es' Hn' Hb' E'), E. split; [discriminate|]. intros [_ [H _]]. destruct E'. apply R', H, R, E.
  - rewrite (normalize_requested es Hn Hb E), E'. split; [discriminate|]. intros [_ [_ H]]. destruct E. apply R, H, R', E'.
  - rewrite (normalize_requested es Hn Hb E), (normalize_requested es' Hn' Hb' E'). split.
    + intros [= H]. split.
      * intros e. rewrite <- (sorted_set_in e es), <- (sorted_set_in e es'), H. reflexivity.
      * split; intros X; [destruct E; apply R, X|destruct E'; apply R', X].
    + intros [H _]. f_equal. apply sorted_unique; try apply sorted_set_sorted. intros x. rewrite !sorted_set_in. apply H.
Qed.
Print Assumptions C55_exact.
Example C55_exact_example :
  normalize_extension_string (requested [lit "c"; lit "py"; lit "c"]) = normalize_extension_string (requested [lit "py"; lit "c"]) /\
  normalize_extension_string (requested [lit "c"; lit "py"]) <> normalize_extension_string (requested [lit "c"]) /\
  normalize_extension_string (requested [[]]) <> normalize_extension_string (requested [[]; []]).
Proof. vm_compute. repeat split; try reflexivity; discriminate. Qed.

(** ** C53: removing or adding any file at the top that is not newer than all others goes unnoticed *)
Lemma entries_removed l mt mt' es1 e es2 : (entries (Dir l mt' (es1 ++ es2)) <= entries (Dir l mt (es1 ++ e :: es2)))%nat.
Proof.
  cbn [entries]. induction es1 as [|x es1 IH].
  - cbn [app]. destruct e as [a x]. apply le_S, Nat.le_add_l.
  - cbn [app fold_right]. apply le_n_S, Nat.add_le_mono_l, IH.
Qed.
Theorem C53_removed_refuted : forall clock limit l mt mt' es1 n m es2 p u m',
  let t := Dir l mt (es1 ++ (n, File m) :: es2) in let t' := Dir l mt' (es1 ++ es2) in
  at_real t' p u -> In m' (node_mtime u) -> (m <= m')%N -> (entries t <= limit)%nat ->
  get_timestamp clock limit t = get_timestamp clock limit t'.
Proof.
  intros clock limit l mt mt' es1 n m es2 p u m' t t' Hu Hm' Hle Hlim.
  assert (Hsub : forall q v, at_real t' q v -> at_real t q v).
  { intros q v H. inversion H as [? ? ? ? ? Hi|? ? ? ? ? ? ? ? Hi Hr]; subst.
    - apply real_entry. apply in_app_iff in Hi. apply in_or_app. cbn. tauto.
    - eapply real_below; [|exact Hr]. apply in_app_iff in Hi. apply in_or_app. cbn. tauto. }
  assert (Hsup : forall q v, at_real t q v -> at_real t' q v \/ v = File m).
  { intros q v H. inversion H as [? ? ? ? ? Hi|? ? ? ? ? ? ? ? Hi Hr]; subst.
    - apply in_app_iff in Hi. cbn in Hi. destruct Hi as [Hi|[Hi|Hi]]; [left; apply real_entry, in_or_app; auto|injection Hi as _ <-; auto|left; apply real_entry, in_or_app; auto].
    - left. apply in_app_iff in Hi. cbn in Hi. destruct Hi as [Hi|[Hi|Hi]]; [| discriminate Hi |]; (eapply real_below; [|exact Hr]; apply in_or_app; auto). }
  assert (Hent : (entries t' <= entries t)%nat).
  { apply entries_removed. }
  assert (H0 : limit <> O).
  { intros ->. assert (entries t > 0)%nat; [|lia]. unfold t. cbn [entries]. destruct es1 as [|[a x] es1]; cbn [app fold_right]; lia. }
  assert (Hne : node_mtime u <> []) by (destruct (node_mtime u); [destruct Hm'|discriminate]).
  destruct (C53_stamped clock limit t H0) as [a Ha]; [right; right; exists p, u; split; [apply Hsub, Hu|exact Hne]|].
  destruct (C53_stamped clock limit t' H0) as [a' Ha']; [right; right; exists p, u; split; [exact Hu|exact Hne]|].
  destruct (C53_latest clock limit t a Hlim Ha) as (x & -> & Hx & Hxmax).
  destruct (C53_latest clock limit t' a' (Nat.le_trans _ _ _ Hent Hlim) Ha') as (x' & -> & Hx' & Hxmax').
  rewrite Ha, Ha'. do 3 f_equal.
  assert (Hx2 : exists q v, at_real t q v /\ In x (node_mtime v)).
  { destruct Hx as [Hx|[Hx|[l' Hx]]]; [exact Hx|discriminate Hx|]. unfold t in Hx. injection Hx as _ _ Hx. destruct es1; discriminate Hx. }
  assert (Hx2' : exists q v, at_real t' q v /\ In x' (node_mtime v)).
  { destruct Hx' as [Hx'|[Hx'|[l' Hx']]]; [exact Hx'|discriminate Hx'|]. rewrite Hx' in Hu. inversion Hu as [? ? ? ? ? Hi|? ? ? ? ? ? ? ? Hi Hr]; destruct Hi. }
  destruct Hx2 as (q & v & Hq & Hv). destruct Hx2' as (q' & v' & Hq' & Hv').
  apply N.le_antisymm.
  - destruct (Hsup q v Hq) as [Hr| ->]; [exact (Hxmax' q v x Hr Hv)|]. destruct Hv as [<-|[]].
    exact (N.le_trans _ _ _ Hle (Hxmax' p u m' Hu Hm')).
  - exact (Hxmax q' v' x' (Hsub q' v' Hq') Hv').
Qed.
Print Assumptions C53_removed_refuted.
Example C53_removed_example : forall clock,
  get_timestamp clock 1000 (Dir false 300 [(lit "a", File 5); (lit "b", File 90); (lit "d", Dir false 100 [(lit "c", File 70)])])
  = get_timestamp clock 1000 (Dir false 200 [(lit "a", File 5); (lit "d", Dir false 100 [(lit "c", File 70)])]).
Proof. reflexivity. Qed.

(** ** C59: once codes are loaded, calls without reinitialization use them, whatever codes they ask for *)
Section Codes.
  Variable parse : str -> option str -> res (list token).
  Variable repr : params -> list token -> globals -> res (list str * meta) * globals.
  Variable dk : disk.

  Definition with_id (id : str) (c : call) : call :=
    {| c_text := c_text c; c_ext := c_ext c; c_config := c_config c; c_id := Some id; c_force := c_force c; c_eof := c_eof c |}.

  Theorem C59_ignored_refuted : forall o c id id', c_force c = false ->
    (id <> [] /\ (is_predefined_id id = true \/ exists i, from_id dk id = Ok i)) ->
    (id' <> [] /\ (is_predefined_id id' = true \/ exists i, from_id dk id' = Ok i)) ->
    preprocess parse repr dk (Some o) (with_id id c) = preprocess parse repr dk (Some o) (with_id id' c).
  Proof.
    intros o c id id' Hf [Hn H] [Hn' H'].
    assert (X : forall j, j <> [] -> (is_predefined_id j = true \/ exists i, from_id dk j = Ok i) ->
      exists cu, (if is_predefined_id j then Ok None else bind (from_id dk j) (fun i => Ok (Some i))) = Ok cu).
    { intros j _ [->|[i ->]]; [eauto|]. destruct (is_predefined_id j); cbn; eauto. }
    destruct (X id Hn H) as [cu E]. destruct (X id' Hn' H') as [cu' E'].
    unfold preprocess, with_id. cbn [c_text c_ext c_config c_id c_force c_eof]. rewrite E, E', Hf.
    destruct id as [|a id]; [contradiction|]. destruct id' as [|a' id']; [contradiction|]. reflexivity.
  Qed.
End Codes.
Print Assumptions C59_ignored_refuted.
Example C59_ignored_example :
  tokens_of (preprocess_ex (after_ex None [call_ex "abc" "a-1" true]) (call_ex "abc" "c-1" false)) = Ok [lit "ab"; lit "c"; lit "</t>"] /\
  tokens_of (preprocess_ex None (call_ex "abc" "c-1" false)) = Ok [lit "a"; lit "bc"; lit "</t>"].
Proof. vm_compute. auto. Qed.
