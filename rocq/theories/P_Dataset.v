(** C41, C51, C55, C56: names of directories and files, extension filters, saved file lists. *)
From Verif Require Import M_Base L_Base M_Literal L_Literal M_PrepConfig P_PrepConfig M_Registry P_Registry M_Dataset.
From Coq Require Import Lia Sorted.

(** ** C55: extension filters *)
Lemma str_leb_total a b : str_leb a b = true \/ str_leb b a = true.
Proof.
  revert b. induction a as [|x a IH]; intros [|y b]; simpl; auto.
  rewrite (N.eqb_sym y x). destruct (N.eqb_spec x y) as [->|Hn]; [apply IH|].
  rewrite !N.ltb_lt. lia.
Qed.
Lemma str_leb_trans a b c : str_leb a b = true -> str_leb b c = true -> str_leb a c = true.
Proof.
  revert b c. induction a as [|x a IH]; intros [|y b] [|z c]; simpl; auto; try discriminate.
  destruct (N.eqb_spec x y) as [->|Hn]; destruct (N.eqb_spec y z) as [->|Hm].
  - apply IH.
  - auto.
  - intros H _. destruct (N.eqb_spec x z); [contradiction|exact H].
  - rewrite !N.ltb_lt. intros H1 H2. destruct (N.eqb_spec x z) as [->|]; [lia|]. apply N.ltb_lt. lia.
Qed.
Lemma str_leb_antisym a b : str_leb a b = true -> str_leb b a = true -> a = b.
Proof.
  revert b. induction a as [|x a IH]; intros [|y b]; simpl; auto; try discriminate.
  rewrite (N.eqb_sym y x). destruct (N.eqb_spec x y) as [->|Hn].
  - intros H1 H2. f_equal. auto.
  - rewrite !N.ltb_lt. lia.
Qed.

(** strictly increasing *)
Definition str_lt (a b : str) : Prop := str_leb a b = true /\ a <> b.
Lemma str_lt_trans a b c : str_lt a b -> str_lt b c -> str_lt a c.
Proof.
  intros [H1 N1] [H2 N2]. split; [eapply str_leb_trans; eauto|]. intros ->. apply N1. apply str_leb_antisym; auto.
Qed.

Lemma insert_unique_in x y l : In y (insert_unique x l) <-> y = x \/ In y l.
Proof.
  induction l as [|z l IH]; cbn [insert_unique].
  - simpl. intuition.
  - destruct (eqb_spec x z) as [->|Hn]; [simpl; intuition|].
    destruct (str_leb x z); simpl; rewrite ?IH; intuition.
Qed.
Lemma insert_unique_sorted x l : StronglySorted str_lt l -> StronglySorted str_lt (insert_unique x l).
Proof.
  induction 1 as [|z l Hs IH Hf]; cbn [insert_unique]; [repeat constructor|].
  destruct (eqb_spec x z) as [->|Hn]; [constructor; assumption|].
  destruct (str_leb x z) eqn:E.
  - assert (Hlt : str_lt x z) by (split; assumption).
    constructor; [constructor; assumption|]. constructor; [exact Hlt|].
    eapply Forall_impl; [|exact Hf]. intros a Ha. eapply str_lt_trans; eauto.
  - constructor; [exact IH|]. apply Forall_forall. intros a Ha. apply insert_unique_in in Ha.
    destruct Ha as [->|Ha]; [|rewrite Forall_forall in Hf; auto].
    destruct (str_leb_total x z) as [H|H]; [congruence|]. split; [exact H|congruence].
Qed.
Lemma sorted_set_in y l : In y (sorted_set l) <-> In y l.
Proof.
  induction l as [|x l IH]; [reflexivity|]. cbn [sorted_set fold_right]. rewrite insert_unique_in.
  change (fold_right insert_unique [] l) with (sorted_set l). rewrite IH. simpl. intuition.
Qed.
Lemma sorted_set_sorted l : StronglySorted str_lt (sorted_set l).
Proof. induction l as [|x l IH]; [constructor|]. apply insert_unique_sorted. exact IH. Qed.

Lemma sorted_unique l1 l2 : StronglySorted str_lt l1 -> StronglySorted str_lt l2 ->
  (forall x, In x l1 <-> In x l2) -> l1 = l2.
Proof.
  intros H1. revert l2. induction H1 as [|a l1 Hs IH Hf]; intros l2 H2 E.
  - destruct l2 as [|b l2]; [reflexivity|]. destruct (proj2 (E b)). left. reflexivity.
  - destruct H2 as [|b l2 Hs2 Hf2]; [destruct (proj1 (E a)); left; reflexivity|].
    rewrite Forall_forall in Hf, Hf2.
    assert (Eab : a = b).
    { destruct (proj1 (E a) (or_introl eq_refl)) as [->|Ha]; [reflexivity|].
      destruct (proj2 (E b) (or_introl eq_refl)) as [->|Hb]; [reflexivity|].
      destruct (Hf _ Hb) as [L1 N1]. destruct (Hf2 _ Ha) as [L2 N2]. apply str_leb_antisym; assumption. }
    subst b. f_equal. apply IH; [exact Hs2|]. intros x. split; intros Hx.
    + destruct (proj1 (E x) (or_intror Hx)) as [->|H]; [|exact H]. destruct (Hf _ Hx) as [_ N]. congruence.
    + destruct (proj2 (E x) (or_intror Hx)) as [->|H]; [|exact H]. destruct (Hf2 _ Hx) as [_ N]. congruence.
Qed.

(** The requested extensions, joined with bars as the user writes them *)
Definition requested (es : list str) : str := join [bar] es.

Lemma normalize_requested es : es <> [] -> Forall (no_char bar) es -> requested es <> [] ->
  normalize_extension_string (requested es) = Some (sorted_set es).
Proof.
  intros Hn Hb Hr. unfold normalize_extension_string.
  destruct (eqb_spec (requested es) []) as [E|_]; [contradiction|].
  unfold requested. rewrite split_join by assumption. reflexivity.
Qed.

(** Order and repetition do not matter. *)
Theorem C55_canonical es es' :
  Forall (no_char bar) es -> Forall (no_char bar) es' -> requested es <> [] -> requested es' <> [] ->
  (forall e, In e es <-> In e es') ->
  normalize_extension_string (requested es) = normalize_extension_string (requested es').
Proof.
  intros Hb Hb' Hr Hr' E.
  assert (Hn : es <> []) by (intros ->; apply Hr; reflexivity).
  assert (Hn' : es' <> []) by (intros ->; apply Hr'; reflexivity).
  rewrite !normalize_requested by assumption. f_equal.
  apply sorted_unique; try apply sorted_set_sorted. intros x. rewrite !sorted_set_in. apply E.
Qed.
Print Assumptions C55_canonical.

Example C55_canonical_ex :
  normalize_extension_string (lit "java|c|java|py") = normalize_extension_string (lit "py|java|c")
  /\ normalize_extension_string (lit "java|c|java|py") = Some [lit "c"; lit "java"; lit "py"].
Proof. vm_compute. auto. Qed.

(** A name passes the filter exactly if it ends with a dot and a requested extension. *)
Theorem C55_selected es name :
  Forall (no_char bar) es -> requested es <> [] ->
  exists l, normalize_extension_string (requested es) = Some l /\
    (has_one_of_extensions name l = true <-> exists e stem, In e es /\ name = stem ++ lit "." ++ e).
Proof.
  intros Hb Hr. assert (Hn : es <> []) by (intros ->; apply Hr; reflexivity).
  rewrite normalize_requested by assumption. eexists. split; [reflexivity|].
  unfold has_one_of_extensions. rewrite existsb_exists. split.
  - intros (e & He & H). apply (proj1 (sorted_set_in _ _)) in He. apply ends_with_spec in H. destruct H as [p ->]. exists e, p. auto.
  - intros (e & p & He & ->). exists e. split; [apply sorted_set_in; exact He|]. apply ends_with_spec. eauto.
Qed.
Print Assumptions C55_selected.

(** The string with the empty extension alone means no filter; written twice it is a filter. *)
Theorem C55_empty_refuted :
  exists es es', (forall e, In e es <-> In e es') /\ Forall (no_char bar) es /\ Forall (no_char bar) es' /\
    normalize_extension_string (requested es) <> normalize_extension_string (requested es').
Proof.
  exists [[]], [[]; []]. split; [simpl; intuition|]. split; [repeat constructor; intros []|].
  split; [repeat constructor; intros []|]. vm_compute. discriminate.
Qed.
Print Assumptions C55_empty_refuted.

(** *** Scanning *)
Inductive at_path : node -> list str -> node -> Prop :=
| at_here t : at_path t [] t
| at_entry l m es n t p u : In (n, t) es -> at_path t p u -> at_path (Dir l m es) (n :: p) u.

Section NodeInd.
  Variable P : node -> Prop.
  Hypothesis Hfile : forall m, P (File m).
  Hypothesis Hlink : P Link.
  Hypothesis Hdir : forall l m es, (forall n t, In (n, t) es -> P t) -> P (Dir l m es).
  Fixpoint node_ind2 (t : node) : P t :=
    match t with
    | File m => Hfile m
    | Link => Hlink
    | Dir l m es =>
        Hdir l m es ((fix go (es : list (str * node)) : forall n t, In (n, t) es -> P t :=
          match es return forall n t, In (n, t) es -> P t with
          | [] => fun n t H => match H with end
          | e :: es' => fun n t H =>
              match H with
              | or_introl E => eq_ind (snd e) P (node_ind2 (snd e)) t (f_equal snd E)
              | or_intror H' => go es' n t H'
              end
          end) es)
    end.
End NodeInd.

Lemma at_path_dir_inv l m es p u : at_path (Dir l m es) p u ->
  (p = [] /\ u = Dir l m es) \/ exists n t p', p = n :: p' /\ In (n, t) es /\ at_path t p' u.
Proof. intros H. inversion H; subst; [left; auto|right; eauto 8]. Qed.

Lemma walk_spec t root root' es :
  In (root', es) (walk true root t) <-> exists p l m, root' = root ++ p /\ at_path t p (Dir l m es).
Proof.
  revert root. induction t as [mt| |l m es0 IH] using node_ind2; intros root.
  - cbn [walk]. split; [intros []|]. intros (p & l & m & _ & H). inversion H.
  - cbn [walk]. split; [intros []|]. intros (p & l & m & _ & H). inversion H.
  - cbn [walk]. cbn [In]. rewrite in_flat_map. split.
    + intros [E|((n, t') & Hin & H)].
      * injection E as <- <-. exists [], l, m. rewrite app_nil_r. split; [reflexivity|constructor].
      * destruct t' as [| |l' m' es']; [destruct H|destruct H|]. cbn [orb] in H.
        apply (IH n _ Hin) in H. destruct H as (p & l2 & m2 & -> & H).
        exists (n :: p), l2, m2. split; [rewrite <- app_assoc; reflexivity|]. econstructor; eauto.
    + intros (p & l2 & m2 & -> & H). apply at_path_dir_inv in H.
      destruct H as [[-> E]|(n & t' & p' & -> & Hin & H)].
      * injection E as <- <- <-. left. rewrite app_nil_r. reflexivity.
      * right. exists (n, t'). split; [exact Hin|]. destruct t' as [mt| |l' m' es']; [inversion H|inversion H|].
        cbn [orb]. apply (IH n _ Hin). exists p', l2, m2. split; [rewrite <- app_assoc; reflexivity|exact H].
Qed.

(** names in a real directory *)
Definition valid_name (n : str) : Prop := n <> [] /\ no_char slash n /\ n <> lit "." /\ n <> lit "..".
Inductive wf : node -> Prop :=
| wf_file m : wf (File m)
| wf_link : wf Link
| wf_dir l m es : NoDup (map fst es) -> (forall n t, In (n, t) es -> valid_name n /\ wf t) -> wf (Dir l m es).

Lemma wf_dir_inv l m es : wf (Dir l m es) -> NoDup (map fst es) /\ forall n t, In (n, t) es -> valid_name n /\ wf t.
Proof. intros H. inversion H; auto. Qed.

Lemma wf_at t p u : wf t -> at_path t p u -> wf u /\ Forall valid_name p.
Proof.
  intros Hw H. revert Hw. induction H as [t|l m es n t p u Hin H IH]; intros Hw; [auto|].
  apply wf_dir_inv in Hw. destruct Hw as [_ Hw]. destruct (Hw _ _ Hin) as [Hn Ht].
  destruct (IH Ht) as [Hu Hp]. auto.
Qed.

Lemma in_fst_unique {B} (es : list (str * B)) (n : str) t t' :
  NoDup (map fst es) -> In (n, t) es -> In (n, t') es -> t = t'.
Proof.
  induction es as [|[m s] es IH]; intros Hd H H'; [destruct H|]. inversion Hd as [|? ? Hx Hd']; subst.
  assert (Hk : forall u, In (n, u) es -> In n (map fst es)).
  { intros u Hu. apply in_map_iff. exists (n, u). auto. }
  destruct H as [E|H]; destruct H' as [E'|H'].
  - congruence.
  - injection E as -> ->. destruct Hx. eapply Hk; eauto.
  - injection E' as -> ->. destruct Hx. eapply Hk; eauto.
  - auto.
Qed.

Lemma at_path_fun t p u u' : wf t -> at_path t p u -> at_path t p u' -> u = u'.
Proof.
  intros Hw H. revert u' Hw. induction H as [t|l m es n t p u Hin H IH]; intros u' Hw H'.
  - inversion H'. reflexivity.
  - apply at_path_dir_inv in H'. destruct H' as [[E _]|(n' & t' & p' & E & Hin' & H')]; [discriminate|].
    injection E as <- <-. apply wf_dir_inv in Hw. destruct Hw as [Hd Hw].
    pose proof (in_fst_unique _ _ _ _ Hd Hin Hin') as <-. apply IH; [apply (Hw _ _ Hin)|assumption].
Qed.

(** the name written for the file with components [p ++ [n]] *)
Definition rel_name (p : list str) (n : str) : str := rel_root p ++ slash :: n.

Lemma starts_slash_name n : valid_name n -> starts_with [slash] n = false.
Proof.
  intros (Hne & Hs & _). destruct n as [|c n]; [contradiction|]. cbn [starts_with].
  destruct (N.eqb_spec slash c) as [<-|]; [|reflexivity]. exfalso. apply Hs. left. reflexivity.
Qed.

Lemma no_char_app c a b : no_char c (a ++ b) <-> no_char c a /\ no_char c b.
Proof. unfold no_char. rewrite in_app_iff. tauto. Qed.

Lemma rel_root_ok p : Forall valid_name p -> rel_root p <> [] /\ ends_with [slash] (rel_root p) = false.
Proof.
  intros Hp. unfold rel_root. destruct p as [|a p]; [split; [discriminate|reflexivity]|].
  assert (Hx : exists q x, a :: p = q ++ [x]) by (destruct (exists_last (l := a :: p)) as (q & x & E); [discriminate|eauto]).
  destruct Hx as (q & x & E). rewrite E in *. apply Forall_app in Hp. destruct Hp as [_ Hx].
  inversion Hx as [|? ? Hv _]; subst. destruct Hv as (Hne & Hs & _).
  assert (J : exists b, join [slash] (q ++ [x]) = b ++ x).
  { destruct q as [|y q]; [exists []; reflexivity|]. rewrite join_app by discriminate.
    exists (join [slash] (y :: q) ++ [slash]). rewrite <- app_assoc. reflexivity. }
  destruct J as [b J]. rewrite J. split; [intros H; apply app_eq_nil in H; tauto|].
  unfold ends_with. rewrite rev_app_distr. cbn [rev app starts_with].
  destruct (rev x) as [|c r] eqn:R; [apply (f_equal (@rev N)) in R; rewrite rev_involutive in R; contradiction|].
  cbn [app]. destruct (N.eqb_spec slash c) as [<-|]; [|reflexivity]. exfalso. apply Hs. apply in_rev. rewrite R. left. reflexivity.
Qed.

Lemma path_join_plain (a b : str) : a <> [] -> ends_with [slash] a = false -> starts_with [slash] b = false ->
  path_join a b = a ++ slash :: b.
Proof.
  intros Ha He Hb. unfold path_join. rewrite Hb, He. destruct (eqb_spec a []) as [E|_]; [contradiction|]. reflexivity.
Qed.

Lemma path_join_rel p n : Forall valid_name p -> valid_name n -> path_join (rel_root p) n = rel_name p n.
Proof.
  intros Hp Hn. destruct (rel_root_ok p Hp) as [H1 H2]. apply path_join_plain; auto using starts_slash_name.
Qed.

(** Exactly the regular files of the tree whose name has one of the extensions are listed, links to files are
    left out. *)
Theorem C55_scan path l m es exts name : wf (Dir l m es) ->
  In name (scan_files path (Dir l m es) exts) <->
  exists p n mt, at_path (Dir l m es) (p ++ [n]) (File mt) /\ name = rel_name p n /\
    match exts with
    | Some (x :: xs) => exists e stem, In e (x :: xs) /\ name = stem ++ lit "." ++ e
    | _ => True
    end.
Proof.
  intros Hw. unfold scan_files. rewrite in_flat_map. split.
  - intros ((root, es') & Hwalk & H). apply walk_spec in Hwalk. destruct Hwalk as (p & l' & m' & -> & Hat).
    cbn [app fst snd] in H. apply in_map_iff in H. destruct H as ((nm, t) & <- & H).
    apply filter_In in H. destruct H as [H Hf]. apply in_map_iff in H. destruct H as ((n, t') & E & H).
    injection E as <- <-. apply filter_In in H. destruct H as [Hin Hd]. cbn [fst snd] in *.
    apply andb_true_iff in Hf. destruct Hf as [Hx Hl].
    destruct (wf_at _ _ _ Hw Hat) as [Hw' Hp]. apply wf_dir_inv in Hw'. destruct Hw' as [_ Hw'].
    destruct (Hw' _ _ Hin) as [Hn _].
    destruct t' as [mt| |? ? ?]; [|discriminate|discriminate].
    exists p, n, mt. split; [|split].
    + clear - Hat Hin. remember (Dir l' m' es') as d eqn:Ed. revert Ed.
      induction Hat as [t|l0 m0 es0 k t q u Hin' Hat IH]; intros Ed.
      * subst. cbn [app]. econstructor; [exact Hin|constructor].
      * cbn [app]. econstructor; [exact Hin'|]. apply IH. exact Ed.
    + apply path_join_rel; assumption.
    + destruct exts as [[|x xs]|]; auto. unfold has_one_of_extensions in Hx. apply existsb_exists in Hx.
      destruct Hx as (e & He & Hx). apply ends_with_spec in Hx. destruct Hx as [stem Hx]. eauto.
  - intros (p & n & mt & Hat & -> & Hx).
    assert (Hs : exists l' m' es', at_path (Dir l m es) p (Dir l' m' es') /\ In (n, File mt) es').
    { clear - Hat. revert Hat. generalize (Dir l m es) as t. induction p as [|k p IH]; intros t H.
      - cbn [app] in H. destruct t as [| |l' m' es']; [inversion H|inversion H|].
        apply at_path_dir_inv in H. destruct H as [[E _]|(n' & t' & p' & E & Hin' & H)]; [discriminate|].
        injection E as <- <-. inversion H; subst. exists l', m', es'. split; [constructor|assumption].
      - cbn [app] in H. destruct t as [| |l0 m0 es0]; [inversion H|inversion H|].
        apply at_path_dir_inv in H. destruct H as [[E _]|(n' & t' & p' & E & Hin' & H)]; [discriminate|].
        injection E as <- <-. apply IH in H. destruct H as (l' & m' & es' & Ha & Hi).
        exists l', m', es'. split; [econstructor; eassumption|exact Hi]. }
    destruct Hs as (l' & m' & es' & Ha & Hi).
    destruct (wf_at _ _ _ Hw Ha) as [Hw' Hp]. apply wf_dir_inv in Hw'. destruct Hw' as [_ Hw'].
    destruct (Hw' _ _ Hi) as [Hn _].
    exists (p, es'). split; [apply walk_spec; exists p, l', m'; auto|]. cbn [fst snd].
    apply in_map_iff. exists (path_join (rel_root p) n, File mt). split; [apply path_join_rel; assumption|].
    apply filter_In. split.
    + apply in_map_iff. exists (n, File mt). split; [reflexivity|]. apply filter_In. auto.
    + cbn [fst snd is_link negb]. rewrite andb_true_r. destruct exts as [[|x xs]|]; auto.
      destruct Hx as (e & stem & He & Hx). unfold has_one_of_extensions. apply existsb_exists.
      exists e. split; [exact He|]. apply ends_with_spec. exists stem. rewrite path_join_rel by assumption. exact Hx.
Qed.
Print Assumptions C55_scan.

Definition tree_ex : node :=
  Dir false 5 [(lit "A.java", File 1); (lit "l.java", Link);
               (lit "sub", Dir true 2 [(lit "b.py", File 3); (lit "c.java", File 4)])]%N.
Example C55_scan_ex : wf tree_ex /\
  scan_files (lit "/data/x") tree_ex (Some [lit "java"]) = [lit "./A.java"; lit "sub/c.java"].
Proof.
  split; [|vm_compute; reflexivity].
  repeat (constructor; [solve [cbn [map fst]; repeat (constructor; [intros H; simpl in H; intuition discriminate|]); constructor]|]).
  intros n t H. simpl in H.
  repeat (destruct H as [E|H]; [injection E as <- <-; split;
    [repeat split; try discriminate; intros Hin; vm_compute in Hin; intuition discriminate|]|]); try destruct H;
  try constructor.
  - cbn [map fst]; repeat (constructor; [intros H; simpl in H; intuition discriminate|]); constructor.
  - intros n t H. simpl in H.
    repeat (destruct H as [E|H]; [injection E as <- <-; split;
      [repeat split; try discriminate; intros Hin; vm_compute in Hin; intuition discriminate|]|]); try destruct H;
    try constructor.
Qed.

(** The list of directories has exactly the directories below the dataset, also those that are reached through links. *)
Theorem C55_directories l m es name : wf (Dir l m es) ->
  In name (scan_dirs (Dir l m es)) <->
  exists p n l' m' es', at_path (Dir l m es) (p ++ [n]) (Dir l' m' es') /\ name = rel_name p n.
Proof.
  intros Hw. unfold scan_dirs. rewrite in_flat_map. split.
  - intros ((root, es1) & Hwalk & H). apply walk_spec in Hwalk. destruct Hwalk as (p & l1 & m1 & -> & Hat).
    cbn [app fst snd] in H. apply in_map_iff in H. destruct H as ((n, t) & <- & H).
    apply filter_In in H. destruct H as [Hin Hd]. cbn [fst snd] in *.
    destruct (wf_at _ _ _ Hw Hat) as [Hw' Hp]. apply wf_dir_inv in Hw'. destruct Hw' as [_ Hw'].
    destruct (Hw' _ _ Hin) as [Hn _]. destruct t as [| |l' m' es']; [discriminate|discriminate|].
    exists p, n, l', m', es'. split; [|apply path_join_rel; assumption].
    clear - Hat Hin. remember (Dir l1 m1 es1) as d eqn:Ed. revert Ed.
    induction Hat as [t|l0 m0 es0 k t q u Hin' Hat IH]; intros Ed.
    + subst. cbn [app]. econstructor; [exact Hin|constructor].
    + cbn [app]. econstructor; [exact Hin'|]. apply IH. exact Ed.
  - intros (p & n & l' & m' & es' & Hat & ->).
    assert (Hs : exists l1 m1 es1, at_path (Dir l m es) p (Dir l1 m1 es1) /\ In (n, Dir l' m' es') es1).
    { clear - Hat. revert Hat. generalize (Dir l m es) as t. induction p as [|k p IH]; intros t H.
      - cbn [app] in H. destruct t as [| |l1 m1 es1]; [inversion H|inversion H|].
        apply at_path_dir_inv in H. destruct H as [[E _]|(n' & t' & p' & E & Hin' & H)]; [discriminate|].
        injection E as <- <-. inversion H; subst. exists l1, m1, es1. split; [constructor|assumption].
      - cbn [app] in H. destruct t as [| |l0 m0 es0]; [inversion H|inversion H|].
        apply at_path_dir_inv in H. destruct H as [[E _]|(n' & t' & p' & E & Hin' & H)]; [discriminate|].
        injection E as <- <-. apply IH in H. destruct H as (l1 & m1 & es1 & Ha & Hi).
        exists l1, m1, es1. split; [econstructor; eassumption|exact Hi]. }
    destruct Hs as (l1 & m1 & es1 & Ha & Hi).
    destruct (wf_at _ _ _ Hw Ha) as [Hw' Hp]. apply wf_dir_inv in Hw'. destruct Hw' as [_ Hw'].
    destruct (Hw' _ _ Hi) as [Hn _].
    exists (p, es1). split; [apply walk_spec; exists p, l1, m1; auto|]. cbn [fst snd].
    apply in_map_iff. exists (n, Dir l' m' es'). split; [apply path_join_rel; assumption|]. apply filter_In. auto.
Qed.
Print Assumptions C55_directories.
Example C55_directories_ex :
  scan_dirs (Dir false 5 [(lit "A.java", File 1); (lit "sub", Dir true 2 [(lit "b.py", File 3); (lit "in", Dir false 4 [])])])%N
  = [lit "./sub"; lit "sub/in"].
Proof. vm_compute. reflexivity. Qed.

(** ** C56: saved file lists *)
Definition is_bytes (s : str) : Prop := Forall (fun c => (c < 256)%N) s.

Lemma hexval_digit n : (n < 16)%N -> hexval (hexdigit n) = Some n.
Proof.
  intros Hn. unfold hexdigit. destruct (N.ltb_spec n 10) as [H|H]; unfold hexval.
  - destruct (N.leb_spec 48 (48 + n)); [|lia]. destruct (N.leb_spec (48 + n) 57); [|lia]. cbn [andb]. f_equal. lia.
  - destruct (N.leb_spec 48 (87 + n)); [|lia]. destruct (N.leb_spec (87 + n) 57); [lia|]. cbn [andb].
    destruct (N.leb_spec 97 (87 + n)); [|lia]. destruct (N.leb_spec (87 + n) 102); [|lia]. cbn [andb]. f_equal. lia.
Qed.

Lemma beval_char q c rest fuel : (c < 256)%N -> q = 39%N \/ q = 34%N ->
  beval_body q (S fuel) (brepr_char q c ++ rest) = bind (beval_body q fuel rest) (fun r => Ok (c :: r)).
Proof.
  intros Hc Hq. unfold brepr_char. cbn [orb].
  destruct (N.eqb_spec c q) as [E|Ecq]; [|destruct (N.eqb_spec c 92) as [->|E92]].
  - subst c. cbn [orb]. destruct Hq as [->| ->]; reflexivity.
  - cbn [orb]. destruct Hq as [->| ->]; reflexivity.
  - cbn [orb]. destruct (N.eqb_spec c 9) as [->|E9]; [destruct Hq as [->| ->]; reflexivity|].
    destruct (N.eqb_spec c 10) as [->|E10]; [destruct Hq as [->| ->]; reflexivity|].
    destruct (N.eqb_spec c 13) as [->|E13]; [destruct Hq as [->| ->]; reflexivity|].
    destruct (N.ltb_spec c 32) as [Hl|Hl]; destruct (N.leb_spec 127 c) as [Hh|Hh]; cbn [orb]; try lia.
    + assert (A : (c / 16 < 16)%N) by (apply N.div_lt_upper_bound; lia).
      assert (B : (c mod 16 < 16)%N) by (apply N.mod_lt; lia).
      cbn [app beval_body]. destruct (N.eqb_spec 92 q) as [E|_]; [destruct Hq; subst; discriminate|].
      cbn [N.eqb Pos.eqb]. rewrite !hexval_digit by assumption.
      destruct (beval_body q fuel rest) as [r|e]; [|reflexivity]. cbn [bind]. do 2 f_equal.
      symmetry. apply N.div_mod. lia.
    + assert (A : (c / 16 < 16)%N) by (apply N.div_lt_upper_bound; lia).
      assert (B : (c mod 16 < 16)%N) by (apply N.mod_lt; lia).
      cbn [app beval_body]. destruct (N.eqb_spec 92 q) as [E|_]; [destruct Hq; subst; discriminate|].
      cbn [N.eqb Pos.eqb]. rewrite !hexval_digit by assumption.
      destruct (beval_body q fuel rest) as [r|e]; [|reflexivity]. cbn [bind]. do 2 f_equal.
      symmetry. apply N.div_mod. lia.
    + cbn [app beval_body]. destruct (N.eqb_spec c q) as [E|_]; [contradiction|].
      destruct (N.eqb_spec c 92) as [E|_]; [contradiction|].
      destruct (N.leb_spec 128 c) as [E|_]; [lia|]. destruct (N.eqb_spec c 10) as [E|_]; [contradiction|]. reflexivity.
Qed.

Lemma brepr_char_nonempty q c : 1 <= length (brepr_char q c).
Proof.
  unfold brepr_char. destruct (_ || _); [simpl; lia|]. destruct (c =? 9)%N; [simpl; lia|].
  destruct (c =? 10)%N; [simpl; lia|]. destruct (c =? 13)%N; [simpl; lia|]. destruct (_ || _); simpl; lia.
Qed.

Lemma beval_flat q b fuel : is_bytes b -> q = 39%N \/ q = 34%N -> length b < fuel ->
  beval_body q fuel (flat_map (brepr_char q) b ++ [q]) = Ok b.
Proof.
  intros Hb Hq. revert fuel. induction Hb as [|c b Hc Hb IH]; intros fuel Hf.
  - destruct fuel as [|fuel]; [simpl in Hf; lia|]. cbn [flat_map app beval_body]. rewrite N.eqb_refl. reflexivity.
  - destruct fuel as [|fuel]; [simpl in Hf; lia|]. cbn [flat_map]. rewrite <- app_assoc, beval_char by assumption.
    rewrite IH; [reflexivity|]. simpl in Hf. lia.
Qed.

Lemma bquote_cases b : bquote b = 39%N \/ bquote b = 34%N.
Proof. unfold bquote. destruct (_ && _); auto. Qed.

Lemma beval_brepr b : is_bytes b -> beval (brepr b) = Ok b.
Proof.
  intros Hb. unfold brepr, beval. pose proof (bquote_cases b) as Hq.
  replace (N.eqb 98 98 && (N.eqb (bquote b) 39 || N.eqb (bquote b) 34)) with true
    by (destruct Hq as [-> | ->]; reflexivity).
  apply beval_flat; [exact Hb|exact Hq|]. rewrite app_length.
  assert (length b <= length (flat_map (brepr_char (bquote b)) b)); [|simpl; lia].
  generalize (bquote b). intros q. clear. induction b as [|c b IH]; [simpl; lia|].
  cbn [flat_map]. rewrite app_length. pose proof (brepr_char_nonempty q c). simpl. lia.
Qed.

Lemma hexdigit_range n : (n < 16)%N -> (48 <= hexdigit n <= 102)%N.
Proof. intros Hn. unfold hexdigit. destruct (N.ltb_spec n 10); lia. Qed.

Lemma brepr_printable b : is_bytes b -> Forall (fun c => (32 <= c < 127)%N) (brepr b).
Proof.
  intros Hb. unfold brepr. pose proof (bquote_cases b) as Hq.
  assert (Hq' : (32 <= bquote b < 127)%N) by lia.
  constructor; [lia|]. constructor; [exact Hq'|]. apply Forall_app. split; [|constructor; [exact Hq'|constructor]].
  generalize dependent (bquote b). intros q Hq Hq'. induction Hb as [|c b Hc Hb IH]; [constructor|].
  cbn [flat_map]. apply Forall_app. split; [|exact IH]. unfold brepr_char.
  destruct (N.eqb_spec c q) as [->|E]; [repeat (apply Forall_cons; [lia|]); apply Forall_nil|].
  destruct (N.eqb_spec c 92) as [->|E']; [repeat (apply Forall_cons; [lia|]); apply Forall_nil|]. cbn [orb].
  destruct (N.eqb_spec c 9); [repeat (apply Forall_cons; [lia|]); apply Forall_nil|]. destruct (N.eqb_spec c 10); [repeat (apply Forall_cons; [lia|]); apply Forall_nil|].
  destruct (N.eqb_spec c 13); [repeat (apply Forall_cons; [lia|]); apply Forall_nil|].
  destruct (N.ltb_spec c 32) as [Hl|Hl]; destruct (N.leb_spec 127 c) as [Hh|Hh]; cbn [orb]; try lia;
    try (assert (A : (c / 16 < 16)%N) by (apply N.div_lt_upper_bound; lia);
         assert (B : (c mod 16 < 16)%N) by (apply N.mod_lt; lia);
         pose proof (hexdigit_range _ A); pose proof (hexdigit_range _ B)); repeat (apply Forall_cons; [lia|]); apply Forall_nil.
Qed.

(** Whatever bytes the names consist of, newlines and quotes included *)
Theorem C56_round_trip names : Forall is_bytes names -> read_list (save_list names) = Ok names.
Proof.
  intros Hn. unfold read_list, save_list.
  assert (Hp : forall c, (c < 32)%N -> Forall (no_char c) (map brepr names)).
  { intros c Hc. apply Forall_map. eapply Forall_impl; [|exact Hn]. intros b Hb Hin.
    pose proof (brepr_printable b Hb) as HF. rewrite Forall_forall in HF. apply HF in Hin. lia. }
  rewrite file_lines_write by (apply Hp; lia).
  induction Hn as [|b names Hb Hn IH]; [reflexivity|].
  cbn [map mapM]. rewrite beval_brepr by exact Hb. cbn [bind]. rewrite IH; [reflexivity|].
  intros c Hc. specialize (Hp c Hc). cbn [map] in Hp. inversion Hp; assumption.
Qed.
Print Assumptions C56_round_trip.

Example C56_round_trip_ex :
  let names := [[46; 47; 39; 34; 92; 10; 255; 98]; lit "./it's"]%N in
  Forall is_bytes names
  /\ save_list names = lit "b'./\'""\\\n\xffb'" ++ [10%N] ++ lit "b""./it's""" ++ [10%N]
  /\ read_list (save_list names) = Ok names.
Proof. split; [repeat constructor|]. split; vm_compute; reflexivity. Qed.

(** ** C51: output files *)
Lemma norm_app acc a b : norm acc (a ++ b) = norm (norm acc a) b.
Proof.
  revert acc. induction a as [|x a IH]; intros acc; [reflexivity|]. cbn [app norm].
  destruct (eqb x [] || eqb x (lit ".")); [apply IH|]. destruct (eqb x (lit "..")); apply IH.
Qed.
Lemma norm_valid acc p : Forall valid_name p -> norm acc p = acc ++ p.
Proof.
  intros Hp. revert acc. induction Hp as [|x p (Hne & _ & H1 & H2) Hp IH]; intros acc; [symmetry; apply app_nil_r|].
  cbn [norm]. rewrite (proj2 (eqb_neq x []) Hne), (proj2 (eqb_neq x (lit ".")) H1), (proj2 (eqb_neq x (lit "..")) H2).
  cbn [orb]. rewrite IH, <- app_assoc. reflexivity.
Qed.

Lemma split_on_app_slash a b : split_on slash (a ++ slash :: b) = split_on slash a ++ split_on slash b.
Proof. apply split_on_app_sep. Qed.

Lemma starts_slash_app a b : a <> [] -> starts_with [slash] (a ++ b) = starts_with [slash] a.
Proof. destruct a as [|c a]; [contradiction|]. reflexivity. Qed.

Lemma ends_slash a : ends_with [slash] a = true -> exists a', a = a' ++ [slash].
Proof. intros H. apply ends_with_spec in H. exact H. Qed.

Lemma abs_parts_join cwd (base b : str) : starts_with [slash] b = false ->
  abs_parts cwd (path_join base b) = norm (abs_parts cwd base) (split_on slash b).
Proof.
  intros Hb. unfold path_join. rewrite Hb.
  destruct (eqb_spec base []) as [->|Hne]; cbn [orb].
  - cbn [app]. unfold abs_parts. rewrite Hb. reflexivity.
  - destruct (ends_with [slash] base) eqn:E.
    + destruct (ends_slash _ E) as [a' ->]. unfold abs_parts. rewrite starts_slash_app by exact Hne.
      rewrite <- app_assoc. cbn [app]. rewrite !split_on_app_slash, !norm_app. reflexivity.
    + unfold abs_parts. rewrite starts_slash_app by exact Hne. rewrite split_on_app_slash, norm_app. reflexivity.
Qed.

Lemma valid_name_suffix n suf : valid_name n -> no_char slash suf -> suf = [] \/ 2 < length suf -> valid_name (n ++ suf).
Proof.
  intros (H1 & H2 & H3 & H4) Hs [->|Hl]; [rewrite app_nil_r; repeat split; assumption|].
  repeat split.
  - intros E. apply app_eq_nil in E. tauto.
  - apply no_char_app. auto.
  - intros E. apply (f_equal (@length N)) in E. rewrite app_length in E. simpl in E. lia.
  - intros E. apply (f_equal (@length N)) in E. rewrite app_length in E. simpl in E. lia.
Qed.

Lemma valid_no_slash p : Forall valid_name p -> Forall (no_char slash) p.
Proof. apply Forall_impl. intros n (_ & H & _). exact H. Qed.

Lemma split_rel p n : Forall valid_name p -> valid_name n ->
  norm [] (split_on slash (rel_name p n)) = p ++ [n].
Proof.
  intros Hp Hn. unfold rel_name. rewrite split_on_app_slash, norm_app.
  rewrite (split_on_no_char slash n) by apply Hn.
  assert (E : norm [] (split_on slash (rel_root p)) = p).
  { unfold rel_root. destruct p as [|x p]; [reflexivity|].
    rewrite split_join by (discriminate || (apply valid_no_slash; exact Hp)).
    apply (norm_valid [] _ Hp). }
  rewrite E. apply norm_valid. repeat constructor; apply Hn.
Qed.

Lemma norm_rel acc p n : Forall valid_name p -> valid_name n ->
  norm acc (split_on slash (rel_name p n)) = acc ++ p ++ [n].
Proof.
  intros Hp Hn. unfold rel_name. rewrite split_on_app_slash, norm_app.
  rewrite (split_on_no_char slash n) by apply Hn.
  assert (E : norm acc (split_on slash (rel_root p)) = acc ++ p).
  { unfold rel_root. destruct p as [|x p]; [cbn; rewrite app_nil_r; reflexivity|].
    rewrite split_join by (discriminate || (apply valid_no_slash; exact Hp)).
    apply (norm_valid acc _ Hp). }
  rewrite E, app_assoc. apply norm_valid. repeat constructor; apply Hn.
Qed.

Lemma drop_common_app (a b : list str) : drop_common (a ++ b) a = (b, []).
Proof.
  induction a as [|x a IH]; [destruct b; reflexivity|]. cbn [app drop_common]. rewrite eqb_refl. exact IH.
Qed.

Lemma join_last p n suf : join [slash] (p ++ [n ++ suf]) = join [slash] (p ++ [n]) ++ suf.
Proof.
  destruct p as [|x p]; [reflexivity|]. rewrite !join_app by discriminate. rewrite <- !app_assoc. reflexivity.
Qed.

Lemma join_slash_not_dot p n : Forall valid_name p -> valid_name n -> join [slash] (p ++ [n]) <> lit ".".
Proof.
  intros Hp Hn E. pose proof (split_join slash (p ++ [n])) as H. rewrite E in H.
  assert (H' : [lit "."] = p ++ [n]).
  { rewrite <- H; [reflexivity| |].
    - intros X. apply app_eq_nil in X. destruct X; discriminate.
    - apply valid_no_slash. apply Forall_app. split; [exact Hp|]. repeat constructor; apply Hn. }
  change [lit "."] with ([] ++ [lit "."]) in H'. apply app_inj_tail in H'. destruct H' as [_ <-]. destruct Hn as (_ & _ & Hn & _).
  apply Hn. reflexivity.
Qed.

Lemma rel_name_start p n suf : Forall valid_name p -> starts_with [slash] (rel_name p n ++ suf) = false.
Proof.
  intros Hp. unfold rel_name. destruct p as [|x p]; [reflexivity|].
  inversion Hp as [|? ? Hx Hp']; subst. pose proof (starts_slash_name x Hx) as Hs. destruct Hx as (Hne & _).
  unfold rel_root. destruct p as [|y p].
  - cbn [join]. rewrite <- app_assoc, starts_slash_app; assumption.
  - rewrite join_cons by discriminate. rewrite <- !app_assoc, starts_slash_app; assumption.
Qed.

Lemma join_start p n suf : Forall valid_name p -> valid_name n -> starts_with [slash] (join [slash] (p ++ [n]) ++ suf) = false.
Proof.
  intros Hp Hn. destruct p as [|x p].
  - cbn [app join]. pose proof (starts_slash_name n Hn). destruct Hn as (Hne & _). rewrite starts_slash_app; assumption.
  - inversion Hp as [|? ? Hx Hp']; subst. pose proof (starts_slash_name x Hx) as Hs. destruct Hx as (Hne & _).
    cbn [app]. rewrite join_cons by (intros E; apply app_eq_nil in E; destruct E; discriminate).
    rewrite <- !app_assoc, starts_slash_app; assumption.
Qed.

Definition plain_suffix (suf : str) : Prop := no_char slash suf /\ (suf = [] \/ 2 < length suf).
Lemma plain_parsed : plain_suffix parsed_suffix.
Proof. split; [intros H; vm_compute in H; intuition discriminate|right; vm_compute; lia]. Qed.
Lemma plain_prep : plain_suffix prep_suffix.
Proof. split; [intros H; vm_compute in H; intuition discriminate|right; vm_compute; lia]. Qed.
Lemma plain_original : plain_suffix original_suffix.
Proof. split; [intros []|left; reflexivity]. Qed.

Lemma relpath_below cwd (q base : str) (r : list str) : abs_parts cwd q = abs_parts cwd base ++ r -> r <> [] ->
  relpath cwd q base = join [slash] r.
Proof.
  intros E Hr. unfold relpath. rewrite E, drop_common_app. cbn [map app]. destruct r; [contradiction|reflexivity].
Qed.

Lemma chop_app (s suf : str) : chop (s ++ suf) suf = s.
Proof.
  unfold chop. rewrite app_length. replace (length s + length suf - length suf) with (length s + 0) by lia.
  rewrite firstn_app_2. apply app_nil_r.
Qed.

(** [b] names the file with components [p ++ [n]] *)
Definition names (b : str) (p : list str) (n : str) : Prop := b = rel_name p n \/ (p = [] /\ b = n).

Lemma names_start b p n suf : names b p n -> Forall valid_name p -> valid_name n -> starts_with [slash] (b ++ suf) = false.
Proof.
  intros [->|[-> ->]] Hp Hn; [apply rel_name_start; exact Hp|].
  rewrite starts_slash_app by apply Hn. apply starts_slash_name. exact Hn.
Qed.
Lemma names_norm b p n suf acc : names b p n -> Forall valid_name p -> valid_name (n ++ suf) ->
  norm acc (split_on slash (b ++ suf)) = acc ++ p ++ [n ++ suf].
Proof.
  intros [->|[-> ->]] Hp Hn.
  - replace (rel_name p n ++ suf) with (rel_name p (n ++ suf)) by (unfold rel_name; rewrite <- app_assoc; reflexivity).
    apply norm_rel; assumption.
  - rewrite split_on_no_char by apply Hn. apply norm_valid. constructor; [exact Hn|constructor].
Qed.

(** where the output of a file goes *)
Lemma new_file_name cwd sd new b p n : names b p n -> Forall valid_name p -> valid_name n -> plain_suffix (sd_suffix sd) ->
  get_new_file_name cwd sd new (path_join (sd_path sd) (b ++ sd_suffix sd))
  = path_join (sd_path new) (join [slash] (p ++ [n]) ++ sd_suffix new).
Proof.
  intros Hb Hp Hn [Hs1 Hs2]. unfold get_new_file_name.
  pose proof (valid_name_suffix _ _ Hn Hs1 Hs2) as Hns.
  rewrite (relpath_below cwd _ _ (p ++ [n ++ sd_suffix sd])).
  2: { rewrite abs_parts_join by (eapply names_start; eassumption). apply names_norm; assumption. }
  2: { intros E. apply app_eq_nil in E. destruct E; discriminate. }
  destruct (eqb_spec (join [slash] (p ++ [n ++ sd_suffix sd])) (lit ".")) as [E|_];
    [exfalso; apply (join_slash_not_dot p (n ++ sd_suffix sd)); assumption|].
  f_equal. f_equal. rewrite join_last.
  destruct (eqb_spec (sd_suffix sd) []) as [->|Hne]; [apply app_nil_r|].
  apply chop_app.
Qed.

Lemma new_file_parts cwd (base suf : str) p n : Forall valid_name p -> valid_name n -> plain_suffix suf ->
  abs_parts cwd (path_join base (join [slash] (p ++ [n]) ++ suf)) = abs_parts cwd base ++ p ++ [n ++ suf].
Proof.
  intros Hp Hn [Hs1 Hs2]. rewrite abs_parts_join by (apply join_start; assumption).
  rewrite <- join_last. rewrite split_join.
  - apply norm_valid. apply Forall_app. split; [exact Hp|]. constructor; [|constructor].
    apply (valid_name_suffix _ _ Hn Hs1 Hs2).
  - intros E. apply app_eq_nil in E. destruct E; discriminate.
  - apply valid_no_slash. apply Forall_app. split; [exact Hp|]. constructor; [|constructor].
    apply (valid_name_suffix _ _ Hn Hs1 Hs2).
Qed.

(** the two stages *)
Definition original (path : str) : sub_dataset := {| sd_path := path; sd_suffix := original_suffix |}.
Definition parsed (path : str) : sub_dataset := {| sd_path := path; sd_suffix := parsed_suffix |}.
Definition preprocessed (path : str) : sub_dataset := {| sd_path := path; sd_suffix := prep_suffix |}.

(** the sources and targets of parsing and of preprocessing; the parsed dataset is always a directory *)
Definition parse_sources (path : str) (t : node) (exts : option (list str)) : list str :=
  file_iterator (original path) (negb (is_dir t)) (scan_files path t exts).
Definition parse_targets (cwd : list str) (path parsed_path : str) (t : node) (exts : option (list str)) : list str :=
  map (get_new_file_name cwd (original path) (parsed parsed_path)) (parse_sources path t exts).
Definition prep_sources (path parsed_path : str) (t : node) (exts : option (list str)) : list str :=
  file_iterator (parsed parsed_path) false (scan_files path t exts).
Definition prep_targets (cwd : list str) (path parsed_path prep_path : str) (t : node) (exts : option (list str)) : list str :=
  map (get_new_file_name cwd (parsed parsed_path) (preprocessed prep_path)) (prep_sources path parsed_path t exts).

(** components of the scanned files *)
Definition file_parts (path : str) (t : node) (exts : option (list str)) (ps : list (list str * str)) : Prop :=
  Forall2 (fun f pn => names f (fst pn) (snd pn)) (scan_files path t exts) ps /\
  Forall (fun pn => Forall valid_name (fst pn) /\ valid_name (snd pn)) ps /\
  NoDup (map (fun pn => fst pn ++ [snd pn]) ps).

Lemma NoDup_app_disj {A} (a b : list A) : NoDup a -> NoDup b -> (forall x, In x a -> ~ In x b) -> NoDup (a ++ b).
Proof.
  intros Ha Hb H. induction Ha as [|x a Hx Ha IH]; [exact Hb|]. cbn [app]. constructor.
  - rewrite in_app_iff. intros [Hin|Hin]; [contradiction|]. apply (H x); [left; reflexivity|exact Hin].
  - apply IH. intros y Hy. apply H. right. exact Hy.
Qed.

Lemma walk_roots_nodup t root : wf t -> NoDup (map fst (walk true root t)).
Proof.
  revert root. induction t as [mt| |l m es IH] using node_ind2; intros root Hw; [constructor|constructor|].
  apply wf_dir_inv in Hw. destruct Hw as [Hd Hw]. cbn [walk map fst].
  assert (Hroots : forall es' r, (forall n t, In (n, t) es' -> In (n, t) es) ->
    In r (map fst (flat_map (fun e => match e with
       | (n, t') => match t' with Dir link _ _ => if true || negb link then walk true (root ++ [n]) t' else [] | _ => [] end
       end) es')) -> exists n p, In n (map fst es') /\ r = root ++ n :: p).
  { intros es' r Hsub Hr. apply in_map_iff in Hr. destruct Hr as ((r', ess) & <- & Hr). apply in_flat_map in Hr.
    destruct Hr as ((n, t') & Hin & Hr). destruct t' as [| |l' m' es'']; [destruct Hr|destruct Hr|].
    cbn [orb] in Hr. apply walk_spec in Hr. destruct Hr as (p & l2 & m2 & -> & _). exists n, p. split.
    - apply in_map_iff. exists (n, Dir l' m' es''). auto.
    - cbn [fst]. rewrite <- app_assoc. reflexivity. }
  constructor.
  - intros Hin. apply Hroots in Hin; [|auto]. destruct Hin as (n & p & _ & E).
    apply (f_equal (@length str)) in E. rewrite app_length in E. simpl in E. lia.
  - assert (Hsub : forall n t, In (n, t) es -> In (n, t) es) by auto. revert Hsub Hd Hroots.
    generalize es at 1 3 5 as es'. intros es'. induction es' as [|[n t] es' IHe]; intros Hsub Hd Hroots; [constructor|].
    cbn [flat_map]. rewrite map_app. inversion Hd as [|? ? Hn Hd']; subst. apply NoDup_app_disj.
    + destruct t as [| |l' m' es'']; [constructor|constructor|]. cbn [orb].
      apply (IH n); [apply Hsub; left; reflexivity|]. apply (Hw n). apply Hsub. left. reflexivity.
    + apply IHe; [intros; apply Hsub; right; assumption|exact Hd'|exact Hroots].
    + intros r Hr Hr'. apply Hroots in Hr'; [|intros; apply Hsub; right; assumption].
      destruct Hr' as (n' & p' & Hn' & ->).
      destruct t as [| |l' m' es'']; [destruct Hr|destruct Hr|]. cbn [orb] in Hr.
      apply in_map_iff in Hr. destruct Hr as ((r', ess) & E & Hr). cbn [fst] in E. subst r'.
      apply walk_spec in Hr. destruct Hr as (p & l2 & m2 & E & _). rewrite <- app_assoc in E.
      apply app_inv_head in E. cbn [app] in E. injection E as <- _. contradiction.
Qed.

Lemma in_map_filter {A B} (f : A -> B) g l x : In x (map f (filter g l)) -> In x (map f l).
Proof. rewrite !in_map_iff. intros (y & E & H). apply filter_In in H. exists y. tauto. Qed.

Lemma NoDup_map_filter {A B} (f : A -> B) g l : NoDup (map f l) -> NoDup (map f (filter g l)).
Proof.
  induction l as [|x l IH]; intros H; [exact H|]. cbn [map] in H. inversion H as [|? ? Hx Hd]; subst.
  cbn [filter]. destruct (g x); [|apply IH; exact Hd]. cbn [map]. constructor; [|apply IH; exact Hd].
  intros Hin. apply Hx. eapply in_map_filter; eauto.
Qed.

Lemma filter_map_swap {A B} (f : A -> B) g l : filter g (map f l) = map f (filter (fun x => g (f x)) l).
Proof. induction l as [|x l IH]; [reflexivity|]. cbn [map filter]. destruct (g (f x)); cbn [map]; rewrite IH; reflexivity. Qed.

(** the same as pairs *)
Definition scan_pairs (W : list (list str * list (str * node))) (exts : option (list str)) : list (list str * str) :=
  flat_map (fun w => map (fun e => (fst w, fst e))
     (filter (fun e => (negb (is_dir (snd e)) &&
        (match exts with Some (x :: xs) => has_one_of_extensions (path_join (rel_root (fst w)) (fst e)) (x :: xs)
         | _ => true end && negb (is_link (snd e))))) (snd w))) W.

Lemma filter_filter {A} (f g : A -> bool) l : filter g (filter f l) = filter (fun x => f x && g x) l.
Proof.
  induction l as [|x l IH]; [reflexivity|]. cbn [filter]. destruct (f x); cbn [andb filter]; [destruct (g x)|]; rewrite ?IH; reflexivity.
Qed.

Lemma scan_parts path l m es exts : wf (Dir l m es) ->
  file_parts path (Dir l m es) exts (scan_pairs (walk true [] (Dir l m es)) exts).
Proof.
  intros Hw. unfold file_parts, scan_files, scan_pairs.
  set (W := walk true [] (Dir l m es)).
  assert (HW : forall r ess, In (r, ess) W -> Forall valid_name r /\ NoDup (map fst ess) /\ forall n t, In (n, t) ess -> valid_name n).
  { intros r ess Hin. apply walk_spec in Hin. destruct Hin as (p & l' & m' & -> & Hat). cbn [app].
    destruct (wf_at _ _ _ Hw Hat) as [Hw' Hp]. apply wf_dir_inv in Hw'. destruct Hw' as [Hd Hw'].
    split; [exact Hp|]. split; [exact Hd|]. intros n t Hin. apply (Hw' _ _ Hin). }
  pose proof (walk_roots_nodup _ [] Hw) as HN. fold W in HN. clearbody W. clear Hw l m es.
  induction W as [|[r ess] W IH]; [repeat split; constructor|].
  cbn [map fst] in HN. inversion HN as [|? ? Hr HN']; subst.
  destruct IH as (E & HF & Hnd); [intros r' ess' Hin; apply HW; right; exact Hin|exact HN'|].
  destruct (HW r ess (or_introl eq_refl)) as (Hp & Hd & Hn).
  cbn [flat_map fst snd]. rewrite filter_map_swap, map_map, filter_filter. cbn [fst snd].
  match goal with |- context [map _ (filter ?G ess)] => set (g := G) end.
  assert (Hsub : forall e, In e (filter g ess) -> In e ess) by (intros e He; apply filter_In in He; tauto).
  split; [|split].
  - apply Forall2_app; [|exact E]. clear - Hp Hn Hsub. induction (filter g ess) as [|[n t] l IH]; [constructor|].
    cbn [map fst snd]. constructor; [|apply IH; intros e He; apply Hsub; right; exact He].
    left. cbn [fst snd]. apply path_join_rel; [exact Hp|]. apply (Hn n t), Hsub. left. reflexivity.
  - apply Forall_app. split; [|exact HF]. apply Forall_forall. intros x Hx. apply in_map_iff in Hx.
    destruct Hx as ([n t] & <- & He). cbn [fst snd]. split; [exact Hp|]. apply (Hn n t), Hsub, He.
  - rewrite map_app, map_map. cbn [fst snd]. apply NoDup_app_disj; [|exact Hnd|].
    + apply (NoDup_map_filter _ g). clear - Hd. induction ess as [|[n t] ess IH]; [constructor|].
      cbn [map fst] in *. inversion Hd as [|? ? Hx Hd']; subst. constructor; [|auto].
      intros Hin. apply in_map_iff in Hin. destruct Hin as (e & Ee & Hin). apply app_inj_tail in Ee.
      apply Hx. apply in_map_iff. exists e. tauto.
    + intros x Hx Hx'. apply in_map_iff in Hx. destruct Hx as ([n t] & <- & He). cbn [fst] in Hx'.
      apply in_map_iff in Hx'. destruct Hx' as ([r' n'] & Ex & Hx'). cbn [fst snd] in Ex.
      apply app_inj_tail in Ex. destruct Ex as [<- <-]. apply in_flat_map in Hx'.
      destruct Hx' as ([r2 ess2] & HinW & Hx'). apply in_map_iff in Hx'. destruct Hx' as (e & Ee & _).
      cbn [fst] in Ee. injection Ee as -> _. apply Hr. apply in_map_iff. exists (r', ess2). auto.
Qed.

Lemma single_parts path t exts : is_dir t = false -> valid_name (basename path) ->
  file_parts path t exts [([], basename path)].
Proof.
  intros Hd Hb. split; [|split].
  - destruct t; [| |discriminate]; (apply Forall2_cons; [right; auto|apply Forall2_nil]).
  - apply Forall_cons; [split; [apply Forall_nil|exact Hb]|apply Forall_nil].
  - repeat constructor. intros [].
Qed.

Lemma parts_exist path t exts : wf t -> (is_dir t = false -> valid_name (basename path)) ->
  exists ps, file_parts path t exts ps /\ (is_dir t = false -> ps = [([], basename path)]).
Proof.
  intros Hw Hb. destruct (is_dir t) eqn:Ed.
  - destruct t as [| |l m es]; try discriminate. eexists. split; [apply scan_parts; exact Hw|discriminate].
  - eexists. split; [apply single_parts; auto|reflexivity].
Qed.

(** the targets, by components *)
Lemma parse_targets_spec cwd path parsed_path t exts ps : file_parts path t exts ps ->
  (is_dir t = false -> ps = [([], basename path)]) ->
  parse_targets cwd path parsed_path t exts
  = map (fun pn => path_join parsed_path (join [slash] (fst pn ++ [snd pn]) ++ parsed_suffix)) ps.
Proof.
  intros (HE & HF & _) Hf. unfold parse_targets, parse_sources, file_iterator.
  destruct (is_dir t) eqn:Ed; cbn [negb].
  - revert HE HF. generalize (scan_files path t exts). clear. intros fs HE HF.
    induction HE as [|f pn fs ps Hn HE IH]; [reflexivity|]. inversion HF as [|? ? [Hp Hv] HF']; subst.
    cbn [map]. f_equal; [|apply IH; exact HF'].
    apply (new_file_name cwd (original path) (parsed parsed_path) f (fst pn) (snd pn)); auto using plain_original.
  - rewrite (Hf eq_refl) in *. inversion HE as [|f ? fs ? Hn HE' E1 E2]; subst. inversion HE'; subst.
    cbn [map fst snd app join]. f_equal. unfold get_new_file_name. cbn [sd_path sd_suffix original].
    unfold original_suffix. rewrite app_nil_r. cbn [eqb]. unfold relpath.
    replace (drop_common (abs_parts cwd path) (abs_parts cwd path)) with (@nil str, @nil str)
      by (symmetry; rewrite <- (app_nil_r (abs_parts cwd path)) at 1; apply drop_common_app).
    reflexivity.
Qed.

Lemma prep_targets_spec cwd path parsed_path prep_path t exts ps : file_parts path t exts ps ->
  prep_targets cwd path parsed_path prep_path t exts
  = map (fun pn => path_join prep_path (join [slash] (fst pn ++ [snd pn]) ++ prep_suffix)) ps.
Proof.
  intros (HE & HF & _). unfold prep_targets, prep_sources, file_iterator.
  revert HE HF. generalize (scan_files path t exts). clear. intros fs HE HF.
  induction HE as [|f pn fs ps Hn HE IH]; [reflexivity|]. inversion HF as [|? ? [Hp Hv] HF']; subst.
  cbn [map]. f_equal; [|apply IH; exact HF'].
  apply (new_file_name cwd (parsed parsed_path) (preprocessed prep_path) f (fst pn) (snd pn)); auto using plain_parsed.
Qed.

Lemma targets_nodup cwd (base suf : str) ps :
  Forall (fun pn => Forall valid_name (fst pn) /\ valid_name (snd pn)) ps ->
  NoDup (map (fun pn => fst pn ++ [snd pn]) ps) -> plain_suffix suf ->
  NoDup (map (abs_parts cwd) (map (fun pn => path_join base (join [slash] (fst pn ++ [snd pn]) ++ suf)) ps)).
Proof.
  intros HF Hnd Hs. rewrite map_map. induction HF as [|[p n] ps [Hp Hn] HF IH]; [constructor|].
  cbn [map fst snd] in *. inversion Hnd as [|? ? Hx Hnd']; subst. constructor; [|apply IH; exact Hnd'].
  intros Hin. apply Hx. apply in_map_iff in Hin. destruct Hin as ([p' n'] & E & Hin).
  rewrite Forall_forall in HF. destruct (HF _ Hin) as [Hp' Hn']. cbn [fst snd] in *.
  rewrite !new_file_parts in E by assumption. apply app_inv_head, app_inj_tail in E. destruct E as [-> E].
  apply app_inv_tail in E. subst n'. apply in_map_iff. exists (p, n). auto.
Qed.

Lemma path_join_suffix (a b c : str) : b <> [] -> path_join a b ++ c = path_join a (b ++ c).
Proof.
  intros Hb. unfold path_join. rewrite starts_slash_app by exact Hb. destruct (starts_with [slash] b); [reflexivity|].
  destruct (_ || _); [symmetry; apply app_assoc|]. rewrite <- app_assoc. reflexivity.
Qed.

Lemma targets_temp cwd (base suf : str) ps o o' :
  Forall (fun pn => Forall valid_name (fst pn) /\ valid_name (snd pn)) ps -> plain_suffix suf -> suf <> [] ->
  last suf 0%N <> 116%N ->
  In o (map (fun pn => path_join base (join [slash] (fst pn ++ [snd pn]) ++ suf)) ps) ->
  In o' (map (fun pn => path_join base (join [slash] (fst pn ++ [snd pn]) ++ suf)) ps) ->
  abs_parts cwd (temp_name o) <> abs_parts cwd o'.
Proof.
  intros HF Hs Hne Hlast Ho Ho' E. rewrite Forall_forall in HF.
  apply in_map_iff in Ho. destruct Ho as ([p n] & <- & Hin). apply in_map_iff in Ho'. destruct Ho' as ([p' n'] & <- & Hin').
  destruct (HF _ Hin) as [Hp Hn]. destruct (HF _ Hin') as [Hp' Hn']. cbn [fst snd] in *. unfold temp_name in E.
  rewrite path_join_suffix in E by (intros X; apply app_eq_nil in X; destruct X; contradiction).
  rewrite <- app_assoc in E. rewrite new_file_parts in E; [|assumption|assumption|].
  2: { destruct Hs as [Hs1 Hs2]. split; [|right; rewrite app_length; simpl; lia].
       apply no_char_app. split; [exact Hs1|]. intros X. vm_compute in X. intuition discriminate. }
  rewrite new_file_parts in E by assumption.
  apply app_inv_head, app_inj_tail in E. destruct E as [_ E].
  apply (f_equal (fun l => last l 0%N)) in E. unfold not_finished in E.
  destruct (exists_last Hne) as (s' & c & ->). rewrite last_last in Hlast.
  rewrite (app_assoc n' s' [c]), last_last in E.
  change (lit ".part") with (lit ".par" ++ [116%N]) in E. rewrite !app_assoc, last_last in E. congruence.
Qed.

Lemma forall2_length {A B} (R : A -> B -> Prop) l l' : Forall2 R l l' -> length l = length l'.
Proof. induction 1; simpl; congruence. Qed.

(** Different files have different targets in both stages; no temporary file is the target of another file; and
    preprocessing reads exactly the files that parsing wrote. *)
Theorem C51_targets cwd path parsed_path prep_path t exts :
  wf t -> (is_dir t = false -> valid_name (basename path)) ->
  let T1 := parse_targets cwd path parsed_path t exts in
  let T2 := prep_targets cwd path parsed_path prep_path t exts in
  length T1 = length (scan_files path t exts) /\ length T2 = length (scan_files path t exts) /\
  NoDup (map (abs_parts cwd) T1) /\ NoDup (map (abs_parts cwd) T2) /\
  (forall o o', In o T1 -> In o' T1 -> abs_parts cwd (temp_name o) <> abs_parts cwd o') /\
  (forall o o', In o T2 -> In o' T2 -> abs_parts cwd (temp_name o) <> abs_parts cwd o') /\
  map (abs_parts cwd) (prep_sources path parsed_path t exts) = map (abs_parts cwd) T1.
Proof.
  intros Hw Hb T1 T2.
  destruct (parts_exist path t exts Hw Hb) as (ps & Hps & Hf). unfold T1, T2.
  rewrite (parse_targets_spec _ _ _ _ _ _ Hps Hf), (prep_targets_spec _ _ _ _ _ _ _ Hps).
  destruct Hps as (HE & HF & Hnd). rewrite !map_length, (forall2_length _ _ _ HE).
  split; [reflexivity|]. split; [reflexivity|]. split; [apply targets_nodup; auto using plain_parsed|].
  split; [apply targets_nodup; auto using plain_prep|].
  split; [intros o o'; apply targets_temp; auto using plain_parsed; discriminate|].
  split; [intros o o'; apply targets_temp; auto using plain_prep; discriminate|].
  unfold prep_sources, file_iterator. rewrite !map_map. revert HE HF. generalize (scan_files path t exts). clear.
  intros fs HE HF. induction HE as [|f pn fs ps Hn HE IH]; [reflexivity|]. inversion HF as [|? ? [Hp Hv] HF']; subst.
  cbn [map]. f_equal; [|apply IH; exact HF']. cbn [sd_path sd_suffix parsed].
  rewrite new_file_parts by auto using plain_parsed. rewrite abs_parts_join by (eapply names_start; eassumption).
  destruct plain_parsed as [S1 S2]. apply names_norm; [exact Hn|exact Hp|]. apply valid_name_suffix; assumption.
Qed.
Print Assumptions C51_targets.

Example C51_targets_ex :
  parse_targets [lit "home"] (lit "/data/x") (lit "out/p") tree_ex None
  = [lit "out/p/A.java.parsed"; lit "out/p/sub/b.py.parsed"; lit "out/p/sub/c.java.parsed"].
Proof. vm_compute. reflexivity. Qed.

(** A directory of the dataset can have the name of an output file: the target of one file is then a directory
    in the path of the target of another file, and one of the two cannot be written. *)
Theorem C51_directory_refuted cwd path parsed_path :
  exists t o o' x, wf t /\ In o (parse_targets cwd path parsed_path t None) /\
    In o' (parse_targets cwd path parsed_path t None) /\
    abs_parts cwd o' = abs_parts cwd o ++ [x].
Proof.
  set (t := Dir false 0 [(lit "a", File 0); (lit "a.parsed", Dir false 0 [(lit "b", File 0)])]).
  assert (Hw : wf t).
  { constructor.
    - repeat constructor; simpl; intuition discriminate.
    - intros n u [E|[E|[]]]; injection E as <- <-; (split; [repeat split; try discriminate; intros H; vm_compute in H; intuition discriminate|]); [constructor|].
      constructor; [repeat constructor; intros []|]. intros n u [E|[]]. injection E as <- <-.
      split; [repeat split; try discriminate; intros H; vm_compute in H; intuition discriminate|constructor]. }
  exists t. pose proof (scan_parts path _ _ _ None Hw) as Hps.
  pose proof (parse_targets_spec cwd path parsed_path t None _ Hps) as E. fold t in E, Hps.
  rewrite E by discriminate. clear E.
  change (scan_pairs (walk true [] t) None) with [([], lit "a"); ([lit "a.parsed"], lit "b")] in *.
  destruct Hps as (_ & HF & _). inversion HF as [|? ? [Hp Hn] HF']; subst. inversion HF' as [|? ? [Hp' Hn'] _]; subst.
  eexists _, _, _. split; [exact Hw|]. split; [left; reflexivity|]. split; [right; left; reflexivity|].
  cbn [fst snd] in *. rewrite !new_file_parts by auto using plain_parsed. rewrite <- app_assoc. reflexivity.
Qed.
Print Assumptions C51_directory_refuted.

(** ** C41: different runs use different directories *)
Lemma last_separator (sep a b a' b' : str) : sep <> [] -> a ++ sep ++ b = a' ++ sep ++ b' ->
  contains sep (tl sep ++ b) = false -> contains sep (tl sep ++ b') = false -> a = a' /\ b = b'.
Proof.
  intros Hs E Hb Hb'.
  assert (G : forall (x y l : str), sep ++ y = l ++ sep ++ x -> contains sep (tl sep ++ y) = false -> l = []).
  { intros x y l E' Hc. destruct l as [|c l]; [reflexivity|]. exfalso.
    assert (contains sep (tl sep ++ y) = true); [|congruence]. apply contains_spec.
    destruct sep as [|s0 sep']; [contradiction|]. cbn [app tl] in *. injection E' as _ E'. exists l, x. exact E'. }
  apply app_eq_app in E. destruct E as (l & [[-> E]|[-> E]]).
  - assert (l = []) by (eapply G; eauto). subst l. cbn [app] in E. apply app_inv_head in E. rewrite app_nil_r. auto.
  - assert (l = []) by (eapply G; eauto). subst l. cbn [app] in E. apply app_inv_head in E. rewrite app_nil_r. auto.
Qed.

Definition valid_stamp (t : stamp) : Prop :=
  (st_y t < 100 /\ st_mo t < 100 /\ st_d t < 100 /\ st_h t < 100 /\ st_mi t < 100 /\ st_s t < 100)%N.

Lemma two_digits_inj n m a b : (n < 100)%N -> (m < 100)%N -> two_digits n ++ a = two_digits m ++ b -> n = m /\ a = b.
Proof.
  intros Hn Hm E. unfold two_digits in E. cbn [app] in E.
  pose proof (f_equal (hd 0%N) E) as E1. pose proof (f_equal (fun l => hd 0%N (tl l)) E) as E2.
  pose proof (f_equal (fun l => tl (tl l)) E) as E3. cbn [hd tl] in E1, E2, E3. split; [|exact E3].
  rewrite (N.div_mod n 10), (N.div_mod m 10) by lia. lia.
Qed.
Lemma two_digits_single n m : (n < 100)%N -> (m < 100)%N -> two_digits n = two_digits m -> n = m.
Proof.
  intros Hn Hm E. rewrite <- (app_nil_r (two_digits n)), <- (app_nil_r (two_digits m)) in E.
  apply two_digits_inj in E; tauto.
Qed.

Lemma stamp_str_inj t t' : valid_stamp t -> valid_stamp t' -> stamp_str t = stamp_str t' -> t = t'.
Proof.
  intros (A1 & A2 & A3 & A4 & A5 & A6) (B1 & B2 & B3 & B4 & B5 & B6) E. unfold stamp_str in E.
  apply two_digits_inj in E; [|assumption|assumption]. destruct E as [E1 E]. apply app_inv_head in E.
  apply two_digits_inj in E; [|assumption|assumption]. destruct E as [E2 E]. apply app_inv_head in E.
  apply two_digits_inj in E; [|assumption|assumption]. destruct E as [E3 E]. apply app_inv_head in E.
  apply two_digits_inj in E; [|assumption|assumption]. destruct E as [E4 E]. apply app_inv_head in E.
  apply two_digits_inj in E; [|assumption|assumption]. destruct E as [E5 E]. apply app_inv_head in E.
  apply two_digits_single in E; [|assumption|assumption].
  destruct t as [a b c d e f], t' as [a' b' c' d' e' f']. cbn [st_y st_mo st_d st_h st_mi st_s] in *. subst. reflexivity.
Qed.

Lemma two_digits_no n c : (n < 100)%N -> (c < 48 \/ 57 < c)%N -> no_char c (two_digits n).
Proof.
  intros Hn Hc H. unfold two_digits in H. cbn [In] in H. destruct H as [E|[E|[]]].
  - assert (B : (n / 10 < 10)%N) by (apply N.div_lt_upper_bound; lia). revert E B. generalize (n / 10)%N. lia.
  - assert (B : (n mod 10 < 10)%N) by (apply N.mod_lt; lia). revert E B. generalize (n mod 10)%N. lia.
Qed.
Lemma stamp_no_underscore t : valid_stamp t -> no_char underscore (stamp_str t).
Proof.
  intros (A1 & A2 & A3 & A4 & A5 & A6). unfold stamp_str.
  repeat (apply no_char_app; split);
    try (apply two_digits_no; [assumption|unfold underscore; lia]); (intros [E|[]]; discriminate).
Qed.
Lemma stamp_dash t : In dash (stamp_str t).
Proof. unfold stamp_str. apply in_app_iff. right. left. reflexivity. Qed.

(** The runs for which names are unambiguous: a configuration that can be created, extensions without dash and
    underscore, a merge list id in which no underscore-dash-underscore occurs, also not together with the
    underscore in front of it. *)
Definition listed (exts : option (list str)) : list str := match exts with Some l => l | None => [] end.
Definition plain_run (r : run) : Prop :=
  valid_stamp (r_stamp r) /\
  mk_prep_config (r_config r) = Ok (r_config r) /\
  Forall (fun e => no_char underscore e /\ no_char dash e) (listed (r_exts r)) /\
  match r_custom r with Some (i, _) => contains (lit "_-_") (lit "_" ++ i) = false | None => True end.

Lemma split_dir_name r : plain_run r ->
  split_on underscore (dataset_dir_name r)
  = split_on underscore (basename (r_path r)) ++ stamp_str (r_stamp r) :: listed (r_exts r).
Proof.
  intros (Hs & _ & He & _). unfold dataset_dir_name.
  change (lit "_") with [underscore]. cbn [app].
  rewrite split_on_app_sep. f_equal. pose proof (stamp_no_underscore _ Hs) as Hu.
  destruct (r_exts r) as [[|e es]|]; cbn [listed] in *.
  - rewrite app_nil_r. apply split_on_no_char. exact Hu.
  - rewrite split_on_app_sep, (split_on_no_char _ _ Hu). cbn [app]. f_equal.
    apply split_join; [discriminate|]. eapply Forall_impl; [|exact He]. intros x [Hx _]. exact Hx.
  - rewrite app_nil_r. apply split_on_no_char. exact Hu.
Qed.

(** Parsed datasets and file lists *)
Theorem C41_parsed r r' : plain_run r -> plain_run r' ->
  dataset_dir_name r = dataset_dir_name r' ->
  basename (r_path r) = basename (r_path r') /\ r_stamp r = r_stamp r' /\ listed (r_exts r) = listed (r_exts r').
Proof.
  intros Hr Hr' E. apply (f_equal (split_on underscore)) in E. rewrite !split_dir_name in E by assumption.
  destruct Hr as (Hs & _ & He & _). destruct Hr' as (Hs' & _ & He' & _).
  assert (G : forall (a b : list str) t t' (l : list str), Forall (fun e => no_char underscore e /\ no_char dash e) b ->
              stamp_str t' :: b = l ++ stamp_str t :: a -> l = []).
  { intros a b t t' l Hf E'. destruct l as [|x l]; [reflexivity|]. exfalso. cbn [app] in E'. injection E' as _ ->.
    apply Forall_app in Hf. destruct Hf as [_ Hf]. inversion Hf as [|? ? [_ Hd] _]; subst.
    apply Hd. apply stamp_dash. }
  assert (K : split_on underscore (basename (r_path r)) = split_on underscore (basename (r_path r'))
              /\ stamp_str (r_stamp r) :: listed (r_exts r) = stamp_str (r_stamp r') :: listed (r_exts r')).
  { apply app_eq_app in E. destruct E as (l & [[E1 E2]|[E1 E2]]).
    - assert (l = []) by (eapply G; [|exact E2]; exact He'). subst l. rewrite app_nil_r in E1. auto.
    - assert (l = []) by (eapply G; [|exact E2]; exact He). subst l. rewrite app_nil_r in E1. cbn [app] in E2. auto. }
  destruct K as [K1 K2]. revert K2.
  generalize (stamp_str_inj (r_stamp r) (r_stamp r') Hs Hs'). generalize (stamp_str (r_stamp r)), (stamp_str (r_stamp r')).
  intros s s' Hinj K2. injection K2 as K2 K3. split; [|split; [|exact K3]].
  - rewrite <- (join_split underscore (basename (r_path r))), <- (join_split underscore (basename (r_path r'))), K1. reflexivity.
  - apply Hinj. exact K2.
Qed.
Print Assumptions C41_parsed.

Lemma config_str_shape d : mk_prep_config d = Ok d ->
  length (config_str d) = 6 /\ Forall alnum (config_str d).
Proof.
  intros H. destruct (config_str_of _ _ H) as (en0 & com0 & st0 & sp0 & tabs0 & ca0 & _ & _ & _ & _ & _ & _ & V & E0).
  rewrite E0. destruct V as (en & com & st & sp & tabs & ca & E & H1 & H2 & H3 & H4 & H5 & H6).
  rewrite E. split; [reflexivity|].
  assert (G : forall c t, one_of c t -> forallb (fun c => (48 <=? c) && (c <=? 57) || (65 <=? c) && (c <=? 90) || (97 <=? c) && (c <=? 122))%N (lit t) = true -> alnum c).
  { intros c t Hin HF. rewrite forallb_forall in HF. apply HF in Hin. unfold alnum.
    rewrite !orb_true_iff, !andb_true_iff, !N.leb_le in Hin. lia. }
  apply Forall_cons; [apply (G _ _ H1); reflexivity|]. apply Forall_cons; [apply (G _ _ H2); reflexivity|].
  apply Forall_cons; [exact H3|]. apply Forall_cons; [apply (G _ _ H4); reflexivity|].
  apply Forall_cons; [apply (G _ _ H5); reflexivity|]. apply Forall_cons; [|apply Forall_nil].
  destruct H6 as [->|[-> _]]; unfold alnum; lia.
Qed.

Lemma digits_no_under n : no_char underscore (dash :: dec n).
Proof.
  intros [E|H]; [discriminate|]. pose proof (dec_digits n) as HF. rewrite Forall_forall in HF. apply HF in H. discriminate.
Qed.

Lemma contains_app_no (s t : str) : no_char underscore t -> contains (lit "_-_") s = false -> contains (lit "_-_") (s ++ t) = false.
Proof.
  intros Ht Hs. destruct (contains (lit "_-_") (s ++ t)) eqn:E; [|reflexivity]. exfalso.
  apply contains_spec in E. destruct E as (u & v & E). rewrite app_assoc in E.
  apply app_eq_app in E. destruct E as (l & [[E1 E2]|[E1 E2]]).
  - assert (contains (lit "_-_") s = true); [|congruence]. apply contains_spec. exists u, l. rewrite E1, <- app_assoc. reflexivity.
  - destruct (list_eq_dec N.eq_dec l []) as [->|Hl].
    + rewrite app_nil_r in E1. assert (contains (lit "_-_") s = true); [|congruence].
      apply contains_spec. exists u, []. rewrite app_nil_r. auto.
    + destruct (exists_last Hl) as (l' & c & ->). rewrite app_assoc in E1.
      change (lit "_-_") with ([95; 45] ++ [95])%N in E1. rewrite app_assoc in E1.
      apply app_inj_tail in E1. destruct E1 as [_ <-]. apply Ht. rewrite E2.
      apply in_app_iff. left. apply in_app_iff. right. left. reflexivity.
Qed.

Lemma contains_alnum_app (p t : str) : Forall alnum p -> contains (lit "_-_") (p ++ t) = contains (lit "_-_") t.
Proof.
  induction 1 as [|c p Hc Hp IH]; [reflexivity|]. cbn [app]. cbn [contains]. rewrite IH.
  assert (E : starts_with (lit "_-_") (c :: p ++ t) = false); [|rewrite E; reflexivity].
  cbn [starts_with lit]. destruct (N.eqb_spec (N_of_ascii "_") c) as [<-|_]; [|reflexivity].
  unfold alnum in Hc. cbn in Hc. lia.
Qed.

Lemma suffix_plain r : plain_run r -> contains (lit "_-_") (get_prep_suffix r) = false.
Proof.
  intros (_ & Hc & _ & Hi). unfold get_prep_suffix. destruct (config_str_shape _ Hc) as [_ Ha].
  rewrite contains_alnum_app by exact Ha. destruct (r_custom r) as [[i n]|]; [|reflexivity].
  rewrite app_assoc. apply contains_app_no; [apply digits_no_under|exact Hi].
Qed.

Lemma suffix_start (c : N) (t : str) : alnum c -> contains (lit "_-_") (tl (lit "_-_") ++ c :: t) = contains (lit "_-_") (c :: t).
Proof.
  intros Hc. change (tl (lit "_-_") ++ c :: t) with (45 :: 95 :: c :: t)%N.
  assert (E2 : starts_with (lit "_-_") (95%N :: c :: t) = false).
  { change (lit "_-_") with [95; 45; 95]%N. cbn [starts_with].
    destruct (N.eqb_spec 45 c) as [<-|_]; [unfold alnum in Hc; lia|]. apply andb_false_r. }
  change (contains (lit "_-_") (45 :: 95 :: c :: t)%N)
    with (false || (starts_with (lit "_-_") (95%N :: c :: t) || contains (lit "_-_") (c :: t))).
  rewrite E2. reflexivity.
Qed.

Lemma suffix_head r : plain_run r -> exists c t, get_prep_suffix r = c :: t /\ alnum c.
Proof.
  intros (_ & Hc & _). destruct (config_str_shape _ Hc) as [Hl Ha]. unfold get_prep_suffix.
  destruct (config_str (r_config r)) as [|c s]; [discriminate|]. inversion Ha; subst. cbn [app]. eauto.
Qed.

Lemma suffix_injective r r' : plain_run r -> plain_run r' -> get_prep_suffix r = get_prep_suffix r' ->
  (forall p, param (r_config r) p = param (r_config r') p) /\ r_custom r = r_custom r'.
Proof.
  intros (_ & Hc & _) (_ & Hc' & _) E. unfold get_prep_suffix in E.
  destruct (config_str_shape _ Hc) as [Hl _]. destruct (config_str_shape _ Hc') as [Hl' _].
  assert (K : config_str (r_config r) = config_str (r_config r')).
  { apply (f_equal (firstn 6)) in E. rewrite !firstn_app, Hl, Hl', Nat.sub_diag, !firstn_O, !app_nil_r in E.
    rewrite !firstn_all2 in E by lia. exact E. }
  rewrite K in E. apply app_inv_head in E. split.
  - intros p. unfold param. rewrite (C38_encode_injective _ _ _ _ Hc Hc' K p). reflexivity.
  - destruct (r_custom r) as [[i n]|]; destruct (r_custom r') as [[i' n']|]; try discriminate; [|reflexivity].
    apply app_inv_head in E. change (lit "-") with [dash] in E. cbn [app] in E.
    assert (D : forall n, no_char dash (dec n)).
    { intros k H. pose proof (dec_digits k) as HF. rewrite Forall_forall in HF. apply HF in H. discriminate. }
    pose proof (last_sep_app dash i (dec n) (D n)) as L1. pose proof (last_sep_app dash i' (dec n') (D n')) as L2.
    rewrite E, L2 in L1. injection L1 as -> L1. apply dec_inj in L1. subst. reflexivity.
Qed.

(** Preprocessed datasets and vocabularies *)
Theorem C41_prep r r' : plain_run r -> plain_run r' -> prep_basename r = prep_basename r' ->
  basename (r_path r) = basename (r_path r') /\ r_stamp r = r_stamp r' /\ listed (r_exts r) = listed (r_exts r') /\
  (forall p, param (r_config r) p = param (r_config r') p) /\ r_custom r = r_custom r'.
Proof.
  intros Hr Hr' E. unfold prep_basename in E.
  assert (G : forall q, plain_run q -> contains (lit "_-_") (tl (lit "_-_") ++ get_prep_suffix q) = false).
  { intros q Hq. destruct (suffix_head q Hq) as (c & t & Eq & Hc). rewrite Eq, suffix_start by exact Hc.
    rewrite <- Eq. apply suffix_plain. exact Hq. }
  assert (P : contains (lit "_-_") (tl (lit "_-_") ++ lit "prep") = false) by reflexivity.
  assert (Hne : lit "_-_" <> []) by discriminate.
  assert (Lp : forall q, plain_run q -> get_prep_suffix q <> lit "prep").
  { intros q (_ & Hq & _) X. destruct (config_str_shape _ Hq) as [Hl _]. unfold get_prep_suffix in X.
    apply (f_equal (@length N)) in X. rewrite app_length, Hl in X. simpl in X. lia. }
  assert (K : dataset_dir_name r = dataset_dir_name r' /\ get_prep_suffix r = get_prep_suffix r').
  { assert (One : forall a b s s' : str, contains (lit "_-_") (tl (lit "_-_") ++ s) = false ->
      contains (lit "_-_") (tl (lit "_-_") ++ s') = false -> a ++ lit "_-_" ++ s = b ++ lit "_-_" ++ s' -> a = b /\ s = s').
    { intros a b s s' H H' X. apply (last_separator (lit "_-_")); assumption. }
    assert (Mixed : forall a b s s' : str, contains (lit "_-_") (tl (lit "_-_") ++ s) = false ->
      a ++ lit "_-_" ++ s = b ++ lit "_-_" ++ s' ++ lit "_-_prep" -> s = lit "prep").
    { intros a b s s' H X. change (lit "_-_prep") with (lit "_-_" ++ lit "prep") in X.
      rewrite !app_assoc in X. rewrite <- (app_assoc a), <- (app_assoc _ (lit "_-_") (lit "prep")) in X.
      apply One in X; [tauto|exact H|exact P]. }
    assert (Both : forall a b s s' : str, contains (lit "_-_") (tl (lit "_-_") ++ s) = false ->
      contains (lit "_-_") (tl (lit "_-_") ++ s') = false ->
      a ++ lit "_-_" ++ s ++ lit "_-_prep" = b ++ lit "_-_" ++ s' ++ lit "_-_prep" -> a = b /\ s = s').
    { intros a b s s' H H' X. rewrite !app_assoc in X. apply app_inv_tail in X. rewrite <- !app_assoc in X.
      apply One; assumption. }
    destruct (r_output r) as [[|o1 o]|]; destruct (r_output r') as [[|o1' o']|]; rewrite ?app_nil_r in E;
      first [ solve [apply One; auto] | solve [apply Both; auto]
            | solve [exfalso; apply Mixed in E; [|apply G; assumption]; eapply Lp; [|exact E]; assumption]
            | solve [exfalso; symmetry in E; apply Mixed in E; [|apply G; assumption]; eapply Lp; [|exact E]; assumption] ]. }
  destruct K as [K1 K2]. destruct (C41_parsed r r' Hr Hr' K1) as (A & B & C).
  destruct (suffix_injective r r' Hr Hr' K2) as (D & F). auto.
Qed.
Print Assumptions C41_prep.

(** Runs with the same output directory, or both without, that write to the same preprocessed dataset *)
Theorem C41_prep_path dir r r' : plain_run r -> plain_run r' -> r_output r = r_output r' ->
  prep_path dir r = prep_path dir r' ->
  basename (r_path r) = basename (r_path r') /\ r_stamp r = r_stamp r' /\ listed (r_exts r) = listed (r_exts r') /\
  (forall p, param (r_config r) p = param (r_config r') p) /\ r_custom r = r_custom r'.
Proof.
  intros Hr Hr' Ho E. apply C41_prep; [assumption|assumption|].
  unfold prep_path in E. rewrite Ho in E. revert E.
  assert (Hs : forall q, starts_with [slash] (prep_basename q) = false).
  { intros q. unfold prep_basename, dataset_dir_name.
    pose proof (split_on_pieces slash (r_path q)) as HF. rewrite Forall_forall in HF.
    assert (Hb : no_char slash (basename (r_path q))).
    { unfold basename. apply HF. destruct (exists_last (split_on_nonempty slash (r_path q))) as (l & x & El).
      rewrite El, last_last. apply in_app_iff. right. left. reflexivity. }
    destruct (basename (r_path q)) as [|c b]; [reflexivity|]. cbn [app starts_with].
    destruct (N.eqb_spec slash c) as [<-|_]; [|reflexivity]. exfalso. apply Hb. left. reflexivity. }
  unfold path_join. rewrite !Hs. generalize (match r_output r' with Some (c :: o) => c :: o | _ => dir end). intros d.
  destruct (eqb d [] || ends_with [slash] d); intros E; apply app_inv_head in E; [exact E|].
  injection E as E. exact E.
Qed.
Print Assumptions C41_prep_path.

Lemma dir_name_start q : starts_with [slash] (dataset_dir_name q) = false.
Proof.
  unfold dataset_dir_name. pose proof (split_on_pieces slash (r_path q)) as HF. rewrite Forall_forall in HF.
  assert (Hb : no_char slash (basename (r_path q))).
  { unfold basename. apply HF. destruct (exists_last (split_on_nonempty slash (r_path q))) as (l & x & El).
    rewrite El, last_last. apply in_app_iff. right. left. reflexivity. }
  destruct (basename (r_path q)) as [|c b]; [reflexivity|]. cbn [app starts_with].
  destruct (N.eqb_spec slash c) as [<-|_]; [|reflexivity]. exfalso. apply Hb. left. reflexivity.
Qed.

(** The same for the directories of parsed datasets, and for everything else that is kept under the name of the dataset *)
Theorem C41_parsed_path dir r r' : plain_run r -> plain_run r' ->
  (parsed_path dir r = parsed_path dir r' \/ path_join dir (dataset_dir_name r) = path_join dir (dataset_dir_name r')) ->
  basename (r_path r) = basename (r_path r') /\ r_stamp r = r_stamp r' /\ listed (r_exts r) = listed (r_exts r').
Proof.
  intros Hr Hr' E. apply C41_parsed; [assumption|assumption|].
  assert (E' : path_join dir (dataset_dir_name r) = path_join dir (dataset_dir_name r')) by (destruct E; assumption).
  revert E'. unfold path_join. rewrite !dir_name_start.
  destruct (eqb dir [] || ends_with [slash] dir); intros E'; apply app_inv_head in E'; [exact E'|].
  injection E' as E'. exact E'.
Qed.
Print Assumptions C41_parsed_path.

Definition run_ex (path : str) (exts : option (list str)) (custom : option (str * N)) : run :=
  {| r_path := path; r_stamp := {| st_y := 20; st_mo := 3; st_d := 9; st_h := 23; st_mi := 0; st_s := 59 |}%N;
     r_exts := exts;
     r_config := combine prep_params (map (fun c => [c]) (lit "Uc140u"));
     r_custom := custom; r_output := None |}.

Example C41_ex :
  plain_run (run_ex (lit "/data/my_proj") (Some [lit "c"; lit "java"]) (Some (lit "my_proj", 10%N)))
  /\ prep_path (lit "/prep") (run_ex (lit "/data/my_proj") (Some [lit "c"; lit "java"]) (Some (lit "my_proj", 10%N)))
     = lit "/prep/my_proj_20-03-09T23-00-59_c_java_-_Uc140u_my_proj-10".
Proof.
  split; [|vm_compute; reflexivity]. split; [vm_compute; auto 10|]. split; [vm_compute; reflexivity|].
  split; [|vm_compute; reflexivity].
  repeat constructor; intros H; vm_compute in H; intuition discriminate.
Qed.

(** The path of the dataset is not part of the names: two datasets with the same name and the same time stamp
    share all directories. *)
Theorem C41_location_refuted : exists r r', plain_run r /\ plain_run r' /\ r_path r <> r_path r' /\
  forall dir, parsed_path dir r = parsed_path dir r' /\ prep_path dir r = prep_path dir r' /\ vocab_path dir r = vocab_path dir r'.
Proof.
  exists (run_ex (lit "/a/x") None None), (run_ex (lit "/b/x") None None).
  split; [split; [vm_compute; auto 10|split; [vm_compute; reflexivity|split; constructor]]|].
  split; [split; [vm_compute; auto 10|split; [vm_compute; reflexivity|split; constructor]]|].
  split; [discriminate|]. intros dir. repeat split.
Qed.
Print Assumptions C41_location_refuted.

(** One extension with an underscore looks like two. *)
Theorem C41_extension_refuted : exists r r' s s',
  r_exts r = normalize_extension_string s /\ r_exts r' = normalize_extension_string s' /\
  listed (r_exts r) <> listed (r_exts r') /\ forall dir, parsed_path dir r = parsed_path dir r' /\ prep_path dir r = prep_path dir r'.
Proof.
  exists (run_ex (lit "/a/x") (Some [lit "c_py"]) None), (run_ex (lit "/a/x") (Some [lit "c"; lit "py"]) None).
  exists (lit "c_py"), (lit "c|py"). split; [reflexivity|]. split; [reflexivity|]. split; [discriminate|].
  intros dir. repeat split.
Qed.
Print Assumptions C41_extension_refuted.

(** A merge list id with the separator in it *)
Theorem C41_id_refuted : exists r r', r_path r <> r_path r' /\ basename (r_path r) <> basename (r_path r') /\ r_custom r <> r_custom r' /\
  forall dir, prep_path dir r = prep_path dir r'.
Proof.
  exists (run_ex (lit "x") None (Some (lit "y_20-03-09T23-00-59_-_Uc140u_z", 5%N))).
  exists (run_ex (lit "x_20-03-09T23-00-59_-_Uc140u_y") None (Some (lit "z", 5%N))).
  split; [discriminate|]. split; [vm_compute; discriminate|]. split; [discriminate|]. intros dir. unfold prep_path. f_equal.
Qed.
Print Assumptions C41_id_refuted.

(** Vocabularies *)
Theorem C41_vocab_path dir r r' : plain_run r -> plain_run r' -> vocab_path dir r = vocab_path dir r' ->
  basename (r_path r) = basename (r_path r') /\ r_stamp r = r_stamp r' /\ listed (r_exts r) = listed (r_exts r') /\
  (forall p, param (r_config r) p = param (r_config r') p) /\ r_custom r = r_custom r'.
Proof.
  intros Hr Hr' E.
  pose (w := fun q => {| r_path := r_path q; r_stamp := r_stamp q; r_exts := r_exts q; r_config := r_config q;
                         r_custom := r_custom q; r_output := None |}).
  apply (C41_prep_path dir (w r) (w r')); [exact Hr|exact Hr'|reflexivity|].
  unfold prep_path, prep_basename. cbn [r_output w]. rewrite !app_nil_r. exact E.
Qed.
Print Assumptions C41_vocab_path.
