(** C91 and C92 once more: for which files the vocabulary script and preprocessing differ, and which type words have that are not English. *)
From Coq Require Import List NArith ZArith Lia String.
From Verif Require Import M_Base L_Base M_Tokens M_Repr L_Repr M_PrepConfig P_Repr P_Types M_Dataset P_Dataset M_VocabScript P_VocabScript.
Import ListNotations.

(** a name ends with a dot and the extension *)
Definition dotted (ext n : str) : Prop := exists stem, n = stem ++ lit "." ++ ext.

Lemma rel_name_dotted p n ext stem : n = stem ++ ext -> dotted ext (rel_name p n) -> dotted ext n.
Proof.
  intros -> (s & H). unfold rel_name in H. change (lit "." ++ ext) with ([46%N] ++ ext) in H. change (slash :: stem ++ ext) with ((slash :: stem) ++ ext) in H.
  rewrite !app_assoc in H. apply app_inv_tail in H.
  destruct stem as [|c stem _] using rev_ind.
  - apply app_inj_tail in H. destruct H as [_ H]. discriminate H.
  - rewrite app_comm_cons, app_assoc in H. apply app_inj_tail in H. destruct H as [_ ->]. exists stem. rewrite <- app_assoc. reflexivity.
Qed.

Lemma rel_root_split p : Forall valid_name p -> split_on slash (rel_root p) = match p with [] => [lit "."] | _ => p end.
Proof.
  intros H. destruct p as [|x p]; [reflexivity|]. apply split_join; [discriminate|].
  apply Forall_forall. intros y Hy. rewrite Forall_forall in H. apply (H y Hy).
Qed.
Lemma rel_name_inj p n p' n' : Forall valid_name (p ++ [n]) -> Forall valid_name (p' ++ [n']) -> rel_name p n = rel_name p' n' -> p' ++ [n'] = p ++ [n].
Proof.
  intros H H' E. apply Forall_app in H, H'. destruct H as [Hp Hn], H' as [Hp' Hn']. inversion Hn as [|? ? (_ & Sn & _) _]; subst. inversion Hn' as [|? ? (_ & Sn' & _) _]; subst.
  apply (f_equal (split_on slash)) in E. unfold rel_name in E. 
  rewrite !split_on_app_sep, !rel_root_split, (split_on_no_char _ n Sn), (split_on_no_char _ n' Sn') in E by assumption.
  apply app_inj_tail in E. destruct E as [E <-]. f_equal.
  destruct p as [|x p], p' as [|y p']; [reflexivity| | |auto].
  - injection E as <- <-. inversion Hp' as [|? ? (_ & _ & D & _) _]; subst. destruct (D eq_refl).
  - injection E as -> ->. inversion Hp as [|? ? (_ & _ & D & _) _]; subst. destruct (D eq_refl).
Qed.

Section Files.
  Variables (path : str) (l : bool) (m : N) (es : list (str * node)) (ext : str).
  Hypothesis Hw : wf (Dir l m es).
  Hypothesis Hp : path <> [].
  Hypothesis He : ends_with [slash] path = false.
  Let t := Dir l m es.
  Let read_by_script p n := In (path ++ slash :: join [slash] (p ++ [n])) (walk_files path t ext).
  Let preprocessed p n := In (rel_name p n) (scan_files path t (Some [ext])).

  (** Every file whose name ends with the extension, but without a dot before it, is counted by the script and not preprocessed. *)
  Theorem C91_dot_refuted p n mt stem : below t (p ++ [n]) (File mt) -> n = stem ++ ext -> ~ dotted ext n -> read_by_script p n /\ ~ preprocessed p n.
  Proof.
    intros B E D. split.
    - apply C91_files; try assumption. exists p, n, (File mt), stem. repeat split; try assumption. right. eexists. reflexivity.
    - intros I. apply C55_scan in I; [|exact Hw]. destruct I as (p' & n' & mt' & _ & _ & e & s & [<-|[]] & X).
      apply D. refine (rel_name_dotted p n ext stem E _). exists s. exact X.
  Qed.

  (** Every link to a file with a fitting name is counted by the script and not preprocessed. *)
  Theorem C91_file_links_refuted p n stem : below t (p ++ [n]) Link -> n = stem ++ ext -> read_by_script p n /\ ~ preprocessed p n.
  Proof.
    intros B E. split.
    - apply C91_files; try assumption. exists p, n, Link, stem. repeat split; try assumption. left. reflexivity.
    - intros I. apply C55_scan in I; [|exact Hw]. destruct I as (p' & n' & mt' & A & X & _). apply below_at in B.
      assert (Q : p' ++ [n'] = p ++ [n]).
      { apply rel_name_inj; [exact (proj2 (wf_at _ _ _ Hw B))|exact (proj2 (wf_at _ _ _ Hw A))|exact X]. }
      rewrite Q in A. pose proof (at_path_fun _ _ _ _ Hw B A). discriminate.
  Qed.

  (** Every file with the extension that is reached only over a link to a directory is preprocessed and not counted. *)
  Theorem C91_directory_links_refuted p n mt : at_path t (p ++ [n]) (File mt) -> ~ below t (p ++ [n]) (File mt) -> dotted ext n ->
    preprocessed p n /\ ~ read_by_script p n.
  Proof.
    intros A B (s & D). split.
    - apply C55_scan; [exact Hw|]. exists p, n, mt. repeat split; [exact A|]. exists ext, (rel_root p ++ slash :: s). split; [left; reflexivity|].
      unfold rel_name. rewrite D, <- app_assoc. reflexivity.
    - intros I. apply C91_files in I; [|assumption..]. destruct I as (p' & n' & u & stem & B' & Lu & _ & X). apply app_inv_head in X. injection X as X.
      assert (V : Forall valid_name (p ++ [n])) by exact (proj2 (wf_at _ _ _ Hw A)).
      assert (V' : Forall valid_name (p' ++ [n'])) by exact (proj2 (wf_at _ _ _ Hw (below_at _ _ _ B'))).
      assert (Q : p ++ [n] = p' ++ [n']).
      { apply (f_equal (split_on slash)) in X. rewrite !split_join in X; [exact X|..];
          try (intros N0; apply app_eq_nil in N0; destruct N0; discriminate); eapply Forall_impl; try eassumption; intros a (_ & S & _); exact S. }
      rewrite <- Q in B'. pose proof (at_path_fun _ _ _ _ Hw A (below_at _ _ _ B')) as U. subst u. exact (B B').
  Qed.

  (** All other files are treated alike: what has the extension with a dot and is no link nor behind one is counted and preprocessed,
      and what does not end with the extension is neither. *)
  Theorem C91_agree p n mt : no_char slash ext -> below t (p ++ [n]) (File mt) -> (dotted ext n -> read_by_script p n /\ preprocessed p n)
    /\ ((forall stem, n <> stem ++ ext) -> ~ read_by_script p n /\ ~ preprocessed p n).
  Proof.
    intros Hx B. split.
    - intros (s & D). split.
      + apply C91_files; try assumption. exists p, n, (File mt), (s ++ lit "."). repeat split; [exact B|right; eexists; reflexivity|].
        rewrite D, <- app_assoc. reflexivity.
      + apply C55_scan; [exact Hw|]. exists p, n, mt. repeat split; [exact (below_at _ _ _ B)|]. exists ext, (rel_root p ++ slash :: s).
        split; [left; reflexivity|]. unfold rel_name. rewrite D, <- app_assoc. reflexivity.
    - intros D. assert (V : Forall valid_name (p ++ [n])) by exact (proj2 (wf_at _ _ _ Hw (below_at _ _ _ B))). split.
      + intros I. apply C91_files in I; [|assumption..]. destruct I as (p' & n' & u & stem & B' & _ & E & X). apply app_inv_head in X. injection X as X.
        assert (V' : Forall valid_name (p' ++ [n'])) by exact (proj2 (wf_at _ _ _ Hw (below_at _ _ _ B'))).
        apply (f_equal (split_on slash)) in X. rewrite !split_join in X;
          try (intros N0; apply app_eq_nil in N0; destruct N0; discriminate); try (eapply Forall_impl; [|eassumption]; intros a (_ & S & _); exact S).
        apply app_inj_tail in X. destruct X as [_ ->]. exact (D stem E).
      + intros I. apply C55_scan in I; [|exact Hw]. destruct I as (p' & n' & mt' & _ & _ & e & s & [<-|[]] & Y).
        unfold rel_name in Y. rewrite app_assoc in Y. apply app_eq_app in Y. destruct Y as (k & [[_ K]|[_ K]]).
        * apply Hx. rewrite K. apply in_or_app. right. left. reflexivity.
        * destruct k as [|c k]; cbn [app] in K.
          -- apply Hx. rewrite <- K. left. reflexivity.
          -- injection K as _ K. exact (D k K).
  Qed.
End Files.
Print Assumptions C91_dot_refuted.
Print Assumptions C91_file_links_refuted.
Print Assumptions C91_directory_links_refuted.
Print Assumptions C91_agree.

(** ** Words that are not English *)
(** The type of a word with other letters than those of English is that of such words exactly with no_unicode and without BPE, otherwise
    it is that of an ordinary word; this holds for all words, options and splitters. *)
Theorem C92_non_english E o d b ws out m : to_repr E o d b [NonEng ws] = Ok (out, m) ->
  types m = [if param_in d EN_ONLY "U" && negb (is_bpe d && match b with Some _ => true | None => false end) then CNonEng else CSplitContainer].
Proof.
  intros H. destruct (to_repr_segs _ _ _ _ _ _ _ H) as (rc & ss & Hrc & Hss & -> & _).
  assert (T : in_types rc CNonEng = param_in d EN_ONLY "U" /\ bpe rc = is_bpe d && match b with Some _ => true | None => false end).
  { unfold get_repr_config in Hrc. apply bind_ok in Hrc. destruct Hrc as (ns & _ & Hrc). apply bind_ok in Hrc. destruct Hrc as (wsp & _ & Hrc).
    apply bind_ok in Hrc. destruct Hrc as (mx & _ & [= <-]). cbn [bpe]. split; [|destruct (is_bpe d); reflexivity].
    unfold in_types, get_types_to_be_repr. cbn [types_to_be_repr].
    destruct (param_in d SPLIT "123456789s"), (param_in d SPLIT "23456789s"), (param_in d COM "0"), (param_in d STR "0"), (param_in d EN_ONLY "U"),
      (param_in d TABS_NEWLINES "0"); reflexivity. }
  destruct T as [<- <-]. unfold segs_list in Hss. cbn [segs_list_with segs] in Hss. apply bind_ok in Hss. destruct Hss as (r & Hr & [= <-]).
  assert (S : forall u r', segs_split E rc u = Ok r' -> map s_cls r' = [CSplitContainer]).
  { intros u r'. unfold segs_split. destruct (in_types rc CSplitContainer); [destruct (bpe rc)|]; rewrite bind_ok; intros (q & _ & [= <-]); reflexivity. }
  unfold flat. cbn [snd types]. rewrite app_nil_r. destruct (in_types rc CNonEng); [destruct (bpe rc)|]; cbn [andb negb].
  - apply bind_ok in Hr. destruct Hr as (s & _ & Hr). apply bind_ok in Hr. destruct Hr as (w & _ & Hr). exact (S _ _ Hr).
  - injection Hr as <-. reflexivity.
  - exact (S _ _ Hr).
Qed.
Print Assumptions C92_non_english.

Example C91_dot_example : let t := Dir false 0 [(lit "happy", File 0); (lit "x.py", Link); (lit "l", Dir true 0 [(lit "c.py", File 0)]); (lit "a.py", File 0)] in
  below t ([] ++ [lit "happy"]) (File 0) /\ ~ dotted (lit "py") (lit "happy") /\ below t ([] ++ [lit "x.py"]) Link /\
  at_path t ([lit "l"] ++ [lit "c.py"]) (File 0) /\ ~ below t ([lit "l"] ++ [lit "c.py"]) (File 0) /\
  walk_files (lit "d") t (lit "py") = map lit ["d/happy"; "d/x.py"; "d/a.py"]%string /\
  scan_files (lit "d") t (Some [lit "py"]) = map lit ["./a.py"; "l/c.py"]%string.
Proof.
  cbn zeta. split; [|split; [|split; [|split; [|split; [|split; vm_compute; reflexivity]]]]].
  - eapply below_entry; [left; reflexivity|discriminate|constructor].
  - intros (s & H). apply (f_equal (@rev N)) in H. rewrite !rev_app_distr in H. vm_compute in H. discriminate.
  - eapply below_entry; [right; left; reflexivity|discriminate|constructor].
  - cbn [app]. eapply at_entry; [right; right; left; reflexivity|]. eapply at_entry; [left; reflexivity|constructor].
  - cbn [app]. intros B. inversion B as [|? ? ? ? u ? ? I Nl _]; subst. repeat destruct I as [I|I]; try discriminate I; [|destruct I].
    injection I as <-. exact (Nl _ _ eq_refl).
Qed.
Example C92_non_english_example :
  (exists out m, to_repr ascii_case no_splitters (combine prep_params (chars_of "Uc10su")) None [NonEng [Word [233; 233]%N CapUndefined]] = Ok (out, m) /\ types m = [CNonEng]) /\
  (exists out m, to_repr ascii_case no_splitters (combine prep_params (chars_of "uc10su")) None [NonEng [Word [233; 233]%N CapUndefined]] = Ok (out, m) /\ types m = [CSplitContainer]).
Proof. split; do 2 eexists; (split; vm_compute; reflexivity). Qed.
