(** * C62: the names of the parts of the vocabulary of special tokens *)
From Coq Require Import List NArith Bool Permutation Lia.
From Verif Require Import M_Base L_Base M_Literal L_Literal M_Registry M_Dataset P_Dataset M_Pipeline P_Pipeline M_Parts.
Import ListNotations.
Local Open Scope list_scope.

Lemma brepr_inj b b' : is_bytes b -> is_bytes b' -> brepr b = brepr b' -> b = b'.
Proof.
  intros H H' E. assert (R : read_list (save_list [b]) = read_list (save_list [b'])) by (unfold save_list; cbn [map]; rewrite E; reflexivity).
  rewrite !C56_round_trip in R by (repeat constructor; assumption). injection R as R. exact R.
Qed.

Lemma last_part c a t a' t' : no_char c t -> no_char c t' -> a ++ c :: t = a' ++ c :: t' -> a = a' /\ t = t'.
Proof.
  intros H H' E. apply (f_equal (split_on c)) in E. rewrite !split_on_app_sep, (split_on_no_char c t H), (split_on_no_char c t' H') in E.
  apply app_inj_tail in E. destruct E as [E ->]. split; [|reflexivity]. rewrite <- (join_split c a), <- (join_split c a'), E. reflexivity.
Qed.

Definition good_saving (s : saving) : Prop :=
  is_bytes (sv_dest s) /\ no_char underscore (sv_time s) /\ Forall valid_str (sv_tokens s).

Lemma basename_bytes p : is_bytes p -> is_bytes (basename p).
Proof.
  unfold is_bytes, basename. intros H. rewrite <- (join_split slash p) in H. revert H. generalize (split_on slash p). intros l.
  induction l as [|x [|y l] IH]; intros H; [constructor|exact H|]. rewrite join_cons in H by discriminate.
  apply Forall_app in H. destruct H as [_ H]. apply Forall_app in H. destruct H as [_ H]. apply IH, H.
Qed.

(** Names are equal only for files with the same base name that are saved at the same instant. *)
Lemma part_name_inj s s' : good_saving s -> good_saving s' -> part_name s = part_name s' ->
  basename (sv_dest s) = basename (sv_dest s') /\ sv_time s = sv_time s'.
Proof.
  intros (B & T & _) (B' & T' & _) E. unfold part_name in E.
  change (lit "_-_") with ([95; 45] ++ [95])%N in E. rewrite !app_assoc in E. rewrite <- !(app_assoc _ [95%N]) in E. cbn [app] in E.
  rewrite <- !app_assoc in E. cbn [app] in E.
  assert (E' : (brepr (basename (sv_dest s)) ++ [95; 45]%N) ++ underscore :: sv_time s
             = (brepr (basename (sv_dest s')) ++ [95; 45]%N) ++ underscore :: sv_time s') by (rewrite <- !app_assoc; exact E).
  apply last_part in E'; [|assumption|assumption]. destruct E' as [E1 E2]. split; [|exact E2].
  apply app_inv_tail in E1. apply brepr_inj in E1; auto using basename_bytes.
Qed.

Definition saved (savings : list saving) : dict str str := fold_left save_metadata savings [].

Lemma saved_get savings s : Forall good_saving savings ->
  NoDup (map (fun s => (basename (sv_dest s), sv_time s)) savings) -> In s savings -> dget (saved savings) (part_name s) = Some (part_file (sv_tokens s)).
Proof.
  unfold saved. generalize (@nil (str * str)) as d. induction savings as [|x l IH]; intros d G N [].
  - subst x. cbn [fold_left]. inversion G as [|? ? Gs Gl]; subst. inversion N as [|? ? Hn Nl]; subst.
    assert (K : forall l d, Forall good_saving l -> ~ In (basename (sv_dest s), sv_time s) (map (fun s => (basename (sv_dest s), sv_time s)) l) ->
                dget (fold_left save_metadata l d) (part_name s) = dget d (part_name s)).
    { clear -Gs. induction l as [|y l IH]; intros d Gl Hn; [reflexivity|]. cbn [fold_left]. inversion Gl as [|? ? Gy Gl']; subst.
      cbn [map In] in Hn. rewrite IH; [|assumption|tauto]. unfold save_metadata. apply dget_dset_neq. intros E.
      destruct (part_name_inj _ _ Gy Gs E) as [E1 E2]. apply Hn. left. congruence. }
    rewrite K by assumption. unfold save_metadata. apply dget_dset_eq.
  - cbn [fold_left]. inversion G; subst. inversion N; subst. apply IH; assumption.
Qed.

Lemma saved_keys savings n f : dget (saved savings) n = Some f -> exists s, In s savings /\ n = part_name s /\ f = part_file (sv_tokens s).
Proof.
  unfold saved. assert (H0 : forall n f, dget (@nil (str * str)) n = Some f -> False) by discriminate. revert H0.
  assert (G : forall l d, dget (fold_left save_metadata l d) n = Some f ->
             dget d n = Some f \/ exists s, In s l /\ n = part_name s /\ f = part_file (sv_tokens s)).
  { induction l as [|x l IH]; intros d H; [left; exact H|]. cbn [fold_left] in H. apply IH in H.
    destruct H as [H|(s & Hs & E1 & E2)]; [|right; exists s; split; [right; exact Hs|auto]].
    unfold save_metadata in H. rewrite dget_dset in H. destruct (eqb_spec n (part_name x)) as [E|_].
    - injection H as <-. right. exists x. split; [left; reflexivity|auto].
    - left. exact H. }
  intros _ H. apply G in H. destruct H as [H|H]; [discriminate|exact H].
Qed.

(** If no two files with the same base name are saved at the same instant, the tokens of all files are gathered, and only these (and the
    placeholders); what is written is read back. *)
Theorem C62_parts : forall placeholders savings names,
  Forall good_saving savings -> NoDup (map (fun s => (basename (sv_dest s), sv_time s)) savings) ->
  Permutation names (dkeys (saved savings)) ->
  exists tokens, gather placeholders names (saved savings) = Ok tokens /\
    (forall t, In t tokens <-> In t placeholders \/ exists s, In s savings /\ In t (sv_tokens s)) /\
    forall written, Forall valid_str placeholders -> (forall t, In t written <-> In t tokens) -> load_vocab_set (part_file written) = Ok written.
Proof.
  intros placeholders savings names G N P.
  set (g := fun n => match dget (saved savings) n with Some f => load_vocab_set f | None => Err FileNotFoundError end).
  assert (Load : forall s, In s savings -> load_vocab_set (part_file (sv_tokens s)) = Ok (sv_tokens s)).
  { intros s Hs. apply load_part. rewrite Forall_forall in G. destruct (G s Hs) as (_ & _ & Hv). exact Hv. }
  assert (Key : forall n, In n names -> exists s, In s savings /\ g n = Ok (sv_tokens s)).
  { intros n Hn. apply (Permutation_in _ P) in Hn. unfold g. destruct (dget (saved savings) n) as [f|] eqn:D.
    - apply saved_keys in D. destruct D as (s & Hs & _ & ->). exists s. split; [exact Hs|apply Load, Hs].
    - exfalso. revert Hn. apply dget_none. exact D. }
  destruct (mapM_total g names) as [ls Els]. { intros n Hn. destruct (Key n Hn) as (s & _ & E). eauto. }
  assert (Q : forall t, In t (List.concat ls) <-> exists s, In s savings /\ In t (sv_tokens s)).
  { intros t. rewrite in_concat. split.
    - intros (x & Hx & Ht). destruct (mapM_in _ _ _ _ Els Hx) as (n & Hn & E). destruct (Key n Hn) as (s & Hs & E').
      exists s. split; [exact Hs|]. rewrite E' in E. injection E as ->. exact Ht.
    - intros (s & Hs & Ht). exists (sv_tokens s). split; [|exact Ht]. apply (mapM_in_ok _ _ _ (part_name s) _ Els).
      + apply (Permutation_in _ (Permutation_sym P)). pose proof (saved_get savings s G N Hs) as D. apply dget_in in D.
        apply (in_map fst) in D. exact D.
      + unfold g. rewrite (saved_get savings s G N Hs). apply Load, Hs. }
  exists (List.concat ls ++ placeholders). unfold gather. fold g. rewrite Els. cbn [bind]. split; [reflexivity|].
  assert (R : forall t, In t (List.concat ls ++ placeholders) <-> In t placeholders \/ exists s, In s savings /\ In t (sv_tokens s)).
  { intros t. rewrite in_app_iff, Q. tauto. }
  split; [exact R|]. intros written Hv Hw. apply load_part. apply Forall_forall. intros t Ht. apply Hw, R in Ht.
  destruct Ht as [Ht|(s & Hs & Ht)]; [rewrite Forall_forall in Hv; auto|]. rewrite Forall_forall in G. destruct (G s Hs) as (_ & _ & Hs').
  rewrite Forall_forall in Hs'. auto.
Qed.
Print Assumptions C62_parts.

Ltac good := split; [|split];
  [unfold is_bytes; vm_compute lit; repeat (apply Forall_cons; [reflexivity|]); apply Forall_nil
  |intros Hin; vm_compute in Hin; repeat (destruct Hin as [Hin|Hin]; [discriminate|]); exact Hin
  |cbn [sv_tokens]; repeat (apply Forall_cons; [unfold valid_str; cbn; repeat (apply Forall_cons; [lia|]); apply Forall_nil|]); apply Forall_nil].

(** the files of a project, one of them saved a second time after a restart *)
Definition parts_ex : list saving :=
  [{| sv_dest := lit "/p/a/__init__.py.prep"; sv_time := lit "1583794859.25"; sv_tokens := [lit "def"; lit ":"] |};
   {| sv_dest := lit "/p/b/__init__.py.prep"; sv_time := lit "1583794859.5"; sv_tokens := [lit "class"; [10]%N] |};
   {| sv_dest := lit "/p/a/__init__.py.prep"; sv_time := lit "1583794899.0"; sv_tokens := [lit "def"; lit ":"] |}].
Example C62_parts_example :
  Forall good_saving parts_ex /\ NoDup (map (fun s => (basename (sv_dest s), sv_time s)) parts_ex) /\
  dkeys (saved parts_ex) = [lit "b'__init__.py.prep'_-_1583794859.25"; lit "b'__init__.py.prep'_-_1583794859.5"; lit "b'__init__.py.prep'_-_1583794899.0"] /\
  gather [lit "<EOF>"] (rev (dkeys (saved parts_ex))) (saved parts_ex) = Ok [lit "def"; lit ":"; lit "class"; [10]%N; lit "def"; lit ":"; lit "<EOF>"].
Proof.
  split; [|split; [|split; vm_compute; reflexivity]].
  - repeat apply Forall_cons; [good|good|good|apply Forall_nil].
  - vm_compute. repeat constructor; intros Hin; cbn [In] in Hin; intuition discriminate.
Qed.

(** Several processes save at the same time.  Two files with the same base name, saved at the same instant, have the same part: the tokens
    of the first are lost. *)
Theorem C62_same_instant_refuted : exists placeholders s s' names,
  good_saving s /\ good_saving s' /\ sv_dest s <> sv_dest s' /\ Permutation names (dkeys (saved [s; s'])) /\
  exists tokens t, gather placeholders names (saved [s; s']) = Ok tokens /\ In t (sv_tokens s) /\ ~ In t tokens.
Proof.
  exists [lit "<EOF>"], {| sv_dest := lit "/p/a/__init__.py.prep"; sv_time := lit "1583794859.25"; sv_tokens := [lit "def"] |},
    {| sv_dest := lit "/p/b/__init__.py.prep"; sv_time := lit "1583794859.25"; sv_tokens := [lit "class"] |}.
  eexists. split; [good|]. split; [good|].
  split; [discriminate|]. split; [apply Permutation_refl|]. exists [lit "class"; lit "<EOF>"], (lit "def").
  split; [vm_compute; reflexivity|]. split; [left; reflexivity|]. intros [H|[H|[]]]; discriminate.
Qed.
Print Assumptions C62_same_instant_refuted.
