(** C01 - C05: what the metadata says about the output of preprocessing. *)
From Verif Require Import M_Base L_Base M_Tokens M_Repr L_Repr M_Literal M_Merge L_Merge M_BpeEncode S_Bpe L_Bpe
  L_BpeEncode P_Merge P_Bpe M_PrepConfig.
From Coq Require Import Arith.

(** ** Facts about get_repr_config *)
Definition is_some {A} (o : option A) : bool := match o with Some _ => true | None => false end.

Lemma repr_config_bpe o d b rc :
  get_repr_config o d b = Ok rc -> is_bpe d = true ->
  number_splitter rc = bpe_call b /\ word_splitter rc = Some (bpe_call b) /\ bpe rc = is_some b /\
  full_strings rc = false /\ in_types rc CSplitContainer = true /\ in_types rc CWord = true /\
  in_types rc CNumber = true.
Proof.
  unfold get_repr_config. intros H Hb. rewrite Hb in H.
  apply bind_ok in H. destruct H as (ns & Hns & H). apply bind_ok in H. destruct H as (ws & Hws & H).
  apply bind_ok in H. destruct H as (ml & Hml & [= <-]).
  unfold in_types; cbn [number_splitter word_splitter bpe full_strings types_to_be_repr].
  unfold get_number_splitter, get_word_splitter, get_types_to_be_repr in *. unfold is_bpe in Hb.
  rewrite Hb in *.
  unfold param_in in *. apply mem_in in Hb.
  assert (H0 : mem (param d SPLIT) (chars_of "0F1") = false).
  { cbn [In chars_of map lit] in Hb. repeat (destruct Hb as [<-|Hb]; [reflexivity|]). destruct Hb. }
  assert (H1 : mem (param d SPLIT) (chars_of "23s") = false).
  { cbn [In chars_of map lit] in Hb. repeat (destruct Hb as [<-|Hb]; [reflexivity|]). destruct Hb. }
  assert (H2 : mem (param d SPLIT) (chars_of "F") = false).
  { cbn [In chars_of map lit] in Hb. repeat (destruct Hb as [<-|Hb]; [reflexivity|]). destruct Hb. }
  assert (H3 : mem (param d SPLIT) (chars_of "123456789s") = true).
  { cbn [In chars_of map lit] in Hb. repeat (destruct Hb as [<-|Hb]; [reflexivity|]). destruct Hb. }
  assert (H4 : mem (param d SPLIT) (chars_of "23456789s") = true).
  { cbn [In chars_of map lit] in Hb. repeat (destruct Hb as [<-|Hb]; [reflexivity|]). destruct Hb. }
  rewrite H0, H1 in Hns. rewrite H2, H3, H4. injection Hns as <-. injection Hws as <-.
  repeat split; reflexivity.
Qed.

Lemma repr_config_not_bpe o d b rc :
  get_repr_config o d b = Ok rc -> is_bpe d = false -> bpe rc = false.
Proof.
  unfold get_repr_config. intros H Hb. rewrite Hb in H.
  apply bind_ok in H. destruct H as (ns & Hns & H). apply bind_ok in H. destruct H as (ws & Hws & H).
  apply bind_ok in H. destruct H as (ml & Hml & [= <-]). reflexivity.
Qed.

Lemma repr_config_types o d b rc :
  get_repr_config o d b = Ok rc -> types_to_be_repr rc = get_types_to_be_repr d.
Proof.
  unfold get_repr_config. intros H.
  apply bind_ok in H. destruct H as (ns & Hns & H). apply bind_ok in H. destruct H as (ws & Hws & H).
  apply bind_ok in H. destruct H as (ml & Hml & [= <-]). reflexivity.
Qed.

Lemma bpe_call_nonempty b s ws : bpe_call b s = Ok ws -> ws <> [].
Proof.
  destruct b as [d|]; [|discriminate]. simpl. unfold get_bpe_subwords. rewrite bind_ok.
  intros (r & _ & H). unfold unescape in H. destruct r as [|x r]; [discriminate|].
  destruct (last (x :: r) []); [discriminate|]. destruct (N.eqb _ _); [|discriminate].
  injection H as <-. intros E. apply map_eq_nil, app_eq_nil in E. destruct E; discriminate.
Qed.

Lemma repr_config_nonempty o d b rc v ws :
  get_repr_config o d b = Ok rc -> number_splitter rc v = Ok ws -> is_bpe d = true \/ v <> [] -> ws <> [].
Proof.
  intros Hrc Hws Hv. destruct (is_bpe d) eqn:Hb.
  - destruct (repr_config_bpe _ _ _ _ Hrc Hb) as (E & _). rewrite E in Hws.
    eapply bpe_call_nonempty, Hws.
  - destruct Hv as [Hv|Hv]; [discriminate|].
    unfold get_repr_config in Hrc. rewrite Hb in Hrc.
    apply bind_ok in Hrc. destruct Hrc as (ns & Hns & H). apply bind_ok in H. destruct H as (ws' & Hws' & H).
    apply bind_ok in H. destruct H as (ml & Hml & [= <-]). simpl in Hws.
    unfold get_number_splitter in Hns. destruct (param_in d SPLIT "0F1").
    + injection Hns as <-. injection Hws as <-. discriminate.
    + destruct (param_in d SPLIT "23s").
      * injection Hns as <-. injection Hws as <-. destruct v; [congruence|discriminate].
      * unfold is_bpe in Hb. rewrite Hb in Hns. discriminate.
Qed.

Lemma repr_config_word_nonempty o d b rc :
  get_repr_config o d b = Ok rc -> bpe rc = true -> forall s ws, split_word rc s = Ok ws -> ws <> [].
Proof.
  intros Hrc Hb s ws. destruct (is_bpe d) eqn:Hd.
  - destruct (repr_config_bpe _ _ _ _ Hrc Hd) as (_ & E & _). unfold split_word. rewrite E. apply bpe_call_nonempty.
  - rewrite (repr_config_not_bpe _ _ _ _ Hrc Hd) in Hb. discriminate.
Qed.

(** the output of to_repr in terms of segments *)
Lemma to_repr_segs E o d b l out m :
  to_repr E o d b l = Ok (out, m) ->
  exists rc ss, get_repr_config o d b = Ok rc /\ segs_list E rc l = Ok ss /\ m = snd (flat ss) /\
    (is_bpe d = false -> out = List.concat (map s_toks ss)) /\
    (is_bpe d = true -> Forall (fun s => s_toks s <> []) ss /\ out = List.concat (map (fun s => mark (s_toks s)) ss)) /\
    ((~ In (Number []) (all_tokens l)) -> Forall (fun s => s_toks s <> []) ss).
Proof.
  unfold to_repr. rewrite bind_ok. intros (rc & Hrc & H). unfold to_repr_cfg in H.
  rewrite to_repr_list_segs in H. apply bind_ok in H. destruct H as (r & Hr & H).
  apply bind_ok in Hr. destruct Hr as (ss & Hss & [= <-]). exists rc, ss.
  split; [exact Hrc|]. split; [exact Hss|].
  assert (Hne : is_bpe d = true \/ ~ In (Number []) (all_tokens l) -> Forall (fun s => s_toks s <> []) ss).
  { intros Hor. eapply segs_list_nonempty; [|intros v ws Hv Hw|exact Hss].
    - eapply repr_config_word_nonempty, Hrc.
    - eapply repr_config_nonempty; [exact Hrc|exact Hw|]. destruct Hor as [Hor|Hor]; [left; exact Hor|right].
      intros ->. exact (Hor Hv). }
  destruct (is_bpe d).
  - rewrite insert_flat in H by (apply Hne; left; reflexivity). cbn [bind] in H. injection H as <- <-.
    repeat split; auto; discriminate.
  - injection H as <- <-. repeat split; auto; discriminate.
Qed.

(** * C01 *)
Theorem C01_metadata_boundaries :
  forall E o d b l out m,
  to_repr E o d b l = Ok (out, m) -> ~ In (Number []) (all_tokens l) ->
  hd 1 (wb m) = 0 /\ increasing (wb m) /\ last (wb m) 0 = length out /\ length (types m) = length (wb m) - 1.
Proof.
  intros E o d b l out m H Hn.
  destruct (to_repr_segs _ _ _ _ _ _ _ H) as (rc & ss & _ & _ & -> & Ho & Hb & Hne). specialize (Hne Hn).
  unfold flat; cbn [snd wb types].
  split; [destruct ss; reflexivity|]. split; [apply bounds_increasing, Forall_map, Hne|].
  split; [|rewrite bounds_length, !map_length; lia].
  rewrite bounds_last. cbn [Nat.add]. destruct (is_bpe d).
  - destruct (Hb eq_refl) as [_ ->]. clear -Hne. induction Hne as [|s ss Hs Hne IH]; [reflexivity|].
    simpl. rewrite !app_length, mark_length, IH by exact Hs. reflexivity.
  - rewrite Ho by reflexivity. reflexivity.
Qed.
Print Assumptions C01_metadata_boundaries.

(** the boundaries cut the output into the full tokens *)
Fixpoint slices {A} (bs : list nat) (l : list A) : list (list A) :=
  match bs with
  | a :: ((b :: _) as t) => firstn (b - a) (skipn a l) :: slices t l
  | _ => []
  end.

Lemma slices_cons {A} a b bs (l : list A) :
  slices (a :: b :: bs) l = firstn (b - a) (skipn a l) :: slices (b :: bs) l.
Proof. reflexivity. Qed.

Lemma slices_bounds pre gs : slices (bounds (length pre) gs) (pre ++ List.concat gs) = gs.
Proof.
  revert pre; induction gs as [|g gs IH]; intros pre; [reflexivity|].
  assert (Hb : bounds (length pre + length g) gs
               = (length pre + length g) :: tl (bounds (length pre + length g) gs)) by (destruct gs; reflexivity).
  cbn [bounds]. rewrite Hb, slices_cons, <- Hb. f_equal.
  - replace (length pre + length g - length pre) with (length g) by lia.
    rewrite skipn_app, skipn_all, Nat.sub_diag. cbn [app skipn List.concat].
    rewrite firstn_app, firstn_all, Nat.sub_diag. apply app_nil_r.
  - specialize (IH (pre ++ g)). rewrite app_length in IH. cbn [List.concat]. rewrite app_assoc. exact IH.
Qed.

Lemma slices_bounds0 gs : slices (bounds 0 gs) (List.concat gs) = gs.
Proof. exact (slices_bounds [] gs). Qed.

(** * C04 *)
Theorem C04_compositional :
  forall E o d b la lb oa ma ob mb,
  to_repr E o d b la = Ok (oa, ma) -> to_repr E o d b lb = Ok (ob, mb) ->
  to_repr E o d b (la ++ lb) =
  Ok (oa ++ ob, {| nonproc := nonproc ma ++ nonproc mb;
                   wb := removelast (wb ma) ++ map (fun x => length oa + x) (wb mb);
                   types := types ma ++ types mb |}).
Proof.
  intros E o d b la lb oa ma ob mb Ha Hb.
  destruct (to_repr_segs _ _ _ _ _ _ _ Ha) as (rc & sa & Hrc & Hsa & -> & Hoa & Hba & _).
  destruct (to_repr_segs _ _ _ _ _ _ _ Hb) as (rc' & sb & Hrc' & Hsb & -> & Hob & Hbb & _).
  assert (rc' = rc) by congruence. subst rc'. clear Ha Hb Hrc'.
  unfold to_repr. rewrite Hrc. cbn [bind]. unfold to_repr_cfg. rewrite to_repr_list_segs.
  unfold segs_list in *. rewrite segs_list_with_app, Hsa, Hsb. cbn [bind flat_res].
  assert (Hm : forall L, L = length (List.concat (map s_toks sa)) ->
    {| nonproc := nonproc (snd (flat sa)) ++ nonproc (snd (flat sb));
       wb := removelast (wb (snd (flat sa))) ++ map (fun x => L + x) (wb (snd (flat sb)));
       types := types (snd (flat sa)) ++ types (snd (flat sb)) |} = snd (flat (sa ++ sb))).
  { intros L ->. rewrite flat_app. cbn [snd]. unfold meta_update. f_equal. f_equal.
    assert (Hl : last (wb (snd (flat sa))) 0 = length (List.concat (map s_toks sa))) by apply bounds_last.
    rewrite Hl. reflexivity. }
  destruct (is_bpe d).
  - destruct (Hba eq_refl) as [Ha ->]. destruct (Hbb eq_refl) as [Hb ->].
    rewrite insert_flat by (apply Forall_app; split; assumption). cbn [bind].
    rewrite map_app, concat_app. rewrite Hm; [reflexivity|].
    clear -Ha. induction Ha as [|s ss Hs Hne IH]; [reflexivity|].
    simpl. rewrite !app_length, mark_length, IH by exact Hs. reflexivity.
  - rewrite Hoa, Hob by reflexivity. rewrite Hm by reflexivity.
    rewrite <- concat_app, <- map_app. reflexivity.
Qed.
Print Assumptions C04_compositional.

(** and it fails only if one of the two parts fails *)
Theorem C04_splits :
  forall E o d b la lb r, to_repr E o d b (la ++ lb) = Ok r ->
  exists ra rb, to_repr E o d b la = Ok ra /\ to_repr E o d b lb = Ok rb.
Proof.
  intros E o d b la lb [out m] H.
  destruct (to_repr_segs _ _ _ _ _ _ _ H) as (rc & ss & Hrc & Hss & _ & _ & Hb & _).
  unfold segs_list in Hss. rewrite segs_list_with_app in Hss.
  apply bind_ok in Hss. destruct Hss as (sa & Hsa & Hss). apply bind_ok in Hss. destruct Hss as (sb & Hsb & [= <-]).
  unfold to_repr. rewrite Hrc. cbn [bind]. unfold to_repr_cfg. rewrite !to_repr_list_segs.
  unfold segs_list. rewrite Hsa, Hsb. cbn [bind flat_res].
  destruct (is_bpe d).
  - destruct (Hb eq_refl) as [Hf _]. apply Forall_app in Hf. destruct Hf as [Hfa Hfb].
    rewrite !insert_flat by assumption. cbn [bind]. eauto.
  - eauto.
Qed.
Print Assumptions C04_splits.

(** * C05 *)
Lemma segs_np_last E cfg t r :
  segs E cfg t = Ok r -> Forall (fun s => forall x, In x (s_np s) -> s_toks s <> [] /\ last (s_toks s) [] = x) r.
Proof.
  assert (Hone : forall c toks, Forall (fun s => forall x, In x (s_np s) -> s_toks s <> [] /\ last (s_toks s) [] = x)
                                  (one_seg c toks [])) by (intros; constructor; [intros ? []|constructor]).
  assert (Hnp : forall c y, Forall (fun s => forall x, In x (s_np s) -> s_toks s <> [] /\ last (s_toks s) [] = x)
                                  (one_seg c [y] [y])).
  { intros; constructor; [|constructor]. intros x [<-|[]]. split; [discriminate|reflexivity]. }
  assert (Hsplit : forall l r, segs_split E cfg l = Ok r ->
    Forall (fun s => forall x, In x (s_np s) -> s_toks s <> [] /\ last (s_toks s) [] = x) r).
  { intros l r'. unfold segs_split. destruct (in_types _ _); [destruct (bpe cfg)|];
      rewrite bind_ok; intros (ws & _ & [= <-]); apply Hone. }
  revert r. induction t using token_nested_ind; intros r; cbn [segs].
  - destruct (in_types _ _); intros [= <-]; [constructor|apply Hnp].
  - destruct (in_types _ _); intros [= <-]; [constructor|apply Hnp].
  - intros [= <-]. apply Hone.
  - destruct (in_types _ _); [|intros [= <-]; apply Hone]. rewrite bind_ok. intros (ws & _ & [= <-]). apply Hone.
  - intros [= <-]. apply Hone.
  - intros [= <-]. apply Hone.
  - intros [= <-]. apply Hnp.
  - apply Hsplit.
  - destruct (in_types _ _); [|apply Hsplit]. destruct (bpe cfg); [|intros [= <-]; apply Hone].
    rewrite bind_ok. intros (s & _ & H). apply bind_ok in H. destruct H as (w & _ & H). apply Hsplit in H. exact H.
  - destruct (in_types _ _); [intros [= <-]; apply Hone|]. rewrite bind_ok. intros (rs & Hrs & [= <-]).
    apply Forall_app. split; [|apply Hone]. apply Forall_map. cbn [retype s_np s_toks].
    eapply segs_list_with_forall; [|exact Hrs]. eapply Forall_impl; [|exact H]. intros t Ht s Hs. apply Ht, Hs.
  - destruct (in_types _ _); [intros [= <-]; apply Hone|]. rewrite bind_ok. intros (rs & Hrs & [= <-]).
    apply Forall_map. cbn [retype s_np s_toks].
    eapply segs_list_with_forall; [|exact Hrs]. eapply Forall_impl; [|exact H]. intros t Ht s Hs. apply Ht, Hs.
  - destruct (in_types _ _); [intros [= <-]; apply Hone|].
    destruct (max_str_length cfg) as [mx|]; [|discriminate].
    destruct (mx <? n)%Z.
    + intros [= <-]. destruct (full_strings cfg); [apply Hone|].
      constructor; [|constructor]. intros x [<-|[]]. split; [discriminate|reflexivity].
    + destruct (bpe cfg); [|destruct (full_strings cfg)].
      * rewrite bind_ok. intros (s & _ & H'). apply bind_ok in H'. destruct H' as (w & Hw & [= <-]). apply Hone.
      * rewrite bind_ok. intros (s & _ & [= <-]). apply Hone.
      * rewrite bind_ok. intros (rs & Hrs & [= <-]). apply Forall_map. cbn [retype s_np s_toks].
        eapply segs_list_with_forall; [|exact Hrs]. eapply Forall_impl; [|exact H]. intros t Ht s Hs. apply Ht, Hs.
Qed.

Theorem C05_nonprocessable_occur :
  forall E o d b l out m x,
  to_repr E o d b l = Ok (out, m) -> In x (nonproc m) ->
  In (if is_bpe d then x ++ lit "</t>" else x) out.
Proof.
  intros E o d b l out m x H Hx.
  destruct (to_repr_segs _ _ _ _ _ _ _ H) as (rc & ss & Hrc & Hss & -> & Ho & Hb & _).
  assert (Hf : Forall (fun s => forall x, In x (s_np s) -> s_toks s <> [] /\ last (s_toks s) [] = x) ss).
  { eapply segs_list_with_forall; [|exact Hss]. apply Forall_forall. intros t _ s. apply segs_np_last. }
  unfold flat in Hx. cbn [snd nonproc] in Hx. apply in_concat in Hx. destruct Hx as (np & Hnp & Hx).
  apply in_map_iff in Hnp. destruct Hnp as (s & <- & Hs). rewrite Forall_forall in Hf.
  destruct (Hf s Hs x Hx) as [Hne Hl]. destruct (is_bpe d).
  - destruct (Hb eq_refl) as [_ ->]. apply in_concat. exists (mark (s_toks s)).
    split; [exact (in_map (fun s => mark (s_toks s)) _ _ Hs)|]. unfold mark. rewrite Hl.
    apply in_or_app. right. left. reflexivity.
  - rewrite Ho by reflexivity. apply in_concat. exists (s_toks s). split; [apply in_map, Hs|].
    rewrite (app_removelast_last [] Hne). apply in_or_app. right. left. exact Hl.
Qed.
Print Assumptions C05_nonprocessable_occur.

(** ** Words given to the byte-pair splitter *)

(** merges without repetition and a cache that holds real encodings (see C16) *)
Definition usable (b : bpe_data) (l : list (pair * option Z)) : Prop :=
  built l (bd_merges b) /\ NoDup (map fst l) /\ faithful b l.

(** tokens whose text is split into subwords *)
Definition is_text (t : token) : bool :=
  match t with Number _ | SplitContainer _ | NonEng _ | StringLiteral _ _ => true | _ => false end.

(** no text to be split contains a space: the parser turns spaces inside strings into SpaceInString *)
Definition spaceless (E : pycase) (l : list token) : Prop :=
  forall t, In t (all_tokens l) -> is_text t = true -> ~ In 32%N (tok_str E t).

(** Python's case functions on ascii characters and the division sign, the placeholder for non-ascii text *)
Definition plain (c : N) : Prop := (c < 128)%N \/ c = 247%N.
Definition py_ascii (E : pycase) : Prop :=
  (forall c, plain c -> is_lower_ch E c = ascii_lower_ch c /\ is_upper_ch E c = ascii_upper_ch c /\
                        is_title_ch E c = false) /\
  (forall s, Forall plain s -> lower E s = lower ascii_case s /\ upper E s = upper ascii_case s /\
                               capitalize E s = capitalize ascii_case s).

Lemma ascii_case_py_ascii : py_ascii ascii_case.
Proof. split; intros; repeat split; reflexivity. Qed.

Lemma replace_loop_chars (P : N -> Prop) ph ong w :
  (forall c, In c ph -> P c) -> (forall c, In c w -> is_ascii_char c = true -> P c) ->
  Forall P (replace_non_ascii_loop ph ong w).
Proof.
  intros Hph. rewrite <- Forall_forall in Hph. revert ong; induction w as [|c w IH]; intros ong Hw; cbn [replace_non_ascii_loop].
  - destruct ong; [exact Hph|constructor].
  - assert (Hw' : forall c, In c w -> is_ascii_char c = true -> P c) by (intros; apply Hw; [right|]; assumption).
    destruct (is_ascii_char c) eqn:Ec.
    + apply Forall_app. split; [destruct ong; [exact Hph|constructor]|].
      constructor; [apply Hw; [left; reflexivity|exact Ec]|apply IH, Hw'].
    + apply IH, Hw'.
Qed.

Lemma replace_non_ascii_plain s s' : replace_non_ascii_seqs s ph_non_ascii_seq = Ok s' -> Forall plain s'.
Proof.
  unfold replace_non_ascii_seqs. cbn [length ph_non_ascii_seq Nat.eqb]. intros [= <-].
  apply replace_loop_chars.
  - intros c [<-|[]]. right. reflexivity.
  - intros c _ Hc. left. apply N.ltb_lt, Hc.
Qed.

Lemma replace_non_ascii_no_space s s' :
  replace_non_ascii_seqs s ph_non_ascii_seq = Ok s' -> ~ In 32%N s -> ~ In 32%N s'.
Proof.
  unfold replace_non_ascii_seqs. cbn [length ph_non_ascii_seq Nat.eqb]. intros [= <-] Hn.
  assert (Hf : Forall (fun c => c <> 32%N) (replace_non_ascii_loop ph_non_ascii_seq false s)).
  { apply replace_loop_chars.
    - intros c [<-|[]]. discriminate.
    - intros c Hc _ ->. exact (Hn Hc). }
  intros Hin. rewrite Forall_forall in Hf. exact (Hf _ Hin eq_refl).
Qed.

Lemma word_from_chars E (P : N -> Prop) s w :
  py_ascii E -> (forall c, P c -> P (ascii_to_lower c) /\ P (ascii_to_upper c)) ->
  Forall plain s -> Forall P s -> word_from E s = Ok w -> Forall P (subtoken_str E w).
Proof.
  intros [_ HE] HP Hs Hp H.
  assert (Hlow : forall x, Forall plain x -> Forall plain (map ascii_to_lower x)).
  { intros x Hx. apply Forall_map. eapply Forall_impl; [|exact Hx]. unfold plain, ascii_to_lower, ascii_upper_ch.
    intros c Hc. destruct (N.leb_spec 65 c); destruct (N.leb_spec c 90); cbn [andb]; lia. }
  assert (HlP : forall x, Forall P x -> Forall P (map ascii_to_lower x)).
  { intros x Hx. apply Forall_map. eapply Forall_impl; [|exact Hx]. intros c Hc. apply HP, Hc. }
  assert (HuP : forall x, Forall P x -> Forall P (map ascii_to_upper x)).
  { intros x Hx. apply Forall_map. eapply Forall_impl; [|exact Hx]. intros c Hc. apply HP, Hc. }
  destruct s as [|c rest]; [discriminate|]. unfold word_from, mk_word in H.
  destruct (islower E (c :: rest)).
  { destruct (canonic_ok _ _); [|discriminate]. injection H as <-. exact Hp. }
  destruct (isupper E (c :: rest)).
  { destruct (canonic_ok _ _); [|discriminate]. injection H as <-. cbn [subtoken_str with_preserved_case].
    rewrite (proj1 (HE _ Hs)). cbn [lower ascii_case].
    rewrite (proj1 (proj2 (HE (map ascii_to_lower (c :: rest)) (Hlow _ Hs)))). cbn [upper ascii_case].
    apply HuP, HlP, Hp. }
  destruct (isupper E [c]).
  { destruct (canonic_ok _ _); [|discriminate]. injection H as <-. cbn [subtoken_str with_preserved_case].
    inversion Hs as [|? ? Hc Hr]; inversion Hp as [|? ? Pc Pr]; subst.
    rewrite (proj1 (HE [c] (Forall_cons _ Hc (Forall_nil _)))). cbn [lower ascii_case map app].
    assert (Hs' : Forall plain (ascii_to_lower c :: rest)).
    { constructor; [|exact Hr]. assert (X := Hlow [c] (Forall_cons _ Hc (Forall_nil _))). inversion X; assumption. }
    rewrite (proj2 (proj2 (HE _ Hs'))). cbn [capitalize ascii_case].
    constructor; [apply HP, HP, Pc|apply HlP, Pr]. }
  destruct (canonic_ok _ _); [|discriminate]. injection H as <-. exact Hp.
Qed.

Lemma case_not_space c : c <> 32%N -> ascii_to_lower c <> 32%N /\ ascii_to_upper c <> 32%N.
Proof.
  unfold ascii_to_lower, ascii_to_upper, ascii_upper_ch, ascii_lower_ch. intros Hc.
  destruct (N.leb_spec 65 c), (N.leb_spec c 90), (N.leb_spec 97 c), (N.leb_spec c 122); cbn [andb]; split; lia.
Qed.

Lemma split_on_chars c s x y : In x (split_on c s) -> In y x -> In y s.
Proof.
  revert x; induction s as [|a s IH]; intros x; simpl.
  - intros [<-|[]] [].
  - destruct (N.eqb a c).
    + intros [<-|H] Hy; [destruct Hy|right; eapply IH; eassumption].
    + destruct (split_on c s) as [|w ws].
      * intros [<-|[]] [<-|[]]. left. reflexivity.
      * intros [<-|H] Hy.
        -- destruct Hy as [<-|Hy]; [left; reflexivity|right; apply (IH w); [left; reflexivity|exact Hy]].
        -- right. apply (IH x); [right; exact H|exact Hy].
Qed.

Lemma join_chars sep l y : In y (join sep l) -> In y sep \/ exists x, In x l /\ In y x.
Proof.
  induction l as [|x l IH]; [intros []|]. destruct l as [|z l].
  - simpl. intros Hy. right. exists x. auto.
  - rewrite join_cons by discriminate. rewrite !in_app_iff. intros [H|[H|H]].
    + right. exists x. split; [left; reflexivity|exact H].
    + left. exact H.
    + destruct (IH H) as [?|(u & Hu & Hy)]; [left; assumption|right]. exists u. split; [right; exact Hu|exact Hy].
Qed.

Lemma mapM_in {A B} (f : A -> res B) l r y : mapM f l = Ok r -> In y r -> exists x, In x l /\ f x = Ok y.
Proof.
  revert r; induction l as [|a l IH]; intros r; simpl.
  - intros [= <-] [].
  - rewrite bind_ok. intros (b & Hb & H). apply bind_ok in H. destruct H as (bs & Hbs & [= <-]).
    intros [<-|Hy]; [exists a; auto|]. destruct (IH _ Hbs Hy) as (x & Hx & Hf). exists x. auto.
Qed.

Lemma string_text_chars E cfg t s y :
  string_text E cfg t = Ok s -> In y s ->
  in_types cfg CNonEng = false /\ In y (tok_str E t) \/
  in_types cfg CNonEng = true /\ (y = 160 \/ y = 247 \/ (In y (tok_str E t) /\ y < 128))%N.
Proof.
  unfold string_text. destruct (in_types cfg CNonEng); [|intros [= <-]; auto].
  rewrite bind_ok. intros (ps & Hps & [= <-]) Hy. right. split; [reflexivity|].
  apply join_chars in Hy. destruct Hy as [Hy|(p & Hp & Hy)].
  - destruct Hy as [<-|[]]. left. reflexivity.
  - right. destruct (mapM_in _ _ _ _ Hps Hp) as (q & Hq & Hr).
    unfold replace_non_ascii_seqs in Hr. cbn [length ph_non_ascii_seq Nat.eqb] in Hr. injection Hr as <-.
    assert (Hf : Forall (fun c => c = 247%N \/ (In c (tok_str E t) /\ (c < 128)%N))
                   (replace_non_ascii_loop ph_non_ascii_seq false q)).
    { apply replace_loop_chars.
      - intros c [<-|[]]. left. reflexivity.
      - intros c Hc Ha. right. split; [eapply split_on_chars; eassumption|apply N.ltb_lt, Ha]. }
    rewrite Forall_forall in Hf. apply Hf, Hy.
Qed.

(** what a segment of bpe output is *)
Inductive bpe_seg (b : bpe_data) : list str -> Prop :=
| bs_one x : bpe_seg b [x]
| bs_long : bpe_seg b [s_quote; s_quote]
| bs_words w ws : ~ In 32%N w -> get_bpe_subwords b w = Ok ws -> bpe_seg b ws.

Lemma segs_bpe E cfg b t r :
  py_ascii E ->
  bpe cfg = true -> in_types cfg CSplitContainer = true ->
  number_splitter cfg = bpe_call (Some b) -> word_splitter cfg = Some (bpe_call (Some b)) ->
  (forall u, In u (subterms t) -> is_text u = true -> ~ In 32%N (tok_str E u)) ->
  segs E cfg t = Ok r -> Forall (fun s => bpe_seg b (s_toks s)) r.
Proof.
  intros HE Hb Hsc Hns Hws.
  assert (Hsplit : forall l r, ~ In 32%N (split_str E l) -> segs_split E cfg l = Ok r ->
    Forall (fun s => bpe_seg b (s_toks s)) r).
  { intros l r' Hl. unfold segs_split. rewrite Hsc, Hb, bind_ok. intros (ws & Hw & [= <-]).
    constructor; [|constructor]. unfold split_word in Hw. rewrite Hws in Hw. eapply bs_words; eassumption. }
  assert (Hlist : forall keep l r,
    Forall (fun t => forall r, (forall u, In u (subterms t) -> is_text u = true -> ~ In 32%N (tok_str E u)) ->
                     segs E cfg t = Ok r -> Forall (fun s => bpe_seg b (s_toks s)) r) l ->
    (forall u, In u (List.concat (map subterms l)) -> is_text u = true -> ~ In 32%N (tok_str E u)) ->
    segs_list_with keep (segs E cfg) l = Ok r -> Forall (fun s => bpe_seg b (s_toks s)) r).
  { intros keep l r' Hf Hsp Hr. eapply segs_list_with_forall; [|exact Hr].
    apply Forall_forall. intros x Hx s Hs. rewrite Forall_forall in Hf. apply (Hf x Hx); [|exact Hs].
    intros u Hu. apply Hsp. apply in_concat. exists (subterms x). split; [apply in_map, Hx|exact Hu]. }
  revert r. induction t using token_nested_ind; intros r Hsp; cbn [segs].
  - match goal with |- context [in_types cfg ?c] => destruct (in_types cfg c) end; intros [= <-]; repeat constructor.
  - match goal with |- context [in_types cfg ?c] => destruct (in_types cfg c) end; intros [= <-]; repeat constructor.
  - intros [= <-]; repeat constructor.
  - match goal with |- context [in_types cfg ?c] => destruct (in_types cfg c) end; [|intros [= <-]; repeat constructor].
    rewrite bind_ok. intros (ws & Hw & [= <-]). constructor; [|constructor]. cbn [s_toks].
    rewrite Hb, andb_false_r. rewrite Hns in Hw. eapply bs_words; [|exact Hw].
    apply (Hsp (Number v)); [left; reflexivity|reflexivity].
  - intros [= <-]; repeat constructor.
  - intros [= <-]; repeat constructor.
  - intros [= <-]; repeat constructor.
  - apply Hsplit. apply (Hsp (SplitContainer l)); [left; reflexivity|reflexivity].
  - assert (Hl : ~ In 32%N (split_str E l)) by (apply (Hsp (NonEng l)); [left; reflexivity|reflexivity]).
    match goal with |- context [in_types cfg ?c] => destruct (in_types cfg c) end; [|apply Hsplit; exact Hl]. rewrite Hb.
    rewrite bind_ok. intros (s & Hs & H). apply bind_ok in H. destruct H as (w & Hw & H).
    apply (Hsplit [w]) in H; [exact H|]. unfold split_str. cbn [map List.concat]. rewrite app_nil_r.
    intros Hin.
    assert (Hf : Forall (fun c => c <> 32%N) (subtoken_str E w)).
    { apply (word_from_chars E _ s w HE case_not_space); [eapply replace_non_ascii_plain, Hs| |exact Hw].
      apply Forall_forall. intros c Hc ->. exact (replace_non_ascii_no_space _ _ Hs Hl Hc). }
    rewrite Forall_forall in Hf. exact (Hf _ Hin eq_refl).
  - match goal with |- context [in_types cfg ?c] => destruct (in_types cfg c) end; [intros [= <-]; repeat constructor|]. rewrite bind_ok. intros (rs & Hrs & [= <-]).
    apply Forall_app. split; [|repeat constructor]. apply Forall_map. cbn [retype s_toks].
    eapply Hlist; [exact H| |exact Hrs]. intros u Hu. apply Hsp. right. exact Hu.
  - match goal with |- context [in_types cfg ?c] => destruct (in_types cfg c) end; [intros [= <-]; repeat constructor|]. rewrite bind_ok. intros (rs & Hrs & [= <-]).
    apply Forall_map. cbn [retype s_toks].
    eapply Hlist; [exact H| |exact Hrs]. intros u Hu. apply Hsp. right. exact Hu.
  - destruct (in_types cfg CStringLiteral); [intros [= <-]; repeat constructor|].
    destruct (max_str_length cfg) as [mx|]; [|discriminate].
    destruct (mx <? n)%Z; [intros [= <-]; destruct (full_strings cfg); repeat constructor|].
    rewrite Hb. rewrite bind_ok. intros (s & Hs & H'). apply bind_ok in H'. destruct H' as (w & Hw & [= <-]).
    constructor; [|constructor]. unfold split_word in Hw. rewrite Hws in Hw. eapply bs_words; [|exact Hw].
    intros Hin. destruct (string_text_chars _ _ _ _ _ Hs Hin) as [[_ H0]|[_ [?|[?|[H0 _]]]]]; try discriminate;
      apply (Hsp (StringLiteral l n)) in H0; auto; left; reflexivity.
Qed.

(** inner subwords come from a single character or from a merge *)
Lemma bpe_symbols m s r x : bpe_steps m s r -> In x r -> In x s \/ exists p, In p m /\ x = fst p ++ snd p.
Proof.
  induction 1 as [s|s s' s'' (i & p & Hi & _ & _ & ->) _ IH]; intros Hx; [left; exact Hx|].
  destruct (IH Hx) as [H1|H1]; [|right; exact H1].
  assert (Hm : forall s, In x (merge_pair p s) -> In x s \/ x = fst p ++ snd p).
  { clear. intros s. induction s as [|a|a b t IH1 IH2] using list_ind2; [intros []|left; exact H|].
    rewrite merge_pair_cons2. destruct (is_pair p a b) eqn:Ep.
    - apply is_pair_eq in Ep. subst p. intros [<-|H]; [right; reflexivity|].
      destruct (IH1 H); [left; right; right; assumption|right; assumption].
    - intros [<-|H]; [left; left; reflexivity|].
      destruct (IH2 H); [left; right; assumption|right; assumption]. }
  destruct (Hm s H1) as [H2|H2]; [left; exact H2|right]. exists p. split; [|exact H2]. eapply nth_error_In, Hi.
Qed.

Lemma bpe_inner_subwords b l w ws x :
  usable b l -> ~ In 32%N w -> get_bpe_subwords b w = Ok ws -> In x (removelast ws) ->
  exists y, List.concat (map unit_of x) = y /\
            ((exists c, y = unit_of c) \/ y = at_str \/ exists p, In p (map fst l) /\ y = fst p ++ snd p).
Proof.
  intros (Hb & Hnd & Hf) Hw Hg Hx.
  assert (Hr : exists r, bpe_result (map fst l) (map unit_of w ++ [at_str]) r /\ unescape r = Ok ws).
  { unfold get_bpe_subwords in Hg. destruct (dget (bd_cache b) (escape w true)) as [parts|] eqn:Ec.
    - exists parts. split; [apply (Hf w parts Ec)|exact Hg].
    - destruct (encode_word_spec l w Hnd Hw) as (r & Er & Hr).
      rewrite (built_ml_from _ _ Hb Hnd), Er in Hg. exists r. auto. }
  destruct Hr as (r & [Hst _] & Hu).
  destruct (bpe_result_groups _ _ _ Hst) as (gs & Egs & E2 & E3).
  destruct (last_group _ _ _ E2 E3) as (gs1 & g & -> & E1).
  assert (Ew : exists us, gs1 ++ [g] = map (map unit_of) us /\ List.concat us = w).
  { apply map_concat_inv. rewrite concat_app. simpl. rewrite app_nil_r. exact E1. }
  destruct Ew as (us & Eg & _).
  assert (Ews : ws = us).
  { rewrite Egs, (map_app _ gs1 [g ++ [at_str]]) in Hu. cbn [map] in Hu. rewrite concat_app in Hu.
    change (List.concat [at_str]) with [at_ch] in Hu. rewrite unescape_snoc in Hu.
    replace (map (@List.concat N) gs1 ++ [List.concat g]) with (map (@List.concat N) (gs1 ++ [g])) in Hu
      by (rewrite map_app; reflexivity).
    rewrite Eg, !map_map in Hu. injection Hu as <-. rewrite <- (map_id us) at 2. apply map_ext.
    intros a. apply replace_double. }
  subst us. exists (List.concat (map unit_of x)). split; [reflexivity|].
  assert (Hin : In (List.concat (map unit_of x)) r).
  { rewrite Egs, map_app. apply in_or_app. left. apply in_map.
    destruct ws as [|w0 ws _] using rev_ind; [destruct Hx|]. rewrite removelast_last in Hx.
    rewrite map_app in Eg. simpl in Eg. apply app_inj_tail in Eg. destruct Eg as [-> _].
    apply in_map, Hx. }
  destruct (bpe_symbols _ _ _ _ Hst Hin) as [H|H]; [|right; right; exact H].
  apply in_app_or in H. destruct H as [H|[H|[]]].
  - apply in_map_iff in H. destruct H as (c & Hc & _). left. exists c. congruence.
  - right. left. congruence.
Qed.

Lemma concat_units_app u v : List.concat (map unit_of (u ++ v)) = List.concat (map unit_of u) ++ List.concat (map unit_of v).
Proof. rewrite map_app, concat_app. reflexivity. Qed.

(** if no subtoken inside a token ends with the mark, marks and boundaries agree *)
Lemma marks_inner ss :
  Forall (fun s => s_toks s <> []) ss ->
  Forall (fun g => Forall (fun s => is_terminal_subtoken s = false) (removelast g)) (map s_toks ss) ->
  let out := List.concat (map (fun s => mark (s_toks s)) ss) in
  let m := snd (flat ss) in
  check_metadata_validity out m true = Ok tt /\
  (forall i, i < length out -> (ends_with (lit "</t>") (nth i out []) = true <-> In (S i) (wb m))).
Proof.
  intros Hne Hin. cbv zeta.
  assert (Hce : check_ends 0 (bounds 0 (map s_toks ss)) (List.concat (map (fun s => mark (s_toks s)) ss)) = Ok tt).
  { rewrite <- (map_map s_toks mark).
    apply (check_ends_marked [] 0); [intros x []|apply Forall_map, Hne|exact Hin]. }
  unfold flat; cbn [snd]. split.
  - unfold check_metadata_validity. cbn [wb].
    assert (Hl : last (bounds 0 (map s_toks ss)) 0 = length (List.concat (map (fun s => mark (s_toks s)) ss))).
    { rewrite bounds_last. simpl. clear -Hne. induction Hne as [|s ss Hs Hne IH]; [reflexivity|].
      simpl. rewrite !app_length, mark_length, IH by exact Hs. reflexivity. }
    destruct (bounds 0 (map s_toks ss)) as [|b0 bs] eqn:Eb; [destruct ss; discriminate|].
    rewrite Hl, Nat.eqb_refl. cbn [negb].
    assert (b0 = 0) by (destruct ss; simpl in Eb; congruence). subst b0. exact Hce.
  - intros i Hi. cbn [wb].
    assert (X := proj1 (check_ends_ok _ _ _) Hce i Hi). unfold is_terminal_subtoken in X.
    change ph_compound_word_end with (lit "</t>") in X. unfold str in *. rewrite X. apply mem_in.
Qed.

(** * C02 *)
(** A subtoken carries the mark exactly where a full token ends, if no merge makes a symbol that ends with the
    mark itself. *)
Theorem C02_marks_agree :
  forall E o d b merges l out m,
  py_ascii E -> usable b merges ->
  (forall p, In p (map fst merges) -> ends_with (lit "</t>") (fst p ++ snd p) = false) ->
  is_bpe d = true -> spaceless E l ->
  to_repr E o d (Some b) l = Ok (out, m) ->
  check_metadata_validity out m true = Ok tt /\
  (forall i, i < length out -> (ends_with (lit "</t>") (nth i out []) = true <-> In (S i) (wb m))).
Proof.
  intros E o d b merges l out m HE Hu Hm Hd Hsp H.
  destruct (to_repr_segs _ _ _ _ _ _ _ H) as (rc & ss & Hrc & Hss & -> & _ & Hb & _).
  destruct (Hb Hd) as [Hne ->].
  destruct (repr_config_bpe _ _ _ _ Hrc Hd) as (Hns & Hws & Hbp & _ & Hsc & _).
  assert (Hseg : Forall (fun s => bpe_seg b (s_toks s)) ss).
  { eapply segs_list_with_forall; [|exact Hss]. apply Forall_forall. intros t Ht s Hs.
    apply (segs_bpe E rc b t s); try assumption.
    intros u Hu'. apply Hsp. eapply all_tokens_in; eassumption. }
  assert (Hin : Forall (fun g => Forall (fun s => is_terminal_subtoken s = false) (removelast g)) (map s_toks ss)).
  { apply Forall_map. eapply Forall_impl; [|exact Hseg]. intros s Hs. destruct Hs as [x| |w ws Hw Hg].
    - constructor.
    - repeat constructor.
    - apply Forall_forall. intros x Hx.
      destruct (is_terminal_subtoken x) eqn:Ex; [exfalso|reflexivity].
      destruct (bpe_inner_subwords _ _ _ _ _ Hu Hw Hg Hx) as (y & Ey & Hy).
      apply ends_with_spec in Ex. destruct Ex as (x' & ->). rewrite concat_units_app in Ey.
      change (List.concat (map unit_of ph_compound_word_end)) with (lit "</t>") in Ey.
      assert (Hlen : 4 <= length y) by (rewrite <- Ey, app_length; simpl; lia).
      destruct Hy as [(c & ->)|[->|(p & Hp & ->)]].
      + unfold unit_of in Hlen. destruct (N.eqb c at_ch); simpl in Hlen; lia.
      + simpl in Hlen. lia.
      + specialize (Hm p Hp). rewrite <- Ey in Hm.
        assert (Ht : ends_with (lit "</t>") (List.concat (map unit_of x') ++ lit "</t>") = true)
          by (apply ends_with_spec; eexists; reflexivity).
        congruence. }
  exact (marks_inner ss Hne Hin).
Qed.
Print Assumptions C02_marks_agree.

(** chars mode: no merges at all *)
Theorem C02_chars_marks_agree :
  forall E o d b l out m,
  py_ascii E -> bd_merges b = ml_empty -> bd_cache b = [] -> is_bpe d = true -> spaceless E l ->
  to_repr E o d (Some b) l = Ok (out, m) ->
  check_metadata_validity out m true = Ok tt /\
  (forall i, i < length out -> (ends_with (lit "</t>") (nth i out []) = true <-> In (S i) (wb m))).
Proof.
  intros E o d b l out m HE Hm Hc Hd Hsp H. eapply (C02_marks_agree E o d b []); try eassumption.
  - split; [rewrite Hm; constructor|]. split; [constructor|]. intros w parts Hw. rewrite Hc in Hw. discriminate.
  - intros p [].
Qed.
Print Assumptions C02_chars_marks_agree.

(** with merges that build the mark itself, the string literal "</t>a" ends a token too early *)
Definition c02_merges : list (pair * option Z) :=
  [((lit "<", lit "/"), Some 3%Z); ((lit "</", lit "t"), Some 2%Z); ((lit "</t", lit ">"), Some 1%Z)].
Definition c02_tokens : list token :=
  [StringLiteral [NonProc NpNonCodeChar (lit """"); NonProc NpNonCodeChar (lit "<"); NonProc NpNonCodeChar (lit "/");
                  SplitContainer [Word (lit "t") CapNone]; NonProc NpNonCodeChar (lit ">");
                  SplitContainer [Word (lit "a") CapNone]; NonProc NpNonCodeChar (lit """")] 7].
Definition no_splitters : splitters := {| ronin_split := fun s => [s]; stem := fun s => s |}.

Theorem C02_refuted :
  exists d merges l out m,
    mk_prep_config d = Ok d /\ is_bpe d = true /\ NoDup (map fst merges) /\ spaceless ascii_case l /\
    to_repr ascii_case no_splitters d (Some {| bd_merges := ml_from 0 merges; bd_cache := [] |}) l = Ok (out, m) /\
    check_metadata_validity out m true = Err AssertionError.
Proof.
  exists (combine prep_params (chars_of "uc19su")), c02_merges, c02_tokens.
  do 2 eexists. split; [vm_compute; reflexivity|]. split; [reflexivity|].
  split; [repeat constructor; simpl; intuition discriminate|].
  split.
  - intros t Ht _. vm_compute in Ht. repeat (destruct Ht as [<-|Ht]; [vm_compute; intuition discriminate|]). destruct Ht.
  - split; [vm_compute; reflexivity|]. vm_compute. reflexivity.
Qed.
Print Assumptions C02_refuted.

(** * C03 *)
Lemma param_dset d p v q : param (dset d p v) q = if eqb q p then v else param d q.
Proof. unfold param. rewrite dget_dset. destruct (eqb q p); reflexivity. Qed.

(** the same configuration without splitting: words, numbers and strings are kept whole *)
Definition whole (d : params) : params := dset (dset d SPLIT (lit "F")) CASE (lit "u").

Lemma whole_param d p : p <> SPLIT -> p <> CASE -> param (whole d) p = param d p.
Proof.
  intros H1 H2. unfold whole. rewrite !param_dset. destruct (eqb_spec p CASE); [congruence|].
  destruct (eqb_spec p SPLIT); [congruence|reflexivity].
Qed.
Lemma whole_split d : param (whole d) SPLIT = lit "F".
Proof. unfold whole. rewrite !param_dset. reflexivity. Qed.

Lemma types_in d c :
  mem c (get_types_to_be_repr d) =
  match c with
  | CSplitContainer | CWord => param_in d SPLIT "123456789s"
  | CNumber => param_in d SPLIT "23456789s"
  | COneLineComment | CMultilineComment => param_in d COM "0"
  | CStringLiteral => param_in d STR "0"
  | CNonEng => param_in d EN_ONLY "U"
  | CNewLine | CTab => param_in d TABS_NEWLINES "0"
  | _ => false
  end.
Proof.
  unfold get_types_to_be_repr, mem. rewrite !existsb_app.
  destruct (param_in d SPLIT "123456789s"), (param_in d SPLIT "23456789s"), (param_in d COM "0"),
    (param_in d STR "0"), (param_in d EN_ONLY "U"), (param_in d TABS_NEWLINES "0"); destruct c; reflexivity.
Qed.

Lemma whole_repr_config o d b rc :
  get_repr_config o d b = Ok rc ->
  exists rcF, get_repr_config o (whole d) None = Ok rcF /\
    max_str_length rcF = max_str_length rc /\ full_strings rcF = true /\ bpe rcF = false /\
    in_types rcF CSplitContainer = false /\ in_types rcF CWord = false /\ in_types rcF CNumber = false /\
    (forall c, c <> CSplitContainer -> c <> CWord -> c <> CNumber -> in_types rcF c = in_types rc c).
Proof.
  intros H. pose proof (repr_config_types _ _ _ _ H) as Ht. unfold get_repr_config in *.
  apply bind_ok in H. destruct H as (ns & Hns & H). apply bind_ok in H. destruct H as (ws & Hws & H).
  apply bind_ok in H. destruct H as (ml & Hml & [= <-]).
  unfold get_number_splitter, get_word_splitter, is_bpe, param_in. rewrite whole_split.
  rewrite whole_param by discriminate. rewrite Hml. cbn [bind].
  eexists. split; [reflexivity|]. unfold in_types in *. cbn [max_str_length full_strings bpe types_to_be_repr] in *.
  repeat split; try reflexivity;
    try (rewrite types_in; unfold param_in; rewrite whole_split; reflexivity).
  intros c H1 H2 H3. rewrite !types_in. destruct c; try congruence; try reflexivity;
    unfold param_in; rewrite whole_param by discriminate; reflexivity.
Qed.

Definition same_token (s sF : seg) : Prop := s_cls s = s_cls sF /\ s_toks sF = [List.concat (s_toks s)].

Lemma Forall2_retype c a b : Forall2 same_token a b -> Forall2 same_token (map (retype c) a) (map (retype c) b).
Proof. induction 1 as [|x y a b [_ H] _ IH]; constructor; [split; [reflexivity|exact H]|exact IH]. Qed.

Lemma heads_whole E rcF l :
  in_types rcF CWord = false ->
  mapM (fun s => r <- torepr_sub E rcF s ;; match r with [] => Err IndexError | x :: _ => Ok x end) l
  = Ok (map (subtoken_str E) l).
Proof.
  intros Hw. induction l as [|s l IH]; [reflexivity|]. cbn [mapM]. rewrite IH.
  destruct s as [|w c]; cbn [torepr_sub]; [reflexivity|]. rewrite Hw. reflexivity.
Qed.

Lemma segs_lossless E rc rcF b merges t r :
  usable b merges ->
  bpe rc = true -> in_types rc CSplitContainer = true ->
  number_splitter rc = bpe_call (Some b) -> word_splitter rc = Some (bpe_call (Some b)) ->
  full_strings rc = false ->
  max_str_length rcF = max_str_length rc -> full_strings rcF = true -> bpe rcF = false ->
  in_types rcF CSplitContainer = false -> in_types rcF CWord = false -> in_types rcF CNumber = false ->
  (forall c, c <> CSplitContainer -> c <> CWord -> c <> CNumber -> in_types rcF c = in_types rc c) ->
  (forall u, In u (subterms t) -> is_text u = true -> ~ In 32%N (tok_str E u)) ->
  (in_types rc CNonEng = true -> forall l, ~ In (NonEng l) (subterms t)) ->
  segs E rc t = Ok r ->
  exists rF, segs E rcF t = Ok rF /\ Forall2 same_token r rF.
Proof.
  intros (Hbu & Hnd & Hfa) Hb Hsc Hns Hws Hfs Hmx HfsF HbF HscF HwF HnF Hty.
  assert (Hcat : forall w ws, ~ In 32%N w -> get_bpe_subwords b w = Ok ws -> List.concat ws = w).
  { intros w ws Hw Hg. destruct (C16_subwords_concatenate b merges w Hbu Hnd Hfa Hw) as (ws' & E1 & E2 & _). congruence. }
  assert (Hone : forall c x np np', Forall2 same_token (one_seg c [x] np) (one_seg c [x] np')).
  { intros. repeat constructor. cbn [s_toks List.concat]. rewrite app_nil_r. reflexivity. }
  assert (Hsplit : forall l r, ~ In 32%N (split_str E l) -> segs_split E rc l = Ok r ->
    exists rF, segs_split E rcF l = Ok rF /\ Forall2 same_token r rF).
  { intros l r' Hl. unfold segs_split. rewrite Hsc, Hb, HscF, bind_ok. intros (ws & Hw & [= <-]).
    rewrite heads_whole by exact HwF. cbn [bind]. eexists. split; [reflexivity|].
    unfold split_word in Hw. rewrite Hws in Hw. apply Hcat in Hw; [|exact Hl].
    repeat constructor. cbn [s_toks]. rewrite Hw. reflexivity. }
  assert (Hlist : forall l r,
    Forall (fun t => forall r, (forall u, In u (subterms t) -> is_text u = true -> ~ In 32%N (tok_str E u)) ->
                     (in_types rc CNonEng = true -> forall l, ~ In (NonEng l) (subterms t)) ->
                     segs E rc t = Ok r -> exists rF, segs E rcF t = Ok rF /\ Forall2 same_token r rF) l ->
    (forall u, In u (List.concat (map subterms l)) -> is_text u = true -> ~ In 32%N (tok_str E u)) ->
    (in_types rc CNonEng = true -> forall k, ~ In (NonEng k) (List.concat (map subterms l))) ->
    segs_list_with (fun _ => true) (segs E rc) l = Ok r ->
    exists rF, segs_list_with (fun _ => true) (segs E rcF) l = Ok rF /\ Forall2 same_token r rF).
  { intros l r' Hf. revert r'. induction Hf as [|x l Hx Hf IH]; intros r' Hsp Hne; cbn [segs_list_with].
    - intros [= <-]. exists []. split; [reflexivity|constructor].
    - rewrite bind_ok. intros (rx & Hrx & H). apply bind_ok in H. destruct H as (rs & Hrs & [= <-]).
      cbn [map List.concat] in Hsp, Hne.
      destruct (Hx rx) as (rxF & -> & H1); [| |exact Hrx|].
      + intros u Hu. apply Hsp. apply in_or_app. left. exact Hu.
      + intros Hi k Hk. apply (Hne Hi k). apply in_or_app. left. exact Hk.
      + destruct (IH rs) as (rsF & HrsF & H2); [| |exact Hrs|].
        * intros u Hu. apply Hsp. apply in_or_app. right. exact Hu.
        * intros Hi k Hk. apply (Hne Hi k). apply in_or_app. right. exact Hk.
        * cbn [bind]. fold (segs_list_with (fun _ => true) (segs E rcF)). rewrite HrsF. cbn [bind].
          eexists. split; [reflexivity|]. apply Forall2_app; assumption. }
  revert r. induction t using token_nested_ind; intros r Hsp Hne; cbn [segs].
  - rewrite (Hty CNewLine) by discriminate.
    destruct (in_types rc CNewLine); intros [= <-]; eexists; (split; [reflexivity|]); [constructor|apply Hone].
  - rewrite (Hty CTab) by discriminate.
    destruct (in_types rc CTab); intros [= <-]; eexists; (split; [reflexivity|]); [constructor|apply Hone].
  - intros [= <-]. eexists; (split; [reflexivity|]). apply Hone.
  - rewrite HnF. destruct (in_types rc CNumber); [|intros [= <-]; eexists; (split; [reflexivity|]); apply Hone].
    rewrite bind_ok. intros (ws & Hw & [= <-]). eexists; (split; [reflexivity|]).
    rewrite Hb, andb_false_r. rewrite Hns in Hw. apply Hcat in Hw.
    + repeat constructor. cbn [s_toks]. rewrite Hw. reflexivity.
    + apply (Hsp (Number v)); [left; reflexivity|reflexivity].
  - intros [= <-]. eexists; (split; [reflexivity|]). apply Hone.
  - intros [= <-]. eexists; (split; [reflexivity|]). apply Hone.
  - intros [= <-]. eexists; (split; [reflexivity|]). apply Hone.
  - apply Hsplit. apply (Hsp (SplitContainer l)); [left; reflexivity|reflexivity].
  - rewrite (Hty CNonEng) by discriminate. destruct (in_types rc CNonEng).
    + exfalso. apply (Hne eq_refl l). left. reflexivity.
    + apply Hsplit. apply (Hsp (NonEng l)); [left; reflexivity|reflexivity].
  - rewrite (Hty COneLineComment) by discriminate.
    destruct (in_types rc COneLineComment); [intros [= <-]; eexists; (split; [reflexivity|]); apply Hone|].
    rewrite bind_ok. intros (rs & Hrs & [= <-]).
    destruct (Hlist l rs H) as (rF & -> & H2); [| |exact Hrs|].
    + intros u Hu. apply Hsp. right. exact Hu.
    + intros Hi k Hk. apply (Hne Hi k). right. exact Hk.
    + cbn [bind]. eexists; (split; [reflexivity|]). apply Forall2_app; [apply Forall2_retype, H2|apply Hone].
  - rewrite (Hty CMultilineComment) by discriminate.
    destruct (in_types rc CMultilineComment); [intros [= <-]; eexists; (split; [reflexivity|]); apply Hone|].
    rewrite bind_ok. intros (rs & Hrs & [= <-]).
    destruct (Hlist l rs H) as (rF & -> & H2); [| |exact Hrs|].
    + intros u Hu. apply Hsp. right. exact Hu.
    + intros Hi k Hk. apply (Hne Hi k). right. exact Hk.
    + cbn [bind]. eexists; (split; [reflexivity|]). apply Forall2_retype, H2.
  - rewrite (Hty CStringLiteral) by discriminate.
    destruct (in_types rc CStringLiteral); [intros [= <-]; eexists; (split; [reflexivity|]); apply Hone|].
    rewrite Hmx. destruct (max_str_length rc) as [mx|]; [|discriminate].
    rewrite HfsF, Hfs, HbF, Hb.
    destruct (mx <? n)%Z; [intros [= <-]; eexists; (split; [reflexivity|]); repeat constructor|].
    assert (Est : string_text E rcF (StringLiteral l n) = string_text E rc (StringLiteral l n)).
    { unfold string_text. rewrite (Hty CNonEng) by discriminate. reflexivity. }
    rewrite Est. rewrite bind_ok. intros (s & Hs & H'). apply bind_ok in H'. destruct H' as (w & Hw & [= <-]).
    rewrite Hs. cbn [bind]. eexists; (split; [reflexivity|]).
    unfold split_word in Hw. rewrite Hws in Hw. apply Hcat in Hw.
    + repeat constructor. cbn [s_toks]. rewrite Hw. reflexivity.
    + intros Hin. destruct (string_text_chars _ _ _ _ _ Hs Hin) as [[_ H0]|[_ [?|[?|[H0 _]]]]]; try discriminate;
        apply (Hsp (StringLiteral l n)) in H0; auto; left; reflexivity.
Qed.

Lemma concat_mark g : g <> [] -> List.concat (mark g) = List.concat g ++ lit "</t>".
Proof.
  intros Hg. unfold mark. rewrite concat_app. cbn [List.concat]. rewrite app_nil_r, app_assoc.
  rewrite (app_removelast_last [] Hg) at 3. rewrite concat_app. cbn [List.concat]. rewrite app_nil_r. reflexivity.
Qed.

(** Regrouping the subtokens by the boundaries and joining them gives the tokens of the same configuration
    without splitting, each followed by the mark.  With no_unicode words that contain non-ascii characters are
    excluded here, see below. *)
Theorem C03_lossless :
  forall E o d b merges l out m,
  usable b merges -> is_bpe d = true -> spaceless E l ->
  (param d EN_ONLY = lit "U" -> forall k, ~ In (NonEng k) (all_tokens l)) ->
  to_repr E o d (Some b) l = Ok (out, m) ->
  exists tokens mF, to_repr E o (whole d) None l = Ok (tokens, mF) /\
    types mF = types m /\
    map (@List.concat N) (slices (wb m) out) = map (fun t => t ++ lit "</t>") tokens /\
    List.concat (slices (wb m) out) = out.
Proof.
  intros E o d b merges l out m Hu Hd Hsp Hen H.
  destruct (to_repr_segs _ _ _ _ _ _ _ H) as (rc & ss & Hrc & Hss & -> & _ & Hbo & _).
  destruct (Hbo Hd) as [Hne ->].
  destruct (repr_config_bpe _ _ _ _ Hrc Hd) as (Hns & Hws & Hb & Hfs & Hsc & _).
  destruct (whole_repr_config _ _ _ _ Hrc) as (rcF & HrcF & Hmx & HfsF & HbF & HscF & HwF & HnF & Hty).
  assert (HF : exists rF, segs_list E rcF l = Ok rF /\ Forall2 same_token ss rF).
  { assert (Hne' : in_types rc CNonEng = true -> forall k, ~ In (NonEng k) (all_tokens l)).
    { intros Hi. apply Hen. unfold in_types in Hi. rewrite (repr_config_types _ _ _ _ Hrc), types_in in Hi.
      unfold param_in in Hi. apply mem_in in Hi. destruct Hi as [Hi|[]]. symmetry. exact Hi. }
    clear -Hu Hb Hsc Hns Hws Hfs Hmx HfsF HbF HscF HwF HnF Hty Hsp Hne' Hss.
    unfold segs_list in *. unfold spaceless, all_tokens in *.
    revert ss Hss. induction l as [|x l IH]; intros ss; cbn [segs_list_with].
    - intros [= <-]. exists []. split; [reflexivity|constructor].
    - rewrite bind_ok. intros (rx & Hrx & H). apply bind_ok in H. destruct H as (rs & Hrs & [= <-]).
      cbn [map List.concat] in Hsp, Hne'.
      destruct (segs_lossless E rc rcF b merges x rx) as (rxF & -> & H1); try assumption.
      + intros u Hu'. apply Hsp. apply in_or_app. left. exact Hu'.
      + intros Hi k Hk. apply (Hne' Hi k). apply in_or_app. left. exact Hk.
      + destruct (IH) with (ss := rs) as (rsF & HrsF & H2); [| |exact Hrs|].
        * intros u Hu'. apply Hsp. apply in_or_app. right. exact Hu'.
        * intros Hi k Hk. apply (Hne' Hi k). apply in_or_app. right. exact Hk.
        * cbn [bind]. fold (segs_list_with (fun _ => true) (segs E rcF)). rewrite HrsF. cbn [bind].
          eexists. split; [reflexivity|]. apply Forall2_app; assumption. }
  destruct HF as (rF & HrF & HF).
  exists (List.concat (map s_toks rF)), (snd (flat rF)).
  assert (Hbd : bounds 0 (map s_toks ss) = bounds 0 (map (fun s => mark (s_toks s)) ss)).
  { clear -Hne. generalize 0. induction Hne as [|s ss Hs Hne IH]; intros k; [reflexivity|].
    cbn [map bounds]. rewrite mark_length by exact Hs. rewrite IH. reflexivity. }
  unfold flat; cbn [snd wb types]. rewrite Hbd, slices_bounds0. repeat split.
  - unfold to_repr. rewrite HrcF. cbn [bind]. unfold to_repr_cfg. rewrite to_repr_list_segs, HrF. cbn [flat_res bind].
    replace (is_bpe (whole d)) with false; [reflexivity|].
    unfold is_bpe, param_in. rewrite whole_split. reflexivity.
  - clear -HF. induction HF as [|x y a b [H _] _ IH]; [reflexivity|]. simpl. rewrite H, IH. reflexivity.
  - clear -HF Hne. induction HF as [|x y a b [_ H] _ IH]; [reflexivity|].
    inversion Hne as [|? ? Hx Hne']; subst. cbn [map List.concat]. rewrite H. cbn [app map].
    rewrite concat_mark by exact Hx. rewrite IH by exact Hne'. reflexivity.
Qed.
Print Assumptions C03_lossless.

(** C02 for all merges: if no token contains the mark, that is, if it is not in what is printed without splitting *)
Definition within (u s : str) : Prop := exists a b, s = a ++ u ++ b.
Theorem C02_any_merges :
  forall E o d b merges l out m tokens mF,
  usable b merges -> is_bpe d = true -> spaceless E l ->
  (param d EN_ONLY = lit "U" -> forall k, ~ In (NonEng k) (all_tokens l)) ->
  to_repr E o d (Some b) l = Ok (out, m) ->
  to_repr E o (whole d) None l = Ok (tokens, mF) -> (forall t, In t tokens -> ~ within (lit "</t>") t) ->
  check_metadata_validity out m true = Ok tt /\
  (forall i, i < length out -> (ends_with (lit "</t>") (nth i out []) = true <-> In (S i) (wb m))).
Proof.
  intros E o d b merges l out m tokens mF Hu Hd Hsp Hen H HF Hw.
  destruct (C03_lossless E o d b merges l out m Hu Hd Hsp Hen H) as (tokens' & mF' & HF' & _ & Hs & _).
  rewrite HF in HF'. injection HF' as <- <-.
  destruct (to_repr_segs _ _ _ _ _ _ _ H) as (rc & ss & Hrc & Hss & -> & _ & Hbo & _).
  destruct (Hbo Hd) as [Hne ->]. apply (marks_inner ss Hne).
  assert (Hbd : bounds 0 (map s_toks ss) = bounds 0 (map (fun s => mark (s_toks s)) ss)).
  { clear -Hne. generalize 0. induction Hne as [|s ss Hs Hne IH]; intros k; [reflexivity|].
    cbn [map bounds]. rewrite mark_length by exact Hs. rewrite IH. reflexivity. }
  unfold flat in Hs; cbn [snd wb] in Hs. rewrite Hbd, slices_bounds0, map_map in Hs.
  apply Forall_map, Forall_forall. intros s Hin. apply Forall_forall. intros x Hx.
  destruct (is_terminal_subtoken x) eqn:Ex; [exfalso|reflexivity].
  assert (Hg : s_toks s <> []) by (rewrite Forall_forall in Hne; apply Hne, Hin).
  assert (Ht : In (List.concat (s_toks s)) tokens).
  { apply in_split in Hin. destruct Hin as (s1 & s2 & ->). rewrite map_app in Hs. cbn [map] in Hs.
    rewrite concat_mark in Hs by exact Hg. symmetry in Hs. apply map_eq_app in Hs. destruct Hs as (t1 & t2 & -> & _ & Hs).
    apply map_eq_cons in Hs. destruct Hs as (t & t3 & -> & Hs & _). apply app_inv_tail in Hs. rewrite <- Hs.
    apply in_or_app. right. left. reflexivity. }
  apply (Hw _ Ht). apply ends_with_spec in Ex. destruct Ex as (x' & ->).
  apply in_split in Hx. destruct Hx as (g1 & g2 & Eg).
  assert (E2 : s_toks s = (g1 ++ (x' ++ ph_compound_word_end) :: g2) ++ [last (s_toks s) []]) 
    by (etransitivity; [exact (app_removelast_last [] Hg)|exact (f_equal (fun g => g ++ [last (s_toks s) []]) Eg)]).
  set (z := last (s_toks s) []) in E2. clearbody z. rewrite E2. exists (List.concat g1 ++ x'), (List.concat g2 ++ z).
  rewrite !concat_app. cbn [List.concat]. rewrite !app_nil_r, <- !app_assoc. reflexivity.
Qed.
Print Assumptions C02_any_merges.

(** ** Concrete cases *)
Definition ex_merges : list (pair * option Z) := [((lit "m", lit "y"), Some 2%Z); ((lit "a", lit "s"), Some 1%Z)].
Definition ex_bpe : bpe_data := {| bd_merges := ml_from 0 ex_merges; bd_cache := [] |}.
Definition ex_config : params := combine prep_params (chars_of "uc19su").
Definition ex_left : list token :=
  [SplitContainer [Word (lit "my") CapNone; Word (lit "class") CapFirstLetter]; NonProc NpOperator (lit "=")].
Definition ex_right : list token := [Number (lit "42"); OneLineComment [NonProc NpNonCodeChar (lit "#")]; NewLine].

Example ex_usable : usable ex_bpe ex_merges.
Proof.
  split; [|split].
  - pose proof (built_append [] ml_empty (lit "m", lit "y") (Some 2%Z) None _ built_empty eq_refl) as H1.
    exact (built_append _ _ (lit "a", lit "s") (Some 1%Z) None _ H1 eq_refl).
  - repeat constructor; cbn; intuition discriminate.
  - intros w parts H. discriminate.
Qed.

Example C01_example :
  to_repr ascii_case no_splitters ex_config (Some ex_bpe) (ex_left ++ ex_right) =
  Ok (map lit ["my"; "C"; "l"; "as"; "s"; "</t>"; "=</t>"; "4"; "2"; "</t>"; "#</t>"; "<EOL></t>"]%string
        ++ [10%N :: lit "</t>"],
      {| nonproc := [lit "="; lit "#"; [10%N]]; wb := [0; 6; 7; 10; 11; 12; 13];
         types := [CSplitContainer; COperator; CNumber; COneLineComment; COneLineComment; CNewLine] |}) /\
  ~ In (Number []) (all_tokens (ex_left ++ ex_right)).
Proof.
  split; [vm_compute; reflexivity|]. intros H. vm_compute in H.
  repeat (destruct H as [H|H]; [discriminate|]). exact H.
Qed.

Example C03_example :
  spaceless ascii_case (ex_left ++ ex_right) /\ is_bpe ex_config = true /\ param ex_config EN_ONLY <> lit "U" /\
  match to_repr ascii_case no_splitters (whole ex_config) None (ex_left ++ ex_right) with Ok r => fst r | Err _ => [] end
  = map lit ["myClass"; "="; "42"; "#"; "<EOL>"]%string ++ [[10%N]].
Proof.
  split; [|split; [|split; [discriminate|]]]; try (vm_compute; reflexivity).
  intros t Ht Hx. vm_compute in Ht.
  repeat (destruct Ht as [<-|Ht]; [first [discriminate Hx | vm_compute; intuition discriminate]|]). destruct Ht.
Qed.

Example C04_example :
  exists oa ma ob mb,
  to_repr ascii_case no_splitters ex_config (Some ex_bpe) ex_left = Ok (oa, ma) /\
  to_repr ascii_case no_splitters ex_config (Some ex_bpe) ex_right = Ok (ob, mb) /\
  oa <> [] /\ ob <> [] /\ wb ma = [0; 6; 7] /\ wb mb = [0; 3; 4; 5; 6].
Proof. do 4 eexists. split; [vm_compute; reflexivity|]. split; [vm_compute; reflexivity|]. repeat split; discriminate. Qed.

Example C05_example :
  exists out m, to_repr ascii_case no_splitters ex_config (Some ex_bpe) (ex_left ++ ex_right) = Ok (out, m) /\
  In (lit "=") (nonproc m) /\ In (lit "=</t>") out.
Proof.
  destruct C01_example as [H _]. do 2 eexists. split; [exact H|]. split; [left; reflexivity|].
  exact (C05_nonprocessable_occur _ _ _ _ _ _ _ (lit "=") H (or_introl eq_refl)).
Qed.

Example C02_example :
  exists out m, to_repr ascii_case no_splitters ex_config (Some ex_bpe) (ex_left ++ ex_right) = Ok (out, m) /\
  check_metadata_validity out m true = Ok tt /\ ends_with (lit "</t>") (nth 5 out []) = true /\ ends_with (lit "</t>") (nth 4 out []) = false.
Proof.
  destruct C01_example as [H _]. destruct C03_example as (Hs & Hd & _). do 2 eexists. split; [exact H|].
  assert (Hm : forall p, In p (map fst ex_merges) -> ends_with (lit "</t>") (fst p ++ snd p) = false) by (intros p [<-|[<-|[]]]; reflexivity).
  destruct (C02_marks_agree _ _ _ _ _ _ _ _ ascii_case_py_ascii ex_usable Hm Hd Hs H) as [H1 H2].
  split; [exact H1|]. split; [apply (H2 5); [cbn; lia|vm_compute; auto 20]|].
  destruct (ends_with _ (nth 4 _ _)) eqn:Ee; [|reflexivity]. apply (H2 4) in Ee; [|cbn; lia]. vm_compute in Ee.
  repeat (destruct Ee as [Ee|Ee]; [discriminate|]). destruct Ee.
Qed.
Example C02_chars_example :
  let b := {| bd_merges := ml_empty; bd_cache := [] |} in
  exists out m, to_repr ascii_case no_splitters (combine prep_params (chars_of "uc18su")) (Some b) c02_tokens = Ok (out, m) /\
  length out = 8 /\ wb m = [0; 8] /\ check_metadata_validity out m true = Ok tt.
Proof.
  cbv zeta. assert (Hs : spaceless ascii_case c02_tokens).
  { intros t Ht _. vm_compute in Ht. repeat (destruct Ht as [<-|Ht]; [vm_compute; intuition discriminate|]). destruct Ht. }
  do 2 eexists. split; [vm_compute; reflexivity|].
  split; [reflexivity|]. split; [reflexivity|].
  apply (C02_chars_marks_agree ascii_case no_splitters (combine prep_params (chars_of "uc18su")) {| bd_merges := ml_empty; bd_cache := [] |} c02_tokens);
    [exact ascii_case_py_ascii|reflexivity..|exact Hs|vm_compute; reflexivity].
Qed.

(** the merges of C02_refuted, with a text without the mark *)
Example C02_any_merges_example :
  let b := {| bd_merges := ml_from 0 c02_merges; bd_cache := [] |} in
  let d := combine prep_params (chars_of "uc19su") in
  let l := [StringLiteral [NonProc NpNonCodeChar (lit """"); NonProc NpNonCodeChar (lit "<"); NonProc NpNonCodeChar (lit "/");
                  SplitContainer [Word (lit "ta") CapNone]; NonProc NpNonCodeChar (lit """")] 6] in
  exists out m tokens mF, to_repr ascii_case no_splitters d (Some b) l = Ok (out, m) /\
    to_repr ascii_case no_splitters (whole d) None l = Ok (tokens, mF) /\ tokens = [lit """</ta"""] /\
    out = [lit """"; lit "</t"; lit "a"; lit """"; lit "</t>"] /\ wb m = [0; 5] /\
    check_metadata_validity out m true = Ok tt.
Proof.
  cbv zeta. do 4 eexists. split; [vm_compute; reflexivity|]. split; [vm_compute; reflexivity|]. split; [reflexivity|].
  split; [reflexivity|]. split; [reflexivity|].
  refine (proj1 (C02_any_merges ascii_case no_splitters (combine prep_params (chars_of "uc19su")) {| bd_merges := ml_from 0 c02_merges; bd_cache := [] |}
    c02_merges [StringLiteral [NonProc NpNonCodeChar (lit """"); NonProc NpNonCodeChar (lit "<"); NonProc NpNonCodeChar (lit "/");
                  SplitContainer [Word (lit "ta") CapNone]; NonProc NpNonCodeChar (lit """")] 6] _ _ [lit """</ta"""] _ _ eq_refl _ _ _ _ _));
    [| | |vm_compute; reflexivity|vm_compute; reflexivity|].
  - split.
    { pose proof (built_append [] ml_empty (lit "<", lit "/") (Some 3%Z) None _ built_empty eq_refl) as H1.
      pose proof (built_append _ _ (lit "</", lit "t") (Some 2%Z) None _ H1 eq_refl) as H2.
      exact (built_append _ _ (lit "</t", lit ">") (Some 1%Z) None _ H2 eq_refl). }
    split; [repeat constructor; simpl; intuition discriminate|]. intros w parts Hw. discriminate Hw.
  - intros t Ht _. vm_compute in Ht. repeat (destruct Ht as [<-|Ht]; [vm_compute; intuition discriminate|]). destruct Ht.
  - intros H. discriminate H.
  - intros t [<-|[]] (a & c & H). do 3 (destruct a as [|? a]; [discriminate H|injection H as _ H]). apply (f_equal (@length N)) in H. rewrite !app_length in H. cbn in H. lia.
Qed.
