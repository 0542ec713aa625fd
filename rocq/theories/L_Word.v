(** Word.from_ on ascii text with placeholders for non-ascii sequences. *)
From Verif Require Import M_Base L_Base M_Tokens M_Repr L_Repr P_Repr.

Lemma existsb_ext_in {A} (f g : A -> bool) l : (forall x, In x l -> f x = g x) -> existsb f l = existsb g l.
Proof.
  induction l as [|a l IH]; intros H; [reflexivity|]. simpl.
  rewrite (H a (or_introl eq_refl)), IH; [reflexivity|]. intros x Hx. apply H. right. exact Hx.
Qed.

Lemma islower_ascii E s : py_ascii E -> Forall plain s -> islower E s = islower ascii_case s.
Proof.
  intros [HE _] Hs. rewrite Forall_forall in Hs. unfold islower. f_equal; [f_equal|]; apply existsb_ext_in;
    intros c Hc; destruct (HE c (Hs c Hc)) as (H1 & H2 & H3); rewrite ?H1, ?H2, ?H3; reflexivity.
Qed.
Lemma isupper_ascii E s : py_ascii E -> Forall plain s -> isupper E s = isupper ascii_case s.
Proof.
  intros [HE _] Hs. rewrite Forall_forall in Hs. unfold isupper. f_equal; [f_equal|]; apply existsb_ext_in;
    intros c Hc; destruct (HE c (Hs c Hc)) as (H1 & H2 & H3); rewrite ?H1, ?H2, ?H3; reflexivity.
Qed.

Lemma plain_lower s : Forall plain s -> Forall plain (map ascii_to_lower s).
Proof.
  intros Hx. apply Forall_map. eapply Forall_impl; [|exact Hx]. unfold plain, ascii_to_lower, ascii_upper_ch.
  intros c Hc. destruct (N.leb_spec 65 c); destruct (N.leb_spec c 90); cbn [andb]; lia.
Qed.

Lemma to_lower_not_upper c : ascii_upper_ch (ascii_to_lower c) = false.
Proof.
  unfold ascii_to_lower. destruct (ascii_upper_ch c) eqn:Hc; [|exact Hc].
  unfold ascii_upper_ch in *. apply andb_true_iff in Hc. destruct Hc as [H1 H2]. apply N.leb_le in H1, H2.
  apply andb_false_iff. right. apply N.leb_gt. lia.
Qed.
Lemma to_lower_of_upper c : ascii_upper_ch c = true -> ascii_lower_ch (ascii_to_lower c) = true.
Proof.
  unfold ascii_to_lower. intros Hc. rewrite Hc. unfold ascii_upper_ch, ascii_lower_ch in *.
  apply andb_true_iff in Hc. destruct Hc as [H1 H2]. apply N.leb_le in H1, H2.
  apply andb_true_iff. split; apply N.leb_le; lia.
Qed.
Lemma to_lower_id c : ascii_upper_ch c = false -> ascii_to_lower c = c.
Proof. unfold ascii_to_lower. intros ->. reflexivity. Qed.
Lemma to_upper_to_lower c : ascii_lower_ch c = false -> ascii_to_upper (ascii_to_lower c) = c.
Proof.
  intros Hl. unfold ascii_to_upper. destruct (ascii_upper_ch c) eqn:Hc.
  - rewrite to_lower_of_upper by exact Hc. unfold ascii_to_lower. rewrite Hc. lia.
  - rewrite to_lower_id by exact Hc. rewrite Hl. reflexivity.
Qed.

Lemma upper_none s : existsb ascii_upper_ch (map ascii_to_lower s) = false.
Proof. induction s as [|c s IH]; [reflexivity|]. simpl. rewrite to_lower_not_upper. exact IH. Qed.

Lemma isupper_ascii_iff s :
  isupper ascii_case s = true <-> existsb ascii_lower_ch s = false /\ existsb ascii_upper_ch s = true.
Proof.
  unfold isupper. cbn [is_lower_ch is_upper_ch is_title_ch ascii_case].
  rewrite andb_true_iff, negb_true_iff. rewrite (existsb_ext_in _ ascii_lower_ch); [tauto|].
  intros x _. apply orb_false_r.
Qed.
Lemma islower_ascii_iff s :
  islower ascii_case s = true <-> existsb ascii_upper_ch s = false /\ existsb ascii_lower_ch s = true.
Proof.
  unfold islower. cbn [is_lower_ch is_upper_ch is_title_ch ascii_case].
  rewrite andb_true_iff, negb_true_iff. rewrite (existsb_ext_in _ ascii_upper_ch); [tauto|].
  intros x _. apply orb_false_r.
Qed.

Lemma canonic_ok_plain E s :
  py_ascii E -> Forall plain s -> isupper ascii_case s = false ->
  match s with [] => True | c :: _ => ascii_upper_ch c = false end -> canonic_ok E s = true.
Proof.
  intros HE Hs Hu Hc. unfold canonic_ok, is_strictly_upper. rewrite (isupper_ascii E) by assumption. rewrite Hu.
  destruct s as [|c s]; [reflexivity|]. inversion Hs as [|? ? Hpc _]; subst.
  rewrite (isupper_ascii E [c] HE (Forall_cons _ Hpc (Forall_nil _))).
  assert (Hf : isupper ascii_case [c] = false).
  { destruct (isupper ascii_case [c]) eqn:Ex; [|reflexivity]. apply isupper_ascii_iff in Ex.
    simpl in Ex. rewrite Hc in Ex. destruct Ex; discriminate. }
  rewrite Hf. reflexivity.
Qed.

(** the text that a word made of ascii characters and placeholders gets *)
Definition case_kept (s : str) : str :=
  match s with
  | [] => []
  | c :: rest =>
      if ascii_upper_ch c && existsb ascii_lower_ch s then c :: map ascii_to_lower rest else s
  end.

Lemma word_from_plain E s :
  py_ascii E -> Forall plain s -> s <> [] ->
  exists w, word_from E s = Ok w /\ subtoken_str E w = case_kept s.
Proof.
  intros HE Hs Hne. destruct s as [|c rest]; [congruence|]. pose proof HE as [_ HF].
  inversion Hs as [|? ? Hc Hr]; subst.
  assert (Hlow : lower E (c :: rest) = map ascii_to_lower (c :: rest)) by apply (HF _ Hs).
  assert (Hlc : lower E [c] = [ascii_to_lower c]) by (apply (HF [c]); constructor; [exact Hc|constructor]).
  unfold word_from, mk_word. rewrite (islower_ascii E), (isupper_ascii E) by assumption.
  rewrite (isupper_ascii E [c] HE (Forall_cons _ Hc (Forall_nil _))).
  destruct (islower ascii_case (c :: rest)) eqn:Hil.
  { apply islower_ascii_iff in Hil. destruct Hil as [Hu Hl].
    assert (Huc : ascii_upper_ch c = false) by (simpl in Hu; apply orb_false_iff in Hu; tauto).
    rewrite canonic_ok_plain; try assumption.
    - eexists; split; [reflexivity|]. unfold case_kept. rewrite Huc. reflexivity.
    - destruct (isupper _ _) eqn:Ex; [|reflexivity]. apply isupper_ascii_iff in Ex. destruct Ex. congruence. }
  destruct (isupper ascii_case (c :: rest)) eqn:Hiu.
  { apply isupper_ascii_iff in Hiu. destruct Hiu as [Hl Hu].
    assert (Hpl : Forall plain (map ascii_to_lower (c :: rest))) by (apply plain_lower, Hs).
    rewrite Hlow. rewrite canonic_ok_plain; try assumption.
    - eexists; split; [reflexivity|]. cbn [subtoken_str with_preserved_case].
      rewrite (proj1 (proj2 (HF _ Hpl))). cbn [upper ascii_case]. unfold case_kept. rewrite Hl, andb_false_r.
      rewrite map_map. rewrite <- (map_id (c :: rest)) at 2. apply map_ext_in. intros a Ha.
      apply to_upper_to_lower. destruct (ascii_lower_ch a) eqn:Ea; [|reflexivity].
      exfalso. assert (existsb ascii_lower_ch (c :: rest) = true) by (apply existsb_exists; eauto). congruence.
    - destruct (isupper ascii_case (map ascii_to_lower (c :: rest))) eqn:Ex; [|reflexivity].
      apply isupper_ascii_iff in Ex. rewrite upper_none in Ex. destruct Ex; discriminate.
    - apply to_lower_not_upper. }
  destruct (isupper ascii_case [c]) eqn:Hic.
  { apply isupper_ascii_iff in Hic. destruct Hic as [_ Huc]. simpl in Huc. rewrite orb_false_r in Huc.
    rewrite Hlc. cbn [app].
    assert (Hpl : Forall plain (ascii_to_lower c :: rest)).
    { constructor; [|exact Hr]. assert (X := plain_lower [c] (Forall_cons _ Hc (Forall_nil _))).
      inversion X; assumption. }
    rewrite canonic_ok_plain; try assumption.
    - eexists; split; [reflexivity|]. cbn [subtoken_str with_preserved_case].
      rewrite (proj2 (proj2 (HF _ Hpl))). cbn [capitalize ascii_case]. unfold case_kept. rewrite Huc.
      rewrite to_upper_to_lower.
      + replace (existsb ascii_lower_ch (c :: rest)) with true; [reflexivity|].
        symmetry. destruct (existsb ascii_lower_ch (c :: rest)) eqn:Ex; [reflexivity|].
        assert (isupper ascii_case (c :: rest) = true).
        { apply isupper_ascii_iff. split; [exact Ex|]. simpl. rewrite Huc. reflexivity. }
        congruence.
      + unfold ascii_upper_ch, ascii_lower_ch in *. apply andb_true_iff in Huc. destruct Huc as [H1 H2].
        apply N.leb_le in H1, H2. apply andb_false_iff. left. apply N.leb_gt. lia.
    - destruct (isupper ascii_case (ascii_to_lower c :: rest)) eqn:Ex; [|reflexivity].
      apply isupper_ascii_iff in Ex. destruct Ex as [Ex _].
      simpl in Ex. rewrite to_lower_of_upper in Ex by exact Huc. discriminate.
    - apply to_lower_not_upper. }
  assert (Huc : ascii_upper_ch c = false).
  { destruct (ascii_upper_ch c) eqn:Ex; [|reflexivity].
    assert (isupper ascii_case [c] = true); [|congruence].
    apply isupper_ascii_iff. simpl. rewrite Ex. split; [|reflexivity]. rewrite orb_false_r.
    unfold ascii_upper_ch, ascii_lower_ch in *. apply andb_true_iff in Ex. destruct Ex as [H1 H2].
    apply N.leb_le in H1, H2. apply andb_false_iff. left. apply N.leb_gt. lia. }
  rewrite canonic_ok_plain; try assumption.
  eexists; split; [reflexivity|]. unfold case_kept. rewrite Huc. reflexivity.
Qed.
