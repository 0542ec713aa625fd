(** Lemmas on the Python primitives of [M_Base]. *)
From Verif Require Import M_Base.
From Coq Require Import Arith.
From Coq Require Decimal DecimalN.

(** ** Eqb instances *)
#[global, refine] Instance Eqb_N : Eqb N := {| eqb := N.eqb |}.
Proof. apply N.eqb_spec. Defined.
#[global, refine] Instance Eqb_nat : Eqb nat := {| eqb := Nat.eqb |}.
Proof. apply Nat.eqb_spec. Defined.
#[global, refine] Instance Eqb_Z : Eqb Z := {| eqb := Z.eqb |}.
Proof. apply Z.eqb_spec. Defined.
#[global, refine] Instance Eqb_bool : Eqb bool := {| eqb := Bool.eqb |}.
Proof. intros x y. destruct x, y; constructor; congruence. Defined.
#[global, refine] Instance Eqb_list {A} `{Eqb A} : Eqb (list A) := {| eqb := list_eqb eqb |}.
Proof.
  induction x as [|a x IH]; destruct y as [|b y]; simpl; try (constructor; congruence).
  destruct (eqb_spec a b); simpl; [|constructor; congruence].
  destruct (IH y); constructor; congruence.
Defined.
#[global, refine] Instance Eqb_prod {A B} `{Eqb A} `{Eqb B} : Eqb (A * B) :=
  {| eqb := fun p q => eqb (fst p) (fst q) && eqb (snd p) (snd q) |}.
Proof.
  intros [a b] [c d]; simpl.
  destruct (eqb_spec a c); simpl; [|constructor; congruence].
  destruct (eqb_spec b d); constructor; congruence.
Defined.

Lemma eqb_refl {A} `{Eqb A} (x : A) : eqb x x = true.
Proof. destruct (eqb_spec x x); congruence. Qed.
Lemma eqb_eq {A} `{Eqb A} (x y : A) : eqb x y = true <-> x = y.
Proof. destruct (eqb_spec x y); split; congruence. Qed.
Lemma eqb_neq {A} `{Eqb A} (x y : A) : eqb x y = false <-> x <> y.
Proof. destruct (eqb_spec x y); split; congruence. Qed.
Lemma eqb_sym {A} `{Eqb A} (x y : A) : eqb x y = eqb y x.
Proof. destruct (eqb_spec x y), (eqb_spec y x); congruence. Qed.
Lemma Eqb_dec {A} `{Eqb A} (x y : A) : {x = y} + {x <> y}.
Proof. destruct (eqb_spec x y); [left|right]; assumption. Qed.

Lemma bind_ok {A B} (r : res A) (f : A -> res B) b :
  bind r f = Ok b <-> exists a, r = Ok a /\ f a = Ok b.
Proof.
  destruct r; simpl; split.
  - intros; eauto.
  - intros (a' & E & F). congruence.
  - discriminate.
  - intros (a' & E & F). congruence.
Qed.

(** ** Strings *)
Lemma starts_with_spec p s : starts_with p s = true <-> exists t, s = p ++ t.
Proof.
  revert s; induction p as [|a p IH]; intros s; simpl.
  - split; [exists s; reflexivity|reflexivity].
  - destruct s as [|b s].
    + split; [discriminate|intros (t & E); discriminate].
    + rewrite andb_true_iff, N.eqb_eq, IH. split.
      * intros (-> & t & ->). eauto.
      * intros (t & E). injection E as -> ->. eauto.
Qed.

Lemma ends_with_spec p s : ends_with p s = true <-> exists t, s = t ++ p.
Proof.
  unfold ends_with. rewrite starts_with_spec. split.
  - intros (t & E). exists (rev t). rewrite <- (rev_involutive s), E, rev_app_distr, rev_involutive. reflexivity.
  - intros (t & ->). exists (rev t). apply rev_app_distr.
Qed.

Lemma ends_with_app p s t : ends_with p t = true -> ends_with p (s ++ t) = true.
Proof. rewrite !ends_with_spec. intros (u & ->). exists (s ++ u). apply app_assoc. Qed.

Lemma contains_spec p s : contains p s = true <-> exists u v, s = u ++ p ++ v.
Proof.
  induction s as [|c s IH].
  - simpl. rewrite orb_false_r, starts_with_spec. split.
    + intros (t & E). exists [], t. exact E.
    + intros (u & v & E). destruct u; [|discriminate]. exists v. exact E.
  - change (contains p (c :: s)) with (starts_with p (c :: s) || contains p s)%bool.
    rewrite orb_true_iff, starts_with_spec, IH. split.
    + intros [(t & E)|(u & v & E)].
      * exists [], t. exact E.
      * exists (c :: u), v. simpl. congruence.
    + intros (u & v & E). destruct u as [|d u].
      * left. exists v. exact E.
      * right. exists u, v. simpl in E. congruence.
Qed.

Lemma join_cons sep x l : l <> [] -> join sep (x :: l) = x ++ sep ++ join sep l.
Proof. destruct l; [congruence|reflexivity]. Qed.

Lemma join_app sep l1 l2 : l1 <> [] -> l2 <> [] -> join sep (l1 ++ l2) = join sep l1 ++ sep ++ join sep l2.
Proof.
  intros H1 H2. induction l1 as [|x l1 IH]; [congruence|].
  destruct l1 as [|y l1].
  - change ([x] ++ l2) with (x :: l2). rewrite join_cons by assumption. reflexivity.
  - rewrite <- app_comm_cons, !join_cons by (simpl; congruence).
    rewrite IH by congruence. rewrite <- !app_assoc. reflexivity.
Qed.

Lemma join_nil_concat l : join [] l = List.concat l.
Proof.
  induction l as [|x l IH]; [reflexivity|].
  destruct l as [|y l]; [simpl; rewrite app_nil_r; reflexivity|].
  rewrite join_cons by congruence. rewrite IH. reflexivity.
Qed.

Lemma split_on_nonempty c s : split_on c s <> [].
Proof.
  induction s as [|x s IH]; simpl; [congruence|].
  destruct (N.eqb x c); [congruence|]. destruct (split_on c s); congruence.
Qed.

Lemma split_on_app_sep c s t :
  split_on c (s ++ c :: t) = split_on c s ++ split_on c t.
Proof.
  induction s as [|x s IH]; simpl.
  - rewrite N.eqb_refl. reflexivity.
  - destruct (N.eqb x c); [rewrite IH; reflexivity|].
    rewrite IH. pose proof (split_on_nonempty c s).
    destruct (split_on c s); [congruence|reflexivity].
Qed.

Lemma split_on_no_char c s : no_char c s -> split_on c s = [s].
Proof.
  unfold no_char. induction s as [|x s IH]; intros Hn; simpl; [reflexivity|].
  destruct (N.eqb_spec x c) as [->|Hx]; [exfalso; apply Hn; left; reflexivity|].
  rewrite IH; [reflexivity|]. intros Hin; apply Hn; right; exact Hin.
Qed.

Lemma split_join c l : l <> [] -> Forall (no_char c) l -> split_on c (join [c] l) = l.
Proof.
  intros Hne Hf. induction Hf as [|x l Hx Hf IH]; [congruence|].
  destruct l as [|y l].
  - simpl. apply split_on_no_char, Hx.
  - rewrite join_cons by congruence. cbn [app]. rewrite split_on_app_sep.
    rewrite split_on_no_char by exact Hx. rewrite IH by congruence. reflexivity.
Qed.

Lemma join_split c s : join [c] (split_on c s) = s.
Proof.
  induction s as [|x s IH]; simpl; [reflexivity|].
  destruct (N.eqb_spec x c) as [->|Hx].
  - rewrite join_cons by apply split_on_nonempty. simpl. rewrite IH. reflexivity.
  - pose proof (split_on_nonempty c s). destruct (split_on c s) as [|w ws]; [congruence|].
    destruct ws as [|w2 ws].
    + simpl in *. congruence.
    + rewrite !join_cons in * by congruence. rewrite <- IH. reflexivity.
Qed.

Lemma split_on_pieces c s : Forall (no_char c) (split_on c s).
Proof.
  unfold no_char. induction s as [|x s IH]; simpl; [repeat constructor; intros []|].
  destruct (N.eqb_spec x c) as [->|Hx]; [constructor; [intros []|exact IH]|].
  destruct (split_on c s) as [|w ws].
  - repeat constructor. intros [E|[]]. congruence.
  - inversion IH as [|? ? Hw Hws]; subst. constructor; [|exact Hws].
    intros [E|Hin]; [congruence|exact (Hw Hin)].
Qed.

Lemma split_on_length c s : length (split_on c s) = S (count_occ N.eq_dec s c).
Proof.
  induction s as [|x s IH]; simpl; [reflexivity|].
  destruct (N.eqb_spec x c) as [->|Hx].
  - simpl. rewrite IH. destruct (N.eq_dec c c); [reflexivity|congruence].
  - destruct (N.eq_dec x c); [congruence|].
    destruct (split_on c s) eqn:E; simpl in *; [discriminate|exact IH].
Qed.

Lemma lit_app a b : lit (a ++ b)%string = lit a ++ lit b.
Proof. induction a; simpl; congruence. Qed.

(** ** Dictionaries *)
Section DictLemmas.
  Context {K V : Type} `{Eqb K}.
  Implicit Types (d : dict K V) (k : K).

  Lemma dget_dset_eq d k v : dget (dset d k v) k = Some v.
  Proof.
    induction d as [|[k' v'] d IH]; simpl; [rewrite eqb_refl; reflexivity|].
    destruct (eqb_spec k k') as [->|Hk]; simpl.
    - rewrite eqb_refl. reflexivity.
    - apply eqb_neq in Hk. rewrite Hk. exact IH.
  Qed.

  Lemma dget_dset_neq d k k' v : k <> k' -> dget (dset d k v) k' = dget d k'.
  Proof.
    intros Hne. induction d as [|[k2 v2] d IH]; simpl.
    - destruct (eqb_spec k' k); [congruence|reflexivity].
    - destruct (eqb_spec k k2) as [->|Hk]; simpl.
      + destruct (eqb_spec k' k2); [congruence|reflexivity].
      + destruct (eqb_spec k' k2); [reflexivity|exact IH].
  Qed.

  Lemma dget_dset d k k' v : dget (dset d k v) k' = if eqb k' k then Some v else dget d k'.
  Proof.
    destruct (eqb_spec k' k) as [->|Hn]; [apply dget_dset_eq|apply dget_dset_neq; congruence].
  Qed.

  Lemma dget_in d k v : dget d k = Some v -> In (k, v) d.
  Proof.
    induction d as [|[k' v'] d IH]; simpl; [discriminate|].
    destruct (eqb_spec k k') as [->|Hk]; intros E; [left; congruence|right; auto].
  Qed.

  Lemma dget_none d k : dget d k = None <-> ~ In k (dkeys d).
  Proof.
    unfold dkeys. induction d as [|[k' v'] d IH]; simpl; [split; [intros _ []|reflexivity]|].
    destruct (eqb_spec k k') as [->|Hk].
    - split; [discriminate|intros Hn; exfalso; apply Hn; left; reflexivity].
    - rewrite IH. split; [intros Hn [E|Hin]; [congruence|auto]|intros Hn Hin; apply Hn; right; exact Hin].
  Qed.

  Lemma dget_some_key d k v : dget d k = Some v -> In k (dkeys d).
  Proof. intros E. apply dget_in in E. apply (in_map fst) in E. exact E. Qed.

  Lemma dkeys_in_dget d k : In k (dkeys d) -> exists v, dget d k = Some v.
  Proof.
    intros Hin. destruct (dget d k) as [v|] eqn:E; [eauto|]. apply dget_none in E. contradiction.
  Qed.

  Lemma dget_nodup d k v : NoDup (dkeys d) -> In (k, v) d -> dget d k = Some v.
  Proof.
    unfold dkeys. induction d as [|[k' v'] d IH]; simpl; intros Hnd Hin; [contradiction|].
    inversion Hnd as [|? ? Hni Hnd']; subst.
    destruct Hin as [E|Hin].
    - injection E as -> ->. rewrite eqb_refl. reflexivity.
    - destruct (eqb_spec k k') as [->|Hk]; [|auto].
      exfalso. apply Hni. apply (in_map fst) in Hin. exact Hin.
  Qed.

  Lemma dset_fresh d k v : dget d k = None -> dset d k v = d ++ [(k, v)].
  Proof.
    induction d as [|[k' v'] d IH]; simpl; [reflexivity|].
    destruct (eqb_spec k k'); [discriminate|]. intros E. rewrite IH by exact E. reflexivity.
  Qed.

  Lemma dkeys_dset d k v : dkeys (dset d k v) = if dmem d k then dkeys d else dkeys d ++ [k].
  Proof.
    unfold dmem. induction d as [|[k' v'] d IH]; simpl; [reflexivity|].
    destruct (eqb_spec k k') as [->|Hk]; simpl; [reflexivity|].
    unfold dkeys in *. rewrite IH. destruct (dget d k); reflexivity.
  Qed.

  Lemma dset_nodup d k v : NoDup (dkeys d) -> NoDup (dkeys (dset d k v)).
  Proof.
    intros Hnd. rewrite dkeys_dset. unfold dmem. destruct (dget d k) eqn:E; [exact Hnd|].
    apply dget_none in E. apply NoDup_rev in Hnd. rewrite <- (rev_involutive (dkeys d ++ [k])).
    apply NoDup_rev. rewrite rev_app_distr. simpl. constructor; [|exact Hnd].
    rewrite <- in_rev. exact E.
  Qed.

  Lemma in_dkeys_dset d k v k' : In k' (dkeys (dset d k v)) <-> k' = k \/ In k' (dkeys d).
  Proof.
    rewrite dkeys_dset. unfold dmem. destruct (dget d k) eqn:E.
    - split; [auto|intros [->|]; [eapply dget_some_key; exact E|assumption]].
    - rewrite in_app_iff. simpl. split; [intros [|[|[]]]; auto|intros [|]; auto].
  Qed.

  Lemma dkeys_ddel_incl d k k' : In k' (dkeys (ddel d k)) -> In k' (dkeys d).
  Proof.
    unfold dkeys. induction d as [|[k2 v2] d IH]; simpl; [auto|].
    destruct (eqb_spec k k2); simpl; [auto|]. intros [|]; auto.
  Qed.

  Lemma ddel_nodup d k : NoDup (dkeys d) -> NoDup (dkeys (ddel d k)).
  Proof.
    unfold dkeys. induction d as [|[k2 v2] d IH]; simpl; [auto|]. intros Hnd.
    inversion Hnd as [|? ? Hni Hnd']; subst.
    destruct (eqb_spec k k2); simpl; [exact Hnd'|]. constructor; [|auto].
    intros Hin. apply Hni. apply (dkeys_ddel_incl d k). exact Hin.
  Qed.

  Lemma dget_ddel d k k' : NoDup (dkeys d) ->
    dget (ddel d k) k' = if eqb k' k then None else dget d k'.
  Proof.
    intros Hnd. induction d as [|[k2 v2] d IH]; simpl; [destruct (eqb k' k); reflexivity|].
    inversion Hnd as [|? ? Hni Hnd']; subst.
    destruct (eqb_spec k k2) as [->|Hk]; simpl.
    - destruct (eqb_spec k' k2) as [->|Hk']; [apply dget_none; exact Hni|reflexivity].
    - rewrite IH by exact Hnd'. destruct (eqb_spec k' k2) as [->|Hk2]; [|reflexivity].
      destruct (eqb_spec k2 k); [congruence|reflexivity].
  Qed.

  Lemma mem_in k (l : list K) : mem k l = true <-> In k l.
  Proof.
    unfold mem. rewrite existsb_exists. split.
    - intros (x & Hin & E). destruct (eqb_spec k x); [subst; exact Hin|discriminate].
    - intros Hin. exists k. split; [exact Hin|apply eqb_refl].
  Qed.
  Lemma mem_not_in k (l : list K) : mem k l = false <-> ~ In k l.
  Proof. rewrite <- mem_in. destruct (mem k l); split; congruence. Qed.
End DictLemmas.

(** ** Decimals *)
Lemma parse_digits_app acc a b :
  parse_digits acc (a ++ b) = match parse_digits acc a with Some n => parse_digits n b | None => None end.
Proof.
  revert acc; induction a as [|c a IH]; intros acc; simpl; [reflexivity|].
  destruct (is_digit c); [apply IH|reflexivity].
Qed.

Lemma uint_str_digits u : Forall (fun c => is_digit c = true) (uint_str u).
Proof. induction u; simpl; constructor; auto. Qed.

Lemma parse_uint_str u acc :
  parse_digits (Npos acc) (uint_str u) = Some (Npos (Pos.of_uint_acc u acc)).
Proof.
  revert acc; induction u as [|u IH|u IH|u IH|u IH|u IH|u IH|u IH|u IH|u IH|u IH]; intros acc; [reflexivity|..];
    cbn -[N.mul N.add N.sub Pos.mul Pos.add];
    rewrite <- IH; f_equal; lia.
Qed.

Lemma parse_uint_str0 u : parse_digits 0 (uint_str u) = Some (N.of_uint u).
Proof.
  induction u as [|u IH|u IH|u IH|u IH|u IH|u IH|u IH|u IH|u IH|u IH]; [reflexivity|..].
  - exact IH.
  - apply (parse_uint_str u 1).
  - apply (parse_uint_str u 2).
  - apply (parse_uint_str u 3).
  - apply (parse_uint_str u 4).
  - apply (parse_uint_str u 5).
  - apply (parse_uint_str u 6).
  - apply (parse_uint_str u 7).
  - apply (parse_uint_str u 8).
  - apply (parse_uint_str u 9).
Qed.

Lemma parse_dec n : parse_digits 0 (dec n) = Some n.
Proof. unfold dec. rewrite parse_uint_str0, DecimalN.Unsigned.of_to. reflexivity. Qed.

Lemma dec_digits n : Forall (fun c => is_digit c = true) (dec n).
Proof. apply uint_str_digits. Qed.

Lemma dec_nonempty n : dec n <> [].
Proof. intros E. pose proof (parse_dec n) as H. rewrite E in H. simpl in H. injection H as <-. discriminate. Qed.

Lemma dec_inj n m : dec n = dec m -> n = m.
Proof. intros E. pose proof (parse_dec n). rewrite E, parse_dec in H. congruence. Qed.

Lemma parse_int_dec n : parse_int (dec n) = Ok (Z.of_N n).
Proof.
  pose proof (parse_dec n) as Hp. pose proof (dec_digits n) as Hd. pose proof (dec_nonempty n) as Hn.
  unfold parse_int. destruct (dec n) as [|c t] eqn:E; [congruence|].
  inversion Hd as [|? ? Hc ?]; subst. unfold is_digit in Hc.
  apply andb_true_iff in Hc. destruct Hc as [Hc1 Hc2]. apply N.leb_le in Hc1, Hc2.
  destruct (N.eqb_spec c 45); [lia|]. destruct (N.eqb_spec c 43); [lia|].
  rewrite Hp. reflexivity.
Qed.

Lemma parse_int_decZ z : parse_int (decZ z) = Ok z.
Proof.
  destruct z as [|p|p].
  - reflexivity.
  - change (decZ (Zpos p)) with (dec (Npos p)). rewrite parse_int_dec. reflexivity.
  - unfold decZ, parse_int. simpl. pose proof (dec_nonempty (Npos p)).
    destruct (dec (N.pos p)) as [|c t] eqn:E; [congruence|]. rewrite <- E, parse_dec. reflexivity.
Qed.

Lemma decZ_inj a b : decZ a = decZ b -> a = b.
Proof. intros E. pose proof (parse_int_decZ a) as H. rewrite E, parse_int_decZ in H. congruence. Qed.

Definition dec_char (c : N) : bool := is_digit c || N.eqb c 45.
Lemma decZ_chars z : Forall (fun c => dec_char c = true) (decZ z).
Proof.
  assert (Hd : forall n, Forall (fun c => dec_char c = true) (dec n)).
  { intros n. eapply Forall_impl; [|apply dec_digits]. unfold dec_char. intros a ->. reflexivity. }
  destruct z; simpl; auto; apply Hd.
Qed.

Lemma decZ_no_char z c : dec_char c = false -> no_char c (decZ z).
Proof.
  intros Hc Hin. pose proof (decZ_chars z) as Hf. rewrite Forall_forall in Hf. apply Hf in Hin. congruence.
Qed.
