(** C34-C37: merge list ids, merge directories, bpe configurations. *)
From Verif Require Import M_Base L_Base M_Registry.
From Coq Require Import Lia.
From Coq Require DecimalN DecimalFacts.

(** ** C34 *)
Lemma last_sep_app sep a b : no_char sep b -> last_sep sep (a ++ sep :: b) = Some (a, b).
Proof.
  intros Hb. assert (Hn : last_sep sep b = None).
  { induction b as [|c b IH]; [reflexivity|]. simpl. rewrite IH; [|intros H; apply Hb; right; exact H].
    destruct (N.eqb_spec c sep) as [->|]; [|reflexivity]. exfalso. apply Hb. left. reflexivity. }
  induction a as [|c a IH]; simpl.
  - rewrite Hn, N.eqb_refl. reflexivity.
  - rewrite IH. reflexivity.
Qed.

Lemma last_sep_inv sep s a b : last_sep sep s = Some (a, b) -> s = a ++ sep :: b /\ no_char sep b.
Proof.
  revert a. induction s as [|c s IH]; intros a E; [discriminate|]. simpl in E.
  destruct (last_sep sep s) as [[x y]|] eqn:F.
  - injection E as <- <-. destruct (IH x eq_refl) as [-> H]. auto.
  - destruct (N.eqb_spec c sep) as [->|]; [|discriminate]. injection E as <- <-. split; [reflexivity|].
    clear IH. intros Hin. induction s as [|d s IH]; [destruct Hin|]. simpl in F.
    destruct (last_sep sep s) as [[x y]|] eqn:G; [discriminate|].
    destruct (N.eqb_spec d sep) as [->|Hd]; [discriminate|]. destruct Hin as [->|Hin]; [congruence|]. auto.
Qed.

Fixpoint str_uint (s : str) : Decimal.uint :=
  match s with
  | [] => Decimal.Nil
  | c :: t =>
      let r := str_uint t in
      match c with
      | 48 => Decimal.D0 r | 49 => Decimal.D1 r | 50 => Decimal.D2 r | 51 => Decimal.D3 r | 52 => Decimal.D4 r
      | 53 => Decimal.D5 r | 54 => Decimal.D6 r | 55 => Decimal.D7 r | 56 => Decimal.D8 r | _ => Decimal.D9 r
      end%N
  end.

Lemma is_digit_cases c : is_digit c = true ->
  c = 48%N \/ c = 49%N \/ c = 50%N \/ c = 51%N \/ c = 52%N \/ c = 53%N \/ c = 54%N \/ c = 55%N \/ c = 56%N \/ c = 57%N.
Proof. unfold is_digit. rewrite andb_true_iff, !N.leb_le. lia. Qed.

Lemma uint_str_uint s : forallb is_digit s = true -> uint_str (str_uint s) = s.
Proof.
  induction s as [|c s IH]; [reflexivity|]. cbn [forallb]. rewrite andb_true_iff. intros [Hc Hs].
  specialize (IH Hs). cbn [str_uint].
  destruct (is_digit_cases c Hc) as [->|[->|[->|[->|[->|[->|[->|[->|[->| ->]]]]]]]]];
    cbn [uint_str]; rewrite IH; reflexivity.
Qed.

Lemma parse_digits_str s : forallb is_digit s = true -> parse_digits 0 s = Some (N.of_uint (str_uint s)).
Proof. intros Hs. rewrite <- (uint_str_uint s Hs) at 1. apply parse_uint_str0. Qed.

(** a number without leading zeros is the decimal form of its value *)
Lemma positive_number s : is_positive_number s = true ->
  exists n, parse_digits 0 s = Some n /\ dec n = s /\ (0 < n)%N.
Proof.
  destruct s as [|c s]; [discriminate|]. unfold is_positive_number. rewrite !andb_true_iff. intros [[Hc Hz] Hs].
  assert (Hd : forallb is_digit (c :: s) = true) by (cbn [forallb]; rewrite Hc, Hs; reflexivity).
  exists (N.of_uint (str_uint (c :: s))). split; [apply parse_digits_str, Hd|].
  assert (Hn : Decimal.unorm (str_uint (c :: s)) = str_uint (c :: s)).
  { cbn [str_uint]. destruct (is_digit_cases c Hc) as [->|[->|[->|[->|[->|[->|[->|[->|[->| ->]]]]]]]]]; try reflexivity.
    discriminate Hz. }
  assert (Hdec : dec (N.of_uint (str_uint (c :: s))) = c :: s).
  { unfold dec. rewrite DecimalN.Unsigned.to_of, Hn. apply uint_str_uint, Hd. }
  split; [exact Hdec|]. destruct (N.of_uint (str_uint (c :: s))) as [|p]; [|lia].
  exfalso. change (dec 0) with [48%N] in Hdec. injection Hdec as <- _. discriminate Hz.
Qed.

Lemma dec_positive n : (0 < n)%N -> is_positive_number (dec n) = true.
Proof.
  intros Hn. pose proof (dec_digits n) as Hd. pose proof (parse_dec n) as Hp.
  destruct (dec n) as [|c s] eqn:E; [exfalso; exact (dec_nonempty n E)|].
  inversion Hd as [|? ? Hc Hs]; subst. unfold is_positive_number. rewrite Hc.
  assert (Hf : forallb is_digit s = true) by (apply forallb_forall; rewrite Forall_forall in Hs; exact Hs).
  rewrite Hf. destruct (N.eqb_spec c 48) as [->|]; [exfalso|reflexivity].
  (* leading zero: the decimal form is normal *)
  assert (Hfd : forallb is_digit (48%N :: s) = true) by (cbn [forallb]; rewrite Hf; reflexivity).
  assert (U : N.to_uint n = Decimal.unorm (N.to_uint n)).
  { rewrite <- (DecimalN.Unsigned.of_to n) at 1. apply DecimalN.Unsigned.to_of. }
  unfold dec in E. destruct (N.to_uint n) as [|u|u|u|u|u|u|u|u|u|u] eqn:Eu; try discriminate.
  rewrite <- (DecimalN.Unsigned.of_to n) in Hn. rewrite Eu in Hn.
  unfold Decimal.unorm in U. destruct (Decimal.nzhead (Decimal.D0 u)) as [|w|w|w|w|w|w|w|w|w|w] eqn:Ez; try discriminate.
  - injection U as ->. vm_compute in Hn. discriminate.
  - exact (DecimalFacts.nzhead_nonzero _ _ Ez).
Qed.

Lemma positive_no_dash s : is_positive_number s = true -> no_char dash s /\ no_char newline s.
Proof.
  destruct s as [|c s]; [discriminate|]. unfold is_positive_number. rewrite !andb_true_iff. intros [[Hc _] Hs].
  assert (H : forall d, In d (c :: s) -> is_digit d = true).
  { intros d [->|Hd]; [exact Hc|]. rewrite forallb_forall in Hs. auto. }
  split; intros Hin; specialize (H _ Hin); discriminate.
Qed.

Lemma existsb_newline s : existsb (N.eqb newline) s = false <-> no_char newline s.
Proof.
  rewrite <- not_true_iff_false, existsb_exists. unfold no_char. split.
  - intros H Hin. apply H. exists newline. split; [exact Hin|apply N.eqb_refl].
  - intros H (x & Hin & E). apply N.eqb_eq in E. subst. auto.
Qed.

Lemma last_in (s : str) d : s <> [] -> In (last s d) s.
Proof.
  induction s as [|c [|e s] IH]; [congruence|left; reflexivity|]. intros _. right. apply IH. discriminate.
Qed.

(** The id of any name without newline and any number of merges is read back, with or without a final newline. *)
Theorem C34_roundtrip name n nl : no_char newline name -> (1 <= n)%N -> nl = [] \/ nl = [newline] ->
  parse_merge_list_id (name ++ dash :: dec n ++ nl) = Ok (name, n).
Proof.
  intros Hname Hn Hnl. pose proof (dec_positive n ltac:(lia)) as Hp.
  destruct (positive_no_dash _ Hp) as [Hd Hw].
  assert (E : chop_newline (name ++ dash :: dec n ++ nl) = name ++ dash :: dec n).
  { unfold chop_newline. destruct Hnl as [-> | ->].
    - rewrite app_nil_r.
      assert (L : N.eqb (last (name ++ dash :: dec n) 0%N) newline = false).
      { apply N.eqb_neq. intros L.
        assert (I : In (last (name ++ dash :: dec n) 0%N) (name ++ dash :: dec n)) by (apply last_in; destruct name; discriminate).
        rewrite L in I. apply in_app_or in I. destruct I as [I|[I|I]]; [auto|discriminate|auto]. }
      rewrite L. destruct (name ++ dash :: dec n); reflexivity.
    - replace (name ++ dash :: dec n ++ [newline]) with ((name ++ dash :: dec n) ++ [newline]) by (rewrite <- app_assoc; reflexivity).
      rewrite last_last, N.eqb_refl, removelast_last.
      destruct ((name ++ dash :: dec n) ++ [newline]) eqn:F; [destruct name; discriminate|reflexivity]. }
  unfold parse_merge_list_id. rewrite E. clear E.
  rewrite last_sep_app by exact Hd. rewrite Hp. apply existsb_newline in Hname. rewrite Hname. cbn [andb negb].
  rewrite parse_dec. reflexivity.
Qed.

(** Nothing else is accepted: an accepted string is a name, a dash and a positive number in decimal form. *)
Theorem C34_exact s name n : parse_merge_list_id s = Ok (name, n) ->
  (1 <= n)%N /\ no_char newline name
  /\ (s = name ++ dash :: dec n \/ s = name ++ dash :: dec n ++ [newline]).
Proof.
  unfold parse_merge_list_id.
  set (s' := chop_newline s).
  intros E. destruct (last_sep dash s') as [[a b]|] eqn:F; [|discriminate].
  destruct (is_positive_number b && negb (existsb (N.eqb newline) a)) eqn:G; [|discriminate].
  apply andb_true_iff in G. destruct G as [Gp Gn]. apply negb_true_iff, existsb_newline in Gn.
  destruct (positive_number b Gp) as (m & Em & Ed & Hm). rewrite Em in E. injection E as <- <-.
  apply last_sep_inv in F. destruct F as [F _].
  split; [lia|]. split; [exact Gn|]. rewrite Ed. unfold s', chop_newline in F. destruct s as [|c s0] eqn:Es.
  - destruct a; discriminate.
  - rewrite <- Es in *. destruct (N.eqb_spec (last s 0%N) newline) as [L|_]; [|left; exact F].
    right. rewrite app_comm_cons, app_assoc, <- F.
    rewrite (app_removelast_last 0%N (l := s)) at 1 by (rewrite Es; discriminate). rewrite L. reflexivity.
Qed.
Print Assumptions C34_roundtrip.
Print Assumptions C34_exact.

Example C34_dashes : parse_merge_list_id (lit "py-3-no-case-1000") = Ok (lit "py-3-no-case", 1000%N).
Proof. reflexivity. Qed.
Example C34_rejected : map parse_merge_list_id [lit "python_1000"; lit "python-"; lit "python-0"; lit "python-010"; lit "10"]
  = repeat (Err ValueError) 5.
Proof. reflexivity. Qed.

(** ** C35 *)
Section Merges.
  Variable py_int : str -> option Z.
  Variable maxsize : Z.

  (** the numbers of merges for which there is a directory *)
  Definition learned (subdirs : list str) (n : Z) : Prop := exists d, In d subdirs /\ py_int d = Some n.

  (** The largest number that is positive and not above the limit. *)
  Theorem C35_max subdirs limit :
    match get_max_merges py_int subdirs limit with
    | Some m => learned subdirs m /\ (0 < m <= limit)%Z /\ (forall n, learned subdirs n -> (n <= limit)%Z -> (n <= m)%Z)
    | None => forall n, learned subdirs n -> (0 < n)%Z -> (limit < n)%Z
    end.
  Proof.
    unfold get_max_merges, get_extreme.
    assert (G : forall l e, let r := fold_left (fun e d => match py_int d with
        | Some num => if ((e <? num) && (num <=? limit))%Z then num else e | None => e end) l e in
      (e <= r)%Z /\ (r = e \/ learned l r /\ r <= limit)%Z
      /\ (forall n, learned l n -> (n <= limit)%Z -> (n <= r)%Z)).
    { induction l as [|d l IH]; intros e; cbn [fold_left].
      - split; [lia|]. split; [auto|]. intros n (x & [] & _).
      - set (e' := match py_int d with Some num => if ((e <? num) && (num <=? limit))%Z then num else e | None => e end).
        destruct (IH e') as (H1 & H2 & H3). cbn zeta.
        set (r := fold_left _ l e') in *.
        assert (He : (e <= e')%Z /\ (e' = e \/ learned (d :: l) e' /\ e' <= limit)%Z
                     /\ (forall n, py_int d = Some n -> (n <= limit)%Z -> (n <= e')%Z)).
        { unfold e'. destruct (py_int d) as [num|] eqn:Ed; [|split; [lia|split; [auto|discriminate]]].
          destruct ((e <? num) && (num <=? limit))%Z eqn:Ec.
          - apply andb_true_iff in Ec. rewrite Z.ltb_lt, Z.leb_le in Ec. split; [lia|]. split.
            + right. split; [|lia]. exists d. split; [left; reflexivity|exact Ed].
            + intros n [= ->]. lia.
          - split; [lia|]. split; [auto|]. intros n [= ->] Hl. apply andb_false_iff in Ec.
            rewrite Z.ltb_ge, Z.leb_gt in Ec. lia. }
        destruct He as (H4 & H5 & H6). split; [lia|]. split.
        + destruct H2 as [H2|[(x & Hx & Ex) Hl]].
          * rewrite H2. exact H5.
          * right. split; [exists x; split; [right; exact Hx|exact Ex]|exact Hl].
        + intros n (x & [->|Hx] & Ex) Hl.
          * specialize (H6 n Ex Hl). lia.
          * apply H3; [exists x; auto|exact Hl]. }
    destruct (G subdirs 0%Z) as (H1 & H2 & H3). cbn zeta in *.
    set (r := fold_left _ subdirs 0%Z) in *. destruct (Z.eqb_spec r 0) as [E|E].
    - intros n Hn Hp. destruct (Z.le_gt_cases n limit); [|lia]. specialize (H3 n Hn H). lia.
    - destruct H2 as [H2|[H2 H4]]; [lia|]. split; [exact H2|]. split; [lia|exact H3].
  Qed.

  (** The smallest number below the largest machine number that is not below the limit. *)
  Theorem C35_min subdirs limit :
    match get_min_merges py_int maxsize subdirs limit with
    | Some m => learned subdirs m /\ (limit <= m < maxsize)%Z /\ (forall n, learned subdirs n -> (limit <= n)%Z -> (m <= n)%Z)
    | None => forall n, learned subdirs n -> (n < maxsize)%Z -> (n < limit)%Z
    end.
  Proof.
    unfold get_min_merges, get_extreme.
    assert (G : forall l e, let r := fold_left (fun e d => match py_int d with
        | Some num => if ((num <? e) && (limit <=? num))%Z then num else e | None => e end) l e in
      (r <= e)%Z /\ (r = e \/ learned l r /\ limit <= r)%Z
      /\ (forall n, learned l n -> (limit <= n)%Z -> (r <= n)%Z)).
    { induction l as [|d l IH]; intros e; cbn [fold_left].
      - split; [lia|]. split; [auto|]. intros n (x & [] & _).
      - set (e' := match py_int d with Some num => if ((num <? e) && (limit <=? num))%Z then num else e | None => e end).
        destruct (IH e') as (H1 & H2 & H3). cbn zeta.
        set (r := fold_left _ l e') in *.
        assert (He : (e' <= e)%Z /\ (e' = e \/ learned (d :: l) e' /\ limit <= e')%Z
                     /\ (forall n, py_int d = Some n -> (limit <= n)%Z -> (e' <= n)%Z)).
        { unfold e'. destruct (py_int d) as [num|] eqn:Ed; [|split; [lia|split; [auto|discriminate]]].
          destruct ((num <? e) && (limit <=? num))%Z eqn:Ec.
          - apply andb_true_iff in Ec. rewrite Z.ltb_lt, Z.leb_le in Ec. split; [lia|]. split.
            + right. split; [|lia]. exists d. split; [left; reflexivity|exact Ed].
            + intros n [= ->]. lia.
          - split; [lia|]. split; [auto|]. intros n [= ->] Hl. apply andb_false_iff in Ec.
            rewrite Z.ltb_ge, Z.leb_gt in Ec. lia. }
        destruct He as (H4 & H5 & H6). split; [lia|]. split.
        + destruct H2 as [H2|[(x & Hx & Ex) Hl]].
          * rewrite H2. exact H5.
          * right. split; [exists x; split; [right; exact Hx|exact Ex]|exact Hl].
        + intros n (x & [->|Hx] & Ex) Hl.
          * specialize (H6 n Ex Hl). lia.
          * apply H3; [exists x; auto|exact Hl]. }
    destruct (G subdirs maxsize) as (H1 & H2 & H3). cbn zeta in *.
    set (r := fold_left _ subdirs maxsize) in *. destruct (Z.eqb_spec r maxsize) as [E|E].
    - intros n Hn Hp. destruct (Z.le_gt_cases limit n); [|lia]. specialize (H3 n Hn H). lia.
    - destruct H2 as [H2|[H2 H4]]; [lia|]. split; [exact H2|]. split; [lia|exact H3].
  Qed.

  (** The configuration for [n] merges uses the smallest learned list with at least [n] merges; it is refused
      exactly if there is none. *)
  Theorem C35_config subdirs n : (1 <= n)%Z ->
    match config_dir py_int maxsize subdirs n with
    | Ok m => learned subdirs m /\ (n <= m)%Z /\ (forall k, learned subdirs k -> (n <= k)%Z -> (m <= k)%Z)
    | Err e => e = ValueError /\ (forall k, learned subdirs k -> (k < maxsize)%Z -> (k < n)%Z)
    end.
  Proof.
    intros Hn. unfold config_dir. pose proof (C35_min subdirs n) as H.
    destruct (get_min_merges py_int maxsize subdirs n) as [m|].
    - destruct H as (H1 & H2 & H3). destruct (Z.eqb_spec m 0); [lia|]. split; [exact H1|]. split; [lia|exact H3].
    - split; [reflexivity|exact H].
  Qed.
End Merges.
Print Assumptions C35_max.
Print Assumptions C35_min.
Print Assumptions C35_config.

(** int() on plain decimal names *)
Definition ascii_int (s : str) : option Z := if is_positive_number s then option_map Z.of_N (parse_digits 0 s) else None.
Definition listing : list str := [lit "part_vocab"; lit "900"; lit "1000"; lit "50"].
Example C35_ex : get_max_merges ascii_int listing 950 = Some 900%Z /\ get_max_merges ascii_int listing 40 = None
  /\ get_min_merges ascii_int 5000 listing 60 = Some 900%Z /\ config_dir ascii_int 5000 listing 901 = Ok 1000%Z
  /\ config_dir ascii_int 5000 listing 1001 = Err ValueError.
Proof. repeat split. Qed.

(** ** C36 *)
Section NewId.
  Variable py_int : str -> option Z.
  Variable maxsize : Z.
  Variable strip : str -> str.
  Variable number_of : str -> str -> option str.

  (** [base] read as a pattern matches itself, with the number as the first group *)
  Definition self_matching (base : str) : Prop :=
    forall ds, ds <> [] -> forallb is_digit ds = true -> number_of base (base ++ lit "_" ++ ds) = Some ds.

  (** A created id is none of the existing ones. *)
  Theorem C36_new_id basename suffix dirs i :
    self_matching (id_base basename suffix) ->
    create_new_id py_int maxsize strip number_of basename suffix dirs = Ok i ->
    ~ In i (existing_ids py_int maxsize strip dirs).
  Proof.
    intros Hself. unfold create_new_id. set (base := id_base basename suffix) in *.
    set (ex := existing_ids py_int maxsize strip dirs). destruct (mem base ex) eqn:M.
    - destruct (mapM (fun d => extract_number number_of d base) ex) as [ns|e] eqn:F; [|discriminate].
      cbn [bind]. intros [= <-] Hin. set (k := (fold_right N.max 0 ns + 1)%N) in *.
      assert (Hk : In k ns).
      { clearbody k. clear M. revert ns F Hin. clearbody ex. induction ex as [|d l IH]; intros ns F Hin; [destruct Hin|].
        cbn [mapM] in F. destruct (extract_number number_of d base) as [x|e] eqn:X; [|discriminate].
        cbn [bind] in F. destruct (mapM _ l) as [xs|e] eqn:Y; [|discriminate]. injection F as <-.
        destruct Hin as [E|Hin]; [|right; exact (IH xs eq_refl Hin)].
        left. unfold extract_number in X.
        assert (Hd : forallb is_digit (dec k) = true).
        { apply forallb_forall. pose proof (dec_digits k) as D. rewrite Forall_forall in D. exact D. }
        assert (Hm : number_of base d = Some (dec k)) by (rewrite E; exact (Hself (dec k) (dec_nonempty k) Hd)).
        rewrite Hm, Hd, parse_dec in X.
        destruct (eqb_spec (dec k) []) as [Z|_]; [exfalso; exact (dec_nonempty k Z)|].
        cbn [negb andb] in X. congruence. }
      assert (Hle : forall x, In x ns -> (x <= fold_right N.max 0 ns)%N).
      { clear. induction ns as [|y ns IH]; intros x H; [destruct H|]. cbn [fold_right].
        destruct H as [->|H]; [lia|]. specialize (IH x H). lia. }
      specialize (Hle k Hk). unfold k in Hle. lia.
    - intros [= <-]. apply mem_not_in. exact M.
  Qed.

  (** After the id is saved in a new directory [stripped] and with learned merges, no two directories share an id
      if none did before. *)
  Theorem C36_unique basename suffix dirs i subdirs :
    self_matching (id_base basename suffix) -> strip i = i ->
    create_new_id py_int maxsize strip number_of basename suffix dirs = Ok i ->
    NoDup (existing_ids py_int maxsize strip dirs) ->
    NoDup (existing_ids py_int maxsize strip ((Some i, subdirs) :: dirs)).
  Proof.
    intros Hself Hst E Hnd. pose proof (C36_new_id _ _ _ _ Hself E) as Hnew.
    unfold existing_ids at 1. cbn [flat_map]. fold (existing_ids py_int maxsize strip dirs).
    unfold codes_id. cbn [fst snd option_map]. rewrite Hst.
    destruct (get_max_merges py_int subdirs maxsize) as [m|]; [|exact Hnd].
    destruct (eqb i [] || Z.eqb m 0); [exact Hnd|]. cbn [app]. constructor; assumption.
  Qed.
End NewId.
Print Assumptions C36_new_id.
Print Assumptions C36_unique.

(** matching for names without special characters *)
Definition literal_number (base full : str) : option str :=
  match last_sep underscore full with
  | Some (x, ds) => if eqb x base && negb (eqb ds []) && forallb is_digit ds then Some ds else None
  | None => None
  end.

Lemma literal_self base : self_matching literal_number base.
Proof.
  intros ds Hne Hd. unfold literal_number. change (lit "_" ++ ds) with (underscore :: ds).
  rewrite last_sep_app.
  - destruct (eqb_spec base base) as [_|N]; [|congruence]. rewrite Hd.
    destruct (eqb_spec (ds : str) []) as [Z|_]; [congruence|]. reflexivity.
  - intros H. rewrite forallb_forall in Hd. specialize (Hd _ H). discriminate.
Qed.

Definition dir_of (s : string) : bpe_dir := (Some (lit s), [lit "100"]).
Example C36_ex : create_new_id ascii_int 5000 (fun s => s) literal_number (lit "proj") (lit "nounicode")
    [dir_of "proj_nounicode"; dir_of "proj_nounicode_7"; dir_of "proj_9"] = Ok (lit "proj_nounicode_8")
  /\ self_matching literal_number (id_base (lit "proj") (lit "nounicode")).
Proof. split; [reflexivity|apply literal_self]. Qed.

(** With a special character in the name the third dataset of that name gets the id of the second: the pattern
    [a+b_([0-9]+)] matches neither [a+b] nor [a+b_1]. *)
Theorem C36_special_refuted (number_of : str -> str -> option str) :
  number_of (lit "a+b") (lit "a+b") = None -> number_of (lit "a+b") (lit "a+b_1") = None ->
  let dirs := [dir_of "a+b"; dir_of "a+b_1"] in
  create_new_id ascii_int 5000 (fun s => s) number_of (lit "a+b") [] dirs = Ok (lit "a+b_1")
  /\ In (lit "a+b_1") (existing_ids ascii_int 5000 (fun s => s) dirs).
Proof.
  intros H1 H2 dirs. split; [|right; left; reflexivity].
  unfold create_new_id. change (id_base (lit "a+b") []) with (lit "a+b").
  change (existing_ids ascii_int 5000 (fun s => s) dirs) with [lit "a+b"; lit "a+b_1"].
  cbn [mapM]. unfold extract_number. rewrite H1, H2. reflexivity.
Qed.

(** The id of a directory in which no merges are learned yet is given out again. *)
Theorem C36_unfinished_refuted :
  let dirs := [(Some (lit "proj"), []) : bpe_dir] in
  create_new_id ascii_int 5000 (fun s => s) literal_number (lit "proj") [] dirs = Ok (lit "proj")
  /\ In (Some (lit "proj")) (map (codes_id (fun s => s)) dirs).
Proof. split; [reflexivity|left; reflexivity]. Qed.

(** A name that strip changes: the id is new when created, but the same as an existing one when read. *)
Theorem C36_strip_refuted (strip : str -> str) : strip (lit "proj") = lit "proj" -> strip (lit "proj ") = lit "proj" ->
  let dirs := [dir_of "proj"] in
  create_new_id ascii_int 5000 strip literal_number (lit "proj ") [] dirs = Ok (lit "proj ")
  /\ existing_ids ascii_int 5000 strip (dir_of "proj " :: dirs) = [lit "proj"; lit "proj"].
Proof.
  intros H1 H2 dirs. split.
  - unfold create_new_id, existing_ids, dirs, codes_id, dir_of. cbn [flat_map fst snd option_map]. rewrite H1. reflexivity.
  - unfold existing_ids, dirs, codes_id, dir_of. cbn [flat_map fst snd option_map]. rewrite H1, H2. reflexivity.
Qed.
Print Assumptions C36_special_refuted.
Print Assumptions C36_unfinished_refuted.
Print Assumptions C36_strip_refuted.

(** ** C37 *)
Lemma bc_valid_cases c : bc_valid c = true ->
  bc_case c = lit "yes" /\ (bc_base c = lit "all" \/ bc_base c = lit "code" \/ bc_base c = lit "java")
  /\ (bc_unicode c = lit "yes" \/ bc_unicode c = lit "no" \/ bc_unicode c = lit "bytes").
Proof.
  unfold bc_valid. rewrite !andb_true_iff, !mem_in. cbn [In].
  intros [[[H1|[]] H2] H3]. split; [auto|]. split; firstorder.
Qed.

(** The configuration is recovered, except that the base vocabulary parameter becomes [code]. *)
Theorem C37_suffix c : bc_valid c = true ->
  from_suffix (to_suffix c)
  = Ok {| bc_case := bc_case c; bc_word_end := bc_word_end c; bc_base := lit "code"; bc_unicode := bc_unicode c |}.
Proof.
  destruct c as [ca we ba un]. intros H. apply bc_valid_cases in H. cbn in H.
  destruct H as (-> & _ & [-> |[-> | ->]]); destruct we; reflexivity.
Qed.

Lemma bpe_dir_parts_app d s : contains (lit "_-_") (d ++ lit "_") = false -> (s = [] \/ exists t, s = lit "_-_" ++ t) ->
  bpe_dir_parts (d ++ s) = (d, s).
Proof.
  intros Hd Hs. induction d as [|c d IH].
  - destruct Hs as [-> |[t ->]]; reflexivity.
  - change ((c :: d) ++ s) with (c :: d ++ s). change ((c :: d) ++ lit "_") with (c :: d ++ lit "_") in Hd.
    change (contains (lit "_-_") (c :: d ++ lit "_"))
      with (starts_with (lit "_-_") (c :: d ++ lit "_") || contains (lit "_-_") (d ++ lit "_")) in Hd.
    apply orb_false_iff in Hd. destruct Hd as [H1 H2].
    change (bpe_dir_parts (c :: d ++ s)) with
      (if starts_with (lit "_-_") (c :: d ++ s) then ([], c :: d ++ s)
       else let r := bpe_dir_parts (d ++ s) in (c :: fst r, snd r)).
    rewrite (IH H2). cbn zeta. cbn [fst snd].
    assert (E : starts_with (lit "_-_") (c :: d ++ s) = false); [|rewrite E; reflexivity].
    clear IH H2. revert H1. change (lit "_-_") with [95%N; 45%N; 95%N] in *. change (lit "_") with [95%N].
    destruct Hs as [-> |[t ->]]; destruct d as [|c2 [|c3 d]]; cbn; rewrite ?andb_true_r, ?andb_false_r; auto.
Qed.

(** From the bpe directory name of a dataset, the dataset part and the configuration are found again, if the
    dataset directory does not itself contain the separator. *)
Theorem C37_directory d c : bc_valid c = true -> contains (lit "_-_") (d ++ lit "_") = false ->
  fst (bpe_dir_parts (bpe_dir_name d c)) = d
  /\ from_suffix (snd (bpe_dir_parts (bpe_dir_name d c)))
     = Ok {| bc_case := bc_case c; bc_word_end := bc_word_end c; bc_base := lit "code"; bc_unicode := bc_unicode c |}.
Proof.
  intros H Hd.
  assert (E : exists s, bpe_dir_name d c = d ++ s /\ (s = [] \/ exists t, s = lit "_-_" ++ t)
    /\ from_suffix s = Ok {| bc_case := bc_case c; bc_word_end := bc_word_end c; bc_base := lit "code"; bc_unicode := bc_unicode c |}).
  { destruct c as [ca we ba un]. apply bc_valid_cases in H. cbn in H. unfold bpe_dir_name.
    destruct H as (-> & _ & [-> |[-> | ->]]); destruct we.
    2: { exists []. rewrite app_nil_r. repeat split; auto. }
    all: eexists; split; [reflexivity|]; split; [right; eexists; reflexivity|reflexivity]. }
  destruct E as (s & -> & Hs & Ef). rewrite (bpe_dir_parts_app d s Hd Hs). split; [reflexivity|exact Ef].
Qed.

Example C37_ex :
  let c := {| bc_case := lit "yes"; bc_word_end := true; bc_base := lit "code"; bc_unicode := lit "no" |} in
  let d := lit "web-bytes_20-01-31T10-00-00" in
  bc_valid c = true /\ contains (lit "_-_") (d ++ lit "_") = false
  /\ bpe_dir_name d c = lit "web-bytes_20-01-31T10-00-00_-_we_nounicode" /\ from_suffix (to_suffix c) = Ok c.
Proof. repeat split. Qed.

(** The base vocabulary parameter is lost. *)
Theorem C37_base_refuted :
  let c := {| bc_case := lit "yes"; bc_word_end := false; bc_base := lit "java"; bc_unicode := lit "yes" |} in
  bc_valid c = true /\ from_suffix (to_suffix c) <> Ok c.
Proof. split; [reflexivity|discriminate]. Qed.

(** A separator in the dataset name is taken for the one before the suffix. *)
Theorem C37_separator_refuted :
  let c := {| bc_case := lit "yes"; bc_word_end := false; bc_base := lit "code"; bc_unicode := lit "yes" |} in
  let d := lit "my_-_bytes_20-01-31T10-00-00" in
  let parts := bpe_dir_parts (bpe_dir_name d c) in
  fst parts = lit "my" /\ from_suffix (snd parts) <> Ok c.
Proof. split; [reflexivity|discriminate]. Qed.
Print Assumptions C37_suffix.
Print Assumptions C37_directory.
Print Assumptions C37_base_refuted.
Print Assumptions C37_separator_refuted.
