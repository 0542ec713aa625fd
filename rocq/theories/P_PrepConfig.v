(** C38 - C40: preprocessing configurations. *)
From Verif Require Import M_Base L_Base M_Tokens M_Repr M_Merge M_BpeEncode M_PrepConfig.

(** * C38 *)
(** specification of valid encoded strings, by listing the characters *)
Definition one_of (c : N) (s : string) : Prop := In c (lit s).
Definition alnum (c : N) : Prop := (48 <= c <= 57 \/ 65 <= c <= 90 \/ 97 <= c <= 122)%N.
Definition valid_encoding (s : str) : Prop :=
  exists en com st sp tabs ca,
    s = [en; com; st; sp; tabs; ca] /\
    one_of en "uU" /\ one_of com "0c" /\ alnum st /\ one_of sp "0F123s456789" /\ one_of tabs "s0" /\
    (ca = 117%N \/ (ca = 108%N /\ one_of sp "123s8")).

Lemma mem_chars (c : N) s : mem ([c] : str) (chars_of s) = true <-> one_of c s.
Proof.
  unfold one_of, chars_of. rewrite mem_in, in_map_iff. split.
  - intros (x & E & Hx). injection E as <-. exact Hx.
  - intros H. exists c. auto.
Qed.
Lemma mem_chars_single v s : mem v (chars_of s) = true -> exists c, v = [c] /\ one_of c s.
Proof.
  unfold chars_of. rewrite mem_in, in_map_iff. intros (x & E & Hx). exists x. auto.
Qed.

Lemma in_nrange c a b : (a <= b)%N -> In c (nrange a b) <-> (a <= c < b)%N.
Proof.
  intros Hab. unfold nrange. rewrite in_map_iff. split.
  - intros (i & <- & Hi). apply in_seq in Hi. lia.
  - intros Hc. exists (N.to_nat (c - a)). split; [lia|]. apply in_seq. lia.
Qed.

Lemma mem_str_values v : mem v possible_str_values = true <-> exists c, v = [c] /\ alnum c.
Proof.
  unfold possible_str_values. rewrite mem_in, in_map_iff. unfold alnum. split.
  - intros (c & <- & Hc). exists c. split; [reflexivity|].
    rewrite !in_app_iff, !in_nrange in Hc by lia. lia.
  - intros (c & -> & Hc). exists c. split; [reflexivity|]. rewrite !in_app_iff, !in_nrange by lia. lia.
Qed.

(** what the constructor accepts *)
Lemma check_ok d : check_invariants d = Ok tt <->
  length d = 6 /\
  exists en com st sp tabs ca,
    dget d EN_ONLY = Some [en] /\ dget d COM = Some [com] /\ dget d STR = Some [st] /\
    dget d SPLIT = Some [sp] /\ dget d TABS_NEWLINES = Some [tabs] /\ dget d CASE = Some [ca] /\
    valid_encoding [en; com; st; sp; tabs; ca].
Proof.
  unfold check_invariants. split.
  - destruct (Nat.eqb_spec (length d) 6) as [HL|HL]; cbn [negb]; [|discriminate].
    intros H. split; [exact HL|]. apply bind_ok in H. destruct H as (u & Hv & H). cbn [check_values prep_params] in Hv.
    destruct (dget d EN_ONLY) as [v1|] eqn:E1; [|discriminate].
    destruct (mem v1 _) eqn:M1; [|discriminate].
    destruct (dget d COM) as [v2|] eqn:E2; [|discriminate].
    destruct (mem v2 _) eqn:M2; [|discriminate].
    destruct (dget d STR) as [v3|] eqn:E3; [|discriminate].
    destruct (mem v3 _) eqn:M3; [|discriminate].
    destruct (dget d SPLIT) as [v4|] eqn:E4; [|discriminate].
    destruct (mem v4 _) eqn:M4; [|discriminate].
    destruct (dget d TABS_NEWLINES) as [v5|] eqn:E5; [|discriminate].
    destruct (mem v5 _) eqn:M5; [|discriminate].
    destruct (dget d CASE) as [v6|] eqn:E6; [|discriminate].
    destruct (mem v6 _) eqn:M6; [|discriminate].
    cbn [possible_param_values] in *.
    apply mem_chars_single in M1, M2, M4, M5, M6. apply mem_str_values in M3.
    destruct M1 as (c1 & -> & M1). destruct M2 as (c2 & -> & M2). destruct M3 as (c3 & -> & M3).
    destruct M4 as (c4 & -> & M4). destruct M5 as (c5 & -> & M5). destruct M6 as (c6 & -> & M6).
    exists c1, c2, c3, c4, c5, c6. repeat (split; [reflexivity|]).
    exists c1, c2, c3, c4, c5, c6. repeat (split; [assumption || reflexivity|]).
    unfold param_in, param in H. rewrite E4, E6 in H.
    unfold one_of in M6. cbn in M6. destruct M6 as [<-|[<-|[]]]; [left; reflexivity|right].
    split; [reflexivity|]. change (mem [108%N] (chars_of "l")) with true in H. cbn [andb] in H.
    unfold one_of in *. cbn in M4.
    repeat (destruct M4 as [<-|M4]; [first [cbn; tauto | vm_compute in H; discriminate H]|]). destruct M4.
  - intros (HL & en & com & st & sp & tabs & ca & E1 & E2 & E3 & E4 & E5 & E6 & V).
    rewrite HL. cbn [Nat.eqb negb check_values prep_params].
    rewrite E1, E2, E3, E4, E5, E6. cbn [possible_param_values].
    destruct V as (? & ? & ? & ? & ? & ? & Es & M1 & M2 & M3 & M4 & M5 & M6).
    injection Es as <- <- <- <- <- <-.
    apply mem_chars in M1, M2, M5. rewrite M1, M2, M5.
    replace (mem ([st] : str) possible_str_values) with true by (symmetry; apply mem_str_values; eauto).
    unfold param_in, param. rewrite E4, E6.
    destruct M6 as [->|[-> M6]].
    + apply mem_chars in M4. rewrite M4. reflexivity.
    + apply mem_chars in M4. rewrite M4. unfold one_of in M6. cbn in M6.
      repeat (destruct M6 as [<-|M6]; [reflexivity|]). destruct M6.
Qed.

Lemma mk_ok d d' : mk_prep_config d = Ok d' <-> check_invariants d = Ok tt /\ d' = d.
Proof.
  unfold mk_prep_config. rewrite bind_ok. split.
  - intros ([] & H & E). injection E as <-. auto.
  - intros [H ->]. exists tt. auto.
Qed.

Lemma config_str_of d d' : mk_prep_config d = Ok d' ->
  exists en com st sp tabs ca,
    dget d EN_ONLY = Some [en] /\ dget d COM = Some [com] /\ dget d STR = Some [st] /\
    dget d SPLIT = Some [sp] /\ dget d TABS_NEWLINES = Some [tabs] /\ dget d CASE = Some [ca] /\
    valid_encoding [en; com; st; sp; tabs; ca] /\ config_str d' = [en; com; st; sp; tabs; ca].
Proof.
  intros H. apply mk_ok in H. destruct H as [H ->]. apply check_ok in H.
  destruct H as (_ & en & com & st & sp & tabs & ca & E1 & E2 & E3 & E4 & E5 & E6 & V).
  exists en, com, st, sp, tabs, ca. repeat (split; [assumption|]).
  unfold config_str, param. cbn [prep_params map]. rewrite E1, E2, E3, E4, E5, E6. reflexivity.
Qed.

(** exactly the valid strings are accepted, and a decoded configuration prints as the string it came from *)
Theorem C38_decode_accepts_exactly_valid :
  forall s, (exists d, from_encoded_string s = Ok d) <-> valid_encoding s.
Proof.
  intros s. unfold from_encoded_string. split.
  - intros [d H]. destruct (Nat.eqb_spec (length s) 6) as [HL|HL]; cbn [negb] in H; [|discriminate].
    do 6 (destruct s as [|? s]; [discriminate HL|]). destruct s; [|discriminate HL].
    apply mk_ok in H. destruct H as [H _]. apply check_ok in H.
    destruct H as (_ & en & com & st & sp & tabs & ca & E1 & E2 & E3 & E4 & E5 & E6 & V).
    vm_compute in E1, E2, E3, E4, E5, E6. congruence.
  - intros V. pose proof V as (en & com & st & sp & tabs & ca & -> & _). cbn [length Nat.eqb negb].
    eexists. apply mk_ok. split; [|reflexivity]. apply check_ok. split; [reflexivity|].
    exists en, com, st, sp, tabs, ca. repeat (split; [reflexivity|]). exact V.
Qed.
Print Assumptions C38_decode_accepts_exactly_valid.

Theorem C38_decode_encode :
  forall s d, from_encoded_string s = Ok d -> config_str d = s.
Proof.
  intros s d H. unfold from_encoded_string in H.
  destruct (Nat.eqb_spec (length s) 6) as [HL|HL]; cbn [negb] in H; [|discriminate].
  do 6 (destruct s as [|? s]; [discriminate HL|]). destruct s; [|discriminate HL].
  destruct (config_str_of _ _ H) as (en & com & st & sp & tabs & ca & E1 & E2 & E3 & E4 & E5 & E6 & _ & ->).
  vm_compute in E1, E2, E3, E4, E5, E6. congruence.
Qed.
Print Assumptions C38_decode_encode.

(** every constructed configuration (from any dictionary, in any order) is recovered from its string *)
Theorem C38_encode_decode :
  forall d d', mk_prep_config d = Ok d' ->
  exists d'', from_encoded_string (config_str d') = Ok d'' /\ forall p, dget d'' p = dget d' p.
Proof.
  intros d d' H. pose proof (config_str_of _ _ H)
    as (en & com & st & sp & tabs & ca & E1 & E2 & E3 & E4 & E5 & E6 & V & ->).
  apply mk_ok in H. destruct H as [_ ->].
  pose proof (proj2 (C38_decode_accepts_exactly_valid _) V) as [d2 H2]. exists d2. split; [exact H2|].
  unfold from_encoded_string in H2. cbn [length Nat.eqb negb map combine prep_params] in H2.
  apply mk_ok in H2. destruct H2 as [_ ->].
  intros []; [rewrite E1|rewrite E2|rewrite E3|rewrite E4|rewrite E5|rewrite E6]; reflexivity.
Qed.
Print Assumptions C38_encode_decode.

Theorem C38_encode_injective :
  forall d1 d2 c1 c2, mk_prep_config d1 = Ok c1 -> mk_prep_config d2 = Ok c2 ->
  config_str c1 = config_str c2 -> forall p, dget c1 p = dget c2 p.
Proof.
  intros d1 d2 c1 c2 H1 H2 E p.
  destruct (C38_encode_decode _ _ H1) as (e1 & F1 & G1). destruct (C38_encode_decode _ _ H2) as (e2 & F2 & G2).
  rewrite E in F1. assert (e1 = e2) by congruence. subst. rewrite <- G1, <- G2. reflexivity.
Qed.
Print Assumptions C38_encode_injective.

Example C38_example :
  exists d, from_encoded_string (lit "Uc140u") = Ok d /\ config_str d = lit "Uc140u" /\
            from_encoded_string (lit "Uc140l") = Err ValueError /\ from_encoded_string (lit "Uc140") = Err ValueError.
Proof. eexists. repeat split; vm_compute; reflexivity. Qed.

(** * C39 *)
Lemma create_split_in t id f n r s : one_of (hd 0%N (create_split_value t id f n r s)) "0F123s456789" /\
  length (create_split_value t id f n r s) = 1.
Proof.
  destruct t; cbn [create_split_value].
  - destruct f; unfold one_of; cbn; tauto.
  - unfold one_of; cbn; tauto.
  - destruct s, r, n; unfold one_of; cbn; tauto.
  - destruct id as [id|]; [|unfold one_of; cbn; tauto].
    repeat match goal with |- context [eqb id ?x] => destruct (eqb id x) end; unfold one_of; cbn; tauto.
Qed.

Lemma create_str_alnum ns z : exists c, create_str_value ns z = [c] /\ alnum c.
Proof.
  apply mem_str_values. unfold create_str_value. destruct ns; [vm_compute; reflexivity|].
  destruct ((0 <=? z)%Z && (z <? 2)%Z); [vm_compute; reflexivity|].
  destruct ((2 <=? z)%Z && (z <? Z.of_nat (length possible_str_values))%Z) eqn:E; [|vm_compute; reflexivity].
  apply mem_in, nth_In. apply andb_true_iff in E. destruct E as [E1 E2].
  apply Z.leb_le in E1. apply Z.ltb_lt in E2. lia.
Qed.

(** creating a configuration never fails, except for lowercasing without identifier splitting *)
Lemma create_total t id sp un ca com ns f mx n r s :
  (ca = true -> t = StBasic) ->
  exists d, create_prep_config t id sp un ca com ns f mx n r s = Ok d /\
    param d EN_ONLY = (if un then lit "U" else lit "u") /\
    param d COM = (if com then lit "0" else lit "c") /\
    param d STR = create_str_value ns mx /\
    param d SPLIT = create_split_value t id f n r s /\
    param d TABS_NEWLINES = (if sp then lit "0" else lit "s") /\
    param d CASE = (if ca then lit "l" else lit "u").
Proof.
  intros Hca. unfold create_prep_config.
  match goal with |- exists d, mk_prep_config ?x = _ /\ _ => exists x end. split; [|repeat split; reflexivity].
  apply mk_ok. split; [|reflexivity]. apply check_ok. split; [reflexivity|].
  destruct (create_split_in t id f n r s) as [Hs1 Hs2].
  destruct (create_split_value t id f n r s) as [|c [|? ?]] eqn:Es; try discriminate. cbn in Hs1.
  destruct (create_str_alnum ns mx) as (st & Hst & Halnum). rewrite Hst.
  exists (if un then 85 else 117)%N, (if com then 48 else 99)%N, st, c, (if sp then 48 else 115)%N, (if ca then 108 else 117)%N.
  split; [destruct un; reflexivity|]. split; [destruct com; reflexivity|]. split; [reflexivity|].
  split; [reflexivity|]. split; [destruct sp; reflexivity|]. split; [destruct ca; reflexivity|].
  do 6 eexists. split; [reflexivity|].
  split; [destruct un; unfold one_of; cbn; tauto|]. split; [destruct com; unfold one_of; cbn; tauto|].
  split; [exact Halnum|]. split; [exact Hs1|]. split; [destruct sp; unfold one_of; cbn; tauto|].
  destruct ca; [right|left; reflexivity]. split; [reflexivity|]. rewrite (Hca eq_refl) in Es.
  destruct s, r, n; cbn in Es; injection Es as <-; unfold one_of; cbn; tauto.
Qed.

(** what the options of an API call mean for the resulting configuration *)
Definition config_reflects (d : params) (no_spaces no_unicode no_case no_com no_str : bool) (split : string) : Prop :=
  param d EN_ONLY = (if no_unicode then lit "U" else lit "u") /\
  param d COM = (if no_com then lit "0" else lit "c") /\
  (param d STR = lit "0" <-> no_str = true) /\
  param d SPLIT = lit split /\
  param d TABS_NEWLINES = (if no_spaces then lit "0" else lit "s") /\
  param d CASE = (if no_case then lit "l" else lit "u").

Lemma create_str_zero ns z : create_str_value ns z = lit "0" <-> ns = true.
Proof.
  split; [|intros ->; reflexivity]. unfold create_str_value. destruct ns; [reflexivity|].
  destruct ((0 <=? z)%Z && (z <? 2)%Z); [discriminate|].
  destruct ((2 <=? z)%Z && (z <? Z.of_nat (length possible_str_values))%Z) eqn:E; [|discriminate].
  apply andb_true_iff in E. destruct E as [E1 E2]. apply Z.leb_le in E1. apply Z.ltb_lt in E2.
  change (Z.of_nat (length possible_str_values)) with 62%Z in E2.
  intros H. exfalso.
  assert (Hz : exists k, Z.to_nat z = S (S k) /\ k < 60) by (exists (Z.to_nat z - 2); lia).
  destruct Hz as (k & Ek & Hk). rewrite Ek in H. clear -H Hk.
  do 60 (destruct k as [|k]; [discriminate H|]). lia.
Qed.

Theorem C39_nosplit_valid :
  forall sp un com ns fs mx,
  exists d, nosplit_config sp un com ns fs mx = Ok d /\
            config_reflects d sp un false com ns (if fs then "F" else "0").
Proof.
  intros. destruct (create_total StNosplit None sp un false com ns fs mx false false false) as (d & H & E1 & E2 & E3 & E4 & E5 & E6);
    [discriminate|]. exists d. split; [exact H|]. unfold config_reflects. rewrite E1, E2, E3, E4, E5, E6.
  repeat split; try apply create_str_zero. destruct fs; reflexivity.
Qed.
Print Assumptions C39_nosplit_valid.

Theorem C39_chars_valid :
  forall sp un com ns mx,
  exists d, chars_config sp un com ns mx = Ok d /\ config_reflects d sp un false com ns "8" /\
            bpe_source_for d (Some (lit "0")) = Ok (Some (SrcPackaged (lit "case") (lit "0"))) /\
            In (lit "case", lit "0") packaged.
Proof.
  intros. destruct (create_total StChars None sp un false com ns false mx false false false) as (d & H & E1 & E2 & E3 & E4 & E5 & E6);
    [discriminate|]. exists d. split; [exact H|]. unfold config_reflects, bpe_source_for, is_bpe, param_in. rewrite E1, E2, E3, E4, E5, E6.
  repeat split; try apply create_str_zero. cbn. tauto.
Qed.
Print Assumptions C39_chars_valid.

Theorem C39_basic_valid :
  forall n r s sp un ca com ns mx,
  exists d, basic_config n r s sp un ca com ns mx = Ok d /\
            config_reflects d sp un ca com ns (if s then "s" else if r then "3" else if n then "2" else "1").
Proof.
  intros. destruct (create_total StBasic None sp un ca com ns false mx n r s) as (d & H & E1 & E2 & E3 & E4 & E5 & E6);
    [reflexivity|]. exists d. split; [exact H|]. unfold config_reflects. rewrite E1, E2, E3, E4, E5, E6.
  repeat split; try apply create_str_zero. destruct s, r, n; reflexivity.
Qed.
Print Assumptions C39_basic_valid.

(** bpe: predefined ids select packaged merges of that very size, any other id but 0 selects custom merges *)
Theorem C39_bpe_valid :
  forall id sp un com ns mx,
  exists d split, bpe_api_config id sp un com ns mx = Ok d /\ config_reflects d sp un false com ns split /\
    (In id (map lit ["1k"; "5k"; "10k"]%string) ->
       bpe_source_for d (Some id) = Ok (Some (SrcPackaged (lit "case") id)) /\ In (lit "case", id) packaged) /\
    (~ In id (map lit [""; "0"; "1k"; "5k"; "10k"]%string) -> bpe_source_for d (Some id) = Ok (Some (SrcCustom id))).
Proof.
  intros. destruct (create_total StBpe (Some id) sp un false com ns false mx false false false) as (d & H & E1 & E2 & E3 & E4 & E5 & E6);
    [discriminate|]. exists d.
  cbn [create_split_value] in E4.
  exists (if eqb id (lit "1k") then "5" else if eqb id (lit "5k") then "4" else if eqb id (lit "10k") then "6" else "9")%string.
  split; [exact H|]. split; [|split].
  - unfold config_reflects. rewrite E1, E2, E3, E4, E5, E6. repeat split; try apply create_str_zero.
    destruct (eqb id (lit "1k")); [reflexivity|]. destruct (eqb id (lit "5k")); [reflexivity|].
    destruct (eqb id (lit "10k")); reflexivity.
  - intros Hid. unfold bpe_source_for, is_bpe, param_in. rewrite E4, E6.
    cbn [map In] in Hid. destruct Hid as [<-|[<-|[<-|[]]]]; (split; [reflexivity|cbn; tauto]).
  - intros Hid. unfold bpe_source_for, is_bpe, param_in. rewrite E4, E6.
    cbn [map In] in Hid.
    destruct (eqb_spec id (lit "1k")) as [->|_]; [tauto|]. destruct (eqb_spec id (lit "5k")) as [->|_]; [tauto|].
    destruct (eqb_spec id (lit "10k")) as [->|_]; [tauto|].
    change (mem (lit "9") (chars_of "456789")) with true. cbn match.
    destruct id as [|c t]; [exfalso; apply Hid; left; reflexivity|].
    destruct (is_predefined_id (c :: t)) eqn:Ep; [|reflexivity]. exfalso. apply Hid.
    unfold is_predefined_id in Ep. apply mem_in in Ep. cbn in Ep. cbn. tauto.
Qed.
Print Assumptions C39_bpe_valid.

(** finding: the id 0 is accepted as a predefined bpe id but bpe fails with a KeyError *)
Theorem C39_bpe_id_0_refuted :
  is_predefined_id (lit "0") = true /\
  forall sp un com ns mx, exists d, bpe_api_config (lit "0") sp un com ns mx = Ok d /\
                                    bpe_source_for d (Some (lit "0")) = Err KeyError.
Proof.
  split; [reflexivity|]. intros.
  destruct (create_total StBpe (Some (lit "0")) sp un false com ns false mx false false false) as (d & H & E1 & E2 & E3 & E4 & E5 & E6);
    [discriminate|]. exists d. split; [exact H|].
  unfold bpe_source_for, is_bpe, param_in. rewrite E4. reflexivity.
Qed.
Print Assumptions C39_bpe_id_0_refuted.

(** finding: split value 7 (valid in an encoded configuration) refers to merges that are not packaged *)
Theorem C39_split_7_refuted :
  exists d, from_encoded_string (lit "uc17su") = Ok d /\
  bpe_source_for d (Some (lit "10k")) = Ok (Some (SrcPackaged (lit "case") (lit "20k"))) /\
  ~ In (lit "case", lit "20k") packaged.
Proof.
  eexists. split; [vm_compute; reflexivity|]. split; [vm_compute; reflexivity|].
  vm_compute. intuition discriminate.
Qed.
Print Assumptions C39_split_7_refuted.

(** command line = API.  [mx] is the value of --max-str-length, [maxsize] if not given. *)
Definition cli_max (a : args) (mx : Z) : Prop :=
  (get_option a "--max-str-length" = ANone /\ mx = maxsize) \/
  (exists s, get_option a "--max-str-length" = AStr s /\ parse_int s = Ok mx).

Theorem C39_cli_nosplit :
  forall a mx, cli_max a mx -> is_option_true a "nosplit" = true -> is_option_true a "--no-case" = false ->
  create_prep_config_from_args a =
  nosplit_config (is_option_true a "--no-spaces") (is_option_true a "--no-unicode") (is_option_true a "--no-com")
    (is_option_true a "--no-str") (is_option_true a "--full-strings") mx.
Proof.
  intros a mx Hm Hn Hc. unfold create_prep_config_from_args, create_split_value_from_args. rewrite Hn, Hc.
  destruct Hm as [[-> ->]|(s & -> & Hs)]; [|rewrite Hs]; reflexivity.
Qed.
Print Assumptions C39_cli_nosplit.

Theorem C39_cli_chars :
  forall a mx, cli_max a mx -> is_option_true a "nosplit" = false -> is_option_true a "chars" = true ->
  is_option_true a "--no-case" = false ->
  create_prep_config_from_args a =
  chars_config (is_option_true a "--no-spaces") (is_option_true a "--no-unicode") (is_option_true a "--no-com")
    (is_option_true a "--no-str") mx.
Proof.
  intros a mx Hm Hn Hch Hc. unfold create_prep_config_from_args, create_split_value_from_args. rewrite Hn, Hch, Hc.
  destruct Hm as [[-> ->]|(s & -> & Hs)]; [|rewrite Hs]; reflexivity.
Qed.
Print Assumptions C39_cli_chars.

Theorem C39_cli_basic :
  forall a mx, cli_max a mx -> is_option_true a "nosplit" = false -> is_option_true a "chars" = false ->
  is_option_true a "basic" = true ->
  create_prep_config_from_args a =
  basic_config (is_option_true a "--split-numbers") (is_option_true a "--ronin") (is_option_true a "--stem")
    (is_option_true a "--no-spaces") (is_option_true a "--no-unicode") (is_option_true a "--no-case")
    (is_option_true a "--no-com") (is_option_true a "--no-str") mx.
Proof.
  intros a mx Hm Hn Hch Hb. unfold create_prep_config_from_args, create_split_value_from_args. rewrite Hn, Hch, Hb.
  destruct Hm as [[-> ->]|(s & -> & Hs)]; [|rewrite Hs]; reflexivity.
Qed.
Print Assumptions C39_cli_basic.

(** for bpe the id is a flag (1k, 5k, 10k) or a positional argument; [id] is what the API call would be given *)
Theorem C39_cli_bpe :
  forall a mx id, cli_max a mx -> is_option_true a "nosplit" = false -> is_option_true a "chars" = false ->
  is_option_true a "basic" = false -> is_option_true a "bpe" = true -> is_option_true a "--no-case" = false ->
  ((exists c t, get_option a "<bpe-codes-id>" = AStr (c :: t) /\ id = c :: t /\
                ~ In id (map lit ["1k"; "5k"; "10k"]%string) /\
                is_option_true a "1k" = false /\ is_option_true a "5k" = false /\ is_option_true a "10k" = false)
   \/ (truthy (get_option a "<bpe-codes-id>") = false /\ exists o, In o ["1k"; "5k"; "10k"]%string /\ id = lit o /\
         forall o', In o' ["1k"; "5k"; "10k"]%string -> is_option_true a o' = true <-> o' = o)) ->
  create_prep_config_from_args a =
  bpe_api_config id (is_option_true a "--no-spaces") (is_option_true a "--no-unicode")
    (is_option_true a "--no-com") (is_option_true a "--no-str") mx
  /\ cli_bpe_codes_id a = Some id.
Proof.
  intros a mx id Hm Hn Hch Hba Hbp Hc Hid.
  unfold create_prep_config_from_args, create_split_value_from_args, cli_bpe_codes_id, get_predefined_bpe_codes_id.
  rewrite Hn, Hch, Hba, Hbp, Hc. cbn [first_true user_predefined_bpe_codes].
  assert (Hmx : forall K, (mx0 <- match get_option a "--max-str-length" with
        | ANone => Ok maxsize | ABool b => Ok (if b then 1%Z else 0%Z) | AStr s => parse_int s end ;; K mx0) = (K mx : res params)).
  { intros K. destruct Hm as [[-> ->]|(s & -> & ->)]; reflexivity. }
  rewrite Hmx.
  destruct Hid as [(c & t & Ho & -> & Hnot & H1 & H5 & H10)|(Ho & o & Hin & -> & Hall)].
  - rewrite Ho, H1, H5, H10. split; [|reflexivity]. unfold bpe_api_config, create_prep_config. cbn [create_split_value bind].
    cbn [map In] in Hnot.
    destruct (eqb_spec (c :: t : str) (lit "1k")) as [E|_]; [exfalso; apply Hnot; left; symmetry; exact E|].
    destruct (eqb_spec (c :: t : str) (lit "5k")) as [E|_]; [exfalso; apply Hnot; right; left; symmetry; exact E|].
    destruct (eqb_spec (c :: t : str) (lit "10k")) as [E|_]; [exfalso; apply Hnot; right; right; left; symmetry; exact E|].
    reflexivity.
  - assert (Hb : forall o', In o' ["1k"; "5k"; "10k"]%string -> is_option_true a o' = String.eqb o' o).
    { intros o' Ho'. specialize (Hall o' Ho'). destruct (String.eqb_spec o' o) as [->|Hne].
      - apply Hall. reflexivity.
      - destruct (is_option_true a o'); [|reflexivity]. exfalso. apply Hne, Hall. reflexivity. }
    rewrite (Hb "1k"%string), (Hb "5k"%string), (Hb "10k"%string) by (cbn; tauto).
    assert (Hg : match get_option a "<bpe-codes-id>" with AStr (_ :: _) => False | _ => True end)
      by (destruct (get_option a "<bpe-codes-id>") as [| |[|]]; try exact I; discriminate).
    destruct (get_option a "<bpe-codes-id>") as [| |[|]]; try contradiction;
      cbn [In] in Hin; destruct Hin as [<-|[<-|[<-|[]]]]; split; reflexivity.
Qed.
Print Assumptions C39_cli_bpe.

Example C39_cli_example :
  let a := [(lit "bpe", ABool true); (lit "5k", ABool true); (lit "1k", ABool false); (lit "10k", ABool false);
            (lit "<bpe-codes-id>", ANone); (lit "--max-str-length", AStr (lit "14")); (lit "--no-com", ABool true)] in
  cli_max a 14 /\ is_option_true a "bpe" = true /\ cli_bpe_codes_id a = Some (lit "5k") /\
  exists d, create_prep_config_from_args a = Ok d /\ config_str d = lit "u0E4su".
Proof.
  cbv zeta. split.
  - right. exists (lit "14"). split; vm_compute; reflexivity.
  - repeat split; try (vm_compute; reflexivity). eexists. split; vm_compute; reflexivity.
Qed.

(** * C40 *)
Lemma index_of_nth l i d : NoDup l -> i < length l -> index_of (nth i l d) l = Some i.
Proof.
  revert i; induction l as [|x l IH]; intros i Hnd Hi; [simpl in Hi; lia|].
  inversion Hnd as [|? ? Hx Hl]; subst. destruct i as [|i]; cbn [nth index_of].
  - rewrite eqb_refl. reflexivity.
  - destruct (eqb_spec (nth i l d) x) as [E|_].
    + exfalso. apply Hx. rewrite <- E. apply nth_In. simpl in Hi. lia.
    + rewrite IH by (auto; simpl in Hi; lia). reflexivity.
Qed.

Lemma str_values_nodup : NoDup possible_str_values.
Proof.
  assert (H : forall l : list str, (fix nd (l : list str) := match l with [] => true | x :: t => negb (mem x t) && nd t end) l = true -> NoDup l).
  { induction l as [|x t IH]; intros H; [constructor|]. apply andb_true_iff in H. destruct H as [H1 H2].
    apply negb_true_iff, mem_not_in in H1. constructor; auto. }
  apply H. vm_compute. reflexivity.
Qed.

(** limits from 2 to 61 and the default are kept exactly *)
Theorem C40_limit_kept :
  forall n, (2 <= n < 62)%Z \/ n = maxsize -> get_max_str_length (create_str_value false n) = Ok (Some n).
Proof.
  intros n [Hn| ->]; [|vm_compute; reflexivity]. unfold create_str_value.
  replace ((0 <=? n)%Z && (n <? 2)%Z) with false
    by (symmetry; apply andb_false_iff; right; apply Z.ltb_ge; lia).
  change (Z.of_nat (length possible_str_values)) with 62%Z.
  replace ((2 <=? n)%Z && (n <? 62)%Z) with true
    by (symmetry; apply andb_true_iff; split; [apply Z.leb_le|apply Z.ltb_lt]; lia).
  unfold get_max_str_length. rewrite index_of_nth.
  - destruct (Z.to_nat n) as [|[|k]] eqn:E; [lia|lia|]. do 2 f_equal. lia.
  - apply str_values_nodup.
  - change (length possible_str_values) with 62. lia.
Qed.
Print Assumptions C40_limit_kept.

(** no_str is in force whatever the limit *)
Theorem C40_no_str : forall n, get_max_str_length (create_str_value true n) = Ok None.
Proof. reflexivity. Qed.
Print Assumptions C40_no_str.

(** finding: every other limit is silently replaced: 0 and 1 by 2; negative limits and limits from 62 on by
    sys.maxsize, i.e. strings are never shortened *)
Theorem C40_other_limits_refuted :
  forall n, ~ ((2 <= n < 62)%Z \/ n = maxsize) ->
  exists m, get_max_str_length (create_str_value false n) = Ok (Some m) /\ m <> n /\
            m = (if (0 <=? n)%Z && (n <? 2)%Z then 2%Z else maxsize).
Proof.
  intros n Hn. unfold create_str_value. change (Z.of_nat (length possible_str_values)) with 62%Z.
  destruct ((0 <=? n)%Z && (n <? 2)%Z) eqn:E1.
  - exists 2%Z. apply andb_true_iff in E1. destruct E1 as [_ E1]. apply Z.ltb_lt in E1.
    split; [vm_compute; reflexivity|]. split; [lia|reflexivity].
  - destruct ((2 <=? n)%Z && (n <? 62)%Z) eqn:E2.
    + apply andb_true_iff in E2. destruct E2 as [E2 E3]. apply Z.leb_le in E2. apply Z.ltb_lt in E3.
      exfalso. apply Hn. lia.
    + exists maxsize. split; [vm_compute; reflexivity|]. split; [|reflexivity]. intros <-. apply Hn. right. reflexivity.
Qed.
Print Assumptions C40_other_limits_refuted.

Example C40_example : get_max_str_length (create_str_value false 32) = Ok (Some 32%Z) /\
                      get_max_str_length (create_str_value false 500) = Ok (Some maxsize).
Proof. split; vm_compute; reflexivity. Qed.
