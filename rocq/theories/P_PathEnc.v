(** * C113: paths that are not ASCII *)
From Coq Require Import Lia.
From Verif Require Import M_Base L_Base M_Literal L_Literal M_Registry M_Dataset P_Dataset M_Files P_Files M_PathEnc.
Local Open Scope N_scope.

Lemma utf8_one c x : utf8 [c] = Ok x -> utf8_char c = Ok x.
Proof. intros H. apply utf8_cons in H. destruct H as (y & z & H & E & ->). injection E as <-. rewrite app_nil_r. exact H. Qed.

(** a piece of the bytes that is one character, or one byte that is not *)
Inductive piece : str -> N -> Prop :=
| piece_char x c : utf8_char c = Ok x -> c <= 1114111 -> piece x c
| piece_escape a : 128 <= a < 256 -> piece [a] (56320 + a).

Lemma decode_one x c : utf8_decode x = Some [c] -> piece x c.
Proof.
  intros H. apply encode_decode in H. destruct H as [H V]. constructor; [apply utf8_one; exact H|].
  inversion V as [|? ? V' _]; subst. exact V'.
Qed.

(** decoding goes on piece by piece, and finds a character wherever there is one *)
Lemma fs_decode_step a t : is_bytes (a :: t) ->
  exists x c r, a :: t = x ++ r /\ fs_decode (a :: t) = c :: fs_decode r /\ piece x c /\
    (utf8_decode (a :: t) = option_map (cons c) (utf8_decode r) \/ (utf8_decode (a :: t) = None /\ escaped c = true)).
Proof.
  intros B. inversion B as [|? ? Ba Bt]; subst. cbn [fs_decode utf8_decode].
  destruct (a <? 128) eqn:E1.
  { exists [a], a, t. split; [reflexivity|]. split; [reflexivity|]. split; [|left; reflexivity]. apply decode_one. cbn [utf8_decode]. rewrite E1. reflexivity. }
  apply N.ltb_ge in E1.
  assert (Esc : piece [a] (56320 + a) /\ escaped (56320 + a) = true).
  { split; [constructor; lia|]. unfold escaped. apply andb_true_iff. split; apply N.leb_le; lia. }
  assert (E1' : (a <? 128) = false) by (apply N.ltb_ge; exact E1).
  destruct t as [|b t2]; [exists [a], (56320 + a), []; intuition|].
  destruct (lead2 a b) eqn:E2.
  { exists [a; b]. eexists. exists t2. split; [reflexivity|]. split; [reflexivity|]. split; [|left; reflexivity].
    apply decode_one. cbn [utf8_decode]. rewrite E1', E2. reflexivity. }
  destruct t2 as [|c t3]; [exists [a], (56320 + a), [b]; intuition|].
  destruct (lead3 a b && cont c) eqn:E3.
  { exists [a; b; c]. eexists. exists t3. split; [reflexivity|]. split; [reflexivity|]. split; [|left; reflexivity].
    apply decode_one. cbn [utf8_decode]. rewrite E1', E2, E3. reflexivity. }
  destruct t3 as [|d t4]; [exists [a], (56320 + a), [b; c]; intuition|].
  destruct (lead4 a b && cont c && cont d) eqn:E4.
  { exists [a; b; c; d]. eexists. exists t4. split; [reflexivity|]. split; [reflexivity|]. split; [|left; reflexivity].
    apply decode_one. cbn [utf8_decode]. rewrite E1', E2, E3, E4. reflexivity. }
  exists [a], (56320 + a), (b :: c :: d :: t4). intuition.
Qed.

Lemma piece_nonempty x c : piece x c -> x <> [].
Proof.
  intros [y d H _|a _]; [|discriminate]. unfold utf8_char in H. repeat (destruct (_ : bool) in H; [injection H as <-; discriminate|] || (destruct (_ : bool) in H; [discriminate|])).
  injection H as <-. discriminate.
Qed.
Lemma piece_fs x c : piece x c -> fs_char c = Ok x.
Proof.
  unfold fs_char. intros [y d H L|a L].
  - destruct (escaped d) eqn:E; [|exact H]. unfold escaped in E. apply andb_true_iff in E. destruct E as [E1 E2]. apply N.leb_le in E1, E2.
    unfold utf8_char in H. rewrite (proj2 (N.ltb_ge d 128)), (proj2 (N.ltb_ge d 2048)), (proj2 (N.leb_le 55296 d)), (proj2 (N.leb_le d 57343)) in H by lia. discriminate.
  - replace (escaped (56320 + a)) with true; [f_equal; f_equal; lia|]. symmetry. unfold escaped. apply andb_true_iff. split; apply N.leb_le; lia.
Qed.

Lemma is_bytes_app a b : is_bytes (a ++ b) -> is_bytes a /\ is_bytes b.
Proof. apply Forall_app. Qed.

Lemma fs_round n : forall b, (length b <= n)%nat -> is_bytes b ->
  (exists l, mapM fs_char (fs_decode b) = Ok l /\ List.concat l = b) /\
  match utf8_decode b with Some s => fs_decode b = s | None => Exists (fun c => escaped c = true) (fs_decode b) end.
Proof.
  induction n as [|n IH]; intros b L B.
  - destruct b; [|cbn in L; lia]. split; [exists []; split; reflexivity|reflexivity].
  - destruct b as [|a t]; [split; [exists []; split; reflexivity|reflexivity]|].
    destruct (fs_decode_step a t B) as (x & c & r & E & Ed & P & D). rewrite E in *. rewrite Ed.
    assert (Lr : (length r <= n)%nat).
    { pose proof (piece_nonempty _ _ P). destruct x; [congruence|]. rewrite <- E in L. cbn in L. apply (f_equal (@length N)) in E. rewrite app_length in E. cbn in E. lia. }
    apply is_bytes_app in B. destruct (IH r Lr (proj2 B)) as ((l & M & C) & R). split.
    + exists (x :: l). split; [cbn [mapM]; rewrite (piece_fs _ _ P); cbn [bind]; rewrite M; reflexivity|]. cbn [List.concat]. rewrite C. reflexivity.
    + destruct D as [->|[-> X]]; [|constructor; exact X]. revert R. destruct (utf8_decode r) as [s|]; cbn [option_map]; intros R; [congruence|]. apply Exists_cons_tl. exact R.
Qed.

Lemma utf8_err s : Exists (fun c => escaped c = true) s -> utf8 s = Err UnicodeError.
Proof.
  unfold utf8. intros H. assert (K : mapM utf8_char s = Err UnicodeError); [|rewrite K; reflexivity].
  assert (U : forall c e, utf8_char c = Err e -> e = UnicodeError).
  { intros c e. unfold utf8_char. repeat match goal with |- context [if ?x then _ else _] => destruct x end; congruence. }
  induction H as [c s E|c s H IH]; cbn [mapM].
  - replace (utf8_char c) with (@Err str UnicodeError); [reflexivity|]. unfold escaped in E. apply andb_true_iff in E. destruct E as [E1 E2]. apply N.leb_le in E1, E2.
    unfold utf8_char. rewrite (proj2 (N.ltb_ge c 128)), (proj2 (N.ltb_ge c 2048)), (proj2 (N.leb_le 55296 c)), (proj2 (N.leb_le c 57343)) by lia. reflexivity.
  - destruct (utf8_char c) as [x|e] eqn:E; cbn [bind]; [rewrite IH; reflexivity|]. rewrite (U _ _ E). reflexivity.
Qed.

Lemma latin_round b : is_bytes b -> mapM latin_char b = Ok (map (fun c => [c]) b).
Proof.
  induction 1 as [|c b H F IH]; [reflexivity|]. cbn [mapM map]. rewrite IH. unfold latin_char.
  replace (escaped c) with false; [rewrite (proj2 (N.ltb_lt c 256)) by lia; reflexivity|].
  symmetry. unfold escaped. rewrite (proj2 (N.leb_gt 56448 c)) by lia. reflexivity.
Qed.
Lemma concat_single {A} (b : list A) : List.concat (map (fun c => [c]) b) = b.
Proof. induction b; cbn; congruence. Qed.

(** Every path of bytes comes back from text: what the os functions are asked about is what was given. *)
Theorem C113_round_trip : forall e b, is_bytes b -> fsencode e (fsdecode e b) = Ok b.
Proof.
  intros [|] b B; unfold fsencode, fsdecode.
  - destruct (fs_round (length b) b (le_n _) B) as ((l & M & C) & _). rewrite M. cbn [bind]. rewrite C. reflexivity.
  - rewrite (latin_round b B). cbn [bind]. rewrite concat_single. reflexivity.
Qed.
Print Assumptions C113_round_trip.

(** On a UTF-8 system the files of every path that is UTF-8 are listed, in every locale those of an ASCII path; a path where nothing is
    is always an error. *)
Theorem C113_files : forall e world b t exts, is_bytes b -> world b = Some t ->
  (e = Utf8 /\ (exists s, utf8_decode b = Some s)) \/ Forall (fun c => c < 128) b ->
  list_files e world (fsdecode e b) exts = Ok (scan_files b t exts) /\
  made_at e (fsdecode e b) = Ok b /\ put_at (fsdecode e b) = Ok b.
Proof.
  intros e world b t exts B H C. unfold list_files, made_at, put_at. rewrite C113_round_trip by exact B. cbn [bind]. rewrite H.
  assert (U : utf8 (fsdecode e b) = Ok b).
  { assert (K : forall s, utf8_decode b = Some s -> utf8 (fs_decode b) = Ok b).
    { intros s E. destruct (fs_round (length b) b (le_n _) B) as [_ R]. rewrite E in R. rewrite R. apply encode_decode. exact E. }
    destruct C as [[-> [s C]]|C]; [eapply K; exact C|]. pose proof (utf8_ascii b C) as A. destruct e; [|exact A]. cbn [fsdecode].
    apply (K b). apply decode_encode; [|exact A]. eapply Forall_impl; [|exact C]. intros c Hc. cbn beta in Hc |- *. lia. }
  rewrite U. cbn [bind]. rewrite H. auto.
Qed.
Print Assumptions C113_files.

Theorem C113_missing : forall e world b exts, is_bytes b -> world b = None -> list_files e world (fsdecode e b) exts = Err ValueError.
Proof. intros e world b exts B H. unfold list_files. rewrite C113_round_trip by exact B. cbn [bind]. rewrite H. reflexivity. Qed.
Print Assumptions C113_missing.

(** A directory with a name that is not UTF-8, which file systems allow, cannot be preprocessed; nor can results go there. *)
Theorem C113_bytes_refuted : forall world b t exts, is_bytes b -> utf8_decode b = None -> world b = Some t ->
  list_files Utf8 world (fsdecode Utf8 b) exts = Err UnicodeError /\
  made_at Utf8 (fsdecode Utf8 b) = Ok b /\ put_at (fsdecode Utf8 b) = Err UnicodeError.
Proof.
  intros world b t exts B D H. assert (U : utf8 (fsdecode Utf8 b) = Err UnicodeError).
  { apply utf8_err. destruct (fs_round (length b) b (le_n _) B) as [_ R]. rewrite D in R. exact R. }
  unfold list_files, made_at, put_at. rewrite C113_round_trip by exact B. cbn [bind]. rewrite H, U. auto.
Qed.
Print Assumptions C113_bytes_refuted.

(** In a locale with ISO-8859-1, for every path that is not ASCII other bytes are looked up: usually nothing is there, and the dataset
    is taken to be empty without an error; results go to another directory than the one that is made and reported. *)
Theorem C113_locale_refuted : forall world b t exts, is_bytes b -> ~ Forall (fun c => c < 128) b -> world b = Some t ->
  exists p, p <> b /\ put_at (fsdecode Latin1 b) = Ok p /\ made_at Latin1 (fsdecode Latin1 b) = Ok b /\
    list_files Latin1 world (fsdecode Latin1 b) exts = Ok match world p with Some u => scan_files p u exts | None => [] end.
Proof.
  intros world b t exts B A H.
  assert (K : forall b, is_bytes b -> exists p, utf8 b = Ok p /\ (length b <= length p)%nat /\ (~ Forall (fun c => c < 128) b -> (length b < length p)%nat)).
  { clear. induction 1 as [|c b Hc F IH]; [exists []; split; [reflexivity|]; split; [apply le_n|]; intros X; exfalso; apply X; constructor|].
    destruct IH as (p & E & L & S). destruct (c <? 128) eqn:C.
    - exists ([c] ++ p). split; [apply utf8_app1; [|exact E]; unfold utf8_char; rewrite C; reflexivity|]. cbn [app length]. split; [lia|].
      intros X. apply N.ltb_lt in C. assert (Y : ~ Forall (fun c => c < 128) b) by (intros Y; apply X; constructor; assumption). specialize (S Y). lia.
    - exists ([192 + c / 64; 128 + c mod 64] ++ p). split; [apply utf8_app1; [|exact E]; unfold utf8_char; rewrite C, (proj2 (N.ltb_lt c 2048)) by lia; reflexivity|].
      cbn [app length]. split; [lia|]. intros _. lia. }
  destruct (K b B) as (p & E & _ & S). specialize (S A). exists p. split; [intros ->; lia|]. cbn [fsdecode]. split; [exact E|].
  assert (M : fsencode Latin1 b = Ok b) by apply (C113_round_trip Latin1 b B). split; [exact M|].
  unfold list_files. rewrite M. cbn [bind]. rewrite H, E. reflexivity.
Qed.
Print Assumptions C113_locale_refuted.

(** ** Example: caf e-acute with one file *)
Definition ex_world (b : str) : str -> option node := fun p => if eqb p b then Some (Dir false 5 [(lit "a.py", File 7)]) else None.
Example C113_example :
  let u := lit "caf" ++ [195; 169] in let l := lit "caf" ++ [233] in
  fsdecode Utf8 u = lit "caf" ++ [233] /\ list_files Utf8 (ex_world u) (fsdecode Utf8 u) None = Ok [lit "./a.py"] /\
  fsdecode Utf8 l = lit "caf" ++ [56553] /\ list_files Utf8 (ex_world l) (fsdecode Utf8 l) None = Err UnicodeError /\
  list_files Latin1 (ex_world l) (fsdecode Latin1 l) None = Ok [] /\ put_at (fsdecode Latin1 l) = Ok u.
Proof. vm_compute. repeat split. Qed.
