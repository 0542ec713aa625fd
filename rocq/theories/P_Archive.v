(** C107: results that were changed are set aside before they are made anew, and nothing that was set aside is lost. *)
From Verif Require Import M_Base L_Base M_PrepConfig M_Dataset P_Dataset P_Corpus M_Timestamp M_Place P_Place M_Archive.
From Coq Require Import Lia.

Lemma starts_below p : forall q, starts p q = true <-> below p q.
Proof.
  induction p as [|x p IH]; intros q; cbn [starts].
  - split; [intros _; apply below_nil|reflexivity].
  - destruct q as [|y q].
    + split; [discriminate|]. intros [r E]. discriminate.
    + destruct (eqb_spec x y) as [->|N]; cbn [andb].
      * rewrite IH, below_cons. reflexivity.
      * split; [discriminate|]. intros [r E]. injection E as E _. congruence.
Qed.
Lemma look_app a : forall b e, look (a ++ b) e = match look a e with Some e' => look b e' | None => None end.
Proof.
  induction a as [|n a IH]; intros b e; [reflexivity|]. cbn [app look]. destruct e as [m c|m es]; [reflexivity|].
  destruct (dget es n) as [e'|]; [apply IH|reflexivity].
Qed.
Lemma look_edit_at p f : forall e d, look p e = Some d -> look p (edit p f e) = Some (f d).
Proof.
  induction p as [|n p IH]; intros e d L; cbn [look edit] in *; [congruence|]. destruct e as [m c|m es]; [discriminate|].
  destruct (dget es n) as [e'|] eqn:E; [|discriminate]. cbn [look]. rewrite dget_dset_eq. apply IH, L.
Qed.
(** nothing appears elsewhere *)
Lemma look_edit_none p f : forall ds e, look ds e = None -> ~ below ds p ->
  (forall rest e', ds = p ++ rest -> rest <> [] -> look p e = Some e' -> look rest e' = None -> look rest (f e') = None) ->
  look ds (edit p f e) = None.
Proof.
  induction p as [|n p IH]; intros ds e L B H; cbn [edit].
  - destruct ds as [|x ds]; [destruct (B (below_nil _))|]. apply (H (x :: ds)); auto. discriminate.
  - destruct e as [m c|m es]; [exact L|]. destruct (dget es n) as [e'|] eqn:E; [|exact L].
    destruct ds as [|x ds]; [destruct (B (below_nil _))|]. cbn [look] in *. destruct (eqb_spec x n) as [->|N].
    + rewrite E in L. rewrite dget_dset_eq. apply IH; [exact L|rewrite below_cons in B; exact B|].
      intros rest e'' -> R L1 L2. apply (H rest e''); auto. rewrite E. exact L1.
    + rewrite dget_dset_neq by congruence. exact L.
Qed.
Lemma look_put_none t p y ds e : p <> [] -> look ds e = None -> apart ds p ->
  look ds (edit (parent p) (put_in t (name_of p) y) e) = None.
Proof.
  intros P L [B B']. apply look_edit_none; [exact L|apply not_below_parent; assumption|].
  intros rest e' E R L1 L2. destruct rest as [|x rest]; [congruence|]. cbn [look] in L2. destruct e' as [m c'|m es]; [reflexivity|].
  pose proof (sibling _ _ _ _ P E B') as N. cbn [put_in look]. rewrite dget_dset_neq by congruence. exact L2.
Qed.
Lemma look_take_none t p ds e : p <> [] -> look ds e = None -> apart ds p ->
  look ds (edit (parent p) (take_out t (name_of p)) e) = None.
Proof.
  intros P L [B B']. apply look_edit_none; [exact L|apply not_below_parent; assumption|].
  intros rest e' E R L1 L2. destruct rest as [|x rest]; [congruence|]. cbn [look] in L2. destruct e' as [m c'|m es]; [reflexivity|].
  pose proof (sibling _ _ _ _ P E B') as N. cbn [take_out]. destruct (dmem es (name_of p)); cbn [look]; rewrite ?dget_ddel_neq by congruence; exact L2.
Qed.

Lemma below_same p q : below p q -> below q p -> p = q.
Proof.
  intros [a ->] [b E]. rewrite <- app_assoc in E. rewrite <- (app_nil_r p) in E at 1. apply app_inv_head in E. symmetry in E.
  apply app_eq_nil in E. destruct E as [-> _]. symmetry. apply app_nil_r.
Qed.
Lemma look_file_below ds r e m c : look ds e = Some (EFile m c) -> below ds r -> look r e <> None -> r = ds.
Proof.
  intros L [x ->] H. rewrite look_app, L in H. destruct x as [|y x]; [apply app_nil_r|destruct (H eq_refl)].
Qed.
Lemma below_parent ds q : below ds q -> ds <> q -> below ds (parent q).
Proof.
  intros [x ->] H. destruct x as [|y x]; [destruct H; symmetry; apply app_nil_r|]. exists (removelast (y :: x)). unfold parent. apply removelast_app. discriminate.
Qed.
(** a directory that is not taken out stays a directory *)
Lemma dir_stays t n pp : forall r e m es, look r e = Some (EDir m es) -> ~ below (pp ++ [n]) r ->
  exists m' es', look r (edit pp (take_out t n) e) = Some (EDir m' es').
Proof.
  induction pp as [|a pp IH]; intros r e m es L B; cbn [edit app] in *.
  - destruct r as [|x r].
    + injection L as ->. cbn [take_out]. destruct (dmem es n); cbn [look]; eauto.
    + destruct e as [m0 c|m0 es0]; [discriminate|]. assert (x <> n) by (intros ->; apply B; rewrite below_cons; apply below_nil).
      cbn [take_out]. destruct (dmem es0 n); [|eauto]. cbn [look] in *. rewrite dget_ddel_neq by congruence. eauto.
  - destruct e as [m0 c|m0 es0]; [eauto|]. destruct (dget es0 a) as [e'|] eqn:E; [|eauto]. destruct r as [|x r]; [cbn; eauto|].
    cbn [look] in *. destruct (eqb_spec x a) as [->|N].
    + rewrite dget_dset_eq. rewrite E in L. rewrite below_cons in B. eapply IH; eassumption.
    + rewrite dget_dset_neq by congruence. eauto.
Qed.
Lemma look_make_none t p : forall ds e, look ds e = None -> ~ below ds p -> look ds (make_dirs t p e) = None.
Proof.
  assert (New : forall p ds, ~ below ds p -> look ds (new_dirs t p) = None).
  { clear p. induction p as [|n p IH]; intros ds B; (destruct ds as [|x ds]; [destruct (B (below_nil _))|]); cbn [new_dirs look dget]; [reflexivity|].
    destruct (eqb_spec x n) as [->|N]; [|reflexivity]. apply IH. rewrite below_cons in B. exact B. }
  induction p as [|n p IH]; intros ds e L B; cbn [make_dirs]; [exact L|]. destruct e as [m c|m es]; [exact L|].
  destruct ds as [|x ds]; [destruct (B (below_nil _))|]. cbn [look] in L. destruct (dget es n) as [e'|] eqn:E; cbn [look].
  - destruct (eqb_spec x n) as [->|N].
    + rewrite E in L. rewrite dget_dset_eq. apply IH; [exact L|rewrite below_cons in B; exact B].
    + rewrite dget_dset_neq by congruence. exact L.
  - destruct (eqb_spec x n) as [->|N].
    + rewrite dget_dset_eq. apply New. rewrite below_cons in B. exact B.
    + rewrite dget_dset_neq by congruence. exact L.
Qed.

(** names occur once in a directory *)
Definition tidy (e : entry) : Prop := forall r m es, look r e = Some (EDir m es) -> NoDup (dkeys es).
Lemma tidy_new t p : tidy (new_dirs t p).
Proof.
  induction p as [|n p IH]; intros [|x r] m es L; cbn [new_dirs look dget] in L.
  - injection L as <- <-. constructor.
  - discriminate.
  - injection L as <- <-. constructor; [intros []|constructor].
  - destruct (eqb x n); [|discriminate]. apply (IH _ _ _ L).
Qed.
Lemma tidy_below m es n e : tidy (EDir m es) -> dget es n = Some e -> tidy e.
Proof. intros T G r m' es' L. apply (T (n :: r) m'). cbn [look]. rewrite G. exact L. Qed.
Lemma tidy_dset m m0 es n e : tidy (EDir m0 es) -> tidy e -> tidy (EDir m (dset es n e)).
Proof.
  intros T T' [|x r] m' es' L.
  - injection L as <- <-. apply dset_nodup. apply (T [] m0). reflexivity.
  - cbn [look] in L. destruct (eqb_spec x n) as [->|D].
    + rewrite dget_dset_eq in L. apply (T' _ _ _ L).
    + rewrite dget_dset_neq in L by congruence. apply (T (x :: r) m'). exact L.
Qed.
Lemma tidy_ddel m m0 es n : tidy (EDir m0 es) -> tidy (EDir m (ddel es n)).
Proof.
  intros T. assert (ND : NoDup (dkeys es)) by (apply (T [] m0); reflexivity). intros [|x r] m' es' L.
  - injection L as <- <-. apply ddel_nodup. exact ND.
  - cbn [look] in L. rewrite dget_ddel in L by exact ND. destruct (eqb x n); [discriminate|]. apply (T (x :: r) m'). exact L.
Qed.
Lemma tidy_edit f p : forall e, tidy e -> (forall d, tidy d -> tidy (f d)) -> tidy (edit p f e).
Proof.
  induction p as [|n p IH]; intros e T H; cbn [edit]; [apply H, T|]. destruct e as [m c|m es]; [exact T|].
  destruct (dget es n) as [e'|] eqn:E; [|exact T]. apply (tidy_dset _ m); [exact T|]. apply IH; [eapply tidy_below; eassumption|exact H].
Qed.
Lemma tidy_look p : forall e d, tidy e -> look p e = Some d -> tidy d.
Proof. intros e d T L r m es L'. apply (T (p ++ r) m). rewrite look_app, L. exact L'. Qed.
Lemma tidy_rename t p q fs : tidy fs -> tidy (perform t (Rename p q) fs).
Proof.
  intros T. cbn [perform]. destruct (is_nil p || is_nil q); [exact T|]. destruct (look p fs) as [x|] eqn:L; [|exact T].
  destruct (look (parent q) fs) as [[m c|m es]|]; try exact T. apply tidy_edit.
  - apply tidy_edit; [exact T|]. intros [m0 c0|m0 es0] T0; [exact T0|]. cbn [take_out]. destruct (dmem es0 (name_of p)); [apply (tidy_ddel _ m0), T0|exact T0].
  - intros [m0 c0|m0 es0] T0; [exact T0|]. cbn [put_in]. apply (tidy_dset _ m0); [exact T0|]. exact (tidy_look p fs x T L).
Qed.
Lemma tidy_make t p : forall e, tidy e -> tidy (make_dirs t p e).
Proof.
  induction p as [|n p IH]; intros e T; cbn [make_dirs]; [exact T|]. destruct e as [m c|m es]; [exact T|].
  destruct (dget es n) as [e'|] eqn:E.
  - apply (tidy_dset _ m); [exact T|]. apply IH. eapply tidy_below; eassumption.
  - apply (tidy_dset _ m); [exact T|]. apply tidy_new.
Qed.

Section Archive.
  Variable dev : list str -> nat.
  Variable clock : N -> N.
  Variable limit : nat.
  Variable preps : list str.
  Local Notation rename := (rename dev).
  Local Notation archived := (archived preps).
  Local Notation archive_path := (archive_path dev clock limit preps).
  Local Notation archive_all := (archive_all dev clock limit preps).
  Local Notation to_archive := (to_archive clock limit).

  Definition moving (t : N) (p q : list str) (fs fs' : entry) (x : entry) : Prop :=
    p <> [] /\ q <> [] /\ ~ below p q /\ ~ below q p /\ look p fs = Some x /\ (exists m es, look (parent q) fs = Some (EDir m es)) /\
    fs' = perform t (Rename p q) fs /\ (forall r y, below q r -> look r fs = Some y -> r = q) /\
    (forall m c, look q fs = Some (EFile m c) -> exists m' c', x = EFile m' c').
  Lemma rename_ok t p q fs fs' : rename t p q fs = inl fs' -> p = q /\ fs' = fs \/ exists x, moving t p q fs fs' x.
  Proof.
    unfold M_Archive.rename. destruct (look p fs) as [x|] eqn:Lp; [|discriminate]. destruct (look (parent q) fs) as [[m c|m es]|] eqn:Lq; try discriminate.
    destruct p as [|a p]; [discriminate|]. destruct q as [|b q]; [discriminate|]. cbn [is_nil orb].
    destruct (negb _); [discriminate|]. destruct (starts (a :: p) (b :: q)) eqn:Spq.
    - destruct (starts (b :: q) (a :: p)) eqn:Sqp; [|discriminate]. intros E. injection E as <-. left. split; [|reflexivity].
      apply below_same; apply starts_below; assumption.
    - intros E. right. exists x. assert (NB : ~ below (a :: p) (b :: q)) by (rewrite <- starts_below; congruence).
      assert (K : fs' = perform t (Rename (a :: p) (b :: q)) fs /\ (forall r y, below (b :: q) r -> look r fs = Some y -> r = b :: q) /\
        (forall m c, look (b :: q) fs = Some (EFile m c) -> exists m' c', x = EFile m' c')).
      { destruct (look (b :: q) fs) as [[m1 c1|m1 [|e1 es1]]|] eqn:L1; destruct x as [m2 c2|m2 es2]; try discriminate; injection E as <-; (split; [reflexivity|]);
          (split; [intros r y [z ->] H; rewrite look_app, L1 in H; try discriminate; destruct z as [|z0 z]; (discriminate || apply app_nil_r)|]);
          intros m3 c3 H; try discriminate H; eauto. }
      destruct K as (K1 & K2 & K3). split; [discriminate|]. split; [discriminate|]. split; [exact NB|]. split.
      + intros B. specialize (K2 _ _ B Lp). apply NB. rewrite K2. apply below_refl.
      + split; [exact Lp|]. split; [eauto|]. split; [exact K1|]. split; assumption.
  Qed.
  (** what is moved, what goes, and what stays *)
  Lemma moved_there t p q fs fs' x : moving t p q fs fs' x -> look q fs' = Some x.
  Proof.
    intros (P & Q & N1 & N2 & Lp & (m & es & Lq) & -> & _). cbn [perform]. destruct p as [|a p]; [congruence|]. destruct q as [|b q]; [congruence|].
    cbn [is_nil orb]. rewrite Lp, Lq. destruct (dir_stays t (name_of (a :: p)) (parent (a :: p)) (parent (b :: q)) fs m es Lq) as (m' & es' & L').
    { rewrite <- split_parent by discriminate. intros B. apply N1. eapply below_trans; [exact B|]. rewrite (split_parent (b :: q)) at 2 by discriminate. eexists. reflexivity. }
    rewrite (split_parent (b :: q)) at 1 by discriminate. rewrite look_app, (look_edit_at _ _ _ _ L'). cbn [put_in look]. rewrite dget_dset_eq. reflexivity.
  Qed.
  Lemma moved_away t p q fs fs' x : moving t p q fs fs' x -> (forall m es, look (parent p) fs = Some (EDir m es) -> NoDup (dkeys es)) -> look p fs' = None.
  Proof.
    intros (P & Q & N1 & N2 & Lp & (m & es & Lq) & -> & _) ND. cbn [perform]. destruct p as [|a p]; [congruence|]. destruct q as [|b q]; [congruence|].
    cbn [is_nil orb]. rewrite Lp, Lq. apply look_put_none; [discriminate| |split; assumption].
    rewrite (split_parent (a :: p)) in Lp by discriminate. rewrite look_app in Lp. destruct (look (parent (a :: p)) fs) as [[m1 c1|m1 es1]|] eqn:L1; try discriminate.
    rewrite (split_parent (a :: p)) at 1 by discriminate. rewrite look_app, (look_edit_at _ _ _ _ L1). cbn [take_out].
    cbn [look] in Lp. destruct (dget es1 (name_of (a :: p))) as [y|] eqn:G; [|discriminate].
    unfold dmem. rewrite G. cbn [look]. rewrite dget_ddel by (apply (ND m1); reflexivity). rewrite eqb_refl. reflexivity.
  Qed.
  Lemma moved_apart t p q fs fs' x ds : moving t p q fs fs' x -> apart ds p -> apart ds q -> look ds fs' = look ds fs.
  Proof.
    intros (P & Q & N1 & N2 & Lp & (m & es & Lq) & -> & _) A B. destruct (look ds fs) as [d|] eqn:L.
    - apply perform_untouched; [exact L|split; assumption].
    - cbn [perform]. destruct p as [|a p]; [congruence|]. destruct q as [|b q]; [congruence|]. cbn [is_nil orb]. rewrite Lp, Lq.
      apply look_put_none; [discriminate| |exact B]. apply look_take_none; [discriminate|exact L|exact A].
  Qed.
  Lemma rename_files t p q fs fs' ds m c : rename t p q fs = inl fs' -> look ds fs = Some (EFile m c) -> ~ below p ds -> ds <> q ->
    look ds fs' = Some (EFile m c).
  Proof.
    intros R L B D. destruct (rename_ok _ _ _ _ _ R) as [[_ ->]|(x & M)]; [exact L|].
    pose proof M as (P & Q & N1 & N2 & Lp & (m1 & es & Lq) & E & K & _). rewrite (moved_apart _ _ _ _ _ _ _ M); [exact L| |].
    - split; [|exact B]. intros H. apply B. rewrite (look_file_below _ _ _ _ _ L H) by congruence. apply below_refl.
    - split.
      + intros H. apply below_parent in H; [|exact D]. rewrite (look_file_below _ _ _ _ _ L H) in Lq by congruence. congruence.
      + intros H. apply D, (K _ _ H L).
  Qed.

  (** names *)
  Lemma stamp_length s : length (stamp_str s) = 17.
  Proof. reflexivity. Qed.
  Lemma name_app a n : name_of (a ++ [n]) = n.
  Proof. apply last_last. Qed.
  Lemma parent_app a (n : str) : parent (a ++ [n]) = a.
  Proof. apply removelast_last. Qed.
  Lemma parent_marker p : parent (marker p) = parent p.
  Proof. apply parent_app. Qed.
  Lemma name_marker p : length (name_of (marker p)) = 11 + length (name_of p).
  Proof. unfold marker. rewrite name_app, !app_length. change (length (lit ".")) with 1. change (length (lit ".lastmodif")) with 10. lia. Qed.
  Lemma marker_not_nil p : marker p <> [].
  Proof. unfold marker. intros E. apply app_eq_nil in E. destruct E as [_ E]. discriminate. Qed.
  Lemma name_archived n s : length (name_of (archived n s)) = 27 + length n.
  Proof. unfold M_Archive.archived. rewrite name_app, !app_length. change (length (lit ".archived.")) with 10. rewrite stamp_length. lia. Qed.
  Lemma archived_not_nil n s : archived n s <> [].
  Proof. intros E. apply app_eq_nil in E. destruct E as [_ E]. discriminate. Qed.
  Lemma parent_archived n s : parent (archived n s) = preps.
  Proof. apply parent_app. Qed.
  Lemma sibling_apart (a : list str) x y : x <> y -> ~ below (a ++ [x]) (a ++ [y]).
  Proof. intros N [r E]. rewrite <- app_assoc in E. apply app_inv_head in E. injection E as E _. congruence. Qed.
  Lemma siblings a b : a <> [] -> b <> [] -> parent a = parent b -> name_of a <> name_of b -> apart a b.
  Proof. intros A B E N. rewrite (split_parent a A), (split_parent b B), E. split; apply sibling_apart; congruence. Qed.

  Definition preps_there (t : N) (fs : entry) : entry := match look preps fs with Some _ => fs | None => make_dirs t preps fs end.
  Lemma there_look t fs ds : ~ below ds preps -> look ds (preps_there t fs) = look ds fs.
  Proof.
    intros B. unfold preps_there. destruct (look preps fs); [reflexivity|]. destruct (look ds fs) as [d|] eqn:L.
    - apply look_make_dirs; assumption.
    - apply look_make_none; assumption.
  Qed.
  Lemma there_file t fs ds m c : look ds fs = Some (EFile m c) -> look ds (preps_there t fs) = Some (EFile m c).
  Proof.
    intros L. unfold preps_there. destruct (look preps fs) eqn:E; [exact L|]. clear E. revert fs ds L.
    induction preps as [|n p IH]; intros e ds L; cbn [make_dirs]; [exact L|]. destruct e as [m0 c0|m0 es]; [exact L|].
    destruct ds as [|x ds]; [discriminate|]. cbn [look] in L. destruct (dget es n) as [e'|] eqn:E; cbn [look].
    - destruct (eqb_spec x n) as [->|N].
      + rewrite E in L. rewrite dget_dset_eq. apply IH, L.
      + rewrite dget_dset_neq by congruence. exact L.
    - rewrite dget_dset_neq; [exact L|]. intros ->. rewrite E in L. discriminate.
  Qed.

  (** the two steps of archiving *)
  Definition archiving (t : N) (p : list str) (fs fs1 fs2 fs3 : entry) (s : stamp) (x k : entry) : Prop :=
    get_timestamp clock limit (shape x) = Ok s /\ fs1 = preps_there t fs /\
    moving t p (archived (name_of p) s) fs1 fs2 x /\ moving t (marker p) (archived (name_of (marker p)) s) fs2 fs3 k.
  Lemma first_look t p fs fs2 s x : moving t p (archived (name_of p) s) (preps_there t fs) fs2 x -> ~ below p preps /\ look p fs = Some x.
  Proof.
    intros (P & Q & N1 & N2 & Lp & _). assert (B : ~ below p preps).
    { intros H. apply N1. eapply below_trans; [exact H|]. eexists. reflexivity. }
    split; [exact B|]. rewrite there_look in Lp by exact B. exact Lp.
  Qed.
  Lemma not_itself p s fs t fs' : rename t p (archived (name_of p) s) fs = inl fs' -> exists x, moving t p (archived (name_of p) s) fs fs' x.
  Proof.
    intros R. destruct (rename_ok _ _ _ _ _ R) as [[E _]|H]; [|exact H]. exfalso. apply (f_equal name_of), (f_equal (@length N)) in E.
    rewrite name_archived in E. lia.
  Qed.
  Lemma archive_ok t p fs fs' : archive_path t p fs = (fs', None) -> exists fs1 fs2 s x k, archiving t p fs fs1 fs2 fs' s x k.
  Proof.
    unfold M_Archive.archive_path. destruct (look p fs) as [x|] eqn:Lp; [|discriminate]. destruct (get_timestamp clock limit (shape x)) as [s|e] eqn:T; [|discriminate].
    fold (preps_there t fs). destruct (rename t p (archived (name_of p) s) (preps_there t fs)) as [fs2|e] eqn:R1; [|discriminate].
    destruct (rename t (marker p) (archived (name_of (marker p)) s) fs2) as [fs3|e] eqn:R2; intros A; [|discriminate]. injection A as <-.
    apply not_itself in R1. apply not_itself in R2. destruct R1 as (x' & M1). destruct R2 as (k & M2).
    destruct (first_look _ _ _ _ _ _ M1) as [_ L]. assert (x' = x) by congruence. subst x'.
    exists (preps_there t fs), fs2, s, x, k. split; [exact T|]. split; [reflexivity|]. split; assumption.
  Qed.

  (** When archiving has succeeded, everything that was at the path is, as it was, in the directory of archived datasets, under a name with the
      time of its last change, so is its marker, and nothing is left at the path. *)
  Theorem C107_kept : forall t p fs fs', archive_path t p fs = (fs', None) -> tidy fs ->
    exists x s k, look p fs = Some x /\ get_timestamp clock limit (shape x) = Ok s /\ look (marker p) fs = Some k /\
      look (archived (name_of p) s) fs' = Some x /\ look (archived (name_of (marker p)) s) fs' = Some k /\
      look p fs' = None /\ look (marker p) fs' = None.
  Proof.
    intros t p fs fs' A ND. destruct (archive_ok _ _ _ _ A) as (fs1 & fs2 & s & x & k & T & -> & M1 & M2).
    destruct (first_look _ _ _ _ _ _ M1) as [Bp Lp]. pose proof M1 as (P & _ & N1 & N2 & _). pose proof M2 as (_ & _ & N3 & N4 & Lk & _).
    assert (Bm : ~ below (marker p) preps). { intros H. apply N3. eapply below_trans; [exact H|]. eexists. reflexivity. }
    assert (X1 : apart (marker p) p).
    { apply siblings; [apply marker_not_nil|exact P|apply parent_marker|]. intros E. apply (f_equal (@length N)) in E. rewrite name_marker in E. lia. }
    (* something below the same directory as p *)
    assert (Up : forall q a b, a <> [] -> b <> [] -> parent a = parent b -> below q a -> q <> a -> below q b).
    { intros q a b Ha Hb E B D. apply below_parent in B; [|exact D]. eapply below_trans; [exact B|]. rewrite E. exists [name_of b]. apply split_parent, Hb. }
    assert (X2 : apart (marker p) (archived (name_of p) s)).
    { assert (D : marker p <> archived (name_of p) s).
      { intros E. apply (f_equal name_of), (f_equal (@length N)) in E. rewrite name_marker, name_archived in E. lia. }
      split; intros H.
      - apply Bm. apply below_parent in H; [|exact D]. rewrite parent_archived in H. exact H.
      - apply N2. apply (Up _ (marker p) p); [apply marker_not_nil|exact P|apply parent_marker|exact H|congruence]. }
    assert (X3 : apart (archived (name_of p) s) (archived (name_of (marker p)) s)).
    { apply siblings; [apply archived_not_nil|apply archived_not_nil|rewrite !parent_archived; reflexivity|].
      intros E. apply (f_equal (@length N)) in E. rewrite !name_archived, name_marker in E. lia. }
    assert (X4 : apart p (archived (name_of (marker p)) s)).
    { assert (D : p <> archived (name_of (marker p)) s).
      { intros E. apply (f_equal name_of), (f_equal (@length N)) in E. rewrite name_archived, name_marker in E. lia. }
      split; intros H.
      - apply Bp. apply below_parent in H; [|exact D]. rewrite parent_archived in H. exact H.
      - apply N4. apply (Up _ p (marker p)); [exact P|apply marker_not_nil|symmetry; apply parent_marker|exact H|congruence]. }
    assert (T1 : tidy (preps_there t fs)). { unfold preps_there. destruct (look preps fs); [exact ND|apply tidy_make, ND]. }
    exists x, s, k. split; [exact Lp|]. split; [exact T|]. split; [|split; [|split; [|split]]].
    - rewrite (moved_apart _ _ _ _ _ _ _ M1 X1 X2), there_look in Lk by exact Bm. exact Lk.
    - rewrite (moved_apart _ _ _ _ _ _ _ M2); [apply (moved_there _ _ _ _ _ _ M1)| |exact X3]. destruct X2. split; assumption.
    - apply (moved_there _ _ _ _ _ _ M2).
    - rewrite (moved_apart _ _ _ _ _ _ _ M2); [|destruct X1; split; assumption|exact X4]. apply (moved_away _ _ _ _ _ _ M1).
      intros m es L. apply (T1 _ _ _ L).
    - apply (moved_away _ _ _ _ _ _ M2). rewrite parent_marker. intros m es L. destruct M1 as (_ & _ & _ & _ & _ & _ & -> & _).
      apply (tidy_rename t p (archived (name_of p) s) _ T1 _ _ _ L).
  Qed.

  Lemma others t p fs fs' err q m c : archive_path t p fs = (fs', err) ->
    look q fs = Some (EFile m c) -> ~ below p q -> ~ below (marker p) q -> (forall s, q <> archived (name_of (marker p)) s) ->
    (forall s m c, q = archived (name_of p) s -> look p fs <> Some (EFile m c)) -> look q fs' = Some (EFile m c).
  Proof.
    intros A L B1 B2 B3 K. unfold M_Archive.archive_path in A. destruct (look p fs) as [x|] eqn:Lp; [|injection A as <- _; auto].
    destruct (get_timestamp clock limit (shape x)) as [s|e]; [|injection A as <- _; auto]. fold (preps_there t fs) in A.
    pose proof (there_file t fs q m c L) as L1.
    destruct (rename t p (archived (name_of p) s) (preps_there t fs)) as [fs2|e] eqn:R1; [|injection A as <- _; auto].
    assert (D : q <> archived (name_of p) s).
    { intros ->. apply not_itself in R1. destruct R1 as (x' & M). destruct (first_look _ _ _ _ _ _ M) as [_ L'].
      destruct M as (_ & _ & _ & _ & _ & _ & _ & _ & M). destruct (M _ _ L1) as (m' & c' & ->). apply (K s m' c' eq_refl). congruence. }
    pose proof (rename_files _ _ _ _ _ _ _ _ R1 L1 B1 D) as L2.
    destruct (rename t (marker p) (archived (name_of (marker p)) s) fs2) as [fs3|e] eqn:R2; injection A as <- _; [|auto].
    apply (rename_files _ _ _ _ _ _ _ _ R2 L2 B2). apply B3.
  Qed.
  (** Whether archiving a directory succeeds or fails, no file elsewhere gets lost or is changed, except that the marker of an earlier archive
      may be replaced. *)
  Theorem C107_others : forall t p fs fs' err q m c, archive_path t p fs = (fs', err) ->
    look q fs = Some (EFile m c) -> ~ below p q -> ~ below (marker p) q -> (forall s, q <> archived (name_of (marker p)) s) ->
    (forall m c, look p fs <> Some (EFile m c)) -> look q fs' = Some (EFile m c).
  Proof. intros t p fs fs' err q m c A L B1 B2 B3 K. eapply others; eauto. Qed.

  (** So what is in an archived dataset stays, whatever else is archived later. *)
  Lemma below_archived a n s rest : below a (archived n s ++ rest) -> ~ below a preps -> exists r, a = archived n s ++ r.
  Proof.
    intros B N. destruct (below_both a (archived n s) _ B (below_app _ _)) as [H|[r ->]]; [|eauto].
    destruct (list_eq_dec (list_eq_dec N.eq_dec) a (archived n s)) as [->|D]; [exists []; symmetry; apply app_nil_r|].
    destruct N. apply below_parent in H; [|exact D]. rewrite parent_archived in H. exact H.
  Qed.
  Lemma marker_not_archived p n s : marker p <> archived n s.
  Proof.
    intros E. apply (f_equal name_of), (f_equal (fun x => last x 0%N)) in E. unfold marker, M_Archive.archived in E. rewrite !name_app in E.
    assert (L : forall a b : str, b <> [] -> last (a ++ b) 0%N = last b 0%N).
    { intros u v V. destruct (exists_last V) as (w & z & ->). rewrite app_assoc, !last_last. reflexivity. }
    rewrite (L _ (_ ++ lit ".lastmodif")) in E by (intros X; apply app_eq_nil in X; destruct X; discriminate).
    rewrite (L _ (lit ".lastmodif")) in E by discriminate. rewrite !L in E by discriminate. unfold stamp_str in E. rewrite !L in E by discriminate.
    change (last (lit ".lastmodif") 0%N) with 102%N in E. cbn [two_digits last] in E.
    assert (st_s s mod 10 < 10)%N by (apply N.mod_lt; discriminate). lia.
  Qed.
  Theorem C107_stays : forall calls fs n s rest m c, rest <> [] -> look (archived n s ++ rest) fs = Some (EFile m c) ->
    Forall (fun tp => snd tp <> [] /\ ~ below (snd tp) preps /\ ~ below (marker (snd tp)) preps /\ forall n s, ~ below (archived n s) (snd tp)) calls ->
    look (archived n s ++ rest) (archive_all calls fs) = Some (EFile m c).
  Proof.
    intros calls fs n s rest m c R L F. revert fs L. induction F as [|[t p] calls (P & B1 & B2 & B3) F IH]; intros fs L; [exact L|].
    cbn [M_Archive.archive_all fold_left fst snd] in *. apply IH. destruct (archive_path t p fs) as [fs' err] eqn:A.
    assert (Q : forall n', archived n s ++ rest <> archived n' s) by (intros n' E; apply (f_equal parent) in E; rewrite parent_archived in E;
      destruct (exists_last R) as (w & z & ->); rewrite app_assoc, parent_app in E; unfold M_Archive.archived in E;
      rewrite <- app_assoc in E; rewrite <- (app_nil_r preps) in E at 2; apply app_inv_head in E; discriminate).
    assert (Q' : forall n' s', archived n s ++ rest <> archived n' s') by (intros n' s' E; apply (f_equal parent) in E; rewrite parent_archived in E;
      destruct (exists_last R) as (w & z & ->); rewrite app_assoc, parent_app in E; unfold M_Archive.archived in E;
      rewrite <- app_assoc in E; rewrite <- (app_nil_r preps) in E at 2; apply app_inv_head in E; discriminate).
    cbn [fst]. apply (others _ _ _ _ _ _ _ _ A L).
    - intros B. destruct (below_archived _ _ _ _ B B1) as [r E]. apply (B3 n s). exists r. exact E.
    - intros B. destruct (below_archived _ _ _ _ B B2) as [r E]. destruct r as [|r0 r].
      + rewrite app_nil_r in E. destruct (marker_not_archived _ _ _ E).
      + apply (f_equal parent) in E. rewrite parent_marker in E. apply (B3 n s). exists (removelast (r0 :: r) ++ [name_of p]).
        rewrite (split_parent p P) at 1. rewrite E. unfold parent. rewrite removelast_app by discriminate. rewrite <- app_assoc. reflexivity.
    - intros s'. apply Q'.
    - intros s' m' c' E. destruct (Q' _ _ E).
  Qed.

  Lemma possible : forall t p fs x s mk ck m es, p <> [] -> look p fs = Some x -> get_timestamp clock limit (shape x) = Ok s ->
    look (marker p) fs = Some (EFile mk ck) -> look preps fs = Some (EDir m es) -> dev (parent p) = dev preps -> ~ below p preps ->
    look (archived (name_of p) s) fs = None -> look (archived (name_of (marker p)) s) fs = None ->
    exists fs', archive_path t p fs = (fs', None).
  Proof.
    intros t p fs x s mk ck m es P Lp T Lk Lq D B N1 N2. unfold M_Archive.archive_path. rewrite Lp, T, Lq.
    assert (Fine : forall a q y e, a <> [] -> q <> [] -> look a e = Some y -> (exists m es, look (parent q) e = Some (EDir m es)) -> dev (parent a) = dev (parent q) -> ~ below a q ->
      look q e = None -> rename t a q e = inl (perform t (Rename a q) e)).
    { intros a q y e Ha Hq La (m' & es' & Lq') D' B' N'. unfold M_Archive.rename. rewrite La, Lq', N', D', Nat.eqb_refl. destruct a; [congruence|]. destruct q; [congruence|].
      cbn [is_nil orb negb]. destruct (starts _ _) eqn:S; [apply starts_below in S; contradiction|]. reflexivity. }
    assert (NB : forall a n', a <> archived n' s -> ~ below a preps -> ~ below a (archived n' s)).
    { intros a n' Da Ba H. apply Ba. apply below_parent in H; [|exact Da]. rewrite parent_archived in H. exact H. }
    assert (D1 : p <> archived (name_of p) s) by congruence.
    assert (R1 : rename t p (archived (name_of p) s) fs = inl (perform t (Rename p (archived (name_of p) s)) fs)).
    { apply (Fine _ _ x); auto; [apply archived_not_nil|rewrite parent_archived; eauto|rewrite parent_archived; exact D]. }
    rewrite R1. destruct (not_itself _ _ _ _ _ R1) as (x' & M1). set (fs2 := perform t (Rename p (archived (name_of p) s)) fs) in *.
    assert (Bm : ~ below (marker p) preps).
    { intros H. rewrite (look_file_below _ _ _ _ _ Lk H) in Lq by congruence. congruence. }
    assert (X1 : apart (marker p) p).
    { apply siblings; [apply marker_not_nil|exact P|apply parent_marker|]. intros E. apply (f_equal (@length N)) in E. rewrite name_marker in E. lia. }
    assert (Gone : forall a b y, look a fs = None -> look b fs = Some y -> ~ below a b).
    { intros a b y La Lb [r ->]. rewrite look_app, La in Lb. discriminate. }
    assert (X2 : apart (marker p) (archived (name_of p) s)).
    { split; [apply NB; [congruence|exact Bm]|eapply Gone; eassumption]. }
    assert (X4 : apart (archived (name_of (marker p)) s) p).
    { split; [eapply Gone; eassumption|apply NB; [congruence|exact B]]. }
    assert (X3 : apart (archived (name_of (marker p)) s) (archived (name_of p) s)).
    { apply siblings; [apply archived_not_nil|apply archived_not_nil|rewrite !parent_archived; reflexivity|].
      intros E. apply (f_equal (@length N)) in E. rewrite !name_archived, name_marker in E. lia. }
    rewrite (Fine (marker p) (archived (name_of (marker p)) s) (EFile mk ck) fs2); [eauto|apply marker_not_nil|apply archived_not_nil| | | | |].
    - rewrite (moved_apart _ _ _ _ _ _ _ M1 X1 X2). exact Lk.
    - rewrite parent_archived. pose proof (moved_there _ _ _ _ _ _ M1) as H. unfold M_Archive.archived in H at 1. rewrite look_app in H.
      destruct (look preps fs2) as [[m1 c1|m1 es1]|]; try discriminate. eauto.
    - rewrite parent_marker, parent_archived. exact D.
    - apply NB; [congruence|exact Bm].
    - rewrite (moved_apart _ _ _ _ _ _ _ M1 X4 X3). exact N2.
  Qed.

  (** When results are archived because they were changed, this succeeds if the directory of archived datasets is on the same device and has
      nothing of these names. *)
  Theorem C107_possible : forall t p fs m es, p <> [] -> to_archive p fs = true ->
    look preps fs = Some (EDir m es) -> dev (parent p) = dev preps -> ~ below p preps ->
    (forall s, look (archived (name_of p) s) fs = None /\ look (archived (name_of (marker p)) s) fs = None) ->
    exists fs', archive_path t p fs = (fs', None).
  Proof.
    intros t p fs m es P A L D B F. unfold M_Archive.to_archive in A. destruct (look p fs) as [x|] eqn:Lp; [|discriminate].
    destruct (look (marker p) fs) as [[mk ck|? ?]|] eqn:Lk; try discriminate. destruct (get_timestamp clock limit (shape x)) as [s|e] eqn:T; [|discriminate].
    apply (possible t p fs x s mk ck m es); auto; apply F.
  Qed.

  (** Not so if the results are on another device than the cache: then every call fails, and the results stay outdated, however often it is tried. *)
  Theorem C107_device_refuted : forall p fs calls x s m c, p <> [] ->
    look p fs = Some x -> get_timestamp clock limit (shape x) = Ok s -> look (marker p) fs = Some (EFile m c) -> c <> stamp_str s -> dev (parent p) <> dev preps -> ~ below p preps -> ~ below (marker p) preps ->
    Forall (fun tp => snd tp = p) calls ->
    to_archive p (archive_all calls fs) = true /\ forall t, exists e, snd (archive_path t p (archive_all calls fs)) = Some e.
  Proof.
    intros p fs calls x0 s0 m0 c0 P Lx Lt Lm Lc D B1 B2.
    assert (A : to_archive p fs = true) by (unfold M_Archive.to_archive; rewrite Lx, Lm, Lt; destruct (eqb_spec c0 (stamp_str s0)); [contradiction|reflexivity]).
    clear x0 s0 m0 c0 Lx Lt Lm Lc.
    assert (One : forall t fs, to_archive p fs = true -> to_archive p (fst (archive_path t p fs)) = true /\ exists e, snd (archive_path t p fs) = Some e).
    { clear fs A. intros t fs A. assert (A1 : to_archive p (preps_there t fs) = true) by (unfold M_Archive.to_archive in *; rewrite !there_look by assumption; exact A).
      unfold M_Archive.archive_path. destruct (look p fs) as [x|] eqn:Lp; [|unfold M_Archive.to_archive in A; rewrite Lp in A; discriminate].
      destruct (get_timestamp clock limit (shape x)) as [s|e]; [|cbn; eauto]. fold (preps_there t fs).
      assert (R : exists e, rename t p (archived (name_of p) s) (preps_there t fs) = inr e).
      { unfold M_Archive.rename. rewrite there_look, Lp by exact B1. rewrite parent_archived. destruct (look preps (preps_there t fs)) as [[? ?|? ?]|]; eauto.
        destruct (is_nil p || is_nil _); [eauto|]. destruct (Nat.eqb_spec (dev (parent p)) (dev preps)) as [E|_]; [contradiction|]. cbn. eauto. }
      destruct R as [e ->]. cbn. eauto. }
    intros F. assert (All : to_archive p (archive_all calls fs) = true).
    { revert fs A. induction F as [|[t q] calls E F IH]; intros fs A; [exact A|]. cbn [snd] in E. subst q.
      cbn [M_Archive.archive_all fold_left fst snd]. apply IH. apply One, A. }
    split; [exact All|]. intros t. apply One, All.
  Qed.

  (** And not if something of the same name and last changed in the same second was archived before. *)
  Theorem C107_second_refuted : forall p fs calls x s m e es, look p fs = Some x -> get_timestamp clock limit (shape x) = Ok s ->
    look (archived (name_of p) s) fs = Some (EDir m (e :: es)) -> Forall (fun tp => snd tp = p) calls ->
    archive_all calls fs = fs /\ forall t, exists f, archive_path t p fs = (fs, Some f).
  Proof.
    intros p fs calls x s m e es Lp T La F.
    assert (One : forall t, exists f, archive_path t p fs = (fs, Some f)).
    { intros t. unfold M_Archive.archive_path. rewrite Lp, T. pose proof La as Lq. unfold M_Archive.archived in Lq at 1. rewrite look_app in Lq.
      destruct (look preps fs) as [d|] eqn:Lr; [|discriminate].
      assert (R : exists f, rename t p (archived (name_of p) s) fs = inr f).
      { destruct (rename t p (archived (name_of p) s) fs) as [fs2|f] eqn:R; [|eauto]. exfalso. pose proof (not_itself _ _ _ _ _ R) as (x' & M).
        destruct M as (Hp & Hq & N1 & _). revert R. unfold M_Archive.rename. rewrite Lp, parent_archived, Lr, La. destruct d as [? ?|? ?]; [discriminate|].
        destruct (is_nil p || is_nil _); [discriminate|]. destruct (negb _); [discriminate|]. destruct (starts p _) eqn:S; [apply starts_below in S; contradiction|].
        destruct x; discriminate. }
      destruct R as [f ->]. eauto. }
    split; [|exact One]. induction F as [|[t q] calls E F IH]; [reflexivity|]. cbn [snd] in E. subst q.
    cbn [M_Archive.archive_all fold_left fst snd]. destruct (One t) as [f ->]. exact IH.
  Qed.
End Archive.
Print Assumptions C107_kept.
Print Assumptions C107_others.
Print Assumptions C107_stays.
Print Assumptions C107_possible.
Print Assumptions C107_device_refuted.
Print Assumptions C107_second_refuted.

(** ** Examples: the results of two output directories with the same name; those of the first were changed *)
Definition ex_tree : entry :=
  EDir 1 [(lit "a", EDir 1 [(lit "d", EDir 60 [(lit "x.prep", EFile 60 (lit "old")); (lit "y.prep", EFile 70 (lit "new"))]);
                            (lit ".d.lastmodif", EFile 61 (lit "70-01-01T00-01-00"))]);
          (lit "b", EDir 1 [(lit "d", EDir 70 [(lit "z.prep", EFile 70 (lit "other"))]); (lit ".d.lastmodif", EFile 61 (lit "70-01-01T00-01-00"))]);
          (lit "c", EDir 1 [(lit "p", EDir 1 [])])].
Definition ex_preps := [lit "c"; lit "p"].
Definition ex_all := archive_all (fun _ => 0) (fun x => x) 1000 ex_preps.
Definition ex_stamp : stamp := Build_stamp 70 1 1 0 1 10.
Definition ex_once := ex_all [(99%N, [lit "a"; lit "d"])] ex_tree.
Lemma ex_tidy : tidy ex_tree.
Proof.
  assert (F : forall m c, tidy (EFile m c)) by (intros m c [|n r] m' es E; discriminate).
  assert (D : forall m es, NoDup (dkeys es) -> Forall (fun ne => tidy (snd ne)) es -> tidy (EDir m es)).
  { intros m es N A [|n r] m' es' E; cbn [look] in E; [injection E as _ <-; exact N|].
    destruct (dget es n) as [e|] eqn:L; [|discriminate]. rewrite Forall_forall in A. apply dget_in in L. exact (A _ L _ _ _ E). }
  repeat first [apply F|apply D; [cbn [dkeys map fst]; repeat constructor; cbn [In]; intuition discriminate|]|constructor; cbn [snd]].
Qed.
Example C107_kept_example :
  to_archive (fun x => x) 1000 [lit "a"; lit "d"] ex_tree = true /\ tidy ex_tree /\
  archive_path (fun _ => 0) (fun x => x) 1000 ex_preps 99 [lit "a"; lit "d"] ex_tree = (ex_once, None) /\
  look [lit "a"; lit "d"] ex_once = None /\ look [lit "a"; lit ".d.lastmodif"] ex_once = None /\
  look [lit "c"; lit "p"; lit "d.archived.70-01-01T00-01-10"] ex_once
  = Some (EDir 60 [(lit "x.prep", EFile 60 (lit "old")); (lit "y.prep", EFile 70 (lit "new"))]) /\
  look [lit "c"; lit "p"; lit ".d.lastmodif.archived.70-01-01T00-01-10"] ex_once = Some (EFile 61 (lit "70-01-01T00-01-00")).
Proof. repeat split; try (vm_compute; reflexivity). exact ex_tidy. Qed.
Example C107_others_example : look [lit "b"; lit "d"; lit "z.prep"] ex_once = Some (EFile 70 (lit "other")).
Proof.
  apply (C107_others (fun _ => 0) (fun x => x) 1000 ex_preps 99 [lit "a"; lit "d"] ex_tree ex_once None); try (vm_compute; reflexivity).
  - intros [r E]. discriminate.
  - intros [r E]. discriminate.
  - intros s E. discriminate.
  - intros m c E. vm_compute in E. discriminate.
Qed.
Example C107_possible_example : exists fs', archive_path (fun _ => 0) (fun x => x) 1000 ex_preps 99 [lit "b"; lit "d"] ex_tree = (fs', None).
Proof.
  eapply (C107_possible _ _ _ _ _ _ _ 1 []); try (vm_compute; reflexivity); [discriminate|intros [r E]; discriminate|]. intros s. split; reflexivity.
Qed.
(** The second call fails, as the first one used the name already; the first archive stays. *)
Example C107_stays_example : look [lit "c"; lit "p"; lit "d.archived.70-01-01T00-01-10"; lit "y.prep"] (ex_all [(100%N, [lit "b"; lit "d"])] ex_once) = Some (EFile 70 (lit "new")).
Proof.
  apply (C107_stays (fun _ => 0) (fun x => x) 1000 ex_preps [(100%N, [lit "b"; lit "d"])] ex_once (lit "d") ex_stamp [lit "y.prep"] 70 (lit "new"));
    [discriminate|vm_compute; reflexivity|]. constructor; [|constructor]. cbn [snd]. split; [discriminate|].
  split; [intros [r E]; discriminate|]. split; [intros [r E]; discriminate|]. intros n s [r E]. discriminate.
Qed.
Example C107_second_example : forall calls, Forall (fun tp => snd tp = [lit "b"; lit "d"]) calls ->
  to_archive (fun x => x) 1000 [lit "b"; lit "d"] ex_once = true /\ ex_all calls ex_once = ex_once /\
  forall t, exists f, archive_path (fun _ => 0) (fun x => x) 1000 ex_preps t [lit "b"; lit "d"] ex_once = (ex_once, Some f).
Proof.
  intros calls F. split; [vm_compute; reflexivity|].
  eapply (C107_second_refuted _ _ _ _ _ _ _ _ ex_stamp); try (vm_compute; reflexivity). exact F.
Qed.
Example C107_device_example : let dev p := match p with x :: _ => if eqb x (lit "c") then 1 else 0 | [] => 0 end in
  forall calls, Forall (fun tp => snd tp = [lit "a"; lit "d"]) calls ->
  let fs := archive_all dev (fun x => x) 1000 ex_preps calls ex_tree in
  to_archive (fun x => x) 1000 [lit "a"; lit "d"] fs = true /\ forall t, exists e, snd (archive_path dev (fun x => x) 1000 ex_preps t [lit "a"; lit "d"] fs) = Some e.
Proof.
  intros dev calls F. eapply C107_device_refuted; [discriminate|vm_compute; reflexivity|vm_compute; reflexivity|vm_compute; reflexivity|vm_compute; discriminate|vm_compute; discriminate| | |exact F]; intros [r E]; discriminate.
Qed.
