(** C53 once more: which operations on the file system are noticed as changes of the dataset. *)
From Coq Require Import List NArith Bool Lia.
From Verif Require Import M_Base L_Base M_PrepConfig M_Dataset P_Dataset M_Timestamp P_Timestamp M_Place P_Place M_Archive P_Archive.
Import ListNotations.
Local Open Scope list_scope.

Definition time_of (e : entry) : N := match e with EFile m _ => m | EDir m _ => m end.
Lemma shape_time e : In (time_of e) (node_mtime (shape e)).
Proof. destruct e; left; reflexivity. Qed.

(** what is found below a directory is what the walk finds *)
Lemma look_shape r : forall e u, r <> [] -> look r e = Some u -> at_real (shape e) r (shape u).
Proof.
  induction r as [|n r IH]; intros e u R L; [congruence|]. cbn [look] in L. destruct e as [m c|m es]; [discriminate|].
  destruct (dget es n) as [e'|] eqn:G; [|discriminate]. apply dget_in in G. cbn [shape].
  assert (I : In (n, shape e') (map (fun ne => (fst ne, shape (snd ne))) es)) by (apply in_map_iff; exists (n, e'); auto).
  destruct r as [|k r].
  - injection L as <-. apply real_entry. exact I.
  - destruct e' as [m' c'|m' es']; [discriminate|]. cbn [shape] in I. eapply real_below; [exact I|].
    apply (IH (EDir m' es')); [discriminate|exact L].
Qed.

Lemma above_edit f n q : forall p e m es, look p e = Some (EDir m es) ->
  exists es', look p (edit (p ++ n :: q) f e) = Some (EDir m es').
Proof.
  induction p as [|k p IH]; intros e m es L.
  - injection L as ->. cbn [app edit look]. destruct (dget es n); eauto.
  - cbn [look] in L. destruct e as [m0 c|m0 es0]; [discriminate|]. cbn [app edit]. destruct (dget es0 k) as [e'|] eqn:G; [|discriminate].
    cbn [look]. rewrite dget_dset_eq. exact (IH _ _ _ L).
Qed.
(** a directory stays one, with its time or the new one *)
Lemma stays t q f p e m es : q <> [] ->
  (forall m es, exists m' es', f (EDir m es) = EDir m' es' /\ (m' = m \/ m' = t)) ->
  (forall ds e d, look ds e = Some d -> apart ds q -> look ds (edit (parent q) f e) = Some d) ->
  look p e = Some (EDir m es) -> ~ below q p ->
  exists m' es', look p (edit (parent q) f e) = Some (EDir m' es') /\ (m' = m \/ m' = t).
Proof.
  intros Q F A L B. destruct (starts p q) eqn:S.
  - apply starts_below in S. apply below_parent in S; [|intros ->; apply B, below_refl]. destruct S as [[|n r] E].
    + rewrite app_nil_r in E. rewrite E. rewrite (look_edit_at _ _ _ _ L). destruct (F m es) as (m' & es' & -> & H). eauto.
    + rewrite E. destruct (above_edit f n r p e m es L) as [es' ->]. eauto.
  - exists m, es. split; [|auto]. apply A; [exact L|]. split; [|exact B]. intros H. apply starts_below in H. congruence.
Qed.
Lemma stays_out t q p e m es : q <> [] -> look p e = Some (EDir m es) -> ~ below q p ->
  exists m' es', look p (edit (parent q) (take_out t (name_of q)) e) = Some (EDir m' es') /\ (m' = m \/ m' = t).
Proof.
  intros Q. apply stays; [exact Q| |].
  - intros m0 es0. cbn [take_out]. destruct (dmem es0 (name_of q)); eauto.
  - intros ds e0 d L A. apply look_take_out; assumption.
Qed.
Lemma stays_in t q x p e m es : q <> [] -> look p e = Some (EDir m es) -> ~ below q p ->
  exists m' es', look p (edit (parent q) (put_in t (name_of q) x) e) = Some (EDir m' es') /\ (m' = m \/ m' = t).
Proof.
  intros Q. apply stays; [exact Q| |].
  - intros m0 es0. cbn [put_in]. eauto.
  - intros ds e0 d L A. apply look_put_in; assumption.
Qed.
Lemma look_new_dirs t g : look g (new_dirs t g) = Some (EDir t []).
Proof. induction g as [|n g IH]; [reflexivity|]. cbn [new_dirs look dget]. destruct (eqb_spec n n); [exact IH|congruence]. Qed.
Lemma look_made t n g : forall p e m es, look p e = Some (EDir m es) -> dget es n = None ->
  look (p ++ n :: g) (make_dirs t (p ++ n :: g) e) = Some (EDir t []).
Proof.
  induction p as [|k p IH]; intros e m es L G.
  - injection L as ->. cbn [app make_dirs]. rewrite G. cbn [look]. rewrite dget_dset_eq. apply look_new_dirs.
  - cbn [look] in L. destruct e as [m0 c|m0 es0]; [discriminate|]. cbn [app make_dirs]. destruct (dget es0 k) as [e'|] eqn:E; [|discriminate].
    cbn [look]. rewrite dget_dset_eq. exact (IH _ _ _ L G).
Qed.

(** Operations in a directory [p]: a file is written, a directory is made; something is removed, moved here or moved away. *)
Inductive comes (fs : entry) (p : list str) : op -> Prop :=
| comes_file m es f c : look p fs = Some (EDir m es) -> (forall m' es', dget es f <> Some (EDir m' es')) -> comes fs p (WriteFile (p ++ [f]) c)
| comes_dir m es f g : look p fs = Some (EDir m es) -> dget es f = None -> comes fs p (MakeDirs (p ++ f :: g)).
Inductive goes (fs : entry) (p : list str) : op -> Prop :=
| goes_removed m es f x : look p fs = Some (EDir m es) -> dget es f = Some x -> goes fs p (Remove (p ++ [f]))
| goes_here m es f q x : look p fs = Some (EDir m es) -> look q fs = Some x -> q <> [] -> ~ below q p -> goes fs p (Rename q (p ++ [f]))
| goes_away m es f q x m' es' : look p fs = Some (EDir m es) -> dget es f = Some x -> q <> [] ->
    look (parent q) fs = Some (EDir m' es') -> ~ below q p -> goes fs p (Rename (p ++ [f]) q).

Lemma app_not_nil {A} (p : list A) f : is_nil (p ++ [f]) = false.
Proof. destruct p; reflexivity. Qed.
Lemma goes_time t fs p o : goes fs p o -> exists es, look p (perform t o fs) = Some (EDir t es).
Proof.
  intros H. inversion H as [m es f x L G|m es f q x L L' Q B|m es f q x m' es' L G Q L' B]; subst; cbn [perform].
  - rewrite app_not_nil, parent_app, name_app, (look_edit_at _ _ _ _ L). cbn [take_out]. unfold dmem. rewrite G. eauto.
  - rewrite app_not_nil, parent_app, name_app, L', L. destruct q as [|k q]; [congruence|]. cbn [is_nil orb].
    destruct (stays_out t (k :: q) p fs m es Q L B) as (m1 & es1 & L1 & _).
    rewrite (look_edit_at _ _ _ _ L1). cbn [put_in]. eauto.
  - rewrite app_not_nil, parent_app, name_app, L'. destruct q as [|k q]; [congruence|]. cbn [is_nil orb].
    rewrite look_app, L. cbn [look]. rewrite G.
    assert (L1 : exists es1, look p (edit p (take_out t f) fs) = Some (EDir t es1)).
    { rewrite (look_edit_at _ _ _ _ L). cbn [take_out]. unfold dmem. rewrite G. eauto. }
    destruct L1 as [es1 L1]. destruct (stays_in t (k :: q) x p _ t es1 Q L1 B) as (m2 & es2 & L2 & [-> | ->]); eauto.
Qed.
Lemma comes_time t fs p o : comes fs p o -> exists r u, r <> [] /\ look (p ++ r) (perform t o fs) = Some u /\ time_of u = t.
Proof.
  intros H. inversion H as [m es f c L G|m es f g L G]; subst; cbn [perform].
  - exists [f], (EFile t c). split; [discriminate|]. split; [|reflexivity]. rewrite app_not_nil, parent_app, name_app, look_app, (look_edit_at _ _ _ _ L). cbn [put_file].
    destruct (dget es f) as [[m1 c1|m1 es1]|] eqn:E; [|destruct (G m1 es1 eq_refl)|]; cbn [look]; rewrite dget_dset_eq; reflexivity.
  - exists (f :: g), (EDir t []). split; [discriminate|]. split; [|reflexivity]. exact (look_made t f g p fs m es L G).
Qed.

(** For all trees, datasets and operations: files that are written and directories that are made anywhere in the dataset give it another stamp, and
    so does whatever is removed, moved there or moved away in a directory below the top (for the top see C53_removed_refuted); if it is at a later second. *)
Theorem C53_operations : forall clock limit t fs o d r x x' m a,
  look d fs = Some x -> look d (perform t o fs) = Some x' ->
  comes fs (d ++ r) o \/ goes fs (d ++ r) o /\ r <> [] ->
  last_modification limit (shape x) = Ok m -> get_timestamp clock limit (shape x) = Ok a -> (entries (shape x') <= limit)%nat ->
  in_range (clock m) -> (forall y, (t <= y)%N -> (clock m < clock y)%N /\ in_range (clock y)) ->
  exists a', get_timestamp clock limit (shape x') = Ok a' /\ stamp_str a' <> stamp_str a.
Proof.
  intros clock limit t fs o d r x x' m a L L' H M T E R C.
  assert (U : exists s u, s <> [] /\ look (d ++ s) (perform t o fs) = Some u /\ time_of u = t).
  { destruct H as [H|[H N]].
    - destruct (comes_time t fs _ o H) as (s & u & S & Lu & Tu). exists (r ++ s), u. rewrite <- app_assoc in Lu. split; [|auto].
      intros Z. apply app_eq_nil in Z. destruct Z; auto.
    - destruct (goes_time t fs _ o H) as [es Le]. exists r, (EDir t es). auto. }
  destruct U as (s & u & S & Lu & Tu). rewrite look_app, L' in Lu.
  apply (C53_noticed clock limit (shape x) (shape x') s (shape u) m t a); auto.
  - apply look_shape; assumption.
  - rewrite <- Tu. apply shape_time.
Qed.
Print Assumptions C53_operations.

(** A file is moved from one directory of a dataset to another, and one is written at the top. *)
Definition touch_fs : entry :=
  EDir 1 [(lit "proj", EDir 2 [(lit "a", EDir 3 [(lit "x", EFile 4 [])]); (lit "b", EDir 5 [])])].
Example C53_operations_example :
  goes touch_fs ([lit "proj"] ++ [lit "b"]) (Rename [lit "proj"; lit "a"; lit "x"] [lit "proj"; lit "b"; lit "x"]) /\
  goes touch_fs ([lit "proj"] ++ [lit "a"]) (Rename [lit "proj"; lit "a"; lit "x"] [lit "proj"; lit "b"; lit "x"]) /\
  comes touch_fs ([lit "proj"] ++ []) (WriteFile [lit "proj"; lit "y"] []) /\
  comes touch_fs ([lit "proj"] ++ []) (MakeDirs [lit "proj"; lit "c"]) /\
  (forall o, In o [Rename [lit "proj"; lit "a"; lit "x"] [lit "proj"; lit "b"; lit "x"]; WriteFile [lit "proj"; lit "y"] []; MakeDirs [lit "proj"; lit "c"]] ->
   exists x x', look [lit "proj"] touch_fs = Some x /\ look [lit "proj"] (perform 9 o touch_fs) = Some x' /\
     last_modification 1000 (shape x) = Ok 5%N /\ last_modification 1000 (shape x') = Ok 9%N).
Proof.
  assert (NB : forall (a b c d : str), c <> d -> ~ below [a; c; b] [a; d]) by (intros a b c d N [y E]; injection E; congruence).
  split; [|split; [|split; [|split]]].
  - apply (goes_here touch_fs [lit "proj"; lit "b"] 5 [] (lit "x") [lit "proj"; lit "a"; lit "x"] (EFile 4 [])); try reflexivity; [discriminate|].
    apply NB. discriminate.
  - apply (goes_away touch_fs [lit "proj"; lit "a"] 3 [(lit "x", EFile 4 [])] (lit "x") [lit "proj"; lit "b"; lit "x"] (EFile 4 []) 5 []); try reflexivity; [discriminate|].
    apply NB. discriminate.
  - eapply (comes_file touch_fs [lit "proj"] 2 _ (lit "y")); [reflexivity|]. intros m es. vm_compute. discriminate.
  - eapply (comes_dir touch_fs [lit "proj"] 2 _ (lit "c") []); reflexivity.
  - intros o [<-|[<-|[<-|[]]]]; do 2 eexists; (split; [reflexivity|]); (split; [vm_compute; reflexivity|]); split; vm_compute; reflexivity.
Qed.
