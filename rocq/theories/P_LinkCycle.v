(** C110: symbolic links to directories, also ones that lead back to a directory around them. *)
From Verif Require Import M_Base L_Base M_Dataset M_Timestamp M_LinkCycle P_Dataset.

(** ** The file system, said without the walk *)

(** the node at a path that goes over no link *)
Inductive real_at : gnode -> list str -> gnode -> Prop :=
| real_here t : real_at t [] t
| real_entry m es n t p u : In (n, t) es -> real_at t p u -> real_at (GDir m es) (n :: p) u.

(** the path [p] leads from a node to another one over [k] links *)
Inductive route (top : gnode) : gnode -> list str -> nat -> gnode -> Prop :=
| route_here t : route top t [] 0 t
| route_entry m es n t p k u : In (n, t) es -> route top t p k u -> route top (GDir m es) (n :: p) k u
| route_link target d p k u : p <> [] -> real_at top target d -> route top d p k u -> route top (GTo target) p (S k) u.

(** names in a directory are different and can be names of files *)
Inductive gwf : gnode -> Prop :=
| gwf_file m : gwf (GFile m)
| gwf_link : gwf GLink
| gwf_to target : gwf (GTo target)
| gwf_dir m es : NoDup (map fst es) -> (forall n t, In (n, t) es -> valid_name n /\ gwf t) -> gwf (GDir m es).

Section GnodeInd.
  Variable P : gnode -> Prop.
  Hypothesis Hfile : forall m, P (GFile m).
  Hypothesis Hlink : P GLink.
  Hypothesis Hto : forall target, P (GTo target).
  Hypothesis Hdir : forall m es, (forall n t, In (n, t) es -> P t) -> P (GDir m es).
  Fixpoint gnode_ind2 (t : gnode) : P t :=
    match t with
    | GFile m => Hfile m
    | GLink => Hlink
    | GTo target => Hto target
    | GDir m es =>
        Hdir m es ((fix go (es : list (str * gnode)) : forall n t, In (n, t) es -> P t :=
          match es return forall n t, In (n, t) es -> P t with
          | [] => fun n t H => match H with end
          | e :: es' => fun n t H =>
              match H with
              | or_introl E => eq_ind (snd e) P (gnode_ind2 (snd e)) t (f_equal snd E)
              | or_intror H' => go es' n t H'
              end
          end) es)
    end.
End GnodeInd.

Lemma find_name {B} (es : list (str * B)) n t : NoDup (map fst es) -> In (n, t) es ->
  find (fun e => eqb (fst e) n) es = Some (n, t).
Proof.
  induction es as [|[a s] es IH]; intros Hd H; [destruct H|]. inversion Hd as [|? ? Hx Hd']; subst.
  cbn [find fst]. destruct (eqb_spec a n) as [->|D].
  - destruct H as [E|H]; [congruence|]. destruct Hx. apply in_map_iff. exists (n, t). auto.
  - destruct H as [E|H]; [congruence|auto].
Qed.
Lemma find_some {B} (es : list (str * B)) n e : find (fun e => eqb (fst e) n) es = Some e -> In (n, snd e) es.
Proof.
  intros H. apply find_some in H. destruct H as [H E]. destruct e as [a t]. cbn [fst snd] in *.
  destruct (eqb_spec a n) as [<-|]; [exact H|discriminate].
Qed.

Lemma lookup_real t : forall p u, lookup t p = Some u -> real_at t p u.
Proof.
  intros p. revert t. induction p as [|n p IH]; intros t u H; cbn [lookup] in H; [injection H as <-; constructor|].
  destruct t as [| |m es|]; try discriminate. destruct (find _ es) as [e|] eqn:F; [|discriminate].
  apply find_some in F. econstructor; [exact F|]. apply IH. exact H.
Qed.
Lemma gwf_real t p u : gwf t -> real_at t p u -> gwf u.
Proof.
  intros W H. revert W. induction H as [t|m es n t p u Hin H IH]; intros W; [exact W|]. inversion W as [| | |? ? Hd Hs]; subst.
  apply IH. apply (Hs _ _ Hin).
Qed.
Lemma real_lookup t p u : gwf t -> real_at t p u -> lookup t p = Some u.
Proof.
  intros W H. revert W. induction H as [t|m es n t p u Hin H IH]; intros W; [reflexivity|]. inversion W as [| | |? ? Hd Hs]; subst.
  cbn [lookup]. rewrite (find_name _ _ _ Hd Hin). apply IH. apply (Hs _ _ Hin).
Qed.

Lemma view_wf top : gwf top -> forall b t, gwf t -> wf (view top b t).
Proof.
  intros WT. induction b as [|b IHb]; intros t; induction t as [m| |tg|m es IH] using gnode_ind2; intros W; cbn [view]; try constructor.
  1, 4: inversion W as [| | |? ? Hd Hs]; subst; rewrite map_map; exact Hd.
  1, 3: intros n t H; apply in_map_iff in H; destruct H as ([n' t'] & E & H); injection E as <- <-; cbn [snd];
        inversion W as [| | |? ? Hd Hs]; subst; split; [apply (Hs _ _ H)|apply (IH _ _ H), (Hs _ _ H)].
  destruct (lookup top tg) as [d|] eqn:L; [|constructor]. apply lookup_real in L. pose proof (IHb d (gwf_real _ _ _ WT L)) as H.
  destruct (view top b d) as [| |l m es]; try constructor; inversion H; assumption.
Qed.

Lemma view_at top : gwf top -> forall b t p m, at_path (view top b t) p (File m) <-> exists k, k <= b /\ route top t p k (GFile m).
Proof.
  intros WT b. induction b as [b IHb] using (well_founded_induction Wf_nat.lt_wf).
  intros t. induction t as [m0| |tg|m0 es IH] using gnode_ind2; intros p m.
  - replace (view top b (GFile m0)) with (File m0) by (destruct b; reflexivity). split.
    + intros H. inversion H; subst. exists 0. split; [lia|constructor].
    + intros (k & _ & H). inversion H; subst. constructor.
  - replace (view top b GLink) with Link by (destruct b; reflexivity). split; [intros H; inversion H|]. intros (k & _ & H). inversion H.
  - split.
    + intros H. destruct b as [|b]; cbn [view] in H; [inversion H|].
      destruct (lookup top tg) as [d|] eqn:L; [|inversion H]. apply lookup_real in L.
      destruct (view top b d) as [| |l m1 es] eqn:V; try solve [inversion H].
      apply at_path_dir_inv in H. destruct H as [[_ E]|(n & t & p' & -> & Hin & H)]; [discriminate|].
      assert (A : at_path (view top b d) (n :: p') (File m)) by (rewrite V; econstructor; eassumption).
      apply (IHb b (Nat.lt_succ_diag_r b)) in A. destruct A as (k & K & R). exists (S k). split; [lia|].
      econstructor; [discriminate|exact L|exact R].
    + intros (k & K & H). inversion H as [|?|? d ? k' ? NE L R]; subst. destruct b as [|b]; [lia|]. cbn [view].
      rewrite (real_lookup _ _ _ WT L).
      assert (A : at_path (view top b d) p (File m)) by (apply (IHb b (Nat.lt_succ_diag_r b)); exists k'; split; [lia|exact R]).
      destruct (view top b d) as [| |l m1 es]; try (inversion A; subst; contradiction).
      apply at_path_dir_inv in A. destruct A as [[_ E]|(n & t & p' & -> & Hin & A)]; [discriminate|]. econstructor; eassumption.
  - assert (V : view top b (GDir m0 es) = Dir false m0 (map (fun e => (fst e, view top b (snd e))) es)) by (destruct b; reflexivity).
    rewrite V. split.
    + intros H. apply at_path_dir_inv in H. destruct H as [[_ E]|(n & t & p' & -> & Hin & H)]; [discriminate|].
      apply in_map_iff in Hin. destruct Hin as ([n' t'] & E & Hin). injection E as <- <-. cbn [fst snd] in *.
      apply (IH _ _ Hin) in H. destruct H as (k & K & R). exists k. split; [exact K|]. econstructor; eassumption.
    + intros (k & K & H). inversion H as [|? ? n t p' ? ? Hin R|]; subst.
      apply at_entry with (t := view top b t); [apply in_map_iff; exists (n, t); auto|]. apply (IH _ _ Hin). eauto.
Qed.

Lemma view_dir top b m es : view top b (GDir m es) = Dir false m (map (fun e => (fst e, view top b (snd e))) es).
Proof. destruct b; reflexivity. Qed.

(** the name passes the filter for extensions *)
Definition selected (exts : option (list str)) (name : str) : Prop :=
  match exts with Some (x :: xs) => exists e stem, In e (x :: xs) /\ name = stem ++ lit "." ++ e | _ => True end.

(** ** What is listed *)

(** The scan ends whatever the links, and lists exactly the files to which a path over at most as many
    links leads as the system follows. *)
Theorem C110_listed top budget path m es exts name : gwf top -> gwf (GDir m es) ->
  In name (scan_links top budget path (GDir m es) exts) <->
  exists p n mt k, k <= budget /\ route top (GDir m es) (p ++ [n]) k (GFile mt) /\ name = rel_name p n /\ selected exts name.
Proof.
  intros WT W. unfold scan_links. pose proof (view_wf top WT budget _ W) as Wv. pose proof (view_at top WT budget (GDir m es)) as A.
  rewrite view_dir in *. rewrite C55_scan by exact Wv. split.
  - intros (p & n & mt & H & N & X). apply A in H. destruct H as (k & K & R). exists p, n, mt, k. auto.
  - intros (p & n & mt & k & K & R & N & X). exists p, n, mt. split; [apply A; eauto|auto].
Qed.
Print Assumptions C110_listed.

Lemma real_route top t p u : real_at t p u -> route top t p 0 u.
Proof. induction 1; econstructor; eassumption. Qed.
Lemma route_real top t p u : route top t p 0 u -> real_at t p u.
Proof. remember 0 as k eqn:K. intros H. revert K. induction H; intros K; [constructor|econstructor; eauto|discriminate]. Qed.

(** Every file of the dataset is listed under its own path, whatever links there are and however many of them
    can be followed. *)
Theorem C110_own top budget path m es exts p n mt : gwf top -> gwf (GDir m es) ->
  real_at (GDir m es) (p ++ [n]) (GFile mt) -> selected exts (rel_name p n) ->
  In (rel_name p n) (scan_links top budget path (GDir m es) exts).
Proof.
  intros WT W H X. apply C110_listed; auto. exists p, n, mt, 0. split; [lia|]. split; [apply real_route; exact H|auto].
Qed.
Print Assumptions C110_own.

(** No name is listed twice. *)
Theorem C110_distinct top budget path m es exts : gwf top -> gwf (GDir m es) ->
  NoDup (scan_links top budget path (GDir m es) exts).
Proof.
  intros WT W. unfold scan_links. pose proof (view_wf top WT budget _ W) as Wv. rewrite view_dir in *.
  destruct (scan_parts path false m _ exts Wv) as (F & V & Nd). revert F V Nd.
  generalize (scan_pairs (walk true [] (Dir false m (map (fun e => (fst e, view top budget (snd e))) es))) exts).
  assert (B : forall f, In f (scan_files path (Dir false m (map (fun e => (fst e, view top budget (snd e))) es)) exts) ->
            exists p n, f = rel_name p n).
  { intros f Hf. apply C55_scan in Hf; [|exact Wv]. destruct Hf as (p & n & mt & _ & -> & _). eauto. }
  revert B. generalize (scan_files path (Dir false m (map (fun e => (fst e, view top budget (snd e))) es)) exts).
  clear. intros fs B ps F. induction F as [|f pn fs ps Hn F IH]; intros V Nd; [constructor|].
  inversion V as [|? ? [Vp Vn] V']; subst. cbn [map] in Nd. inversion Nd as [|? ? Hx Nd']; subst. constructor.
  - intros Hin. apply Hx. clear - Hn Hin F Vp Vn V'. 
    assert (K : forall g q r, names g q r -> Forall valid_name q -> valid_name r -> norm [] (split_on slash g) = q ++ [r]).
    { intros g q r G Vq Vr. pose proof (names_norm g q r [] [] G Vq) as E. rewrite !app_nil_r in E. apply E. exact Vr. }
    rewrite <- (K _ _ _ Hn Vp Vn). clear Hn Vp Vn.
    induction F as [|g qr fs ps G F IH]; [destruct Hin|]. inversion V' as [|? ? [Vq Vr] V'']; subst. cbn [map].
    destruct Hin as [->|Hin]; [left; symmetry; apply K; assumption|right; auto].
  - apply IH; auto. intros g Hg. apply B. right. exact Hg.
Qed.
Print Assumptions C110_distinct.

(** Without links to directories every file of the dataset is listed exactly once. *)
Theorem C110_once top budget path m es exts name : gwf top -> gwf (GDir m es) ->
  (forall p target, ~ real_at (GDir m es) p (GTo target)) ->
  NoDup (scan_links top budget path (GDir m es) exts) /\
  (In name (scan_links top budget path (GDir m es) exts) <->
   exists p n mt, real_at (GDir m es) (p ++ [n]) (GFile mt) /\ name = rel_name p n /\ selected exts name).
Proof.
  intros WT W NL. split; [apply C110_distinct; assumption|]. rewrite C110_listed by assumption. split.
  - intros (p & n & mt & k & _ & R & X). exists p, n, mt. split; [|exact X]. clear - R NL. revert R NL.
    generalize (p ++ [n]) (GFile mt) (GDir m es). intros q u t R. induction R as [t|m' es' n' t q k u Hin R IH|tg d q k u Ne L R IH]; intros NL.
    + constructor.
    + econstructor; [exact Hin|]. apply IH. intros q' tg H. apply (NL (n' :: q') tg). econstructor; eassumption.
    + destruct (NL [] tg). constructor.
  - intros (p & n & mt & R & X). exists p, n, mt, 0. split; [lia|]. split; [apply real_route; exact R|exact X].
Qed.
Print Assumptions C110_once.

(** ** Links that stay in the dataset add names, but no files *)
Lemma real_app_inv t : forall p q u, real_at t (p ++ q) u -> exists x, real_at t p x /\ real_at x q u.
Proof.
  intros p. revert t. induction p as [|n p IH]; intros t q u H; cbn [app] in H; [exists t; split; [constructor|exact H]|].
  inversion H as [|? ? ? t' ? ? Hin H']; subst. apply IH in H'. destruct H' as (x & A & B). exists x. split; [econstructor; eassumption|exact B].
Qed.
Lemma real_app t p x q u : real_at t p x -> real_at x q u -> real_at t (p ++ q) u.
Proof. induction 1 as [|m es n t p x Hin H IH]; intros B; [exact B|]. cbn [app]. econstructor; [exact Hin|auto]. Qed.
Lemma app_char_suffix (r n a b : str) c : a ++ b = r ++ c :: n -> ~ In c b -> exists s, n = s ++ b.
Proof.
  intros E H. apply app_eq_app in E. destruct E as (l & [[_ E]|[_ E]]).
  - destruct l as [|x l]; cbn [app] in E; [destruct H; rewrite <- E; left; reflexivity|]. injection E as _ E. exists l. exact E.
  - destruct H. rewrite E. apply in_or_app. right. left. reflexivity.
Qed.

Section Closed.
  Variable top d : gnode.
  Variable base : list str.
  Hypothesis WT : gwf top.
  Hypothesis D : real_at top base d.
  Hypothesis inside : forall p target, real_at d p (GTo target) -> exists q, target = base ++ q.

  Lemma route_inside t p k u : route top t p k u -> forall q0, real_at d q0 t ->
    exists q, real_at d q u /\ (p = [] -> q = q0) /\ (forall p' n, p = p' ++ [n] -> exists q', q = q' ++ [n]).
  Proof.
    induction 1 as [t|m es n t p k u Hin R IH|target x p k u Ne L R IH]; intros q0 H.
    - exists q0. split; [exact H|]. split; [reflexivity|]. intros [|? ?] ? E; discriminate.
    - assert (H' : real_at d (q0 ++ [n]) t) by (eapply real_app; [exact H|]; econstructor; [exact Hin|constructor]).
      destruct (IH _ H') as (q & A & B & C). exists q. split; [exact A|]. split; [discriminate|]. intros [|a p'] n' E; cbn [app] in E.
      + injection E as -> ->. exists q0. auto.
      + injection E as -> ->. eauto.
    - destruct (inside _ _ H) as (q & ->). apply real_app_inv in L. destruct L as (y & L1 & L2).
      assert (y = d) by (apply (real_lookup _ _ _ WT) in D; apply (real_lookup _ _ _ WT) in L1; congruence). subst y.
      destruct (IH _ L2) as (q' & A & _ & C). exists q'. split; [exact A|]. split; [congruence|exact C].
  Qed.
End Closed.

(** If the links of the dataset lead to directories in the dataset, every name in the list leads to a file of the
    dataset that is in the list under its own path as well. *)
Theorem C110_inside top base budget path m es exts name :
  gwf top -> real_at top base (GDir m es) ->
  (forall p target, real_at (GDir m es) p (GTo target) -> exists q, target = base ++ q) ->
  (forall l e, exts = Some l -> In e l -> no_char slash e) ->
  In name (scan_links top budget path (GDir m es) exts) ->
  exists p q n k mt, name = rel_name p n /\ route top (GDir m es) (p ++ [n]) k (GFile mt) /\
    real_at (GDir m es) (q ++ [n]) (GFile mt) /\ In (rel_name q n) (scan_links top budget path (GDir m es) exts).
Proof.
  intros WT D IN Hx H. pose proof (gwf_real _ _ _ WT D) as W. apply C110_listed in H; auto.
  destruct H as (p & n & mt & k & K & R & -> & X).
  destruct (route_inside top (GDir m es) base WT D IN _ _ _ _ R [] (real_here _)) as (q0 & A & _ & C).
  destruct (C p n eq_refl) as (q & ->). exists p, q, n, k, mt. split; [reflexivity|]. split; [exact R|]. split; [exact A|].
  apply (C110_own top budget path m es exts q n mt); auto. clear - X Hx. destruct exts as [[|x xs]|]; cbn [selected] in *; auto.
  destruct X as (e & stem & He & E). exists e. unfold rel_name in *.
  assert (Hd : ~ In slash (lit "." ++ e)).
  { intros [Ed|Hi]; [discriminate Ed|]. exact (Hx _ e eq_refl He Hi). }
  destruct (app_char_suffix (rel_root p) n stem (lit "." ++ e) slash (eq_sym E) Hd) as (s & ->).
  exists (rel_root q ++ slash :: s). split; [exact He|]. rewrite <- app_assoc. reflexivity.
Qed.
Print Assumptions C110_inside.

(** ** The time stamp *)

Lemma flat_map_same {A B} (f g : A -> list B) l : (forall x, In x l -> f x = g x) -> flat_map f l = flat_map g l.
Proof. induction l as [|x l IH]; intros H; [reflexivity|]. cbn [flat_map]. rewrite (H x), IH; auto; [intros; apply H; right; assumption|left; reflexivity]. Qed.

Lemma flat_flat {A B C} (f : A -> list B) (g : B -> list C) l : flat_map g (flat_map f l) = flat_map (fun x => flat_map g (f x)) l.
Proof. induction l as [|x l IH]; [reflexivity|]. cbn [flat_map]. rewrite flat_map_app, IH. reflexivity. Qed.
Lemma flat_of_map {A B C} (f : A -> B) (g : B -> list C) l : flat_map g (map f l) = flat_map (fun x => g (f x)) l.
Proof. induction l as [|x l IH]; [reflexivity|]. cbn [flat_map map]. rewrite IH. reflexivity. Qed.

Section Stamp.
  Variable top : gnode.
  Hypothesis WT : gwf top.
  Definition leads (t : gnode) : Prop := forall p target, real_at t p (GTo target) -> exists m es, real_at top target (GDir m es).

  Lemma view_level b b' t : leads t -> node_mtime (view top (S b) t) = node_mtime (view top (S b') t)
    /\ is_dir (view top (S b) t) = is_dir (view top (S b') t).
  Proof.
    intros Ld. destruct t as [m| |m es|tg]; [split; reflexivity..|]. destruct (Ld [] tg (real_here _)) as (m & es & L).
    cbn [view]. rewrite (real_lookup _ _ _ WT L), !view_dir. split; reflexivity.
  Qed.

  Lemma level_same b b' (es : list (str * gnode)) : (forall n t, In (n, t) es -> leads t) ->
    level_mtimes (map (fun e => (fst e, view top (S b) (snd e))) es) = level_mtimes (map (fun e => (fst e, view top (S b') (snd e))) es).
  Proof.
    intros H. unfold level_mtimes. 
    assert (K : forall (g : bool -> bool),
      flat_map (fun e => node_mtime (snd e)) (filter (fun e : str * node => g (is_dir (snd e))) (map (fun e => (fst e, view top (S b) (snd e))) es))
      = flat_map (fun e => node_mtime (snd e)) (filter (fun e => g (is_dir (snd e))) (map (fun e => (fst e, view top (S b') (snd e))) es))).
    { intros g. induction es as [|[n t] es IH]; [reflexivity|]. cbn [map filter fst snd].
      destruct (view_level b b' t (H n t (or_introl eq_refl))) as [E1 E2]. rewrite E2.
      assert (IH' := IH (fun n t Hi => H n t (or_intror Hi))).
      destruct (g _); [|exact IH']. cbn [flat_map snd]. rewrite E1, IH'. reflexivity. }
    f_equal; [exact (K (fun x => x))|exact (K negb)].
  Qed.

  Lemma walk_same b b' t : forall root root', leads t ->
    flat_map (fun w => level_mtimes (snd w)) (match view top (S b) t with Dir true _ _ => [] | v => walk false root v end)
    = flat_map (fun w => level_mtimes (snd w)) (match view top (S b') t with Dir true _ _ => [] | v => walk false root' v end).
  Proof.
    induction t as [m| |tg|m es IH] using gnode_ind2; intros root root' Ld; [reflexivity..| |].
    - destruct (Ld [] tg (real_here _)) as (m & es & L). cbn [view]. rewrite (real_lookup _ _ _ WT L), !view_dir. reflexivity.
    - assert (Le : forall n t, In (n, t) es -> leads t).
      { intros n t Hin p tg H. apply (Ld (n :: p) tg). econstructor; eassumption. }
      rewrite !view_dir. cbn [walk flat_map snd]. rewrite (level_same b b' es Le). f_equal.
      rewrite !flat_flat, !flat_of_map. cbn [fst snd orb]. apply flat_map_same. intros [n t] Hin. cbn [fst snd].
      pose proof (IH n t Hin (root ++ [n]) (root' ++ [n]) (Le n t Hin)) as E.
      destruct (view top (S b) t) as [| |[|] ? ?]; destruct (view top (S b') t) as [| |[|] ? ?]; exact E.
  Qed.
End Stamp.

(** For the time stamp links are followed by one step only: cycles do not make it take longer, and it does not
    depend on how many links the system follows. *)
Theorem C110_stamp top clock limit b b' m es : gwf top ->
  (forall p target, real_at (GDir m es) p (GTo target) -> exists m' es', real_at top target (GDir m' es')) ->
  get_timestamp clock limit (view top (S b) (GDir m es)) = get_timestamp clock limit (view top (S b') (GDir m es)).
Proof.
  intros WT Ld. unfold get_timestamp, last_modification.
  replace (inspected limit (view top (S b) (GDir m es))) with (inspected limit (view top (S b') (GDir m es))); [reflexivity|].
  pose proof (walk_same top WT b' b (GDir m es) [] [] Ld) as E. rewrite !view_dir in E |- *.
  destruct es as [|e es]; [reflexivity|]. cbn [map] in E |- *. unfold inspected. rewrite E. reflexivity.
Qed.
Print Assumptions C110_stamp.

(** ** A file is preprocessed more than once *)

(** one file and a link to the dataset itself *)
Definition ex_loop : gnode := GDir 0 [(lit "a", GFile 1); (lit "l", GTo [])].
(** one file and two links to the dataset itself *)
Definition ex_loops : gnode := GDir 0 [(lit "a", GFile 1); (lit "l", GTo []); (lit "m", GTo [])].

Ltac name_ok := repeat split; try discriminate; intros Hin; vm_compute in Hin; intuition discriminate.
Lemma ex_loop_wf : gwf ex_loop.
Proof.
  constructor; [cbn [map fst]; repeat (constructor; [intros H; simpl in H; intuition discriminate|]); constructor|].
  intros n t H. simpl in H. destruct H as [E|[E|[]]]; injection E as <- <-; (split; [name_ok|constructor]).
Qed.
Lemma ex_loops_wf : gwf ex_loops.
Proof.
  constructor; [cbn [map fst]; repeat (constructor; [intros H; simpl in H; intuition discriminate|]); constructor|].
  intros n t H. simpl in H. destruct H as [E|[E|[E|[]]]]; injection E as <- <-; (split; [name_ok|constructor]).
Qed.

(** A dataset with one file and one link to itself has 41 names in its list on a system that follows 40 links:
    the file is parsed, preprocessed and written 41 times. *)
Theorem C110_again_refuted :
  gwf ex_loop /\ (forall p m, real_at ex_loop p (GFile m) -> p = [lit "a"]) /\
  length (scan_links ex_loop 40 (lit "d") ex_loop None) = 41 /\
  In (lit "l/l/l/a") (scan_links ex_loop 40 (lit "d") ex_loop None).
Proof.
  split; [exact ex_loop_wf|]. split; [|split; [vm_compute; reflexivity|vm_compute; auto]].
  intros p m H. inversion H as [|? ? n t p' ? Hin H']; subst. destruct Hin as [E|[E|[]]]; injection E as <- <-; inversion H'; reflexivity.
Qed.
Print Assumptions C110_again_refuted.

(** With two such links the number of names is exponential in the number of links that the system follows: more
    than two million million names for 40 links, so that the command does not end in any useful time. *)
Theorem C110_exponential_refuted :
  gwf ex_loops /\ (forall p m, real_at ex_loops p (GFile m) -> p = [lit "a"]) /\
  forall budget path, length (scan_links ex_loops budget path ex_loops None) = 2 ^ (S budget) - 1.
Proof.
  split; [exact ex_loops_wf|]. split.
  { intros p m H. inversion H as [|? ? n t p' ? Hin H']; subst. destruct Hin as [E|[E|[E|[]]]]; injection E as <- <-; inversion H'; reflexivity. }
  intros budget path. unfold scan_links.
  set (g := fun w : list str * list (str * node) => map fst (filter (fun e => true && negb (is_link (snd e)))
    (map (fun e => (path_join (rel_root (fst w)) (fst e), snd e)) (filter (fun e : str * node => negb (is_dir (snd e))) (snd w))))).
  assert (K : forall b l root, length (flat_map g (walk true root (Dir l 0 (map (fun e => (fst e, view ex_loops b (snd e)))
    [(lit "a", GFile 1); (lit "l", GTo []); (lit "m", GTo [])])))) + 1 = 2 ^ (S b)).
  { induction b as [|b IH]; intros l root; [reflexivity|].
    set (D := Dir true 0 (map (fun e => (fst e, view ex_loops b (snd e))) [(lit "a", GFile 1); (lit "l", GTo []); (lit "m", GTo [])])) in *.
    assert (V : view ex_loops (S b) (GTo []) = D).
    { change (view ex_loops (S b) (GTo [])) with (match view ex_loops b ex_loops with Dir _ m es => Dir true m es | _ => Link end).
      unfold ex_loops at 2. rewrite view_dir. reflexivity. }
    cbn [map fst snd]. rewrite V.
    change (flat_map g (walk true root (Dir l 0 [(lit "a", view ex_loops (S b) (GFile 1)); (lit "l", D); (lit "m", D)])))
      with (g (root, [(lit "a", File 1); (lit "l", D); (lit "m", D)]) ++ flat_map g (walk true (root ++ [lit "l"]) D ++ walk true (root ++ [lit "m"]) D ++ [])).
    rewrite app_nil_r, flat_map_app, !app_length.
    change (length (g (root, [(lit "a", File 1); (lit "l", D); (lit "m", D)]))) with 1.
    change (2 ^ S (S b)) with (2 ^ S b + (2 ^ S b + 0)).
    pose proof (IH true (root ++ [lit "l"])) as E1. pose proof (IH true (root ++ [lit "m"])) as E2. fold D in E1, E2. lia. }
  specialize (K budget false []). unfold ex_loops at 2. rewrite view_dir. fold ex_loops.
  change (length (flat_map g (walk true [] (Dir false 0 (map (fun e => (fst e, view ex_loops budget (snd e)))
    [(lit "a", GFile 1); (lit "l", GTo []); (lit "m", GTo [])])))) = 2 ^ S budget - 1). lia.
Qed.
Print Assumptions C110_exponential_refuted.

(** ** A case: a link back to the dataset and one out of it *)
Definition ex_sub : gnode := GDir 0 [(lit "b.py", GFile 2); (lit "up", GTo [lit "data"])].
Definition ex_data : gnode := GDir 0 [(lit "a.py", GFile 1); (lit "sub", ex_sub); (lit "lib", GTo [lit "lib"]); (lit "f", GLink)].
Definition ex_top : gnode := GDir 0 [(lit "data", ex_data); (lit "lib", GDir 0 [(lit "c.py", GFile 3); (lit "c.txt", GFile 4)])].
Ltac entries := constructor; [cbn [map fst]; repeat (constructor; [intros H; simpl in H; intuition discriminate|]); constructor|].
Lemma ex_top_wf : gwf ex_top.
Proof.
  entries. intros n t H. destruct H as [E|[E|[]]]; injection E as <- <-; (split; [name_ok|]); entries; intros n t H.
  - destruct H as [E|[E|[E|[E|[]]]]]; injection E as <- <-; (split; [name_ok|]); try constructor.
    + cbn [map fst]. repeat (constructor; [intros H; simpl in H; intuition discriminate|]). constructor.
    + intros n t H. destruct H as [E|[E|[]]]; injection E as <- <-; (split; [name_ok|constructor]).
  - destruct H as [E|[E|[]]]; injection E as <- <-; (split; [name_ok|constructor]).
Qed.
Example C110_listed_ex :
  gwf ex_top /\ real_at ex_top [lit "data"] ex_data /\
  scan_links ex_top 0 (lit "/data") ex_data (Some [lit "py"]) = [lit "./a.py"; lit "sub/b.py"] /\
  scan_links ex_top 1 (lit "/data") ex_data (Some [lit "py"])
    = [lit "./a.py"; lit "sub/b.py"; lit "sub/up/a.py"; lit "sub/up/sub/b.py"; lit "lib/c.py"] /\
  route ex_top ex_data [lit "sub"; lit "up"; lit "lib"; lit "c.py"] 2 (GFile 3) /\
  In (lit "sub/up/lib/c.py") (scan_links ex_top 2 (lit "/data") ex_data (Some [lit "py"])).
Proof.
  split; [exact ex_top_wf|]. split; [econstructor; [left; reflexivity|constructor]|].
  split; [vm_compute; reflexivity|]. split; [vm_compute; reflexivity|]. split; [|vm_compute; auto 12].
  econstructor; [right; left; reflexivity|]. econstructor; [right; left; reflexivity|].
  apply route_link with (d := ex_data); [discriminate|econstructor; [left; reflexivity|constructor]|].
  econstructor; [right; right; left; reflexivity|].
  eapply route_link; [discriminate|econstructor; [right; left; reflexivity|constructor]|].
  econstructor; [left; reflexivity|constructor].
Qed.
(** links that stay inside; the time stamp is that of the dataset and of one step *)
Example C110_inside_ex :
  real_at ex_loop [] ex_loop /\ (forall p target, real_at ex_loop p (GTo target) -> exists q, target = [] ++ q) /\
  (forall p target, real_at ex_loop p (GTo target) -> exists m es, real_at ex_loop target (GDir m es)) /\
  scan_links ex_loop 2 (lit "d") ex_loop None = [lit "./a"; lit "l/a"; lit "l/l/a"] /\
  get_timestamp (fun s => s) 100 (view ex_loop 40 ex_loop) = get_timestamp (fun s => s) 100 (view ex_loop 1 ex_loop).
Proof.
  split; [constructor|]. split; [intros p target _; exists target; reflexivity|]. split; [|split; vm_compute; reflexivity].
  intros p target H. inversion H as [|? ? n t p' ? Hin H']; subst. destruct Hin as [E|[E|[]]]; injection E as <- <-; inversion H'; subst.
  exists 0%N, [(lit "a", GFile 1); (lit "l", GTo [])]. constructor.
Qed.
(** a dataset without links *)
Example C110_once_ex :
  let d := GDir 0 [(lit "a.py", GFile 1); (lit "s", GDir 0 [(lit "b.py", GFile 2)])] in
  (forall p target, ~ real_at d p (GTo target)) /\ scan_links d 40 (lit "d") d None = [lit "./a.py"; lit "s/b.py"].
Proof.
  split; [|vm_compute; reflexivity]. intros p target H. inversion H as [|? ? n t p' ? Hin H']; subst.
  destruct Hin as [E|[E|[]]]; injection E as <- <-; inversion H' as [|? ? n2 t2 p2 ? Hin2 H2]; subst.
  destruct Hin2 as [E|[]]; injection E as <- <-; inversion H2.
Qed.
