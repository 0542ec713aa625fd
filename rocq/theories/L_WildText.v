(** BPE over a whole text as in the textbook, and facts about texts cut into symbols, for C84. *)
From Verif Require Import M_Base L_Base M_Wild M_WildRun P_Wild.
From Coq Require Import Lia Sorting.Sorted.
Local Open Scope Z_scope.

(** ** The textbook algorithm *)
(** [a] and [b] are neighbours *)
Definition adjacent (s : list str) (a b : str) : Prop := exists A B, s = A ++ a :: b :: B.
(** the positions, counted in characters, where [a] is followed by [b]; [p] is the position of the first symbol *)
Fixpoint places (p : Z) (s : list str) (a b : str) : list Z :=
  match s with
  | x :: t => match t with
              | y :: _ => if eqb x a && eqb y b then p :: places (p + len x) t a b else places (p + len x) t a b
              | [] => []
              end
  | [] => []
  end.
(** every [a] followed by [b] becomes one symbol, from left to right *)
Fixpoint merge_text (a b : str) (s : list str) : list str :=
  match s with
  | x :: t => match t with
              | y :: t' => if eqb x a && eqb y b then (a ++ b) :: merge_text a b t' else x :: merge_text a b t
              | [] => [x]
              end
  | [] => []
  end.
(** how many that are *)
Definition n_merged (a b : str) (s : list str) : Z := Z.of_nat (length s) - Z.of_nat (length (merge_text a b s)).
(** [a b] is the most frequent pair, and the first one of them in the text *)
Definition best_pair (s : list str) (a b : str) : Prop :=
  adjacent s a b /\
  forall c d, adjacent s c d ->
    (length (places 0 s c d) < length (places 0 s a b))%nat \/
    (length (places 0 s c d) = length (places 0 s a b) /\ hd 0 (places 0 s a b) <= hd 0 (places 0 s c d)).
(** merging step by step, with what is reported, from one text to another *)
Inductive bpe_text : list str -> list (str * Z) -> list str -> Prop :=
| bt_none s : bpe_text s [] s
| bt_step s a b out s' : best_pair s a b -> bpe_text (merge_text a b s) out s' ->
    bpe_text s ((mkp a b, n_merged a b s) :: out) s'.

(** ** Symbols *)
Definition good (x : str) : Prop := x <> [] /\ no_char blank x.
Lemma good_len x : good x -> 0 < len x.
Proof. intros [N _]. unfold len. destruct x; [congruence|cbn; lia]. Qed.
Lemma len_app a b : len (a ++ b) = len a + len b.
Proof. unfold len. rewrite app_length. lia. Qed.
Lemma good_app a b : good a -> good b -> good (a ++ b).
Proof.
  intros [A1 A2] [B1 B2]. split; [destruct a; [congruence|discriminate]|]. intros H. apply in_app_or in H. destruct H; [apply A2|apply B2]; assumption.
Qed.
Lemma mkp_split a b : good a -> good b -> split_on blank (mkp a b) = [a; b].
Proof. intros [_ A] [_ B]. apply split_join; [discriminate|]. repeat constructor; assumption. Qed.
Lemma pfst_mkp a b : good a -> good b -> pfst (mkp a b) = a.
Proof. intros A B. unfold pfst. rewrite mkp_split by assumption. reflexivity. Qed.
Lemma psnd_mkp a b : good a -> good b -> psnd (mkp a b) = b.
Proof. intros A B. unfold psnd. rewrite mkp_split by assumption. reflexivity. Qed.
Lemma merge_mkp a b : good a -> good b -> merge_pair (mkp a b) = a ++ b.
Proof. intros A B. unfold merge_pair. rewrite mkp_split by assumption. cbn. reflexivity. Qed.
Lemma mkp_inj a b c d : good a -> good b -> good c -> good d -> mkp a b = mkp c d -> a = c /\ b = d.
Proof.
  intros A B C D E. split.
  - rewrite <- (pfst_mkp a b), E by assumption. apply pfst_mkp; assumption.
  - rewrite <- (psnd_mkp a b), E by assumption. apply psnd_mkp; assumption.
Qed.
Definition wf (k : str) : Prop := exists a b, good a /\ good b /\ k = mkp a b.
Lemma wf_eq k : wf k -> good (pfst k) /\ good (psnd k) /\ k = mkp (pfst k) (psnd k).
Proof. intros (a & b & A & B & ->). rewrite pfst_mkp, psnd_mkp by assumption. auto. Qed.

(** ** The symbol that starts at a position *)
Fixpoint sym (s : list str) (p : Z) : option str :=
  match s with
  | [] => None
  | x :: t => if p =? 0 then Some x else if p <? len x then None else sym t (p - len x)
  end.
Lemma sym_nonneg s p x : Forall good s -> sym s p = Some x -> 0 <= p.
Proof.
  intros G. revert p. induction G as [|y s Gy G IH]; intros p H; [discriminate|]. cbn in H.
  destruct (Z.eqb_spec p 0); [lia|]. destruct (Z.ltb_spec p (len y)); [discriminate|]. apply IH in H. pose proof (good_len y Gy). lia.
Qed.
Lemma sym_neg s p : Forall good s -> p < 0 -> sym s p = None.
Proof. intros G L. destruct (sym s p) as [x|] eqn:E; [|reflexivity]. apply sym_nonneg in E; [lia|exact G]. Qed.
Lemma sym_in s p x : sym s p = Some x -> In x s.
Proof.
  revert p. induction s as [|y s IH]; intros p H; [discriminate|]. cbn in H.
  destruct (p =? 0); [left; congruence|]. destruct (p <? len y); [discriminate|]. right. apply (IH _ H).
Qed.
Lemma sym_good s p x : Forall good s -> sym s p = Some x -> good x.
Proof. intros G H. rewrite Forall_forall in G. apply G. apply (sym_in _ _ _ H). Qed.
Lemma sym_inside s p x d : Forall good s -> sym s p = Some x -> 0 < d < len x -> sym s (p + d) = None.
Proof.
  intros G. revert p. induction G as [|y s Gy G IH]; intros p H D; [discriminate|]. cbn [sym] in *.
  destruct (Z.eqb_spec p 0) as [E|N].
  - subst p. injection H as ->. destruct (Z.eqb_spec (0 + d) 0); [lia|]. destruct (Z.ltb_spec (0 + d) (len x)); [reflexivity|lia].
  - destruct (Z.ltb_spec p (len y)); [discriminate|]. pose proof (good_len y Gy).
    destruct (Z.eqb_spec (p + d) 0); [lia|]. destruct (Z.ltb_spec (p + d) (len y)); [lia|].
    replace (p + d - len y) with (p - len y + d) by lia. apply IH; [exact H|exact D].
Qed.
Lemma sym_apart s p q x y : Forall good s -> sym s p = Some x -> sym s q = Some y -> p < q -> p + len x <= q.
Proof.
  intros G X Y L. destruct (Z.le_gt_cases (p + len x) q) as [H|H]; [exact H|exfalso].
  rewrite (ltac:(lia) : q = p + (q - p)) in Y. rewrite (sym_inside s p x (q - p) G X) in Y; [discriminate|lia].
Qed.
(** two symbols that end at the same position start at the same *)
Lemma sym_end s p q x y : Forall good s -> sym s p = Some x -> sym s q = Some y -> p + len x = q + len y -> p = q.
Proof.
  intros G X Y E. pose proof (good_len x (sym_good _ _ _ G X)). pose proof (good_len y (sym_good _ _ _ G Y)).
  destruct (Z.lt_trichotomy p q) as [L|[L|L]]; [|exact L|].
  - pose proof (sym_apart s p q x y G X Y L). lia.
  - pose proof (sym_apart s q p y x G Y X L). lia.
Qed.

Fixpoint total (s : list str) : Z := match s with [] => 0 | x :: t => len x + total t end.
Lemma total_nonneg s : 0 <= total s.
Proof. induction s as [|x s IH]; cbn; [lia|]. unfold len. lia. Qed.
Lemma total_app s t : total (s ++ t) = total s + total t.
Proof. induction s as [|x s IH]; cbn; lia. Qed.
Lemma sym_app s t p : Forall good s -> sym (s ++ t) (total s + p) = if p <? 0 then sym (s ++ t) (total s + p) else sym t p.
Proof.
  intros G. destruct (Z.ltb_spec p 0); [reflexivity|]. revert p H. induction G as [|x s Gx G IH]; intros p H; cbn [total app]; [reflexivity|].
  cbn [sym]. pose proof (good_len x Gx). pose proof (total_nonneg s).
  destruct (Z.eqb_spec (len x + total s + p) 0); [lia|]. destruct (Z.ltb_spec (len x + total s + p) (len x)); [lia|].
  replace (len x + total s + p - len x) with (total s + p) by lia. apply IH, H.
Qed.
Lemma sym_at s x t : Forall good s -> sym (s ++ x :: t) (total s) = Some x.
Proof. intros G. rewrite <- (Z.add_0_r (total s)). rewrite sym_app by exact G. reflexivity. Qed.
Lemma sym_find s p x : Forall good s -> sym s p = Some x -> exists A B, s = A ++ x :: B /\ p = total A.
Proof.
  intros G. revert p. induction G as [|y s Gy G IH]; intros p H; [discriminate|]. cbn in H.
  destruct (Z.eqb_spec p 0) as [E0|N]; [subst p; injection H as ->; exists [], s; auto|].
  destruct (p <? len y); [discriminate|]. destruct (IH _ H) as (A & B & -> & E). exists (y :: A), B. cbn. split; [reflexivity|lia].
Qed.
Lemma adjacent_sym s a b : Forall good s -> (adjacent s a b <-> exists p, sym s p = Some a /\ sym s (p + len a) = Some b).
Proof.
  intros G. split.
  - intros (A & B & ->). apply Forall_app in G. destruct G as [GA G]. pose proof (Forall_inv G) as Ga. exists (total A). split; [apply sym_at, GA|].
    replace (A ++ a :: b :: B) with ((A ++ [a]) ++ b :: B) by (rewrite <- app_assoc; reflexivity).
    replace (total A + len a) with (total (A ++ [a])) by (rewrite total_app; cbn; lia). apply sym_at. apply Forall_app. auto.
  - intros (p & X & Y). destruct (sym_find s p a G X) as (A & B & -> & ->). apply Forall_app in G. destruct G as [GA G]. pose proof (Forall_inv G) as Ga.
    replace (A ++ a :: B) with ((A ++ [a]) ++ B) in Y by (rewrite <- app_assoc; reflexivity).
    replace (total A + len a) with (total (A ++ [a]) + 0) in Y by (rewrite total_app; cbn; lia).
    rewrite sym_app in Y by (apply Forall_app; auto). cbn in Y. destruct B as [|y B]; [discriminate|]. cbn in Y. injection Y as ->. exists A, B. reflexivity.
Qed.

(** ** Positions of a pair *)
Lemma in_places p0 s a b p : Forall good s -> In p (places p0 s a b) <-> sym s (p - p0) = Some a /\ sym s (p - p0 + len a) = Some b.
Proof.
  intros G. revert p0. induction G as [|x t Gx G IH]; intros p0; [cbn; split; [tauto|intros [X _]; discriminate]|].
  pose proof (good_len x Gx) as Lx. cbn [places]. destruct t as [|y t].
  - cbn. split; [tauto|]. intros [X Y]. destruct (Z.eqb_spec (p - p0) 0); [|destruct (p - p0 <? len x); discriminate].
    injection X as ->. destruct (Z.eqb_spec (p - p0 + len a) 0); [lia|]. destruct (p - p0 + len a <? len a); discriminate.
  - assert (R : In p (places (p0 + len x) (y :: t) a b) <->
                (p - p0 <> 0 /\ sym (x :: y :: t) (p - p0) = Some a /\ sym (x :: y :: t) (p - p0 + len a) = Some b)).
    { rewrite IH. replace (p - (p0 + len x)) with (p - p0 - len x) by lia. split.
      - intros [X Y]. pose proof (sym_nonneg _ _ _ G X). pose proof (good_len a (sym_good _ _ _ G X)). split; [lia|]. cbn [sym]. split.
        + destruct (Z.eqb_spec (p - p0) 0); [lia|]. destruct (Z.ltb_spec (p - p0) (len x)); [lia|]. exact X.
        + destruct (Z.eqb_spec (p - p0 + len a) 0); [lia|]. destruct (Z.ltb_spec (p - p0 + len a) (len x)); [lia|].
          replace (p - p0 + len a - len x) with (p - p0 - len x + len a) by lia. exact Y.
      - intros (N & X & Y). cbn [sym] in X, Y. destruct (Z.eqb_spec (p - p0) 0); [lia|]. destruct (Z.ltb_spec (p - p0) (len x)); [discriminate|].
        pose proof (good_len a (sym_good _ _ _ G X)).
        destruct (Z.eqb_spec (p - p0 + len a) 0); [lia|]. destruct (Z.ltb_spec (p - p0 + len a) (len x)); [lia|].
        replace (p - p0 - len x + len a) with (p - p0 + len a - len x) by lia. auto. }
    assert (R0 : sym (x :: y :: t) 0 = Some a /\ sym (x :: y :: t) (0 + len a) = Some b <-> x = a /\ y = b).
    { cbn [sym]. rewrite Z.eqb_refl. split.
      - intros [X Y]. injection X as ->. destruct (Z.eqb_spec (0 + len a) 0); [lia|]. destruct (Z.ltb_spec (0 + len a) (len a)); [lia|].
        replace (0 + len a - len a) with 0 in Y by lia. cbn in Y. split; congruence.
      - intros [-> ->]. split; [reflexivity|]. destruct (Z.eqb_spec (0 + len a) 0); [lia|]. destruct (Z.ltb_spec (0 + len a) (len a)); [lia|].
        replace (0 + len a - len a) with 0 by lia. reflexivity. }
    destruct (eqb x a && eqb y b) eqn:E.
    + apply andb_prop in E. rewrite !eqb_eq in E. cbn [In]. rewrite R. split.
      * intros [<-|H]; [rewrite Z.sub_diag; apply R0, E|tauto].
      * intros H. destruct (Z.eq_dec (p - p0) 0); [left; lia|right; tauto].
    + rewrite R. split; [tauto|]. intros H. split; [|exact H]. intros Z0. rewrite Z0 in H. apply R0 in H. destruct H as [-> ->].
      rewrite !eqb_refl in E. discriminate.
Qed.
Lemma places_ge p0 s a b p : Forall good s -> In p (places p0 s a b) -> p0 <= p.
Proof. intros G H. apply in_places in H; [|exact G]. destruct H as [H _]. apply sym_nonneg in H; [lia|exact G]. Qed.
Lemma places_sorted p0 s a b : Forall good s -> increasing (places p0 s a b).
Proof.
  intros G. revert p0. induction G as [|x t Gx G IH]; intros p0; [constructor|]. cbn [places]. destruct t as [|y t]; [constructor|].
  destruct (eqb x a && eqb y b); [|apply IH]. constructor; [apply IH|]. apply Forall_forall. intros p H. apply places_ge in H; [|exact G].
  pose proof (good_len x Gx). lia.
Qed.
Lemma sorted_eq (l m : list Z) : increasing l -> increasing m -> (forall x, In x l <-> In x m) -> l = m.
Proof.
  intros L. revert m. induction L as [|x l L IH F]; intros m M H.
  - destruct m as [|y m]; [reflexivity|]. destruct (proj2 (H y) (or_introl eq_refl)).
  - destruct M as [|y m M F'].
    + destruct (proj1 (H x) (or_introl eq_refl)).
    + rewrite Forall_forall in F, F'. assert (x = y) as <-.
      { destruct (proj1 (H x) (or_introl eq_refl)) as [->|X]; [reflexivity|]. destruct (proj2 (H y) (or_introl eq_refl)) as [->|Y]; [reflexivity|].
        specialize (F y Y). specialize (F' x X). lia. }
      f_equal. apply IH; [exact M|]. intros z. split; intros Z0.
      * destruct (proj1 (H z) (or_intror Z0)) as [<-|X]; [|exact X]. specialize (F x Z0). lia.
      * destruct (proj2 (H z) (or_intror Z0)) as [<-|X]; [|exact X]. specialize (F' x Z0). lia.
Qed.
Lemma filter_sorted f (l : list Z) : increasing l -> increasing (filter f l).
Proof.
  intros H. induction H as [|x l H IH F]; [constructor|]. cbn. destruct (f x); [|exact IH]. constructor; [exact IH|].
  rewrite Forall_forall in *. intros y Hy. apply filter_In in Hy. apply F, Hy.
Qed.

(** ** Merging *)
Fixpoint mpos (p : Z) (a b : str) (s : list str) : list Z :=
  match s with
  | x :: t => match t with
              | y :: t' => if eqb x a && eqb y b then p :: mpos (p + len a + len b) a b t' else mpos (p + len x) a b t
              | [] => []
              end
  | [] => []
  end.
(** induction along merge_text *)
Lemma merge_ind (a b : str) (P : list str -> Prop) :
  P [] -> (forall x, P [x]) -> (forall t, P t -> P (a :: b :: t)) -> (forall x y t, ~ (x = a /\ y = b) -> P (y :: t) -> P (x :: y :: t)) -> forall s, P s.
Proof.
  intros P0 P1 P2 P3. assert (G : forall n s, (length s <= n)%nat -> P s).
  { induction n as [|n IH]; intros s L; [destruct s; [exact P0|cbn in L; lia]|]. destruct s as [|x [|y t]]; [exact P0|apply P1|].
    destruct (eqb_spec x a) as [->|N]; [destruct (eqb_spec y b) as [->|N]|].
    - apply P2, IH. cbn in L. lia.
    - apply P3; [tauto|]. apply IH. cbn in *. lia.
    - apply P3; [tauto|]. apply IH. cbn in *. lia. }
  intros s. apply (G (length s)). lia.
Qed.
Lemma step_yes {A} (a b : str) (u v : A) : (if eqb a a && eqb b b then u else v) = u.
Proof. rewrite !eqb_refl. reflexivity. Qed.
Lemma step_no {A} (x y a b : str) (u v : A) : ~ (x = a /\ y = b) -> (if eqb x a && eqb y b then u else v) = v.
Proof. intros N. destruct (eqb_spec x a); [destruct (eqb_spec y b); [tauto|reflexivity]|reflexivity]. Qed.

Lemma merge_no a b x y t : ~ (x = a /\ y = b) -> merge_text a b (x :: y :: t) = x :: merge_text a b (y :: t).
Proof. intros N. apply (step_no x y a b _ _ N). Qed.
Lemma merge_yes a b t : merge_text a b (a :: b :: t) = (a ++ b) :: merge_text a b t.
Proof. apply step_yes. Qed.
Lemma mpos_no p a b x y t : ~ (x = a /\ y = b) -> mpos p a b (x :: y :: t) = mpos (p + len x) a b (y :: t).
Proof. intros N. apply (step_no x y a b _ _ N). Qed.
Lemma mpos_yes p a b t : mpos p a b (a :: b :: t) = p :: mpos (p + len a + len b) a b t.
Proof. apply step_yes. Qed.
Lemma places_no p a b x y t : ~ (x = a /\ y = b) -> places p (x :: y :: t) a b = places (p + len x) (y :: t) a b.
Proof. intros N. apply (step_no x y a b _ _ N). Qed.
Lemma places_yes p a b t : places p (a :: b :: t) a b = p :: places (p + len a) (b :: t) a b.
Proof. apply (step_yes a b). Qed.
Lemma merge_good a b s : good a -> good b -> Forall good s -> Forall good (merge_text a b s).
Proof.
  intros Ga Gb. induction s as [|x|t IH|x y t N IH] using (merge_ind a b); intros G.
  - exact G.
  - exact G.
  - rewrite ?merge_yes, ?mpos_yes, ?places_yes. inversion G as [|? ? _ G1]; subst. inversion G1; subst. constructor; [apply good_app; assumption|auto].
  - rewrite ?merge_no, ?mpos_no, ?places_no by exact N. inversion G; subst. constructor; auto.
Qed.
Lemma merge_concat a b s : List.concat (merge_text a b s) = List.concat s.
Proof.
  induction s as [|x|t IH|x y t N IH] using (merge_ind a b); try reflexivity.
  - rewrite ?merge_yes, ?mpos_yes, ?places_yes. cbn [List.concat]. rewrite IH, <- app_assoc. reflexivity.
  - rewrite ?merge_no, ?mpos_no, ?places_no by exact N. cbn [List.concat]. rewrite IH. reflexivity.
Qed.
Lemma merge_count a b s p : length s = (length (merge_text a b s) + length (mpos p a b s))%nat.
Proof.
  revert p. induction s as [|x|t IH|x y t N IH] using (merge_ind a b); intros p; try reflexivity.
  - rewrite ?merge_yes, ?mpos_yes, ?places_yes. cbn [length]. rewrite (IH (p + len a + len b)). lia.
  - rewrite ?merge_no, ?mpos_no, ?places_no by exact N. cbn [length] in *. rewrite (IH (p + len x)). lia.
Qed.
Lemma n_merged_mpos a b s : n_merged a b s = Z.of_nat (length (mpos 0 a b s)).
Proof. unfold n_merged. rewrite (merge_count a b s 0). lia. Qed.
Lemma mpos_ge p0 a b s p : good a -> good b -> Forall good s -> In p (mpos p0 a b s) -> p0 <= p.
Proof.
  intros Ga Gb. pose proof (good_len a Ga). pose proof (good_len b Gb).
  revert p0. induction s as [|x|t IH|x y t N IH] using (merge_ind a b); intros p0 G.
  - intros [].
  - intros [].
  - rewrite ?merge_yes, ?mpos_yes, ?places_yes. inversion G as [|? ? _ G1]; subst. inversion G1; subst. intros [<-|I]; [lia|]. apply IH in I; [lia|assumption].
  - rewrite ?merge_no, ?mpos_no, ?places_no by exact N. inversion G as [|? ? Gx G1]; subst. intros I. apply IH in I; [|assumption]. pose proof (good_len x Gx). lia.
Qed.
Lemma mpos_spaced p0 a b s : good a -> good b -> Forall good s -> spaced (len a + len b) (mpos p0 a b s).
Proof.
  intros Ga Gb. revert p0. induction s as [|x|t IH|x y t N IH] using (merge_ind a b); intros p0 G.
  - constructor.
  - constructor.
  - rewrite ?merge_yes, ?mpos_yes, ?places_yes. inversion G as [|? ? _ G1]; subst. inversion G1; subst. constructor; [auto|]. apply Forall_forall. intros q I.
    apply mpos_ge in I; [|assumption|assumption|assumption]. lia.
  - rewrite ?merge_no, ?mpos_no, ?places_no by exact N. inversion G; subst. auto.
Qed.

(** what merging does to the symbols *)
Lemma sym_merge_gen p0 a b s q : good a -> good b -> Forall good s ->
  sym (merge_text a b s) (q - p0) =
    if zmem q (mpos p0 a b s) then Some (a ++ b) else if zmem (q - len a) (mpos p0 a b s) then None else sym s (q - p0).
Proof.
  intros Ga Gb. pose proof (good_len a Ga) as La. pose proof (good_len b Gb) as Lb.
  revert p0. induction s as [|x|t IH|x y t N IH] using (merge_ind a b); intros p0 G; try reflexivity.
  - rewrite ?merge_yes, ?mpos_yes, ?places_yes. inversion G as [|? ? _ G1]; subst. inversion G1 as [|? ? _ G2]; subst. specialize (IH (p0 + len a + len b) G2).
    cbn [zmem existsb]. fold (zmem q (mpos (p0 + len a + len b) a b t)) (zmem (q - len a) (mpos (p0 + len a + len b) a b t)). cbn [sym]. rewrite len_app.
    assert (NM : forall r, r < p0 + len a + len b -> zmem r (mpos (p0 + len a + len b) a b t) = false).
    { intros r L. apply zmem_false. intros I. apply mpos_ge in I; [lia|assumption|assumption|assumption]. }
    destruct (Z.eqb_spec q p0) as [->|N1].
    { rewrite Z.sub_diag. reflexivity. }
    destruct (Z.eqb_spec (q - p0) 0); [lia|]. cbn [orb]. destruct (Z.ltb_spec (q - p0) (len a + len b)) as [L|L].
    + rewrite (NM q) by lia. rewrite (NM (q - len a)) by lia. rewrite orb_false_r. destruct (Z.eqb_spec (q - len a) p0); [reflexivity|].
      destruct (Z.ltb_spec (q - p0) (len a)); [reflexivity|]. destruct (Z.eqb_spec (q - p0 - len a) 0); [lia|].
      destruct (Z.ltb_spec (q - p0 - len a) (len b)); [reflexivity|lia].
    + replace (q - p0 - (len a + len b)) with (q - (p0 + len a + len b)) by lia. rewrite IH.
      destruct (zmem q (mpos (p0 + len a + len b) a b t)); [reflexivity|]. destruct (Z.eqb_spec (q - len a) p0); [lia|]. cbn [orb].
      destruct (zmem (q - len a) (mpos (p0 + len a + len b) a b t)); [reflexivity|].
      destruct (Z.ltb_spec (q - p0) (len a)); [lia|]. destruct (Z.eqb_spec (q - p0 - len a) 0); [lia|].
      destruct (Z.ltb_spec (q - p0 - len a) (len b)); [lia|]. f_equal. lia.
  - rewrite ?merge_no, ?mpos_no, ?places_no by exact N. inversion G as [|? ? Gx G1]; subst. specialize (IH (p0 + len x) G1). pose proof (good_len x Gx) as Lx.
    assert (NM : forall r, r < p0 + len x -> zmem r (mpos (p0 + len x) a b (y :: t)) = false).
    { intros r L. apply zmem_false. intros I. apply mpos_ge in I; [lia|assumption|assumption|assumption]. }
    remember (y :: t) as u eqn:Eu. cbn [sym].
    destruct (Z.eqb_spec (q - p0) 0) as [E|E].
    + rewrite (NM q) by lia. rewrite (NM (q - len a)) by lia. reflexivity.
    + destruct (Z.ltb_spec (q - p0) (len x)) as [L|L].
      * rewrite (NM q) by lia. rewrite (NM (q - len a)) by lia. reflexivity.
      * replace (q - p0 - len x) with (q - (p0 + len x)) by lia. exact IH.
Qed.
Lemma sym_merge a b s q : good a -> good b -> Forall good s ->
  sym (merge_text a b s) q =
    if zmem q (mpos 0 a b s) then Some (a ++ b) else if zmem (q - len a) (mpos 0 a b s) then None else sym s q.
Proof. intros Ga Gb G. pose proof (sym_merge_gen 0 a b s q Ga Gb G) as H. rewrite Z.sub_0_r in H. exact H. Qed.

(** a merged position has the pair; of two overlapping ones the first is merged *)
Lemma mpos_facts p0 a b s p : good a -> good b -> Forall good s ->
  (In p (mpos p0 a b s) <-> In p (places p0 s a b) /\ ~ In (p - len a) (mpos p0 a b s)).
Proof.
  intros Ga Gb. pose proof (good_len a Ga) as La. pose proof (good_len b Gb) as Lb.
  revert p0. induction s as [|x|t IH|x y t N IH] using (merge_ind a b); intros p0 G.
  - cbn. tauto.
  - cbn. tauto.
  - inversion G as [|? ? _ G1]; subst. inversion G1 as [|? ? _ G2]; subst. specialize (IH (p0 + len a + len b) G2).
    rewrite mpos_yes.
    assert (M : forall r, In r (mpos (p0 + len a + len b) a b t) -> p0 + len a + len b <= r).
    { intros r I. apply mpos_ge in I; assumption. }
    assert (Pl : In p (places p0 (a :: b :: t) a b) <->
       p = p0 \/ (p = p0 + len a /\ match t with z :: _ => b = a /\ z = b | [] => False end) \/ In p (places (p0 + len a + len b) t a b)).
    { rewrite ?merge_yes, ?mpos_yes, ?places_yes. cbn [In]. destruct t as [|z t]; [cbn; intuition|].
      destruct (eqb_spec b a) as [Eb|Nb]; [destruct (eqb_spec z b) as [Ez|Nz]|].
      - subst b z. rewrite places_yes. cbn [In]. intuition congruence.
      - rewrite places_no by tauto. intuition congruence.
      - rewrite places_no by tauto. intuition congruence. }
    cbn [In]. rewrite Pl. split.
    + intros [<-|I].
      * split; [auto|]. intros [X|X]; [lia|]. apply M in X. lia.
      * pose proof (M p I). apply IH in I. destruct I as [I1 I2]. split; [auto|]. intros [X|X]; [lia|]. exact (I2 X).
    + intros [[X|[[X _]|X]] NI].
      * left. lia.
      * exfalso. apply NI. left. lia.
      * right. apply IH. split; [exact X|]. intros Y. apply NI. right. exact Y.
  - inversion G as [|? ? Gx G1]; subst. specialize (IH (p0 + len x) G1). rewrite ?merge_no, ?mpos_no, ?places_no by exact N. rewrite IH.
    rewrite ?merge_no, ?mpos_no, ?places_no by exact N. reflexivity.
Qed.

(** ** The same symbol is never made in two ways *)
Definition chars (w : str) : list str := map (fun c => [c]) w.
Lemma chars_concat w : List.concat (chars w) = w.
Proof. induction w as [|c w IH]; cbn; [reflexivity|]. f_equal. exact IH. Qed.
Lemma merge_split a b s L1 L2 : merge_text a b s = L1 ++ L2 ->
  exists l1 l2, s = l1 ++ l2 /\ merge_text a b l1 = L1 /\ merge_text a b l2 = L2.
Proof.
  revert L1. induction s as [|x|t IH|x y t N IH] using (merge_ind a b); intros L1.
  - intros E. symmetry in E. apply app_eq_nil in E. destruct E as [-> ->]. exists [], []. auto.
  - intros E. destruct L1 as [|z L1]; [exists [], [x]; auto|]. injection E as <- E. symmetry in E. apply app_eq_nil in E. destruct E as [-> ->].
    exists [x], []. auto.
  - rewrite ?merge_yes, ?mpos_yes, ?places_yes. intros E. destruct L1 as [|z L1].
    + exists [], (a :: b :: t). cbn [app] in *. rewrite ?merge_yes, ?mpos_yes, ?places_yes. auto.
    + injection E as <- E. destruct (IH L1 E) as (l1 & l2 & -> & E1 & E2). exists (a :: b :: l1), l2. cbn [app]. rewrite ?merge_yes, ?mpos_yes, ?places_yes, E1. auto.
  - rewrite ?merge_no, ?mpos_no, ?places_no by exact N. intros E. destruct L1 as [|z L1].
    + exists [], (x :: y :: t). cbn [app]. split; [reflexivity|]. split; [reflexivity|].  rewrite ?merge_no, ?mpos_no, ?places_no by exact N. exact E.
    + injection E as <- E. destruct (IH L1 E) as (l1 & l2 & E0 & E1 & E2). exists (x :: l1), l2. cbn [app]. rewrite E0. split; [reflexivity|].
      split; [|exact E2]. destruct l1 as [|w l1]; [cbn in *; subst; reflexivity|]. cbn [app] in E0. injection E0 as <- _. 
      rewrite ?merge_no, ?mpos_no, ?places_no by exact N. f_equal. exact E1.
Qed.
Definition pair_list := list (str * str).
Definition apply_merges (ms : pair_list) (s : list str) : list str := fold_left (fun s m => merge_text (fst m) (snd m) s) ms s.
Lemma apply_snoc ms a b s : apply_merges (ms ++ [(a, b)]) s = merge_text a b (apply_merges ms s).
Proof. unfold apply_merges. rewrite fold_left_app. reflexivity. Qed.

(** every part of the text is what merging makes of its characters alone *)
Definition local (ms : pair_list) (s : list str) : Prop := forall A B C, s = A ++ B ++ C -> apply_merges ms (chars (List.concat B)) = B.
Lemma local_init w : local [] (chars w).
Proof.
  intros A B C E. cbn. unfold chars in E. apply map_eq_app in E. destruct E as (w1 & w2 & -> & <- & E). symmetry in E. apply eq_sym in E.
  apply map_eq_app in E. destruct E as (w3 & w4 & -> & <- & _). unfold chars at 1. f_equal. apply chars_concat.
Qed.
Lemma local_step ms a b s : local ms s -> local (ms ++ [(a, b)]) (merge_text a b s).
Proof.
  intros L A B C E. destruct (merge_split a b s A (B ++ C) E) as (l1 & l2 & -> & _ & E2).
  destruct (merge_split a b l2 B C E2) as (l3 & l4 & -> & E3 & _). rewrite apply_snoc. subst B. rewrite merge_concat.
  rewrite (L l1 l3 l4 eq_refl). reflexivity.
Qed.
(** [x] is what merging makes of its characters *)
Definition settled (ms : pair_list) (x : str) : Prop := apply_merges ms (chars x) = [x].
Lemma settled_symbol ms s x : local ms s -> In x s -> settled ms x.
Proof.
  intros L I. apply in_split in I. destruct I as (A & B & ->). unfold settled. specialize (L A [x] B eq_refl). cbn [List.concat] in L. rewrite app_nil_r in L. exact L.
Qed.
Lemma settled_step ms a b x : settled ms x -> settled (ms ++ [(a, b)]) x.
Proof. unfold settled. intros H. rewrite apply_snoc, H. reflexivity. Qed.
Lemma new_symbol ms s a b x : local ms s -> adjacent s a b -> settled ms x -> x <> a ++ b.
Proof.
  intros L (A & B & ->) S ->. unfold settled in S. specialize (L A [a; b] B eq_refl). cbn [List.concat] in L. rewrite app_nil_r in L. congruence.
Qed.
