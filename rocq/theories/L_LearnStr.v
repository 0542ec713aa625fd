(** Lemmas on learning with words as strings. *)
From Verif Require Import M_Base L_Base S_Bpe L_Bpe M_Merge L_Merge M_BpeEncode M_Learn L_Learn M_Regex L_Regex M_Vocab M_Registry
  M_BpeRun M_LearnStr.
From Coq Require Import Lia.

(** ** Words as strings *)
Definition ok_sym (x : str) : Prop := x <> [] /\ no_char 32 x.
Definition ok_pair (p : pair) : Prop := ok_sym (fst p) /\ ok_sym (snd p).
(** a word that can be written as a string: symbols without spaces; it does not end with a line feed *)
Definition ok_word (s : list str) : Prop := s <> [] /\ Forall ok_sym s /\ last (List.concat s) 0%N <> 10%N.

Definition sp : str := [32%N].
Definition tailstr (r : list str) : str := List.concat (map (fun y => 32%N :: y) r).
Definition headstr (u : list str) : str := List.concat (map (fun y : str => y ++ sp) u).
Notation joined s := (join (lit " ") s).

Lemma joined_cons x r : joined (x :: r) = x ++ tailstr r.
Proof.
  revert x. induction r as [|y r IH]; intros x; [simpl; rewrite app_nil_r; reflexivity|].
  rewrite join_cons by congruence. rewrite IH. reflexivity.
Qed.
Lemma joined_head u x r : joined (u ++ x :: r) = headstr u ++ x ++ tailstr r.
Proof.
  induction u as [|y u IH]; [apply joined_cons|]. change ((y :: u) ++ x :: r) with (y :: (u ++ x :: r)).
  rewrite join_cons by (destruct u; discriminate). rewrite IH. unfold headstr. cbn [map List.concat].
  rewrite <- !app_assoc. reflexivity.
Qed.

Lemma not_space_spec c : not_space c = true <-> c <> 32%N.
Proof. unfold not_space. destruct (N.eqb_spec 32 c); simpl; split; congruence. Qed.
Lemma no_space_cons c x : no_char 32 (c :: x) -> not_space c = true /\ no_char 32 x.
Proof.
  intros H. split; [apply not_space_spec; intros ->; apply H; left; reflexivity|]. intros Hin. apply H. right. exact Hin.
Qed.
Lemma tailstr_start r : tailstr r = [] \/ exists t, tailstr r = 32%N :: t.
Proof. destruct r as [|y r]; [left; reflexivity|right; eexists; reflexivity]. Qed.

(** ** The groups *)
Lemma before_mid (x : str) r : no_char 32 x ->
  List.concat (map (ms (Chr (N.eqb 32))) (ms (Star (Chr not_space)) (x ++ tailstr r))) =
  match r with [] => [] | _ => [joined r] end.
Proof.
  induction x as [|c x IH]; intros Hx.
  - cbn [app]. destruct r as [|y r]; [reflexivity|]. change (tailstr (y :: r)) with (32%N :: y ++ tailstr r).
    rewrite star_chr_cons. cbn [not_space N.eqb Pos.eqb negb app map ms List.concat]. rewrite joined_cons. reflexivity.
  - apply no_space_cons in Hx as [Hc Hx]. cbn [app]. rewrite star_chr_cons, Hc, map_app, concat_app, (IH Hx).
    cbn [map ms List.concat]. assert (E : N.eqb 32 c = false).
    { apply not_space_spec in Hc. destruct (N.eqb_spec 32 c); congruence. }
    rewrite E. cbn [app]. rewrite app_nil_r. reflexivity.
Qed.
Lemma before_spec (x : str) r : no_char 32 x -> x <> [] ->
  ms re_before (x ++ tailstr r) = match r with [] => [] | _ => [joined r] end.
Proof.
  intros Hx Hn. destruct x as [|c x]; [congruence|]. apply no_space_cons in Hx as [Hc Hx].
  unfold re_before. change (ms (Seq (Plus (Chr not_space)) (Chr (N.eqb 32))) ((c :: x) ++ tailstr r))
    with (List.concat (map (ms (Chr (N.eqb 32))) (ms (Plus (Chr not_space)) (c :: (x ++ tailstr r))))).
  rewrite plus_chr_cons, Hc. apply before_mid, Hx.
Qed.
Lemma before_space t : ms re_before (32%N :: t) = [].
Proof. reflexivity. Qed.
Lemma before_nil : ms re_before [] = [].
Proof. reflexivity. Qed.

Fixpoint strip_prefix (x s : str) : option str :=
  match x, s with
  | [], _ => Some s
  | c :: x', d :: s' => if N.eqb c d then strip_prefix x' s' else None
  | _, _ => None
  end.
Lemma ms_str x s : ms (Str x) s = match strip_prefix x s with Some t => [t] | None => [] end.
Proof.
  revert s. induction x as [|c x IH]; intros s; [reflexivity|]. cbn [Str ms strip_prefix]. destruct s as [|d s]; [reflexivity|].
  destruct (N.eqb c d); [|reflexivity]. cbn [map List.concat]. rewrite IH, app_nil_r. reflexivity.
Qed.
Lemma strip_prefix_some x s t : strip_prefix x s = Some t <-> s = x ++ t.
Proof.
  revert s. induction x as [|c x IH]; intros s; simpl; [split; congruence|]. destruct s as [|d s]; [split; discriminate|].
  destruct (N.eqb_spec c d) as [->|Hn].
  - rewrite IH. split; [intros ->; reflexivity|]. intros E. injection E as ->. reflexivity.
  - split; [discriminate|]. intros E. injection E as -> _. congruence.
Qed.

Definition prefix_pair (p : pair) (r : list str) : option (list str) :=
  match r with a :: b :: v => if eqb (a, b) p then Some v else None | _ => None end.

(** a symbol, and what follows up to the next space *)
Lemma symbol_prefix (a x : str) t r : no_char 32 a -> no_char 32 x ->
  a ++ 32%N :: t = x ++ tailstr r -> a = x /\ tailstr r = 32%N :: t.
Proof.
  revert x. induction a as [|c a IH]; intros x Ha Hx E.
  - destruct x as [|d x]; [split; [reflexivity|symmetry; exact E]|]. injection E as <- _. exfalso. apply Hx. left. reflexivity.
  - destruct x as [|d x].
    + cbn [app] in E. destruct (tailstr_start r) as [Et|[t' Et]]; rewrite Et in E; [discriminate|].
      injection E as -> _. exfalso. apply Ha. left. reflexivity.
    + cbn [app] in E. injection E as <- E. apply no_space_cons in Ha as [_ Ha]. apply no_space_cons in Hx as [_ Hx].
      destruct (IH x Ha Hx E) as [-> E2]. auto.
Qed.

Lemma symbol_prefix2 (b y : str) t2 v : no_char 32 b -> no_char 32 y -> y ++ tailstr v = b ++ t2 ->
  exists y', y = b ++ y' /\ t2 = y' ++ tailstr v.
Proof.
  revert y. induction b as [|c b IH]; intros y Hb Hy E; [exists y; split; [reflexivity|symmetry; exact E]|].
  destruct y as [|d y].
  - cbn [app] in E. destruct (tailstr_start v) as [Et|[t' Et]]; rewrite Et in E; [discriminate|].
    injection E as <- _. exfalso. apply Hb. left. reflexivity.
  - cbn [app] in E. injection E as <- E. apply no_space_cons in Hb as [_ Hb]. apply no_space_cons in Hy as [_ Hy].
    destruct (IH y Hb Hy E) as (y' & -> & ->). exists y'. auto.
Qed.

Definition ends_ok (r : list str) : Prop := last (List.concat r) 0%N <> 10%N.

(** the second and the third group, at the beginning of a symbol *)
Lemma pair_here p r : ok_pair p -> Forall ok_sym r -> ends_ok r ->
  match prefix_pair p r with
  | Some v => exists l, List.concat (map (fun t2 => map (fun t3 => (joined r, t2, t3)) (group3 t2)) (group2 p (joined r)))
                        = (joined r, tailstr v, match v with [] => [] | _ :: w => tailstr w end) :: l
  | None => List.concat (map (fun t2 => map (fun t3 => (joined r, t2, t3)) (group3 t2)) (group2 p (joined r))) = []
  end.
Proof.
  intros [[Pa1 Pa2] [Pb1 Pb2]] Hr He. unfold group2. rewrite ms_str. destruct p as [A B]. cbn [fst snd] in *.
  change (join (lit " ") [A; B]) with (A ++ 32%N :: B).
  destruct (strip_prefix (A ++ 32%N :: B) (joined r)) as [t2|] eqn:E.
  - apply strip_prefix_some in E. destruct r as [|x r].
    { destruct A; [congruence|discriminate]. }
    rewrite joined_cons in E. rewrite <- app_assoc in E. cbn [app] in E. inversion Hr as [|? ? [Hx1 Hx2] Hr']; subst.
    destruct (symbol_prefix A x (B ++ t2) r Pa2 Hx2 (eq_sym E)) as [-> E2].
    destruct r as [|y v]; [discriminate|]. change (tailstr (y :: v)) with (32%N :: (y ++ tailstr v)) in E2.
    injection E2 as E2. inversion Hr' as [|? ? [Hy1 Hy2] Hv]; subst.
    destruct (symbol_prefix2 B y t2 v Pb2 Hy2 E2) as (y' & -> & ->). cbn [prefix_pair].
    destruct y' as [|c y'].
    + rewrite app_nil_r in *. rewrite eqb_refl. cbn [app map List.concat]. rewrite app_nil_r. unfold group3.
      destruct v as [|z w].
      * exists []. reflexivity.
      * change (tailstr (z :: w)) with (32%N :: z ++ tailstr w). inversion Hv as [|? ? [Hz1 Hz2] _]; subst.
        destruct z as [|c z]; [congruence|]. apply no_space_cons in Hz2 as [Hc Hz2].
        unfold re_after. change (ms (Seq (Chr (N.eqb 32)) (Plus (Chr not_space))) (32%N :: (c :: z) ++ tailstr w))
          with (ms (Plus (Chr not_space)) (c :: (z ++ tailstr w)) ++ []).
        rewrite plus_chr_cons, Hc. destruct (star_chr_first not_space (z ++ tailstr w)) as [l ->].
        assert (Es : snd (span not_space (z ++ tailstr w)) = tailstr w).
        { clear - Hz2. induction z as [|d z IH].
          - cbn [app]. destruct (tailstr_start w) as [Et|[t' Et]]; rewrite Et; reflexivity.
          - apply no_space_cons in Hz2 as [Hd Hz2]. cbn [app span]. rewrite Hd. cbn [snd]. apply IH, Hz2. }
        rewrite Es. cbn [app map]. eexists. reflexivity.
    + match goal with |- context [if ?e then _ else _] => assert (En : e = false) end.
      { apply eqb_neq. intros Q. injection Q as Q. apply (f_equal (@length N)) in Q. rewrite app_length in Q. simpl in Q. lia. }
      rewrite En. cbn [app map List.concat]. rewrite app_nil_r.
      assert (Hc : not_space c = true).
      { apply not_space_spec. intros ->. apply Hy2. apply in_or_app. right. left. reflexivity. }
      assert (G : group3 (c :: y' ++ tailstr v) = []); [|rewrite G; reflexivity].
      unfold group3, re_after. cbn [ms]. destruct (N.eqb_spec 32 c) as [<-|_]; [discriminate|]. cbn [map List.concat app].
      unfold at_end. destruct (y' ++ tailstr v) as [|d rest] eqn:Er; [|reflexivity].
      destruct (N.eqb_spec c 10) as [->|_]; [|reflexivity]. exfalso. apply He.
      apply app_eq_nil in Er as [-> Er]. destruct v as [|? ?]; [|discriminate].
      cbn [List.concat]. rewrite app_nil_r, app_assoc. apply last_last.
  - assert (Hn : prefix_pair (A, B) r = None); [|rewrite Hn; reflexivity].
    destruct r as [|a [|b v]]; [reflexivity..|]. cbn [prefix_pair]. destruct (eqb_spec (a, b) (A, B)) as [Q|_]; [|reflexivity].
    injection Q as -> ->. exfalso. assert (S : strip_prefix (A ++ 32%N :: B) (joined (A :: B :: v)) = Some (tailstr v)).
    { apply strip_prefix_some. rewrite joined_cons. change (tailstr (B :: v)) with (32%N :: B ++ tailstr v).
      rewrite <- app_assoc. reflexivity. }
    congruence.
Qed.

Lemma matches_mid p (x : str) r : ok_pair p -> no_char 32 x -> x <> [] -> Forall ok_sym r -> ends_ok r ->
  match prefix_pair p r with
  | Some v => exists l, matches p false (x ++ tailstr r) = (joined r, tailstr v, match v with [] => [] | _ :: w => tailstr w end) :: l
  | None => matches p false (x ++ tailstr r) = []
  end.
Proof.
  intros Hp Hx Hn Hr He. unfold matches, group1. cbn [app]. rewrite (before_spec x r Hx Hn).
  destruct r as [|y r]; [reflexivity|]. cbn [map List.concat]. rewrite app_nil_r. apply pair_here; assumption.
Qed.
Lemma matches_start p x r : ok_pair p -> ok_sym x -> Forall ok_sym r -> ends_ok (x :: r) ->
  match prefix_pair p (x :: r) with
  | Some v => exists l, matches p true (x ++ tailstr r) = (joined (x :: r), tailstr v, match v with [] => [] | _ :: w => tailstr w end) :: l
  | None => matches p true (x ++ tailstr r) = matches p false (x ++ tailstr r)
  end.
Proof.
  intros Hp [Hx1 Hx2] Hr He. unfold matches, group1. cbn [app map List.concat]. rewrite <- joined_cons.
  pose proof (pair_here p (x :: r) Hp (Forall_cons x (conj Hx1 Hx2) Hr) He) as H. destruct (prefix_pair p (x :: r)) as [v|].
  - destruct H as [l ->]. eexists. reflexivity.
  - rewrite H. reflexivity.
Qed.
Lemma matches_space p t : matches p false (32%N :: t) = [].
Proof. reflexivity. Qed.
Lemma matches_nil p : matches p false [] = [].
Proof. reflexivity. Qed.

(** ** The search *)
Definition found (p : pair) (i : nat) (u v : list str) : match_object := {|
  mo_group1 := match u with [] => [] | _ => last u [] ++ sp end;
  mo_group3 := match v with [] => [] | y :: _ => 32%N :: y end;
  mo_start2 := i + length (headstr u);
  mo_end2 := i + length (headstr u) + length (fst p ++ sp ++ snd p)
|}.

Lemma prefix_pair_some p r v : prefix_pair p r = Some v <-> r = fst p :: snd p :: v.
Proof.
  destruct r as [|a [|b w]]; simpl; [split; discriminate..|]. destruct (eqb_spec (a, b) p) as [<-|Hn]; cbn [fst snd].
  - split; [intros E; injection E as ->; reflexivity|]. intros E. injection E as ->. reflexivity.
  - split; [discriminate|]. intros E. injection E as E1 E2 _. exfalso. apply Hn. rewrite E1, E2. destruct p. reflexivity.
Qed.
Lemma search_pair_cons p x r :
  search_pair p (x :: r) = match prefix_pair p (x :: r) with
                           | Some v => Some ([], v)
                           | None => match search_pair p r with Some (u, v) => Some (x :: u, v) | None => None end
                           end.
Proof.
  destruct r as [|b t]; [reflexivity|]. cbn [prefix_pair]. change (search_pair p (x :: b :: t)) with
    (if eqb (x, b) p then Some ([], t) else match search_pair p (b :: t) with Some (u, v) => Some (x :: u, v) | None => None end).
  destruct (eqb (x, b) p); reflexivity.
Qed.

Lemma firstn_taken (a b : str) : firstn (taken (a ++ b) b) (a ++ b) = a.
Proof. unfold taken. rewrite app_length. replace (length a + length b - length b) with (length a) by lia.
  rewrite firstn_app, firstn_all, Nat.sub_diag. apply app_nil_r. Qed.
Lemma taken_app (a b : str) : taken (a ++ b) b = length a.
Proof. unfold taken. rewrite app_length. lia. Qed.

Lemma search_hit p i b (u0 : str) (v : list str) l :
  matches p b (u0 ++ fst p ++ sp ++ snd p ++ tailstr v) =
    (fst p ++ sp ++ snd p ++ tailstr v, tailstr v, match v with [] => [] | _ :: w => tailstr w end) :: l ->
  b = (i =? 0)%nat ->
  s_search_from p i (u0 ++ fst p ++ sp ++ snd p ++ tailstr v) =
    Some {| mo_group1 := u0; mo_group3 := match v with [] => [] | y :: _ => 32%N :: y end;
            mo_start2 := i + length u0; mo_end2 := i + length u0 + length (fst p ++ sp ++ snd p) |}.
Proof.
  intros E ->. set (s := u0 ++ fst p ++ sp ++ snd p ++ tailstr v) in *.
  assert (U : s_search_from p i s = match matches p (i =? 0)%nat s with
    | (t1, t2, t3) :: _ => Some {| mo_group1 := firstn (taken s t1) s; mo_group3 := firstn (taken t2 t3) t2;
                                   mo_start2 := i + taken s t1; mo_end2 := i + taken s t2 |}
    | [] => match s with [] => None | _ :: s' => s_search_from p (S i) s' end end) by (destruct s; reflexivity).
  rewrite U, E. f_equal.
  assert (E1 : taken s (fst p ++ sp ++ snd p ++ tailstr v) = length u0) by apply taken_app.
  assert (E2 : taken s (tailstr v) = length u0 + length (fst p ++ sp ++ snd p)).
  { unfold s. replace (u0 ++ fst p ++ sp ++ snd p ++ tailstr v) with ((u0 ++ fst p ++ sp ++ snd p) ++ tailstr v)
      by (rewrite <- !app_assoc; reflexivity). rewrite taken_app. apply app_length. }
  assert (E3 : firstn (taken (tailstr v) (match v with [] => [] | _ :: w => tailstr w end)) (tailstr v)
               = match v with [] => [] | y :: _ => 32%N :: y end).
  { destruct v as [|y w]; [reflexivity|]. apply (firstn_taken (32%N :: y) (tailstr w)). }
  assert (E4 : firstn (taken s (fst p ++ sp ++ snd p ++ tailstr v)) s = u0) by apply firstn_taken.
  clearbody s. f_equal; [exact E4|exact E3|lia|lia].
Qed.

Lemma search_skip p i c s : matches p (i =? 0)%nat (c :: s) = [] -> s_search_from p i (c :: s) = s_search_from p (S i) s.
Proof. intros E. cbn [s_search_from]. rewrite E. reflexivity. Qed.

Lemma search_mid p r : ok_pair p -> Forall ok_sym r -> ends_ok r -> prefix_pair p r = None ->
  forall (x : str) i, 0 < i -> no_char 32 x -> s_search_from p i (x ++ tailstr r) = s_search_from p (i + length x) (tailstr r).
Proof.
  intros Hp Hr He Hn. induction x as [|c x IH]; intros i Hi Hx; [simpl; f_equal; lia|].
  pose proof (matches_mid p (c :: x) r Hp Hx ltac:(discriminate) Hr He) as M. rewrite Hn in M.
  apply no_space_cons in Hx as [_ Hx]. destruct i as [|i]; [lia|]. cbn [app] in *. rewrite search_skip by exact M. rewrite IH by (assumption || lia).
  f_equal. simpl. lia.
Qed.

Lemma joined_pair p v : joined (fst p :: snd p :: v) = fst p ++ sp ++ snd p ++ tailstr v.
Proof. rewrite joined_cons. reflexivity. Qed.

Lemma last_nonempty (x : str) r : ok_sym x -> Forall ok_sym r -> r <> [] -> last (List.concat (x :: r)) 0%N = last (List.concat r) 0%N.
Proof.
  intros Hx Hr Hn. cbn [List.concat]. assert (C : List.concat r <> []).
  { destruct r as [|y r]; [congruence|]. inversion Hr as [|? ? [Hy _] _]; subst. destruct y; [congruence|discriminate]. }
  induction x as [|c x IH]; [reflexivity|]. cbn [app]. destruct (x ++ List.concat r) as [|d l] eqn:E.
  - apply app_eq_nil in E as [_ E]. congruence.
  - change (last (c :: d :: l) 0%N) with (last (d :: l) 0%N). destruct x as [|e x]; [cbn [app] in E; rewrite E; reflexivity|].
    apply IH. destruct Hx as [_ Hx]. apply no_space_cons in Hx as [_ Hx]. split; [discriminate|exact Hx].
Qed.
Lemma ends_ok_tail x r : ok_sym x -> Forall ok_sym r -> ends_ok (x :: r) -> ends_ok r.
Proof.
  intros Hx Hr He. destruct r as [|y r]; [unfold ends_ok; simpl; discriminate|]. unfold ends_ok in *.
  rewrite <- (last_nonempty x (y :: r)); auto. discriminate.
Qed.

(** searching from the middle of the word, at a place where no pair begins *)
Lemma search_rest p : ok_pair p -> forall r (x : str) i, 0 < i -> x <> [] -> no_char 32 x -> Forall ok_sym r -> ends_ok r ->
  s_search_from p i (x ++ tailstr r) =
  match search_pair p r with Some (u, v) => Some (found p i (x :: u) v) | None => None end.
Proof.
  intros Hp. induction r as [|y r IH]; intros x i Hi Hn Hx Hr He.
  - rewrite (search_mid p [] Hp Hr He eq_refl x i Hi Hx). destruct (i + length x) eqn:Q; [lia|]. reflexivity.
  - pose proof (matches_mid p x (y :: r) Hp Hx Hn Hr He) as M. rewrite search_pair_cons.
    destruct (prefix_pair p (y :: r)) as [v|] eqn:Ep.
    + apply prefix_pair_some in Ep. destruct M as [l M]. rewrite Ep in *.
      assert (Es : x ++ tailstr (fst p :: snd p :: v) = (x ++ sp) ++ fst p ++ sp ++ snd p ++ tailstr v).
      { unfold tailstr. cbn [map List.concat app]. rewrite <- !app_assoc. reflexivity. }
      rewrite Es in *. rewrite joined_pair in M. rewrite (search_hit p i false (x ++ sp) v l M).
      * unfold found. f_equal. cbn [last]. change (headstr [x]) with ((x ++ sp) ++ []). rewrite app_nil_r. reflexivity.
      * destruct i; [lia|reflexivity].
    + rewrite (search_mid p (y :: r) Hp Hr He Ep x i Hi Hx). inversion Hr as [|? ? Hy Hr']; subst.
      change (tailstr (y :: r)) with (32%N :: (y ++ tailstr r)).
      rewrite search_skip by (destruct (i + length x) eqn:Q; [lia|]; reflexivity).
      destruct Hy as [Hy1 Hy2]. rewrite (IH y (S (i + length x))); try assumption; [|lia|].
      2:{ apply (ends_ok_tail y r (conj Hy1 Hy2) Hr' He). }
      destruct (search_pair p r) as [[u v]|]; [|reflexivity]. f_equal. unfold found.
      assert (H : length (headstr (x :: y :: u)) = S (length x) + length (headstr (y :: u))).
      { unfold headstr. cbn [map List.concat]. rewrite !app_length. simpl. lia. }
      rewrite H. f_equal; lia.
Qed.

Lemma search_spec p s : ok_pair p -> ok_word s ->
  s_search p (joined s) = match search_pair p s with Some (u, v) => Some (found p 0 u v) | None => None end.
Proof.
  intros Hp (Hn & Hs & He). destruct s as [|x r]; [congruence|]. inversion Hs as [|? ? [Hx1 Hx2] Hr]; subst.
  pose proof (matches_start p x r Hp (conj Hx1 Hx2) Hr He) as M. rewrite search_pair_cons. unfold s_search.
  destruct (prefix_pair p (x :: r)) as [v|] eqn:Ep.
  - apply prefix_pair_some in Ep. destruct M as [l M]. rewrite <- joined_cons in M. rewrite Ep in *. rewrite joined_pair in *.
    exact (search_hit p 0 true [] v l M eq_refl).
  - rewrite joined_cons. pose proof (ends_ok_tail x r (conj Hx1 Hx2) Hr He) as He'.
    pose proof (matches_mid p x r Hp Hx2 Hx1 Hr He') as M2. rewrite <- M in M2.
    destruct (prefix_pair p r) as [v|] eqn:Ep2.
    + assert (Hr2 := Ep2). apply prefix_pair_some in Hr2. subst r. destruct M2 as [l M2].
      rewrite search_pair_cons, Ep2.
      assert (Es : x ++ tailstr (fst p :: snd p :: v) = (x ++ sp) ++ fst p ++ sp ++ snd p ++ tailstr v).
      { unfold tailstr. cbn [map List.concat app]. rewrite <- !app_assoc. reflexivity. }
      rewrite Es in *. rewrite joined_pair in M2. rewrite (search_hit p 0 true (x ++ sp) v l M2 eq_refl).
      unfold found. f_equal. cbn [last]. change (headstr [x]) with ((x ++ sp) ++ []). rewrite app_nil_r. reflexivity.
    + assert (S1 : s_search_from p 0 (x ++ tailstr r) = s_search_from p (length x) (tailstr r)).
      { destruct x as [|c x]; [congruence|]. cbn [app] in *. rewrite search_skip by exact M2.
        apply no_space_cons in Hx2 as [_ Hx2]. rewrite (search_mid p r Hp Hr He' Ep2 x 1 ltac:(lia) Hx2). reflexivity. }
      rewrite S1. destruct r as [|y r]; [destruct x; [congruence|reflexivity]|]. rewrite search_pair_cons, Ep2.
      inversion Hr as [|? ? [Hy1 Hy2] Hr']; subst. change (tailstr (y :: r)) with (32%N :: (y ++ tailstr r)).
      assert (L : 0 < length x) by (destruct x; [congruence|simpl; lia]).
      rewrite search_skip by (destruct (length x); [lia|]; reflexivity).
      rewrite (search_rest p Hp r y (S (length x)) ltac:(lia) Hy1 Hy2 Hr' (ends_ok_tail y r (conj Hy1 Hy2) Hr' He')).
      destruct (search_pair p r) as [[u v]|]; [|reflexivity]. f_equal. unfold found.
      assert (H : length (headstr (x :: y :: u)) = S (length x) + length (headstr (y :: u))).
      { unfold headstr. cbn [map List.concat]. rewrite !app_length. simpl. lia. }
      rewrite H. f_equal; lia.
Qed.

(** ** Merging in one word *)
Lemma ok_sym_app a b : ok_sym a -> ok_sym b -> ok_sym (a ++ b).
Proof.
  intros [A1 A2] [_ B2]. split; [destruct a; [congruence|discriminate]|].
  intros H. apply in_app_or in H as [H|H]; [exact (A2 H)|exact (B2 H)].
Qed.
Lemma ok_word_step p u v : ok_word (u ++ fst p :: snd p :: v) -> ok_word (u ++ (fst p ++ snd p : str) :: v).
Proof.
  intros (H1 & H2 & H3). split; [destruct u; discriminate|]. apply Forall_app in H2 as [Hu H2].
  inversion H2 as [|? ? Ha H4]; subst. inversion H4 as [|? ? Hb Hv]; subst. split.
  - apply Forall_app. split; [exact Hu|]. constructor; [apply ok_sym_app; assumption|exact Hv].
  - rewrite concat_app in *. cbn [List.concat] in *. rewrite <- app_assoc. exact H3.
Qed.

Lemma removelast_sp (x : str) : removelast (x ++ sp) = x.
Proof. apply removelast_last. Qed.
Lemma found_deltas p f u v : Forall ok_sym u -> Forall ok_sym v -> s_match_deltas p f (found p 0 u v) = match_deltas p f u v.
Proof.
  intros Hu Hv. unfold s_match_deltas, match_deltas, found. cbn [mo_group1 mo_group3]. cbv zeta. f_equal.
  - destruct u as [|x u]; [reflexivity|]. rewrite removelast_sp.
    destruct (last (x :: u) [] ++ sp) eqn:E; [apply app_eq_nil in E as [_ E]; discriminate|]. reflexivity.
  - destruct v; reflexivity.
Qed.

Lemma found_replaced p u v :
  let m := found p 0 u v in let w := joined (u ++ fst p :: snd p :: v) in
  firstn (mo_start2 m) w ++ (fst p ++ snd p) ++ skipn (mo_end2 m) w = joined (u ++ (fst p ++ snd p : str) :: v).
Proof.
  cbv zeta. rewrite !joined_head. change (tailstr (snd p :: v)) with (sp ++ snd p ++ tailstr v).
  unfold found. cbn [mo_start2 mo_end2]. rewrite Nat.add_0_l.
  rewrite firstn_app, firstn_all, Nat.sub_diag. cbn [firstn]. rewrite app_nil_r. f_equal. f_equal.
  replace (headstr u ++ fst p ++ sp ++ snd p ++ tailstr v) with ((headstr u ++ (fst p ++ sp ++ snd p)) ++ tailstr v)
    by (rewrite <- !app_assoc; reflexivity).
  rewrite <- app_length. rewrite skipn_app, skipn_all, Nat.sub_diag. reflexivity.
Qed.

Definition jmap {X Y Z} (g : X -> Y) (r : res (X * Z)) : res (Y * Z) :=
  match r with Ok (a, b) => Ok (g a, b) | Err e => Err e end.

Lemma merge_word_str p f fuel : ok_pair p -> forall s, ok_word s ->
  s_merge_word fuel p f (joined s) = jmap (join (lit " ")) (merge_word fuel p f s)
  /\ forall r, merge_word fuel p f s = Ok r -> ok_word (fst r).
Proof.
  intros Hp. induction fuel as [|fuel IH]; intros s Hs; [split; [reflexivity|discriminate]|].
  cbn [s_merge_word merge_word]. rewrite (search_spec p s Hp Hs). pose proof (search_pair_spec p s) as S.
  destruct (search_pair p s) as [[u v]|].
  - destruct S as [E _]. rewrite E in *. clear E. pose proof (found_replaced p u v) as R. cbv zeta in R. rewrite R. clear R.
    pose proof (ok_word_step p u v Hs) as Hs'. destruct (IH _ Hs') as [I1 I2]. rewrite I1.
    destruct Hs as (_ & Hs & _). apply Forall_app in Hs as [Hu Hs]. inversion Hs as [|? ? _ Hs2]; subst. inversion Hs2 as [|? ? _ Hv]; subst.
    rewrite (found_deltas p f u v Hu Hv). split.
    + destruct (merge_word fuel p f (u ++ (fst p ++ snd p : str) :: v)) as [[a b]|e]; reflexivity.
    + intros r Hr. destruct (merge_word fuel p f (u ++ (fst p ++ snd p : str) :: v)) as [[a b]|e]; [|discriminate].
      cbn [bind] in Hr. injection Hr as <-. cbn [fst]. apply (I2 (a, b) eq_refl).
  - split; [reflexivity|]. intros r Hr. injection Hr as <-. exact Hs.
Qed.

Lemma merge_word_more p f n m s : n <= m -> merge_word n p f s <> Err OutOfFuel -> merge_word m p f s = merge_word n p f s.
Proof.
  revert m s. induction n as [|n IH]; intros m s Hm Hn; [contradiction Hn; reflexivity|]. destruct m as [|m]; [lia|].
  cbn [merge_word] in *. destruct (search_pair p s) as [[u v]|]; [|reflexivity].
  rewrite IH; [reflexivity|lia|]. intros E. apply Hn. rewrite E. reflexivity.
Qed.
Lemma ok_good_pair p : ok_pair p -> good_pair p.
Proof. intros [[H1 _] [H2 _]]. split; assumption. Qed.
Lemma joined_length s : Forall ok_sym s -> length s <= length (joined s).
Proof.
  intros H. destruct s as [|x r]; [simpl; lia|]. inversion H as [|? ? [Hx _] _]; subst. rewrite joined_cons, app_length.
  assert (T : length r <= length (tailstr r)).
  { clear. induction r as [|y r IH]; [simpl; lia|]. unfold tailstr in *. cbn [map List.concat length app]. rewrite app_length. lia. }
  destruct x; [congruence|]. simpl in *. lia.
Qed.

Lemma merge_word_full p f s : ok_pair p -> ok_word s -> exists w ds,
  s_merge_word (S (length (joined s))) p f (joined s) = Ok (joined w, ds)
  /\ merge_word (S (length s)) p f s = Ok (w, ds) /\ ok_word w.
Proof.
  intros Hp Hs. destruct (merge_word_spec (S (length s)) p f s (ok_good_pair p Hp) ltac:(lia)) as (ds & E & _).
  destruct (merge_word_str p f (S (length (joined s))) Hp s Hs) as [E1 E2].
  assert (M : merge_word (S (length (joined s))) p f s = merge_word (S (length s)) p f s).
  { apply merge_word_more; [|rewrite E; discriminate]. destruct Hs as (_ & Hs & _). pose proof (joined_length s Hs). lia. }
  rewrite M, E in *. exists (merge_pair p s), ds. split; [exact E1|]. split; [reflexivity|]. exact (E2 _ eq_refl).
Qed.

(** ** Vocabularies *)
(** lists of symbols that can be read back *)
Definition joinable (s : list str) : Prop := s <> [] /\ Forall (no_char 32) s.
Lemma ok_joinable s : ok_word s -> joinable s.
Proof. intros (H1 & H2 & _). split; [exact H1|]. eapply Forall_impl; [|exact H2]. intros x [_ H]. exact H. Qed.
Lemma split_joined s : joinable s -> split_on 32 (joined s) = s.
Proof. intros [H1 H2]. apply (split_join 32 s H1 H2). Qed.
Lemma joined_inj s t : joinable s -> joinable t -> joined s = joined t -> s = t.
Proof. intros Hs Ht E. rewrite <- (split_joined s Hs), E. apply split_joined, Ht. Qed.
Lemma split_joinable (w : str) : joinable (split_on 32 w).
Proof. split; [apply split_on_nonempty|apply split_on_pieces]. Qed.

Lemma to_strings_dset (v : split_vocab) k f : Forall (fun wf => joinable (fst wf)) v -> joinable k ->
  to_strings (dset v k f) = dset (to_strings v) (joined k) f.
Proof.
  intros Hv Hk. induction v as [|[w g] v IH]; [reflexivity|]. inversion Hv as [|? ? Hw Hv']; subst. cbn [fst] in Hw.
  cbn [dset to_strings map fst snd]. destruct (eqb_spec k w) as [->|Hn].
  - rewrite eqb_refl. reflexivity.
  - assert (E : eqb (joined k) (joined w) = false) by (apply eqb_neq; intros E; apply Hn, joined_inj; assumption).
    rewrite E. cbn [map fst snd]. f_equal. exact (IH Hv').
Qed.
Lemma dset_forall {K V} `{Eqb K} (P : K -> Prop) (d : dict K V) k v :
  Forall (fun kv => P (fst kv)) d -> P k -> Forall (fun kv => P (fst kv)) (dset d k v).
Proof.
  intros Hd Hk. induction Hd as [|[a b] d Ha Hd IH]; [repeat constructor; exact Hk|]. cbn [dset].
  destruct (eqb k a); constructor; auto.
Qed.

Definition ok_vocab (v : split_vocab) : Prop := Forall (fun wf => ok_word (fst wf)) v.
Lemma ok_vocab_joinable v : ok_vocab v -> Forall (fun wf => joinable (fst wf)) v.
Proof. intros H. eapply Forall_impl; [|exact H]. intros wf. apply ok_joinable. Qed.

Lemma merge_vocab_str p : ok_pair p -> forall inp out added, ok_vocab inp -> ok_vocab out ->
  s_merge_vocab_loop p (to_strings inp) (to_strings out) added = jmap to_strings (merge_vocab_loop p inp out added)
  /\ (forall v' ds, merge_vocab_loop p inp out added = Ok (v', ds) -> ok_vocab v').
Proof.
  intros Hp. induction inp as [|[w f] inp IH]; intros out added Hi Ho.
  - split; [reflexivity|]. intros v' ds E. injection E as <- _. exact Ho.
  - inversion Hi as [|? ? Hw Hi']; subst. cbn [fst] in Hw. cbn [to_strings map fst snd s_merge_vocab_loop merge_vocab_loop].
    destruct (merge_word_full p f w Hp Hw) as (w' & ds & E1 & E2 & E3). rewrite E1, E2. cbn [bind fst snd].
    fold (to_strings out). fold (to_strings inp).
    rewrite <- (to_strings_dset out w' f (ok_vocab_joinable out Ho) (ok_joinable w' E3)).
    apply IH; [exact Hi'|]. apply (dset_forall ok_word); assumption.
Qed.

Lemma ok_pairs s p : Forall ok_sym s -> In p (pairs s) -> ok_pair p.
Proof.
  intros Hs Hin. apply in_pairs in Hin. destruct Hin as (u & v & E). rewrite E in Hs. apply Forall_app in Hs as [_ Hs].
  inversion Hs as [|? ? Ha Hs2]; subst. inversion Hs2 as [|? ? Hb _]; subst. split; assumption.
Qed.

(** ** The pairs in the queue *)
Definition ok_queue (q : pc pair) : Prop :=
  Forall (fun e => match e_key e with Some k => ok_pair k | None => True end) (pc_pq q).

Lemma heap_pop_forall (P : pc_entry pair -> Prop) l m r : Forall P l -> heap_pop l = Some (m, r) -> P m /\ Forall P r.
Proof.
  revert m r. induction l as [|e l IH]; intros m r Hl E; [discriminate|]. inversion Hl as [|? ? He Hl']; subst. cbn [heap_pop] in E.
  destruct (heap_pop l) as [[m' r']|] eqn:Eh.
  - destruct (IH m' r' Hl' eq_refl) as [I1 I2]. destruct (entry_le e m'); injection E as <- <-; split; auto.
  - injection E as <- <-. split; [exact He|constructor].
Qed.
Lemma pop_loop_ok fuel cnt : forall pq finder k z q,
  Forall (fun e : pc_entry pair => match e_key e with Some k => ok_pair k | None => True end) pq ->
  pc_pop_loop fuel cnt pq finder = Ok (k, z, q) -> ok_pair k /\ ok_queue q.
Proof.
  induction fuel as [|fuel IH]; intros pq finder k z q Hq E; [discriminate|]. cbn [pc_pop_loop] in E.
  destruct (heap_pop pq) as [[e rest]|] eqn:Eh; [|discriminate]. destruct (heap_pop_forall _ _ _ _ Hq Eh) as [He Hr].
  destruct (e_key e) as [k0|]; [|exact (IH _ _ _ _ _ Hr E)]. destruct (dmem finder k0); [|discriminate].
  injection E as <- _ <-. split; [exact He|exact Hr].
Qed.
Lemma pop_ok q k z q' : ok_queue q -> pc_pop q = Ok (k, z, q') -> ok_pair k /\ ok_queue q'.
Proof. intros Hq. apply pop_loop_ok, Hq. Qed.
Lemma add_ok q k z : ok_queue q -> ok_pair k -> ok_queue (pc_add q k z).
Proof.
  intros Hq Hk. unfold pc_add. assert (M : forall c, Forall (fun e : pc_entry pair => match e_key e with Some k => ok_pair k | None => True end) (mark_removed c (pc_pq q))).
  { intros c. unfold mark_removed. rewrite Forall_map. eapply Forall_impl; [|exact Hq]. intros e He. cbv beta.
    destruct (Nat.eqb (e_count e) c); [exact I|exact He]. }
  destruct (dget (pc_finder q) k) as [[pr c]|].
  - destruct (Z.eqb (pr + - z) 0); unfold ok_queue; cbn [pc_pq]; [apply M|]. constructor; [exact Hk|apply M].
  - destruct (Z.eqb (- z) 0); unfold ok_queue; cbn [pc_pq]; [exact Hq|]. constructor; [exact Hk|exact Hq].
Qed.
Lemma adds_ok l : forall q, ok_queue q -> Forall (fun a => ok_pair (fst a)) l ->
  ok_queue (fold_left (fun q a => pc_add q (fst a) (snd a)) l q).
Proof.
  induction l as [|a l IH]; intros q Hq Hl; [exact Hq|]. inversion Hl as [|? ? Ha Hl']; subst. cbn [fold_left].
  apply IH; [apply add_ok; assumption|exact Hl'].
Qed.
Lemma init_ok (d : dict pair Z) : Forall (fun kv => ok_pair (fst kv)) d -> ok_queue (pc_init d).
Proof.
  intros Hd. unfold ok_queue, pc_init. cbn [pc_pq]. generalize 0. induction Hd as [|[k v] d Hk Hd IH]; intros i; [constructor|].
  cbn [pc_entries]. constructor; [exact Hk|apply IH].
Qed.

Lemma word_stats_ok s f : Forall ok_sym s -> forall d, Forall (fun kv => ok_pair (fst kv)) d ->
  Forall (fun kv => ok_pair (fst kv)) (word_stats s f d).
Proof.
  intros Hs. induction s as [|a|a b t _ IH] using list_ind2; intros d Hd; [exact Hd..|].
  inversion Hs as [|? ? Ha Hs1]; subst. inversion Hs1 as [|? ? Hb _]; subst.
  change (word_stats (a :: b :: t) f d) with (word_stats (b :: t) f (dincr d (a, b) f)). apply IH; [exact Hs1|].
  unfold dincr. apply (dset_forall ok_pair); [exact Hd|split; assumption].
Qed.
Lemma stats_ok v : ok_vocab v -> Forall (fun kv => ok_pair (fst kv)) (get_stats v).
Proof.
  intros Hv. unfold get_stats. assert (G : forall d, Forall (fun kv => ok_pair (fst kv)) d ->
    Forall (fun kv => ok_pair (fst kv)) (fold_left (fun d wf => word_stats (fst wf) (snd wf) d) v d)); [|apply G; constructor].
  induction v as [|wf v IH]; intros d Hd; [exact Hd|]. inversion Hv as [|? ? (_ & Hw & _) Hv']; subst. cbn [fold_left].
  apply IH; [exact Hv'|]. apply word_stats_ok; assumption.
Qed.
Lemma stats_str v : ok_vocab v -> s_get_stats (to_strings v) = get_stats v.
Proof.
  intros Hv. unfold s_get_stats, get_stats. generalize (@nil (pair * Z)). induction v as [|wf v IH]; intros d; [reflexivity|].
  inversion Hv as [|? ? Hw Hv']; subst. cbn [to_strings map fold_left fst snd]. rewrite (split_joined _ (ok_joinable _ Hw)).
  apply (IH Hv').
Qed.

Lemma last_ok u : u <> [] -> Forall ok_sym u -> ok_sym (last u []).
Proof.
  intros Hn Hu. destruct (exists_last Hn) as (u' & x & ->). rewrite last_last. apply Forall_app in Hu as [_ Hu].
  inversion Hu; subst; assumption.
Qed.
Lemma deltas_ok p f u v : ok_pair p -> Forall ok_sym u -> Forall ok_sym v -> Forall (fun a => ok_pair (fst a)) (match_deltas p f u v).
Proof.
  intros Hp Hu Hv. pose proof (ok_sym_app _ _ (proj1 Hp) (proj2 Hp)) as Hj. unfold match_deltas. cbv zeta. apply Forall_app. split.
  - destruct u as [|x u]; [constructor|]. pose proof (last_ok (x :: u) ltac:(discriminate) Hu) as Hl.
    constructor; [split; assumption|]. destruct (eqb p _); constructor; [|constructor]. split; [exact Hl|apply Hp].
  - destruct v as [|x v]; [constructor|]. inversion Hv as [|? ? Hx _]; subst.
    constructor; [split; assumption|]. destruct (eqb p _); constructor; [|constructor]. split; [apply Hp|exact Hx].
Qed.
Lemma merge_word_deltas p f : ok_pair p -> forall fuel s w ds, ok_word s -> merge_word fuel p f s = Ok (w, ds) ->
  Forall (fun a => ok_pair (fst a)) ds.
Proof.
  intros Hp. induction fuel as [|fuel IH]; intros s w ds Hs E; [discriminate|]. cbn [merge_word] in E.
  pose proof (search_pair_spec p s) as S. destruct (search_pair p s) as [[u v]|]; [|injection E as _ <-; constructor].
  destruct S as [S _]. rewrite S in Hs. pose proof (ok_word_step p u v Hs) as Hs'.
  destruct (merge_word fuel p f (u ++ (fst p ++ snd p : str) :: v)) as [[a b]|] eqn:Em; [|discriminate].
  cbn [bind fst snd] in E. injection E as _ <-. apply Forall_app. split; [|exact (IH _ _ _ Hs' Em)].
  destruct Hs as (_ & Hs & _). apply Forall_app in Hs as [Hu Hs]. inversion Hs as [|? ? _ Hs2]; subst.
  inversion Hs2 as [|? ? _ Hv]; subst. apply deltas_ok; assumption.
Qed.
Lemma merge_vocab_deltas p : ok_pair p -> forall inp out added v' ds, ok_vocab inp -> Forall (fun a => ok_pair (fst a)) added ->
  merge_vocab_loop p inp out added = Ok (v', ds) -> Forall (fun a => ok_pair (fst a)) ds.
Proof.
  intros Hp. induction inp as [|[w f] inp IH]; intros out added v' ds Hi Ha E; [injection E as _ <-; exact Ha|].
  inversion Hi as [|? ? Hw Hi']; subst. cbn [merge_vocab_loop fst] in *.
  destruct (merge_word (S (length w)) p f w) as [[w' d]|] eqn:Em; [|discriminate]. cbn [bind fst snd] in E.
  eapply IH; [exact Hi'| |exact E]. apply Forall_app. split; [exact Ha|]. eapply merge_word_deltas; eassumption.
Qed.

(** ** All merges *)
Lemma do_merges_loop_str n : forall i v q ml, ok_vocab v -> ok_queue q ->
  s_do_merges_loop n i (to_strings v) q ml = jmap to_strings (do_merges_loop n i v q ml)
  /\ forall v' ml', do_merges_loop n i v q ml = Ok (v', ml') -> ok_vocab v'.
Proof.
  induction n as [|n IH]; intros i v q ml Hv Hq.
  - split; [reflexivity|]. intros v' ml' E. injection E as <- _. exact Hv.
  - cbn [s_do_merges_loop do_merges_loop]. destruct (pc_pop q) as [[[k z] q']|e] eqn:Ep; cbn [bind fst snd].
    2:{ split; [destruct e; reflexivity|]. intros v' ml' E. destruct e; try discriminate. injection E as <- _. exact Hv. }
    destruct (ml_append ml k (Some z) (Some (Z.of_nat i))) as [ml2|e]; cbn [bind].
    2:{ split; [destruct e; reflexivity|]. intros v' ml' E. destruct e; try discriminate. injection E as <- _. exact Hv. }
    destruct (pop_ok q k z q' Hq Ep) as [Hk Hq']. unfold s_merge_vocab, merge_vocab.
    destruct (merge_vocab_str k Hk v [] [] Hv (Forall_nil _)) as [E1 E2]. change (to_strings []) with (@nil (str * Z)) in E1. rewrite E1.
    destruct (merge_vocab_loop k v [] []) as [[v2 ds]|e] eqn:Em; cbn [jmap bind fst snd]; [|split; [reflexivity|discriminate]].
    apply IH; [exact (E2 _ _ eq_refl)|]. apply adds_ok; [exact Hq'|].
    eapply merge_vocab_deltas; [exact Hk|exact Hv|constructor|exact Em].
Qed.

Lemma do_merges_str v n : ok_vocab v -> s_do_merges (to_strings v) n = jmap to_strings (do_merges v n)
  /\ forall v' ml, do_merges v n = Ok (v', ml) -> ok_vocab v'.
Proof.
  intros Hv. unfold s_do_merges, do_merges. rewrite (stats_str v Hv). apply do_merges_loop_str; [exact Hv|]. apply init_ok, stats_ok, Hv.
Qed.

(** ** What is saved *)
Lemma cache_str v : Forall (fun wf => joinable (fst wf)) v -> s_create_bpe_cache (to_strings v) = create_bpe_cache v.
Proof.
  intros Hv. unfold s_create_bpe_cache, create_bpe_cache.
  match goal with |- fold_left ?f _ _ = fold_left ?g _ _ => assert (G : forall d, fold_left f (to_strings v) d = fold_left g v d); [|apply G] end.
  induction v as [|wf v IH]; intros d; [reflexivity|]. inversion Hv as [|? ? Hw Hv']; subst. cbn [to_strings map fold_left fst snd].
  rewrite (split_joined _ Hw). apply (IH Hv').
Qed.
Lemma resulting_str v : Forall (fun wf => joinable (fst wf)) v -> s_create_resulting_vocab (to_strings v) = create_resulting_vocab v.
Proof.
  intros Hv. unfold s_create_resulting_vocab, create_resulting_vocab.
  match goal with |- fold_left ?f _ _ = fold_left ?g _ _ => assert (G : forall d, fold_left f (to_strings v) d = fold_left g v d); [|apply G] end.
  induction v as [|wf v IH]; intros d; [reflexivity|]. inversion Hv as [|? ? Hw Hv']; subst. cbn [to_strings map fold_left fst snd].
  rewrite (split_joined _ Hw). apply (IH Hv').
Qed.
Lemma results_str v ml : Forall (fun wf => joinable (fst wf)) v -> s_results (to_strings v) ml = results v ml.
Proof. intros Hv. unfold s_results, results. rewrite (cache_str v Hv), (resulting_str v Hv). reflexivity. Qed.

Lemma add_others_str other : forall v, Forall (fun wf => joinable (fst wf)) v ->
  let v2 := fold_left (fun d kv => dset d (split_on 32 (fst kv)) (snd kv)) other v in
  Forall (fun wf => joinable (fst wf)) v2
  /\ fold_left (fun d kv => dset d (fst kv) (snd kv)) other (to_strings v) = to_strings v2.
Proof.
  induction other as [|kv other IH]; intros v Hv; [split; [exact Hv|reflexivity]|]. cbn [fold_left]. cbv zeta.
  pose proof (split_joinable (fst kv)) as Hk. pose proof (to_strings_dset v (split_on 32 (fst kv)) (snd kv) Hv Hk) as E.
  change (lit " ") with [32%N] in E. rewrite (join_split 32 (fst kv)) in E. rewrite <- E. apply IH.
  apply (dset_forall joinable); assumption.
Qed.
Lemma strings_symbols (d : dict str Z) : to_strings (to_symbols d) = d.
Proof.
  unfold to_strings, to_symbols. rewrite map_map. rewrite <- (map_id d) at 2. apply map_ext. intros [k v]. cbn [fst snd].
  change (lit " ") with [32%N]. rewrite join_split. reflexivity.
Qed.
Lemma scratch_str base : dict_of (map (fun kv => (s_initial (fst kv), snd kv)) base) = to_strings (scratch_vocab base).
Proof.
  unfold dict_of, scratch_vocab. assert (G : forall l v, Forall (fun wf => joinable (fst wf)) v ->
    fold_left (fun d kv => dset d (fst kv) (snd kv)) (map (fun kv : str * Z => (s_initial (fst kv), snd kv)) l) (to_strings v)
    = to_strings (fold_left (fun d kv => dset d (initial_split (fst kv)) (snd kv)) l v)).
  { induction l as [|kv l IH]; intros v Hv; [reflexivity|]. cbn [map fold_left fst snd].
    assert (Hk : joinable (initial_split (fst kv))) by apply split_joinable.
    assert (E : to_strings (dset v (initial_split (fst kv)) (snd kv)) = dset (to_strings v) (s_initial (fst kv)) (snd kv)).
    { rewrite (to_strings_dset v _ _ Hv Hk). f_equal. unfold initial_split. change (lit " ") with [32%N] at 1. apply join_split. }
    rewrite <- E. apply IH. apply (dset_forall joinable); assumption. }
  apply (G base []). constructor.
Qed.
