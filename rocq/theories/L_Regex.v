(** Lemmas on the regular expression matcher. *)
From Verif Require Import M_Base L_Base M_Regex.
From Coq Require Import Arith.

(** what an expression without lookahead matches *)
Inductive lang : re -> str -> Prop :=
| lang_eps : lang Eps []
| lang_chr p c : p c = true -> lang (Chr p) [c]
| lang_seq a b u v : lang a u -> lang b v -> lang (Seq a b) (u ++ v)
| lang_alt_l a b u : lang a u -> lang (Alt a b) u
| lang_alt_r a b u : lang b u -> lang (Alt a b) u
| lang_star_nil a : lang (Star a) []
| lang_star a u v : lang a u -> u <> [] -> lang (Star a) v -> lang (Star a) (u ++ v).

Fixpoint plain_re (r : re) : bool :=
  match r with
  | Eps | Chr _ => true
  | Seq a b | Alt a b => plain_re a && plain_re b
  | Star a => plain_re a
  | NotNext _ => false
  end.

Lemma in_concat_map {A B} (f : A -> list B) l y : In y (List.concat (map f l)) <-> exists x, In x l /\ In y (f x).
Proof.
  rewrite in_concat. split.
  - intros (z & Hz & Hy). apply in_map_iff in Hz. destruct Hz as (x & <- & Hx). eauto.
  - intros (x & Hx & Hy). exists (f x). split; [apply in_map, Hx|exact Hy].
Qed.

Lemma ms_lang r : plain_re r = true -> forall s t, In t (ms r s) <-> exists u, s = u ++ t /\ lang r u.
Proof.
  induction r as [|p|a IHa b IHb|a IHa b IHb|a IHa|p]; cbn [plain_re]; intros Hp s t; cbn [ms].
  - split.
    + intros [<-|[]]. exists []. split; [reflexivity|constructor].
    + intros (u & -> & H). inversion H; subst. left. reflexivity.
  - split.
    + destruct s as [|c s]; [intros []|]. destruct (p c) eqn:Hc; [|intros []]. intros [<-|[]].
      exists [c]. split; [reflexivity|constructor; exact Hc].
    + intros (u & -> & H). inversion H as [|p' c Hc| | | | |]; subst. cbn [app]. rewrite Hc. left. reflexivity.
  - apply andb_true_iff in Hp. destruct Hp as [Ha Hb]. specialize (IHa Ha). specialize (IHb Hb). rewrite in_concat_map. split.
    + intros (x & Hx & Ht). apply IHa in Hx. destruct Hx as (u & -> & Hu). apply IHb in Ht. destruct Ht as (v & -> & Hv).
      exists (u ++ v). split; [rewrite app_assoc; reflexivity|constructor; assumption].
    + intros (u & -> & H). inversion H as [| |a' b' u1 v1 H1 H2| | | |]; subst. exists (v1 ++ t). split.
      * apply IHa. exists u1. split; [rewrite app_assoc; reflexivity|exact H1].
      * apply IHb. exists v1. split; [reflexivity|exact H2].
  - apply andb_true_iff in Hp. destruct Hp as [Ha Hb]. specialize (IHa Ha). specialize (IHb Hb). rewrite in_app_iff. split.
    + intros [H|H]; [apply IHa in H|apply IHb in H]; destruct H as (u & -> & Hu); exists u; split; try reflexivity.
      * apply lang_alt_l, Hu.
      * apply lang_alt_r, Hu.
    + intros (u & -> & H). inversion H; subst; [left; apply IHa|right; apply IHb]; eauto.
  - specialize (IHa Hp).
    assert (Hgo : forall n s t, length s <= n -> (In t (star_iter (ms a) n s) <-> exists u, s = u ++ t /\ lang (Star a) u)).
    { clear s t. induction n as [|n IHn]; intros s t Hn; cbn [star_iter].
      - destruct s; [|cbn in Hn; lia]. split.
        + intros [<-|[]]. exists []. split; [reflexivity|constructor].
        + intros (u & Hu & _). symmetry in Hu. apply app_eq_nil in Hu. destruct Hu as [_ ->]. left. reflexivity.
      - rewrite in_app_iff, in_concat_map. split.
        + intros [(x & Hx & Ht)|[<-|[]]].
          * destruct (Nat.ltb_spec (length x) (length s)); [|destruct Ht].
            apply IHa in Hx. destruct Hx as (u & -> & Hu). rewrite app_length in *.
            apply IHn in Ht; [|lia]. destruct Ht as (v & -> & Hv). exists (u ++ v).
            split; [rewrite app_assoc; reflexivity|]. constructor; try assumption. intros ->. cbn in *. lia.
          * exists []. split; [reflexivity|constructor].
        + intros (u & -> & H). inversion H as [| | | | |a'|a' u1 v1 H1 Hne H2]; subst; [right; left; reflexivity|].
          left. exists (v1 ++ t). split.
          * apply IHa. exists u1. split; [rewrite app_assoc; reflexivity|exact H1].
          * rewrite !app_length. destruct u1 as [|c u1]; [congruence|]. cbn [length].
            match goal with |- context [(?x <? ?y)%nat] => destruct (Nat.ltb_spec x y); [|lia] end.
            apply IHn; [rewrite !app_length in Hn; cbn in Hn; rewrite app_length; lia|].
            exists v1. split; [reflexivity|exact H2]. }
    apply Hgo. lia.
  - discriminate.
Qed.

Lemma fullmatch_lang r s : plain_re r = true -> (fullmatch r s = true <-> lang r s).
Proof.
  intros Hp. unfold fullmatch. rewrite existsb_exists. split.
  - intros (t & Ht & He). destruct t; [|discriminate]. apply (ms_lang r Hp) in Ht. destruct Ht as (u & -> & Hu).
    rewrite app_nil_r. exact Hu.
  - intros H. exists []. split; [|reflexivity]. apply (ms_lang r Hp). exists s. rewrite app_nil_r. auto.
Qed.

(** ** Inversion of the languages of the building blocks *)
Lemma lang_chr_inv p u : lang (Chr p) u <-> exists c, u = [c] /\ p c = true.
Proof.
  split; [intros H; inversion H; subst; eauto|]. intros (c & -> & Hc). constructor. exact Hc.
Qed.
Lemma lang_seq_inv a b u : lang (Seq a b) u <-> exists v w, u = v ++ w /\ lang a v /\ lang b w.
Proof.
  split; [intros H; inversion H; subst; eauto|]. intros (v & w & -> & Hv & Hw). constructor; assumption.
Qed.
Lemma lang_alt_inv a b u : lang (Alt a b) u <-> lang a u \/ lang b u.
Proof. split; [intros H; inversion H; subst; auto|]. intros [H|H]; [apply lang_alt_l|apply lang_alt_r]; exact H. Qed.
Lemma lang_eps_inv u : lang Eps u <-> u = [].
Proof. split; [intros H; inversion H; reflexivity|intros ->; constructor]. Qed.
Lemma lang_opt_inv a u : lang (Opt a) u <-> u = [] \/ lang a u.
Proof. unfold Opt. rewrite lang_alt_inv, lang_eps_inv. tauto. Qed.
Lemma lang_star_chr_inv p u : lang (Star (Chr p)) u <-> forallb p u = true.
Proof.
  split.
  - intros H. remember (Star (Chr p)) as r eqn:Er. induction H; try discriminate; [reflexivity|].
    injection Er as ->. apply lang_chr_inv in H. destruct H as (c & -> & Hc). cbn [app forallb]. rewrite Hc, IHlang2; reflexivity.
  - induction u as [|c u IH]; [constructor|]. cbn [forallb]. intros H. apply andb_true_iff in H. destruct H as [Hc Hu].
    change (c :: u) with ([c] ++ u). constructor; [constructor; exact Hc|discriminate|apply IH, Hu].
Qed.
Lemma lang_plus_chr_inv p u : lang (Plus (Chr p)) u <-> u <> [] /\ forallb p u = true.
Proof.
  unfold Plus. rewrite lang_seq_inv. split.
  - intros (v & w & -> & Hv & Hw). apply lang_chr_inv in Hv. destruct Hv as (c & -> & Hc).
    apply lang_star_chr_inv in Hw. split; [discriminate|]. cbn. rewrite Hc, Hw. reflexivity.
  - intros [Hn Hu]. destruct u as [|c u]; [congruence|]. cbn in Hu. apply andb_true_iff in Hu. destruct Hu as [Hc Hu].
    exists [c], u. split; [reflexivity|]. split; [constructor; exact Hc|apply lang_star_chr_inv, Hu].
Qed.
Lemma lang_str_inv s u : lang (Str s) u <-> u = s.
Proof.
  revert u; induction s as [|c s IH]; intros u; cbn [Str]; [apply lang_eps_inv|].
  rewrite lang_seq_inv. split.
  - intros (v & w & -> & Hv & Hw). apply lang_chr_inv in Hv. destruct Hv as (d & -> & Hd). apply N.eqb_eq in Hd. subst d.
    apply IH in Hw. subst w. reflexivity.
  - intros ->. exists [c], s. split; [reflexivity|]. split; [constructor; apply N.eqb_refl|apply IH; reflexivity].
Qed.

(** ** First matches *)
Fixpoint span (p : N -> bool) (s : str) : str * str :=
  match s with
  | [] => ([], [])
  | c :: t => if p c then (c :: fst (span p t), snd (span p t)) else ([], s)
  end.

Lemma span_app p s : fst (span p s) ++ snd (span p s) = s.
Proof. induction s as [|c s IH]; [reflexivity|]. simpl. destruct (p c); [|reflexivity]. simpl. rewrite IH. reflexivity. Qed.
Lemma span_all p s : forallb p (fst (span p s)) = true.
Proof. induction s as [|c s IH]; [reflexivity|]. simpl. destruct (p c) eqn:Hc; [|reflexivity]. simpl. rewrite Hc, IH. reflexivity. Qed.
Definition starts (p : N -> bool) (s : str) : bool := match s with c :: _ => p c | [] => false end.
Lemma span_stop p s : starts p (snd (span p s)) = false.
Proof. induction s as [|c s IH]; [reflexivity|]. simpl. destruct (p c) eqn:Hc; [exact IH|exact Hc]. Qed.

Lemma star_chr_nil p : ms (Star (Chr p)) [] = [[]].
Proof. reflexivity. Qed.
Lemma star_chr_cons p c s :
  ms (Star (Chr p)) (c :: s) = (if p c then ms (Star (Chr p)) s else []) ++ [c :: s].
Proof.
  cbn [ms star_iter length]. destruct (p c); [|reflexivity]. cbn [map List.concat].
  destruct (Nat.ltb_spec (length s) (S (length s))); [|lia]. rewrite app_nil_r. reflexivity.
Qed.
Lemma star_chr_first p s : exists l, ms (Star (Chr p)) s = snd (span p s) :: l.
Proof.
  induction s as [|c s IH]; [exists []; reflexivity|]. rewrite star_chr_cons. cbn [span].
  destruct (p c); cbn [snd]; [|exists []; reflexivity]. destruct IH as [l ->]. eexists. reflexivity.
Qed.
Lemma plus_chr_cons p c s :
  ms (Plus (Chr p)) (c :: s) = if p c then ms (Star (Chr p)) s else [].
Proof. unfold Plus. cbn [ms]. destruct (p c); cbn [map List.concat]; [apply app_nil_r|reflexivity]. Qed.
Lemma plus_chr_nil p : ms (Plus (Chr p)) [] = [].
Proof. reflexivity. Qed.

(** ** Iteration over matches *)
Lemma ms_suffix r : forall s t, In t (ms r s) -> exists u, s = u ++ t.
Proof.
  induction r as [|p|a IHa b IHb|a IHa b IHb|a IHa|p]; intros s t; cbn [ms].
  - intros [<-|[]]. exists []. reflexivity.
  - destruct s as [|c s]; [intros []|]. destruct (p c); [|intros []]. intros [<-|[]]. exists [c]. reflexivity.
  - rewrite in_concat_map. intros (x & Hx & Ht). destruct (IHa _ _ Hx) as [u ->]. destruct (IHb _ _ Ht) as [v ->].
    exists (u ++ v). rewrite app_assoc. reflexivity.
  - rewrite in_app_iff. intros [H|H]; eauto.
  - generalize (length s). intros n. revert s. induction n as [|n IHn]; intros s; cbn [star_iter].
    + intros [<-|[]]. exists []. reflexivity.
    + rewrite in_app_iff, in_concat_map. intros [(x & Hx & Ht)|[<-|[]]]; [|exists []; reflexivity].
      destruct (Nat.ltb _ _); [|destruct Ht]. destruct (IHa _ _ Hx) as [u ->]. destruct (IHn _ Ht) as [v ->].
      exists (u ++ v). rewrite app_assoc. reflexivity.
  - destruct s as [|c s]; [intros [<-|[]]; exists []; reflexivity|]. destruct (p c); [intros []|].
    intros [<-|[]]. exists []. reflexivity.
Qed.

Lemma finditer_fuel_enough r n s : length s <= n -> finditer_fuel n r s = finditer r s.
Proof.
  unfold finditer. remember (length s) as k eqn:Ek. assert (Hk : length s <= k) by lia. clear Ek. intros Hn.
  revert n s Hn Hk. induction k as [|k IH]; intros n s Hn Hk.
  - destruct s; [|cbn in Hk; lia]. destruct n; reflexivity.
  - destruct n as [|n]; [lia|]. cbn [finditer_fuel]. destruct s as [|c s]; [reflexivity|]. cbn [length] in Hk.
    destruct (ms r (c :: s)) as [|t l] eqn:Em; [apply IH; lia|].
    destruct (Nat.ltb_spec (length t) (length (c :: s))) as [H|H]; [|apply IH; lia].
    f_equal. apply IH; [lia|]. cbn in H. lia.
Qed.

Lemma finditer_nil r : finditer r [] = [].
Proof. reflexivity. Qed.

Lemma finditer_match r u t l : u <> [] -> ms r (u ++ t) = t :: l -> finditer r (u ++ t) = u :: finditer r t.
Proof.
  intros Hu Hm. rewrite <- (finditer_fuel_enough r (S (length (u ++ t)))) by lia.
  destruct u as [|c u]; [congruence|]. cbn [finditer_fuel app]. cbn [app] in Hm. rewrite Hm. cbn [length]. rewrite app_length.
  destruct (Nat.ltb_spec (length t) (S (length u + length t))); [|lia].
  rewrite finditer_fuel_enough by (rewrite ?app_length; lia). f_equal.
  assert (Hl : forall a b, S (a + b) - b = S a) by (intros; lia). rewrite Hl.
  cbn [firstn]. f_equal. rewrite firstn_app, firstn_all, Nat.sub_diag. cbn [firstn]. apply app_nil_r.
Qed.

Lemma finditer_skip r c s : ms r (c :: s) = [] -> finditer r (c :: s) = finditer r s.
Proof.
  intros Hm. rewrite <- (finditer_fuel_enough r (S (length s))) by (cbn; lia). cbn [finditer_fuel]. rewrite Hm.
  apply finditer_fuel_enough. lia.
Qed.
