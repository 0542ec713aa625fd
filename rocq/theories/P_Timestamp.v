(** * C53: are changes of the dataset noticed? *)
From Coq Require Import List NArith Bool Lia FinFun.
From Verif Require Import M_Base L_Base M_PrepConfig M_Dataset P_Dataset M_Timestamp.
Import ListNotations.
Local Open Scope N_scope.

(** ** Different seconds have different stamps *)
Lemma year_split_ge f y d : y <= fst (year_split f y d).
Proof.
  revert y d. induction f as [|f IH]; intros y d; cbn [year_split]; [cbn; lia|].
  destruct (d <? year_len y); [cbn; lia|]. specialize (IH (y + 1) (d - year_len y)). lia.
Qed.
Lemma year_len_ge y : 365 <= year_len y.
Proof. unfold year_len. destruct (leap y); lia. Qed.
Lemma year_split_le f y d : 365 * (fst (year_split f y d) - y) <= d.
Proof.
  revert y d. induction f as [|f IH]; intros y d; cbn [year_split]; [cbn [fst]; lia|].
  destruct (N.ltb_spec d (year_len y)) as [H|H]; [cbn [fst]; lia|].
  specialize (IH (y + 1) (d - year_len y)). pose proof (year_len_ge y). pose proof (year_split_ge f (y + 1) (d - year_len y)). lia.
Qed.
Lemma year_split_inj f f' y d d' : year_split f y d = year_split f' y d' -> d = d'.
Proof.
  revert f' y d d'. induction f as [|f IH]; intros [|f'] y d d'; cbn [year_split].
  - congruence.
  - destruct (d' <? year_len y); [congruence|]. intros E. exfalso.
    pose proof (year_split_ge f' (y + 1) (d' - year_len y)) as G. rewrite <- E in G. cbn in G. lia.
  - destruct (d <? year_len y); [congruence|]. intros E. exfalso.
    pose proof (year_split_ge f (y + 1) (d - year_len y)) as G. rewrite E in G. cbn in G. lia.
  - destruct (N.ltb_spec d (year_len y)) as [H|H]; destruct (N.ltb_spec d' (year_len y)) as [H'|H'].
    + congruence.
    + intros E. exfalso.
      pose proof (year_split_ge f' (y + 1) (d' - year_len y)) as G. rewrite <- E in G. cbn in G. lia.
    + intros E. exfalso.
      pose proof (year_split_ge f (y + 1) (d - year_len y)) as G. rewrite E in G. cbn in G. lia.
    + intros E. apply IH in E. lia.
Qed.
(** with enough fuel the rest is shorter than the year *)
Lemma year_split_rest f y d : d < 365 * N.of_nat f -> snd (year_split f y d) < year_len (fst (year_split f y d)).
Proof.
  revert y d. induction f as [|f IH]; intros y d H; [lia|]. cbn [year_split].
  destruct (N.ltb_spec d (year_len y)) as [Hl|Hl]; [exact Hl|]. apply IH. pose proof (year_len_ge y). lia.
Qed.
Lemma month_split_ge ls mo d : mo <= fst (month_split ls mo d) <= mo + N.of_nat (length ls).
Proof.
  revert mo d. induction ls as [|l ls IH]; intros mo d; cbn [month_split length]; [cbn [fst]; lia|].
  destruct (d <? l); [cbn [fst]; lia|]. specialize (IH (mo + 1) (d - l)). lia.
Qed.
Lemma month_split_inj ls mo d d' : month_split ls mo d = month_split ls mo d' -> d = d'.
Proof.
  revert mo d d'. induction ls as [|l ls IH]; intros mo d d'; cbn [month_split]; [congruence|].
  destruct (N.ltb_spec d l) as [H|H]; destruct (N.ltb_spec d' l) as [H'|H'].
  - congruence.
  - intros E. exfalso. pose proof (month_split_ge ls (mo + 1) (d' - l)) as G. rewrite <- E in G. cbn [fst] in G. lia.
  - intros E. exfalso. pose proof (month_split_ge ls (mo + 1) (d - l)) as G. rewrite E in G. cbn [fst] in G. lia.
  - intros E. apply IH in E. lia.
Qed.
(** days are within their month, months within the year *)
Lemma month_split_rest ls mo d : d < fold_right N.add 0 ls ->
  fst (month_split ls mo d) < mo + N.of_nat (length ls) /\ In (nth (N.to_nat (fst (month_split ls mo d) - mo)) ls 0) ls /\
  snd (month_split ls mo d) < nth (N.to_nat (fst (month_split ls mo d) - mo)) ls 0.
Proof.
  revert mo d. induction ls as [|l ls IH]; intros mo d H; cbn [fold_right] in H; [lia|]. cbn [month_split length].
  destruct (N.ltb_spec d l) as [Hl|Hl].
  - cbn [fst snd]. rewrite N.sub_diag. cbn. split; [lia|]. auto.
  - destruct (IH (mo + 1) (d - l) ltac:(lia)) as (A & B & C). pose proof (month_split_ge ls (mo + 1) (d - l)) as G.
    set (r := month_split ls (mo + 1) (d - l)) in *.
    replace (N.to_nat (fst r - mo)) with (S (N.to_nat (fst r - (mo + 1)))) by lia. cbn [nth].
    split; [lia|]. split; [right; exact B|exact C].
Qed.

Lemma year_days y : fold_right N.add 0 (month_lens y) = year_len y.
Proof. unfold month_lens, year_len. destruct (leap y); reflexivity. Qed.

Lemma civil_valid s : valid_stamp (civil s).
Proof.
  unfold civil. destruct (year_split _ _ _) as [y yd] eqn:Ey. destruct (month_split _ _ _) as [mo md] eqn:Em.
  assert (Hr : yd < year_len y).
  { pose proof (year_split_rest (S (N.to_nat (s / 86400 / 365))) 1970 (s / 86400)) as H. rewrite Ey in H.
    cbn [fst snd] in H. apply H. rewrite Nat2N.inj_succ, N2Nat.id.
    generalize (s / 86400). intros d. pose proof (N.div_mod d 365 ltac:(lia)). pose proof (N.mod_lt d 365 ltac:(lia)).
    generalize dependent (d / 365). generalize dependent (d mod 365). intros. lia. }
  rewrite <- year_days in Hr. pose proof (month_split_rest (month_lens y) 1 yd Hr) as (A & B & C).
  rewrite Em in A, B, C. cbn [fst snd] in A, B, C.
  assert (Hl : nth (N.to_nat (mo - 1)) (month_lens y) 0 <= 31).
  { revert B. generalize (nth (N.to_nat (mo - 1)) (month_lens y) 0). intros x Hx. unfold month_lens in Hx.
    assert ((if leap y then 29 else 28) <= 29) by (destruct (leap y); lia).
    generalize dependent (if leap y then 29 else 28). intros z Hx Hz. cbn [In] in Hx.
    repeat (destruct Hx as [<-|Hx]; [lia|]). destruct Hx. }
  change (length (month_lens y)) with 12%nat in A.
  unfold valid_stamp. cbn [st_y st_mo st_d st_h st_mi st_s].
  pose proof (N.mod_lt y 100 ltac:(lia)). pose proof (N.mod_lt s 86400 ltac:(lia)) as Hs.
  generalize dependent (s mod 86400). intros r Hr0.
  pose proof (N.mod_lt r 60 ltac:(lia)).
  assert (r / 3600 < 100) by (apply N.div_lt_upper_bound; lia).
  assert (r mod 3600 / 60 < 100).
  { apply N.div_lt_upper_bound; [lia|]. pose proof (N.mod_lt r 3600 ltac:(lia)). lia. }
  repeat split; try assumption; lia.
Qed.

Lemma clock_parts r r' : r / 3600 = r' / 3600 -> (r mod 3600) / 60 = (r' mod 3600) / 60 -> r mod 60 = r' mod 60 -> r = r'.
Proof.
  assert (G : forall x, x = 3600 * (x / 3600) + 60 * ((x mod 3600) / 60) + x mod 60).
  { intros x. pose proof (N.div_mod x 3600 ltac:(lia)) as H. pose proof (N.div_mod (x mod 3600) 60 ltac:(lia)) as H'.
    assert (E : (x mod 3600) mod 60 = x mod 60).
    { rewrite H at 2. replace (3600 * (x / 3600) + x mod 3600) with (x mod 3600 + (60 * (x / 3600)) * 60) by lia.
      rewrite N.mod_add by lia. reflexivity. }
    rewrite E in H'. lia. }
  intros A B C. rewrite (G r), (G r'), A, B, C. reflexivity.
Qed.

(** The names of directories show the second, for almost a hundred years from 1970 on. *)
Definition in_range (s : N) : Prop := s < 36500 * 86400.

Theorem C53_clock s s' : in_range s -> in_range s' -> stamp_str (civil s) = stamp_str (civil s') -> s = s'.
Proof.
  intros R R' E. apply stamp_str_inj in E; [|apply civil_valid|apply civil_valid]. unfold civil in E.
  assert (D : s / 86400 < 36500) by (apply N.div_lt_upper_bound; [lia|]; unfold in_range in R; lia).
  assert (D' : s' / 86400 < 36500) by (apply N.div_lt_upper_bound; [lia|]; unfold in_range in R'; lia).
  pose proof (year_split_le (S (N.to_nat (s / 86400 / 365))) 1970 (s / 86400)) as L.
  pose proof (year_split_le (S (N.to_nat (s' / 86400 / 365))) 1970 (s' / 86400)) as L'.
  pose proof (year_split_ge (S (N.to_nat (s / 86400 / 365))) 1970 (s / 86400)) as G.
  pose proof (year_split_ge (S (N.to_nat (s' / 86400 / 365))) 1970 (s' / 86400)) as G'.
  destruct (year_split (S (N.to_nat (s / 86400 / 365))) 1970 (s / 86400)) as [y yd] eqn:Ey.
  destruct (year_split (S (N.to_nat (s' / 86400 / 365))) 1970 (s' / 86400)) as [y' yd'] eqn:Ey'.
  destruct (month_split (month_lens y) 1 yd) as [mo md] eqn:Em.
  destruct (month_split (month_lens y') 1 yd') as [mo' md'] eqn:Em'.
  cbn [fst] in L, L', G, G'.
  pose proof (f_equal st_y E) as E1. pose proof (f_equal st_mo E) as E2. pose proof (f_equal st_d E) as E3.
  pose proof (f_equal st_h E) as E4. pose proof (f_equal st_mi E) as E5. pose proof (f_equal st_s E) as E6.
  cbn [st_y st_mo st_d st_h st_mi st_s] in E1, E2, E3, E4, E5, E6. clear E.
  assert (Hy : y = y').
  { generalize dependent (s / 86400). generalize dependent (s' / 86400). intros.
    pose proof (N.div_mod y 100 ltac:(lia)). pose proof (N.div_mod y' 100 ltac:(lia)).
    pose proof (N.mod_lt y 100 ltac:(lia)). rewrite <- E1 in *.
    generalize dependent (y mod 100). generalize dependent (y / 100). generalize dependent (y' / 100). intros. lia. }
  subst y'. assert (md = md') by lia. subst mo' md'.
  assert (yd = yd') by (apply (month_split_inj (month_lens y) 1); congruence). subst yd'.
  rewrite <- Ey' in Ey. apply year_split_inj in Ey.
  pose proof (clock_parts _ _ E4 E5 E6) as Er.
  rewrite (N.div_mod s 86400), (N.div_mod s' 86400) by lia. rewrite Ey, Er. reflexivity.
Qed.

(** ** The stamp is the date *)

(** the Gregorian calendar: the days before a year and before a month of it *)
Definition leap_year (y : N) : Prop := (exists k, y = 4 * k) /\ ((forall k, y <> 100 * k) \/ exists k, y = 400 * k).
Definition days_before_year (y : N) : N := 365 * (y - 1) + (y - 1) / 4 + (y - 1) / 400 - (y - 1) / 100.
Definition month_starts : list N := [0; 31; 59; 90; 120; 151; 181; 212; 243; 273; 304; 334; 365].
Definition days_before_month (y mo x : N) : Prop :=
  (leap_year y -> 3 <= mo -> x = nth (N.to_nat (mo - 1)) month_starts 0 + 1) /\
  (~ leap_year y \/ mo < 3 -> x = nth (N.to_nat (mo - 1)) month_starts 0).

Lemma leap_iff y : leap y = true <-> leap_year y.
Proof.
  assert (D : forall k, k <> 0 -> (y mod k = 0 <-> exists j, y = k * j)).
  { intros k Hk. split; [|intros (j & ->); rewrite N.mul_comm; apply N.mod_mul, Hk].
    intros H. exists (y / k). apply (N.div_exact y k Hk). exact H. }
  unfold leap, leap_year. rewrite andb_true_iff, orb_true_iff, negb_true_iff, N.eqb_eq, N.eqb_neq, N.eqb_eq.
  rewrite (D 4), (D 100), (D 400) by discriminate. split; intros [H1 [H2|H2]]; (split; [exact H1|]).
  - left. intros k E. apply H2. eauto.
  - right. exact H2.
  - left. intros (k & E). exact (H2 k E).
  - right. exact H2.
Qed.
Lemma div_succ y k : k <> 0 -> (y + 1) / k = y / k + if (y + 1) mod k =? 0 then 1 else 0.
Proof.
  intros Hk. pose proof (N.div_mod (y + 1) k Hk) as A. pose proof (N.mod_lt (y + 1) k Hk) as B.
  generalize dependent ((y + 1) / k). generalize dependent ((y + 1) mod k). intros r B q A. destruct (N.eqb_spec r 0) as [->|E].
  - assert (q <> 0) by (intros ->; lia). assert (H1 : q - 1 = y / k); [|lia]. apply (N.div_unique y k (q - 1) (k - 1)); [lia|].
    rewrite N.mul_sub_distr_l. assert (k <= k * q) by nia. lia.
  - assert (H1 : q = y / k); [|lia]. apply (N.div_unique y k q (r - 1)); lia.
Qed.
Lemma next_year y : 1 <= y -> days_before_year (y + 1) = days_before_year y + year_len y.
Proof.
  intros H. unfold days_before_year, year_len, leap. replace (y + 1 - 1) with (y - 1 + 1) by lia.
  rewrite !(div_succ (y - 1)) by discriminate. replace (y - 1 + 1) with y by lia.
  assert (L : (y - 1) / 100 <= (y - 1) / 4) by (apply N.div_le_compat_l; lia).
  assert (M : y mod 100 = 0 -> y mod 4 = 0).
  { intros E. apply N.div_exact in E; [|discriminate]. rewrite E, N.mul_comm. replace (y / 100 * 100) with (y / 100 * 25 * 4) by lia.
    apply N.mod_mul. discriminate. }
  assert (M' : y mod 400 = 0 -> y mod 100 = 0).
  { intros E. apply N.div_exact in E; [|discriminate]. rewrite E, N.mul_comm. replace (y / 400 * 400) with (y / 400 * 4 * 100) by lia.
    apply N.mod_mul. discriminate. }
  generalize dependent ((y - 1) / 4). generalize ((y - 1) / 100). generalize ((y - 1) / 400). intros a b c L.
  destruct (N.eqb_spec (y mod 4) 0) as [A|A], (N.eqb_spec (y mod 100) 0) as [B|B], (N.eqb_spec (y mod 400) 0) as [C|C]; cbn [andb orb negb];
    try (exfalso; tauto); lia.
Qed.
Lemma year_split_days f y d : 1 <= y ->
  days_before_year (fst (year_split f y d)) + snd (year_split f y d) = days_before_year y + d.
Proof.
  revert y d. induction f as [|f IH]; intros y d H; cbn [year_split]; [reflexivity|].
  destruct (N.ltb_spec d (year_len y)) as [Hl|Hl]; [reflexivity|]. rewrite IH by lia. rewrite next_year by exact H. lia.
Qed.
Ltac closed_nth :=
  repeat match goal with |- context [nth ?k ?l 0] => let v := eval vm_compute in (nth k l 0) in change (nth k l 0) with v end.
Lemma month_split_days y d : d < year_len y ->
  let r := month_split (month_lens y) 1 d in
  exists x, days_before_month y (fst r) x /\ d = x + snd r /\ 1 <= fst r <= 12 /\ snd r < nth (N.to_nat (fst r - 1)) (month_lens y) 0.
Proof.
  intros H. unfold days_before_month, year_len, month_lens in *. cbn [month_split].
  destruct (leap y) eqn:E.
  - apply leap_iff in E.
    repeat (match goal with |- context [?a <? ?b] => destruct (N.ltb_spec a b) as [?|?] end;
      [cbn [fst snd]; closed_nth; eexists; (split; [split; [intros _ ?; first [exfalso; lia|reflexivity]|intros [?|?]; [contradiction|first [exfalso; lia|reflexivity]]]|]);
       (split; [lia|]); lia|]).
    exfalso. lia.
  - assert (E' : ~ leap_year y) by (rewrite <- leap_iff; congruence).
    repeat (match goal with |- context [?a <? ?b] => destruct (N.ltb_spec a b) as [?|?] end;
      [cbn [fst snd]; closed_nth; eexists; (split; [split; [intros ?; contradiction|intros _; reflexivity]|]); (split; [lia|]); lia|]).
    exfalso. lia.
Qed.

(** C53: The stamp of a second is its date and time: [s] is the second [sec] of the minute [mi] of the hour [h] of the day [d] of
    the month [mo] of the year [y], of which the stamp has the last two digits; the first of January of 1970 is day 719162 of
    the calendar, counted from zero. *)
Theorem C53_calendar s : exists y x,
  let a := civil s in
  1970 <= y /\ st_y a = y mod 100 /\ 1 <= st_mo a <= 12 /\ days_before_month y (st_mo a) x /\
  1 <= st_d a /\ (forall x', days_before_month y (st_mo a + 1) x' -> x + st_d a <= x') /\
  st_h a < 24 /\ st_mi a < 60 /\ st_s a < 60 /\
  s + 719162 * 86400 = 86400 * (days_before_year y + x + (st_d a - 1)) + 3600 * st_h a + 60 * st_mi a + st_s a.
Proof.
  unfold civil.
  pose proof (year_split_rest (S (N.to_nat (s / 86400 / 365))) 1970 (s / 86400)) as R.
  pose proof (year_split_days (S (N.to_nat (s / 86400 / 365))) 1970 (s / 86400) ltac:(lia)) as D.
  pose proof (year_split_ge (S (N.to_nat (s / 86400 / 365))) 1970 (s / 86400)) as G.
  destruct (year_split _ 1970 _) as [y yd]. cbn [fst snd] in R, D, G.
  assert (Hr : yd < year_len y).
  { apply R. rewrite Nat2N.inj_succ, N2Nat.id.
    generalize (s / 86400). intros d. pose proof (N.div_mod d 365 ltac:(lia)). pose proof (N.mod_lt d 365 ltac:(lia)).
    generalize dependent (d / 365). generalize dependent (d mod 365). intros. lia. }
  clear R. destruct (month_split_days y yd Hr) as (x & B & E & M & L). destruct (month_split (month_lens y) 1 yd) as [mo md]. cbn [fst snd] in B, E, M, L.
  exists y, x. cbn [st_y st_mo st_d st_h st_mi st_s]. split; [exact G|]. split; [reflexivity|]. split; [exact M|]. split; [exact B|]. split; [lia|].
  split.
  { intros x' B'. enough (x' = x + nth (N.to_nat (mo - 1)) (month_lens y) 0) by lia. destruct B as [B1 B2], B' as [B1' B2']. clear L E D Hr.
    assert (C : In mo [1;2;3;4;5;6;7;8;9;10;11;12]).
    { destruct M as [M1 M2]. cbn [In]. lia. }
    unfold month_lens. destruct (leap y) eqn:El.
    - apply leap_iff in El. cbn [In] in C.
      repeat (destruct C as [<-|C];
        [closed_nth; first [rewrite (B1 El) by lia|rewrite B2 by (right; lia)]; first [rewrite (B1' El) by lia|rewrite B2' by (right; lia)]; reflexivity|]).
      destruct C.
    - assert (El' : ~ leap_year y) by (rewrite <- leap_iff; congruence). cbn [In] in C.
      repeat (destruct C as [<-|C]; [rewrite B2, B2' by (left; exact El'); reflexivity|]). destruct C. }
  pose proof (N.div_mod s 86400 ltac:(lia)) as S1. pose proof (N.mod_lt s 86400 ltac:(lia)) as S2.
  change (days_before_year 1970) with 719162 in D.
  generalize dependent (s mod 86400). generalize dependent (s / 86400). intros day D r S1 S2.
  pose proof (N.div_mod r 3600 ltac:(lia)) as R1. pose proof (N.mod_lt r 3600 ltac:(lia)) as R2.
  assert (R3 : (r mod 3600) mod 60 = r mod 60).
  { rewrite R1 at 2. replace (3600 * (r / 3600) + r mod 3600) with (r mod 3600 + (60 * (r / 3600)) * 60) by lia.
    rewrite N.mod_add by lia. reflexivity. }
  rewrite <- R3. assert (R0 : r / 3600 < 24) by (apply N.div_lt_upper_bound; lia).
  generalize dependent (r mod 3600). generalize dependent (r / 3600). intros h R0 q R1 R2 _.
  pose proof (N.div_mod q 60 ltac:(lia)) as Q1. pose proof (N.mod_lt q 60 ltac:(lia)) as Q2.
  assert (Q3 : q / 60 < 60) by (apply N.div_lt_upper_bound; lia).
  generalize dependent (q mod 60). generalize dependent (q / 60). intros mi Q3 sec Q1 Q2.
  split; [exact R0|]. split; [exact Q3|]. split; [exact Q2|]. lia.
Qed.
Print Assumptions C53_calendar.
(** the twenty-ninth of February of 2000, a quarter past eleven in the evening *)
Example C53_calendar_ex : civil (86400 * 11016 + 3600 * 23 + 60 * 15) = {| st_y := 0; st_mo := 2; st_d := 29; st_h := 23; st_mi := 15; st_s := 0 |}.
Proof. vm_compute. reflexivity. Qed.

(** ** What is looked at *)

(** the node at a path below a directory that leads through no link to a directory *)
Inductive at_real : node -> list str -> node -> Prop :=
| real_entry l m es n u : In (n, u) es -> at_real (Dir l m es) [n] u
| real_below l m es n m' es' p u :
    In (n, Dir false m' es') es -> at_real (Dir false m' es') p u -> at_real (Dir l m es) (n :: p) u.

(** how many entries there are in a directory and below, links to directories not entered *)
Fixpoint entries (t : node) : nat :=
  match t with
  | Dir _ _ es =>
      fold_right (fun e k => S (match e with
                                | (_, t') => match t' with Dir true _ _ => O | _ => entries t' end
                                end + k)) O es
  | _ => O
  end.

Definition all_mtimes (t : node) : list N := flat_map (fun w => level_mtimes (snd w)) (walk false [] t).

Lemma walk_root_irr root t :
  flat_map (fun w => level_mtimes (snd w)) (walk false root t) = all_mtimes t.
Proof.
  unfold all_mtimes. generalize (@nil str). revert root. induction t as [mt| |l m es IH] using node_ind2; intros root root'.
  - reflexivity.
  - reflexivity.
  - cbn [walk flat_map snd]. f_equal.
    induction es as [|[n t'] es IHes]; [reflexivity|]. cbn [flat_map]. rewrite !flat_map_app. f_equal.
    + pose proof (IH n t' (or_introl eq_refl)) as Ht. destruct t' as [| |[] m' es']; try reflexivity.
      cbn [orb negb]. apply Ht.
    + apply IHes. intros n0 t0 H0. apply (IH n0 t0). right. exact H0.
Qed.

Lemma all_mtimes_dir l m es :
  all_mtimes (Dir l m es)
  = level_mtimes es
    ++ flat_map (fun e => match snd e with Dir false _ _ => all_mtimes (snd e) | _ => [] end) es.
Proof.
  unfold all_mtimes at 1. cbn [walk flat_map snd]. f_equal.
  induction es as [|[n t'] es IH]; [reflexivity|]. cbn [flat_map snd]. rewrite flat_map_app, IH. f_equal.
  destruct t' as [| |[] m' es']; try reflexivity. cbn [orb negb]. apply walk_root_irr.
Qed.

Lemma in_level m n u es : In (n, u) es -> In m (node_mtime u) -> In m (level_mtimes es).
Proof.
  intros H Hm. unfold level_mtimes. apply in_app_iff. destruct (is_dir u) eqn:E; [left|right];
  apply in_flat_map; exists (n, u); (split; [|exact Hm]); apply filter_In; (split; [exact H|]); cbn [snd]; rewrite E; reflexivity.
Qed.

Lemma at_real_all t p u m : at_real t p u -> In m (node_mtime u) -> In m (all_mtimes t).
Proof.
  intros H Hm. induction H as [l ml es n u H|l ml es n m' es' p u H H1 IH]; rewrite all_mtimes_dir; apply in_app_iff.
  - left. eapply in_level; eassumption.
  - right. apply in_flat_map. exists (n, Dir false m' es'). split; [exact H|]. cbn [snd]. exact (IH Hm).
Qed.

Lemma level_length es : (length (level_mtimes es) <= length es)%nat.
Proof.
  unfold level_mtimes. rewrite app_length. induction es as [|[n u] es IH]; [cbn; lia|].
  cbn [filter snd]. destruct u as [| |l m' es']; cbn [is_dir negb flat_map snd node_mtime app length]; lia.
Qed.

Lemma all_length t : (length (all_mtimes t) <= entries t)%nat.
Proof.
  induction t as [mt| |l m es IH] using node_ind2; [cbn; lia|cbn; lia|].
  rewrite all_mtimes_dir, app_length. pose proof (level_length es) as L. cbn [entries].
  assert (G : (length es + length (flat_map (fun e => match snd e with Dir false _ _ => all_mtimes (snd e) | _ => [] end) es)
     <= fold_right (fun e k => S (match e with (_, t') => match t' with Dir true _ _ => O | _ => entries t' end end + k)) O es)%nat).
  2: lia.
  clear L. induction es as [|[n t'] es IHes]; [cbn; lia|]. cbn [length flat_map snd fold_right]. rewrite app_length.
  specialize (IHes (fun n0 t0 H0 => IH n0 t0 (or_intror H0))). pose proof (IH n t' (or_introl eq_refl)) as Ht.
  destruct t' as [| |[] m' es']; cbn [length] in *; lia.
Qed.

Lemma fold_max_ge ms m : m <= fold_left N.max ms m /\ forall x, In x ms -> x <= fold_left N.max ms m.
Proof.
  revert m. induction ms as [|a ms IH]; intros m; cbn [fold_left]; [split; [lia|intros x []]|].
  destruct (IH (N.max m a)) as [A B]. split; [lia|]. intros x [<-|H]; [lia|auto].
Qed.

Lemma last_ge limit t x : In x (inspected limit t) -> exists m, last_modification limit t = Ok m /\ x <= m.
Proof.
  intros H. unfold last_modification. destruct (inspected limit t) as [|a ms]; [destruct H|].
  exists (fold_left N.max ms a). split; [reflexivity|]. destruct (fold_max_ge ms a) as [A B].
  destruct H as [<-|H]; auto.
Qed.

(** ** The positive part: a dataset of at most [limit] entries

    [t] is the dataset when it was preprocessed and [t'] the dataset later.  Some file or directory below
    the root of [t'], not reached through a link to a directory, was modified at time [e]; the clock has
    shown a later second from then on.  (Creating or removing a file modifies the directory it is in.) *)
Theorem C53_noticed clock limit t t' p u m e a :
  last_modification limit t = Ok m ->
  at_real t' p u -> In e (node_mtime u) -> (entries t' <= limit)%nat ->
  in_range (clock m) -> (forall x, e <= x -> clock m < clock x /\ in_range (clock x)) ->
  get_timestamp clock limit t = Ok a ->
  exists a', get_timestamp clock limit t' = Ok a' /\ stamp_str a' <> stamp_str a.
Proof.
  intros Hm Hu He Hl Rm Hc Ha.
  assert (Hi : In e (inspected limit t')).
  { pose proof (at_real_all _ _ _ _ Hu He) as H. pose proof (all_length t') as L.
    assert (E : inspected limit t' = firstn limit (all_mtimes t')).
    { destruct Hu as [l ml [|x es] n u Hin|l ml [|x es] n m' es' p u Hin _]; try (destruct Hin); reflexivity. }
    rewrite E, firstn_all2 by lia. exact H. }
  apply last_ge in Hi. destruct Hi as (m' & Hm' & Hle). unfold get_timestamp in *. rewrite Hm in Ha. rewrite Hm'.
  cbn [bind] in *. injection Ha as <-. eexists. split; [reflexivity|]. destruct (Hc m' Hle) as [C R].
  intros E. apply C53_clock in E; [lia|exact R|exact Rm].
Qed.

(** C53: The stamp of a dataset with at most [limit] entries is the time of the entry that was modified last; an empty directory and
    a dataset of one file have their own time. *)
Lemma fold_max_in ms m : In (fold_left N.max ms m) (m :: ms).
Proof.
  revert m. induction ms as [|a ms IH]; intros m; cbn [fold_left]; [left; reflexivity|].
  destruct (IH (N.max m a)) as [E|H]; [|right; right; exact H]. rewrite <- E. destruct (N.max_spec m a) as [[_ ->]|[_ ->]]; cbn; auto.
Qed.
Lemma in_level_inv m es : In m (level_mtimes es) -> exists n u, In (n, u) es /\ In m (node_mtime u).
Proof.
  unfold level_mtimes. rewrite in_app_iff, !in_flat_map. intros [([n u] & H & Hm)|([n u] & H & Hm)]; apply filter_In in H; destruct H; eauto.
Qed.
Lemma all_at_real t m : In m (all_mtimes t) -> exists p u, at_real t p u /\ In m (node_mtime u).
Proof.
  induction t as [mt| |l ml es IH] using node_ind2; [intros []|intros []|]. rewrite all_mtimes_dir, in_app_iff. intros [H|H].
  - apply in_level_inv in H. destruct H as (n & u & Hin & Hm). exists [n], u. split; [constructor; exact Hin|exact Hm].
  - apply in_flat_map in H. destruct H as ([n t'] & Hin & H). cbn [snd] in H.
    destruct t' as [| |[] m' es']; try destruct H. destruct (IH _ _ Hin H) as (p & u & Hu & Hm).
    exists (n :: p), u. split; [econstructor; eassumption|exact Hm].
Qed.
Theorem C53_latest clock limit t a : (entries t <= limit)%nat -> get_timestamp clock limit t = Ok a ->
  exists m, a = civil (clock m) /\
    ((exists p u, at_real t p u /\ In m (node_mtime u)) \/ (t = File m \/ exists l, t = Dir l m [])) /\
    forall p u m', at_real t p u -> In m' (node_mtime u) -> m' <= m.
Proof.
  intros Hl Ha. unfold get_timestamp in Ha. destruct (last_modification limit t) as [m|e] eqn:E; [|discriminate]. injection Ha as <-.
  exists m. split; [reflexivity|]. unfold last_modification in E.
  destruct t as [mt| |l ml [|e es]]; cbn [inspected fold_left] in E; try discriminate.
  - injection E as <-. split; [auto|]. intros p u m' H. inversion H.
  - injection E as <-. split; [eauto|]. intros p u m' H. inversion H; subst; match goal with X : In _ [] |- _ => destruct X end.
  - set (t := Dir l ml (e :: es)) in *. pose proof (all_length t) as L. fold (all_mtimes t) in E. rewrite firstn_all2 in E by lia.
    destruct (all_mtimes t) as [|a ms] eqn:Em; [discriminate|]. injection E as <-. split.
    + left. apply all_at_real. rewrite Em. apply fold_max_in.
    + intros p u m' H Hm. pose proof (at_real_all _ _ _ _ H Hm) as X. rewrite Em in X. destruct (fold_max_ge ms a) as [A B].
      destruct X as [<-|X]; auto.
Qed.
Print Assumptions C53_latest.
(** C53: a dataset that is not only links has a stamp *)
Theorem C53_stamped clock limit t : limit <> O ->
  ((exists m, t = File m) \/ (exists l m, t = Dir l m []) \/ exists p u, at_real t p u /\ node_mtime u <> []) ->
  exists a, get_timestamp clock limit t = Ok a.
Proof.
  intros Hl H. unfold get_timestamp, last_modification.
  assert (N : inspected limit t <> []).
  { destruct H as [(m & ->)|[(l & m & ->)|(p & u & Hu & Hm)]]; [discriminate|discriminate|].
    destruct (node_mtime u) as [|x xs] eqn:E; [contradiction|].
    assert (Hin : In x (all_mtimes t)) by (apply (at_real_all t p u); [exact Hu|rewrite E; left; reflexivity]).
    assert (Ei : inspected limit t = firstn limit (all_mtimes t)).
    { destruct Hu as [l ml [|y es] n u Hi|l ml [|y es] n m' es' p u Hi _]; try (destruct Hi); reflexivity. }
    rewrite Ei. destruct (all_mtimes t) as [|z zs]; [destruct Hin|]. destruct limit; [contradiction|]. discriminate. }
  destruct (inspected limit t) as [|m ms]; [contradiction|]. cbn [bind]. eauto.
Qed.
Print Assumptions C53_stamped.

(** Names with different stamps are different: nothing written for the old contents is taken for the new. *)
Theorem C53_directory (dir : str) (r r' : run) : plain_run r -> plain_run r' ->
  stamp_str (r_stamp r) <> stamp_str (r_stamp r') ->
  dataset_dir_name r <> dataset_dir_name r' /\ parsed_path dir r <> parsed_path dir r' /\
  (r_output r = r_output r' -> prep_path dir r <> prep_path dir r') /\ vocab_path dir r <> vocab_path dir r'.
Proof.
  intros Hr Hr' H. split; [|split; [|split]].
  - intros E. apply H. apply C41_parsed in E; [|assumption|assumption]. destruct E as (_ & -> & _). reflexivity.
  - intros E. apply H. destruct (C41_parsed_path dir r r' Hr Hr' (or_introl E)) as (_ & -> & _). reflexivity.
  - intros Ho E. apply H. apply C41_prep_path in E; [|assumption..]. destruct E as (_ & -> & _). reflexivity.
  - intros E. apply H. apply C41_vocab_path in E; [|assumption..]. destruct E as (_ & -> & _). reflexivity.
Qed.

(** a file in a subdirectory is modified twenty seconds later *)
Definition before_ex : node :=
  Dir false 50 [(lit "a", File 100); (lit "src", Dir false 90 [(lit "b", File 80)])].
Definition after_ex : node :=
  Dir false 50 [(lit "a", File 100); (lit "src", Dir false 90 [(lit "b", File 120)])].
Example C53_noticed_ex :
  last_modification 1000 before_ex = Ok 100 /\ last_modification 1000 after_ex = Ok 120 /\
  at_real after_ex [lit "src"; lit "b"] (File 120) /\ entries after_ex = 3%nat /\ in_range 100 /\
  get_timestamp (fun x => x) 1000 before_ex = Ok (civil 100) /\
  stamp_str (civil 100) = lit "70-01-01T00-01-40" /\ stamp_str (civil 120) = lit "70-01-01T00-02-00" /\
  stamp_str (civil 1583794859) = lit "20-03-09T23-00-59".
Proof.
  split; [reflexivity|]. split; [reflexivity|].
  split. { eapply real_below; [right; left; reflexivity|]. apply real_entry. left. reflexivity. }
  repeat split; vm_compute; reflexivity.
Qed.

(** ** What is not noticed

    Each of these is a change of the files that are preprocessed after which the stamp is the same, so that
    the outputs of the old contents are taken for the outputs of the new contents. *)

(** Files after the first [limit] entries, whatever the limit (it is 1000) *)
Definition many (limit : nat) (m : N) : node :=
  Dir false 0 (map (fun k => (repeat 97 (S k), File 0)) (seq 0 limit) ++ [(lit "b", File m)]).

Theorem C53_limit_refuted limit : limit <> O ->
  (forall m, wf (many limit m) /\ at_real (many limit m) [lit "b"] (File m)) /\
  forall clock m m', get_timestamp clock limit (many limit m) = get_timestamp clock limit (many limit m')
                     /\ get_timestamp clock limit (many limit m) <> Err ValueError.
Proof.
  intros Hl. split.
  - intros m. split.
    + constructor.
      * rewrite map_app, map_map. cbn [fst map]. apply NoDup_app_disj.
        -- apply FinFun.Injective_map_NoDup; [|apply seq_NoDup]. intros a b E. apply (f_equal (@length N)) in E.
           rewrite !repeat_length in E. lia.
        -- constructor; [intros []|constructor].
        -- intros x Hx [<-|[]]. apply in_map_iff in Hx. destruct Hx as (k & E & _). discriminate E.
      * intros n t Hin. apply in_app_iff in Hin. destruct Hin as [Hin|[E|[]]].
        -- apply in_map_iff in Hin. destruct Hin as (k & E & _). injection E as <- <-. split; [|constructor].
           split; [discriminate|]. split; [|split; discriminate].
           intros Hs. change (In slash (repeat 97 (S k))) in Hs. apply repeat_spec in Hs. discriminate Hs.
        -- injection E as <- <-. split; [|constructor]. split; [discriminate|]. split; [|split; discriminate].
           intros [E|[]]. discriminate E.
    + constructor. apply in_app_iff. right. left. reflexivity.
  - assert (G : forall m, inspected limit (many limit m) = repeat 0 limit).
    { intros m. assert (E : inspected limit (many limit m) = firstn limit (all_mtimes (many limit m))).
      { unfold many. destruct (seq 0 limit); reflexivity. }
      rewrite E. clear E. unfold many. rewrite all_mtimes_dir. unfold level_mtimes.
      assert (A : forall ks, filter (fun e : str * node => is_dir (snd e)) (map (fun k => (repeat 97 (S k), File 0)) ks ++ [(lit "b", File m)]) = []).
      { induction ks as [|k ks IH]; [reflexivity|exact IH]. }
      rewrite A. clear A. cbn [flat_map app]. clear Hl.
      assert (B : forall ks rest, firstn (length ks) (flat_map (fun e => node_mtime (snd e))
         (filter (fun e : str * node => negb (is_dir (snd e))) (map (fun k => (repeat 97 (S k), File 0)) ks ++ [(lit "b", File m)])) ++ rest)
         = repeat 0 (length ks)).
      { induction ks as [|k ks IH]; intros rest; [reflexivity|].
        cbn [length map app filter snd is_dir negb flat_map node_mtime firstn repeat]. f_equal. apply IH. }
      specialize (B (seq 0 limit)). rewrite seq_length in B. apply B. }
    intros clock m m'. unfold get_timestamp, last_modification. rewrite !G. split; [reflexivity|].
    destruct limit as [|k]; [congruence|]. cbn [repeat bind]. discriminate.
Qed.
Example C53_limit_ex : entries (many 1000 5) = 1001%nat /\
  get_timestamp (fun x => x) 1000 (many 1000 5) = Ok (civil 0) /\ get_timestamp (fun x => x) 1000 (many 1000 1600000000) = Ok (civil 0).
Proof. vm_compute. auto. Qed.

(** A second modification within the same second, or in the hour that is repeated when summer time ends *)
Theorem C53_second_refuted clock limit m m' : limit <> O -> m < m' -> clock m = clock m' ->
  exists t t' n, at_real t [n] (File m) /\ at_real t' [n] (File m') /\ wf t /\ wf t' /\ get_timestamp clock limit t = get_timestamp clock limit t' /\ get_timestamp clock limit t = Ok (civil (clock m)).
Proof.
  intros Hl Hm Hc. exists (Dir false 0 [(lit "a", File m)]), (Dir false 0 [(lit "a", File m')]), (lit "a").
  split; [constructor; left; reflexivity|]. split; [constructor; left; reflexivity|].
  assert (W : forall x, wf (Dir false 0 [(lit "a", File x)])).
  { intros x. constructor; [constructor; [intros []|constructor]|]. intros n t [E|[]]. injection E as <- <-.
    split; [|constructor]. split; [discriminate|]. split; [|split; discriminate]. intros [E|[]]. discriminate E. }
  split; [apply W|]. split; [apply W|]. destruct limit as [|k]; [congruence|].
  unfold get_timestamp, last_modification. cbn. rewrite firstn_nil. cbn. rewrite Hc. split; reflexivity.
Qed.

(** Removing a file of the root directory, when another one was modified later: the time of the root
    directory itself, which changes then, is not looked at.  Likewise a file that is put there with its
    time preserved *)
Theorem C53_root_refuted : exists t t', wf t /\ wf t' /\ forall clock limit path,
  (limit > 1)%nat -> get_timestamp clock limit t = get_timestamp clock limit t' /\
  scan_files path t None = [lit "./a"; lit "./b"] /\ scan_files path t' None = [lit "./a"] /\
  node_mtime t = [200] /\ node_mtime t' = [300].
Proof.
  exists (Dir false 200 [(lit "a", File 100); (lit "b", File 90)]), (Dir false 300 [(lit "a", File 100)]).
  assert (V : forall x, In x [lit "a"; lit "b"] -> valid_name x).
  { intros x [<-|[<-|[]]]; (split; [discriminate|]; split; [|split; discriminate]; intros [E|[]]; discriminate E). }
  split; [|split].
  - constructor; [apply NoDup_cons; [intros [E|[]]; discriminate E|apply NoDup_cons; [intros []|apply NoDup_nil]]|].
    intros n t [E|[E|[]]]; injection E as <- <-; (split; [apply V; cbn; auto|constructor]).
  - constructor; [apply NoDup_cons; [intros []|apply NoDup_nil]|].
    intros n t [E|[]]; injection E as <- <-; (split; [apply V; cbn; auto|constructor]).
  - intros clock limit path Hl. destruct limit as [|[|k]]; [lia|lia|].
    split; [|repeat split]. unfold get_timestamp, last_modification. cbn. rewrite !firstn_nil. reflexivity.
Qed.

(** Files in a directory that is linked are preprocessed, but their times are not looked at *)
Theorem C53_link_refuted : exists t : N -> node, (forall m, wf (t m)) /\ forall m m' clock limit path,
  (limit > 1)%nat -> get_timestamp clock limit (t m) = get_timestamp clock limit (t m') /\
  get_timestamp clock limit (t m) = Ok (civil (clock 100)) /\
  In (lit "src/b") (scan_files path (t m) None) /\ at_path (t m) [lit "src"; lit "b"] (File m).
Proof.
  exists (fun m => Dir false 50 [(lit "a", File 100); (lit "src", Dir true 90 [(lit "b", File m)])]).
  assert (V : forall x, In x [lit "a"; lit "b"; lit "src"] -> valid_name x).
  { intros x H. repeat (destruct H as [<-|H]; [split; [discriminate|]; split; [|split; discriminate];
      intros Hs; repeat (destruct Hs as [E|Hs]; [discriminate E|]); destruct Hs|]). destruct H. }
  split.
  - intros m. constructor; [apply NoDup_cons; [intros [E|[]]; discriminate E|apply NoDup_cons; [intros []|apply NoDup_nil]]|].
    intros n t [E|[E|[]]]; injection E as <- <-; (split; [apply V; cbn; auto|constructor]).
    + apply NoDup_cons; [intros []|apply NoDup_nil].
    + intros n t [E|[]]; injection E as <- <-; (split; [apply V; cbn; auto|constructor]).
  - intros m m' clock limit path Hl. destruct limit as [|[|k]]; [lia|lia|].
    split; [reflexivity|]. split; [unfold get_timestamp, last_modification; cbn; rewrite firstn_nil; reflexivity|].
    split; [right; left; reflexivity|].
    eapply at_entry; [right; left; reflexivity|]. eapply at_entry; [left; reflexivity|]. constructor.
Qed.

(** A directory with nothing but links to files cannot be preprocessed at all *)
Theorem C53_links_only_refuted : exists t, wf t /\ forall clock limit path,
  get_timestamp clock limit t = Err ValueError /\ scan_files path t None = [].
Proof.
  exists (Dir false 5 [(lit "a", Link)]). split.
  - constructor; [apply NoDup_cons; [intros []|apply NoDup_nil]|]. intros n t [E|[]]; injection E as <- <-.
    split; [|constructor]. split; [discriminate|]. split; [|split; discriminate]. intros [E|[]]; discriminate E.
  - intros clock limit path. split; [|reflexivity]. destruct limit; reflexivity.
Qed.

(** On the other hand, nothing changes the stamp if no inspected entry changes: repeated runs use the same
    directory.  Removing a file below the root is noticed because the directory it was in is an entry. *)
Definition removed_ex : node := Dir false 50 [(lit "a", File 100); (lit "src", Dir false 130 [])].
Example C53_removed_ex :
  last_modification 1000 before_ex = Ok 100 /\ last_modification 1000 removed_ex = Ok 130.
Proof. split; reflexivity. Qed.

Definition timestamp_theorems :=
  (C53_clock, C53_noticed, C53_directory, C53_limit_refuted, C53_second_refuted, C53_root_refuted,
   C53_link_refuted, C53_links_only_refuted).
Print Assumptions timestamp_theorems.
