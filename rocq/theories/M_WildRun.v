(** * BPE over whole texts: the indices and the run (codeprep/bpepkg/wild_bpe.py 82-448)

    A pair is the string of its two symbols joined with a blank, as in the code.  The functions on lists of positions are in M_Wild.
    A set is the list of its elements in the order in which they were added; [ord] is the order in which Python goes through it.
    Reading a missing key of the two indices creates an entry with an empty value; such an entry is overwritten or deleted before
    anything depends on it, and is not created here.  Performance statistics are left out. *)
From Verif Require Import M_Base L_Base M_Wild.

Definition blank : N := 32%N.
Definition pfst (k : str) : str := nth 0 (split_on blank k) [].   (** [k.split(" ")[0]] *)
Definition psnd (k : str) : str := nth 1 (split_on blank k) [].   (** [k.split(" ")[1]] *)
Definition mkp (a b : str) : str := join [blank] [a; b].          (** [" ".join([a, b])] *)
Definition len (s : str) : Z := Z.of_nat (length s).

(** Side (38-51) *)
Inductive side := Right | Left.
Definition opposite (s : side) : side := match s with Right => Left | Left => Right end.
Definition is_right (s : side) : bool := match s with Right => true | Left => false end.

(** merge_pair (196-197) *)
Definition merge_pair (k : str) : str := join [] (split_on blank k).
(** can_be_concat (211-222) *)
Definition can_be_concat (main k : str) (s : side) : bool :=
  match s with Left => eqb (pfst main) (psnd k) | Right => eqb (psnd main) (pfst k) end.
(** concat_pairs (200-208) *)
Definition concat_pairs (main k : str) (s : side) : res str :=
  if can_be_concat main k s
  then Ok (match s with Left => mkp (pfst k) (merge_pair main) | Right => mkp (merge_pair main) (psnd k) end)
  else Err AssertionError.
(** double_pair (225-227) *)
Definition double_pair (k : str) : str := mkp (merge_pair k) (merge_pair k).
(** calc_position_shift (230-234) *)
Definition calc_position_shift (main k : str) (s : side) : Z :=
  match s with Left => (- len (pfst k))%Z | Right => len (pfst main) end.

(** ** The indices *)
Definition loc_index := dict str (list Z).
Definition nb_index := dict str (list str * list str).
Definition lget (li : loc_index) (k : str) : list Z := match dget li k with Some l => l | None => [] end.
Definition nget (ni : nb_index) (k : str) (s : side) : list str :=
  match dget ni k with Some (r, l) => match s with Right => r | Left => l end | None => [] end.
(** [set.add] *)
Definition sadd (x : str) (l : list str) : list str := if mem x l then l else l ++ [x].
(** [index[k][s].add(x)] *)
Definition nadd (ni : nb_index) (k : str) (s : side) (x : str) : nb_index :=
  dset ni k (match s with
             | Right => (sadd x (nget ni k Right), nget ni k Left)
             | Left => (nget ni k Right, sadd x (nget ni k Left))
             end).

(** build_indices (109-122) *)
Fixpoint build_loop (it : list str) (i : Z) (first : str) (last_key : option str) (li : loc_index) (ni : nb_index) : loc_index * nb_index :=
  match it with
  | [] => (li, ni)
  | c :: t =>
      let key := mkp first c in
      let li := dset li key (lget li key ++ [i]) in
      let ni := match last_key with
                | None => ni
                | Some lk => nadd (nadd ni lk Right key) key Left lk
                end in
      build_loop t (i + 1)%Z c (Some key) li ni
  end.
Definition build_indices (it : list str) : res (loc_index * nb_index) :=
  match it with
  | [] => Err StopIteration
  | c :: t => Ok (build_loop t 0%Z c None [] [])
  end.

(** [for x in l] with a body that changes a state *)
Fixpoint foldM {A S} (body : A -> S -> res S) (l : list A) (s : S) : res S :=
  match l with
  | [] => Ok s
  | x :: t => s' <- body x s ;; foldM body t s'
  end.

(** an element of occurence_changes: appeared pair, its first position, disappearing pair, its first position or -1, how many *)
Definition change := (str * Z * str * Z * Z)%type.

Section Run.
  (** the order in which Python goes through a set *)
  Variable ord : list str -> list str.

  (** the repeated lines 316-319 and 326-329 *)
  Definition record_changes (li : loc_index) (ch : list change) (appeared dp : str) (app rest : list Z) : loc_index * list change :=
    match app with
    | [] => (li, ch)
    | p :: _ => (dset li appeared app,
                 ch ++ [(appeared, p, dp, match rest with [] => (-1)%Z | q :: _ => q end, Z.of_nat (length app))])
    end.

  (** body of the loop of update_location_index (297-331) *)
  Definition location_body (pair : str) (main : list Z) (same : option (list Z)) (s : side) (dp : str)
      (st : loc_index * list change) : res (loc_index * list change) :=
    let (li, ch) := st in
    if eqb pair dp && negb (is_right s) then Ok st
    else
      l0 <- (if eqb pair dp then of_option NameError same else Ok (lget li dp)) ;;
      st1 <- (if can_be_concat dp pair s && is_right s
              then '(l1, app) <- merge_lists_both main l0 (calc_position_shift pair dp s, calc_position_shift pair dp (opposite s)) ;;
                   Ok (l1, record_changes li ch (double_pair pair) dp app l1)
              else Ok (l0, (li, ch))) ;;
      let '(l1, (li, ch)) := st1 in
      appeared <- concat_pairs pair dp s ;;
      let (l2, app) := merge_lists main (calc_position_shift pair dp s) l1 in
      let (li, ch) := record_changes li ch appeared dp app l2 in
      Ok (dset li dp l2, ch).

  (** cleanup_location_index (266-274) *)
  Definition cleanup_side (li : loc_index) (dps : list str) : loc_index :=
    fold_left (fun li dp => match lget li dp with [] => ddel li dp | _ => li end) dps li.
  Definition cleanup_location_index (li : loc_index) (pair : str) (right left : list str) : loc_index :=
    ddel (cleanup_side (cleanup_side li right) left) pair.

  (** update_location_index (286-335) *)
  Definition update_location_index (li : loc_index) (ni : nb_index) (pair : str) : res (loc_index * list change) :=
    let right := ord (nget ni pair Right) in
    let left := ord (nget ni pair Left) in
    let ml := lget li pair in
    let (main, same) :=
      if mem pair (nget ni pair Left)
      then let (m, d) := choose_positions_to_merge ml (calc_position_shift pair pair Right) in (m, Some d)
      else (ml, None) in
    st <- foldM (location_body pair main same Right) right (li, []) ;;
    st <- foldM (location_body pair main same Left) left st ;;
    Ok (cleanup_location_index (fst st) pair right left, snd st).

  (** add_pairs_to_neighbour_index (237-242) *)
  Definition add_pairs (li : loc_index) (p1 p2 : str) (s : side) (ni : nb_index) : res nb_index :=
    if can_be_concat p1 p2 s
    then Ok (if dmem li p2 then nadd (nadd ni p1 s p2) p2 (opposite s) p1 else ni)
    else Err AssertionError.

  (** [for x in neighbour_index[k][s]]; a set that changes its size meanwhile raises RuntimeError *)
  Fixpoint for_loop (k : str) (s : side) (size : nat) (body : str -> nb_index -> res nb_index) (todo : list str) (ni : nb_index) : res nb_index :=
    match todo with
    | [] => Ok ni
    | x :: t =>
        ni' <- body x ni ;;
        if Nat.eqb (length (nget ni' k s)) size then for_loop k s size body t ni' else Err RuntimeError
    end.
  Definition for_set (k : str) (s : side) (body : str -> nb_index -> res nb_index) (ni : nb_index) : res nb_index :=
    for_loop k s (length (nget ni k s)) body (ord (nget ni k s)) ni.

  (** 345-350 *)
  Definition double_body (li : loc_index) (pair : str) (s : side) (dp2 : str) (ni : nb_index) : res nb_index :=
    mm <- concat_pairs pair dp2 s ;;
    ni <- add_pairs li (double_pair pair) mm s ni ;;
    if can_be_concat pair mm (opposite s)
    then mmc <- concat_pairs pair mm (opposite s) ;; add_pairs li (double_pair pair) mmc s ni
    else Ok ni.
  (** 354-361 *)
  Definition next_body (li : loc_index) (pair appeared : str) (s : side) (nn : str) (ni : nb_index) : res nb_index :=
    ni <- add_pairs li appeared nn s ni ;;
    if can_be_concat pair nn (opposite s)
    then nnc <- concat_pairs pair nn (opposite s) ;; add_pairs li appeared nnc s ni
    else Ok ni.
  (** 363-369, with [o] for op_side *)
  Definition other_body (li : loc_index) (pair appeared : str) (o : side) (nn : str) (ni : nb_index) : res nb_index :=
    cc <- concat_pairs pair nn o ;;
    ni <- add_pairs li appeared cc o ni ;;
    if can_be_concat pair cc (opposite o)
    then ccc <- concat_pairs pair cc (opposite o) ;; add_pairs li appeared ccc o ni
    else Ok ni.
  (** 342-369 *)
  Definition neighbour_body (li : loc_index) (pair : str) (s : side) (dp : str) (ni : nb_index) : res nb_index :=
    ni <- (if can_be_concat dp pair s && dmem li (double_pair pair)
           then for_set pair s (double_body li pair s) ni
           else Ok ni) ;;
    appeared <- concat_pairs pair dp s ;;
    if dmem li appeared
    then ni <- for_set dp s (next_body li pair appeared s) ni ;;
         for_set pair (opposite s) (other_body li pair appeared (opposite s)) ni
    else Ok ni.

  (** cleanup_neighbour_index (277-283) *)
  Definition cleanup_nb_side (li : loc_index) (pair : str) (s : side) (ni : nb_index) : nb_index :=
    fold_left (fun ni dp => if negb (dmem li dp) && dmem ni dp then ddel ni dp else ni) (ord (nget ni pair s)) ni.
  Definition cleanup_neighbour_index (li : loc_index) (ni : nb_index) (pair : str) : nb_index :=
    ddel (cleanup_nb_side li pair Left (cleanup_nb_side li pair Right ni)) pair.

  (** update_neighbour_index (338-371) *)
  Definition update_neighbour_index (li : loc_index) (ni : nb_index) (pair : str) : res nb_index :=
    ni <- for_set pair Right (neighbour_body li pair Right) ni ;;
    ni <- for_set pair Left (neighbour_body li pair Left) ni ;;
    Ok (cleanup_neighbour_index li ni pair).

  (** ** PriorityCounter (util.py 123-159) with [automatic_count=False]

      [w_heap] is the heap as a bag of entries [[(priority, count), key]]; the key of a removed entry is REMOVED ([None]).
      An entry of a pair that is in entry_finder is the only one in the heap with this key.  Heaps compare entries as lists. *)
  Record wentry := { w_prio : Z; w_pos : Z; w_key : option str }.
  Record wqueue := { w_heap : list wentry; w_finder : dict str (Z * Z) }.
  Fixpoint str_leb (a b : str) : bool :=
    match a, b with
    | [], _ => true
    | _, [] => false
    | x :: a, y :: b => if N.eqb x y then str_leb a b else N.ltb x y
    end.
  Definition key_str (k : option str) : str := match k with Some s => s | None => lit "<removed-task>" end.
  Definition wentry_le (a b : wentry) : bool :=
    if Z.eqb (w_prio a) (w_prio b)
    then if Z.eqb (w_pos a) (w_pos b) then str_leb (key_str (w_key a)) (key_str (w_key b)) else Z.ltb (w_pos a) (w_pos b)
    else Z.ltb (w_prio a) (w_prio b).
  (** __init__ (126-130) of [{k: (len(v), v[0])}] (wild_bpe.py 381) *)
  Definition wq_init (li : loc_index) : wqueue :=
    let es := map (fun kv => {| w_prio := (- Z.of_nat (length (snd kv)))%Z; w_pos := hd 0%Z (snd kv); w_key := Some (fst kv) |}) li in
    {| w_heap := es;
       w_finder := map (fun kv => (fst kv, ((- Z.of_nat (length (snd kv)))%Z, hd 0%Z (snd kv)))) li |}.
  (** remove_task (147-150) *)
  Definition wq_removed (k : str) (l : list wentry) : list wentry :=
    map (fun e => match w_key e with
                  | Some k' => if eqb k k' then {| w_prio := w_prio e; w_pos := w_pos e; w_key := None |} else e
                  | None => e
                  end) l.
  (** add (132-145) *)
  Definition wq_add (q : wqueue) (k : str) (n : Z) (pos : Z) : wqueue :=
    let '(to_add, heap, finder) :=
      match dget (w_finder q) k with
      | Some (pr, _) => ((pr + - n)%Z, wq_removed k (w_heap q), ddel (w_finder q) k)
      | None => ((- n)%Z, w_heap q, w_finder q)
      end in
    if Z.eqb to_add 0
    then {| w_heap := heap; w_finder := finder |}
    else {| w_heap := {| w_prio := to_add; w_pos := pos; w_key := Some k |} :: heap; w_finder := dset finder k (to_add, pos) |}.
  Fixpoint wheap_pop (l : list wentry) : option (wentry * list wentry) :=
    match l with
    | [] => None
    | e :: t =>
        match wheap_pop t with
        | None => Some (e, [])
        | Some (m, r) => if wentry_le e m then Some (e, t) else Some (m, e :: r)
        end
    end.
  (** pop_pair (152-159) *)
  Fixpoint wq_pop_loop (fuel : nat) (heap : list wentry) (finder : dict str (Z * Z)) : res (str * Z * wqueue) :=
    match fuel with
    | O => Err OutOfFuel
    | S fuel =>
        match wheap_pop heap with
        | None => Err KeyError
        | Some (e, rest) =>
            match w_key e with
            | None => wq_pop_loop fuel rest finder
            | Some k => if dmem finder k
                        then Ok (k, (- w_prio e)%Z, {| w_heap := rest; w_finder := ddel finder k |})
                        else Err KeyError
            end
        end
    end.
  Definition wq_pop (q : wqueue) : res (str * Z * wqueue) := wq_pop_loop (S (length (w_heap q))) (w_heap q) (w_finder q).

  (** 410-415 *)
  Definition apply_change (pair : str) (st : wqueue * Z) (c : change) : wqueue * Z :=
    let (q, occ) := st in
    let '(appeared, first_appeared, dp, first_left, n) := c in
    let q := wq_add q appeared n first_appeared in
    if negb (eqb dp pair) then (wq_add q dp (- n)%Z first_left, occ) else (q, (occ - n)%Z).

  (** run (374-444): what is yielded, and the exception, if any, at the end *)
  Fixpoint run_loop (n : nat) (li : loc_index) (ni : nb_index) (q : wqueue) : list (str * Z) * option exn :=
    match n with
    | O => ([], None)
    | S n =>
        match wq_pop q with
        | Err KeyError => ([], None)
        | Err e => ([], Some e)
        | Ok (best, occ, q) =>
            match ('(li, ch) <- update_location_index li ni best ;;
                   let (q, occ) := fold_left (apply_change best) ch (q, occ) in
                   ni <- update_neighbour_index li ni best ;;
                   Ok (li, ni, q, occ)) with
            | Err e => ([], Some e)
            | Ok (li, ni, q, occ) => let (out, e) := run_loop n li ni q in ((best, occ) :: out, e)
            end
        end
    end.
  (** [run] is a generator, in which an exhausted iterator becomes RuntimeError (since Python 3.7; with 3.6 it only ends) *)
  Definition run (it : list str) (n : nat) : list (str * Z) * option exn :=
    match build_indices it with
    | Err StopIteration => ([], Some RuntimeError)
    | Err e => ([], Some e)
    | Ok (li, ni) => run_loop n li ni (wq_init li)
    end.
  (** run_from_text (463-499): one symbol for each character *)
  Definition run_from_text (text : str) (n : nat) : list (str * Z) * option exn := run (map (fun c => [c]) text) n.
End Run.
