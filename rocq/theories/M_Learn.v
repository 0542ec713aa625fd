(** codeprep/bpepkg/bpe_learn.py and PriorityCounter of codeprep/util.py

    A word of the vocabulary is the list of its symbols instead of the symbols joined with spaces
    (the two are the same as long as symbols are non-empty and contain no space: [split_join] in
    [L_Base]). *)
From Verif Require Import M_Base L_Base M_Merge M_BpeEncode.

(** ** PriorityCounter (util.py 123-159), always with [automatic_count]

    [pq] is the heap as a bag of entries; heappop removes the entry with the least
    (priority, count).  An entry is shared between [pq] and [entry_finder]; [remove_task] overwrites
    its key with REMOVED ([None]).  In [entry_finder] an entry is its (priority, count): counts are
    never reused, so they identify entries. *)
Section PriorityCounter.
  Context {K : Type} `{Eqb K}.

  Record pc_entry := { e_prio : Z; e_count : nat; e_key : option K }.
  Record pc := { pc_counter : nat; pc_pq : list pc_entry; pc_finder : dict K (Z * nat) }.

  (** __init__ (126-130) *)
  Fixpoint pc_entries (i : nat) (d : dict K Z) : list pc_entry :=
    match d with
    | [] => []
    | (k, v) :: t => {| e_prio := (- v)%Z; e_count := i; e_key := Some k |} :: pc_entries (S i) t
    end.
  Definition pc_finder_of (l : list pc_entry) : dict K (Z * nat) :=
    fold_left (fun d e => match e_key e with
                          | Some k => dset d k (e_prio e, e_count e)
                          | None => d
                          end) l [].
  Definition pc_init (d : dict K Z) : pc :=
    {| pc_counter := length d; pc_pq := pc_entries 0 d; pc_finder := pc_finder_of (pc_entries 0 d) |}.

  (** [entry[-1] = REMOVED] (149-150) for the entry numbered [c] *)
  Definition mark_removed (c : nat) (l : list pc_entry) : list pc_entry :=
    map (fun e => if Nat.eqb (e_count e) c
                  then {| e_prio := e_prio e; e_count := e_count e; e_key := None |} else e) l.

  (** add (132-145) *)
  Definition pc_add (st : pc) (k : K) (v : Z) : pc :=
    let count := pc_counter st in
    let '(to_add, pq, finder) :=
      match dget (pc_finder st) k with
      | Some (pr, c) => ((pr + - v)%Z, mark_removed c (pc_pq st), ddel (pc_finder st) k)
      | None => ((- v)%Z, pc_pq st, pc_finder st)
      end in
    if Z.eqb to_add 0
    then {| pc_counter := S count; pc_pq := pq; pc_finder := finder |}
    else {| pc_counter := S count;
            pc_pq := {| e_prio := to_add; e_count := count; e_key := Some k |} :: pq;
            pc_finder := dset finder k (to_add, count) |}.

  (** the order of entries in the heap: tuples (priority, count) *)
  Definition entry_le (a b : pc_entry) : bool :=
    (e_prio a <? e_prio b)%Z || ((e_prio a =? e_prio b)%Z && (e_count a <=? e_count b)).

  (** heappop: the least entry and the others *)
  Fixpoint heap_pop (l : list pc_entry) : option (pc_entry * list pc_entry) :=
    match l with
    | [] => None
    | e :: t =>
        match heap_pop t with
        | None => Some (e, [])
        | Some (m, r) => if entry_le e m then Some (e, t) else Some (m, e :: r)
        end
    end.

  (** pop_pair (152-159) *)
  Fixpoint pc_pop_loop (fuel : nat) (cnt : nat) (pq : list pc_entry) (finder : dict K (Z * nat))
    : res (K * Z * pc) :=
    match fuel with
    | O => Err OutOfFuel
    | S fuel' =>
        match heap_pop pq with
        | None => Err KeyError
        | Some (e, rest) =>
            match e_key e with
            | None => pc_pop_loop fuel' cnt rest finder
            | Some k =>
                if dmem finder k
                then Ok (k, (- e_prio e)%Z,
                         {| pc_counter := cnt; pc_pq := rest; pc_finder := ddel finder k |})
                else Err KeyError
            end
        end
    end.
  Definition pc_pop (st : pc) : res (K * Z * pc) :=
    pc_pop_loop (S (length (pc_pq st))) (pc_counter st) (pc_pq st) (pc_finder st).
End PriorityCounter.
Arguments pc_entry : clear implicits.
Arguments pc : clear implicits.

(** ** Learning *)
Definition split_vocab := dict (list str) Z.

(** [d[k] += v] of a defaultdict(int) *)
Definition dincr {K} `{Eqb K} (d : dict K Z) (k : K) (v : Z) : dict K Z :=
  dset d k (match dget d k with Some x => x | None => 0 end + v)%Z.

(** get_stats (20-26): the dictionary given to PriorityCounter *)
Fixpoint word_stats (s : list str) (f : Z) (d : dict pair Z) : dict pair Z :=
  match s with
  | a :: ((b :: _) as t) => word_stats t f (dincr d (a, b) f)
  | _ => d
  end.
Definition get_stats (v : split_vocab) : dict pair Z :=
  fold_left (fun d wf => word_stats (fst wf) (snd wf) d) v [].

(** [reg.search(word)] (43, 47, 63): the leftmost occurrence of the pair, as the symbols before and after *)
Fixpoint search_pair (p : pair) (s : list str) : option (list str * list str) :=
  match s with
  | a :: ((b :: t) as r) =>
      if eqb (a, b) p then Some ([], t)
      else match search_pair p r with
           | Some (u, v) => Some (a :: u, v)
           | None => None
           end
  | _ => None
  end.

(** the pairs appended for one match (50-59) *)
Definition match_deltas (p : pair) (f : Z) (u v : list str) : list (pair * Z) :=
  let ab : str := fst p ++ snd p in
  (match u with
   | [] => []
   | _ => let before : str := last u [] in
          ((before, ab), f) :: (if eqb p (before, fst p) then [] else [((before, fst p), (- f)%Z)])
   end) ++
  (match v with
   | [] => []
   | after :: _ => ((ab, after), f) :: (if eqb p (snd p, after) then [] else [((snd p, after), (- f)%Z)])
   end).

(** the while loop (48-63) *)
Fixpoint merge_word (fuel : nat) (p : pair) (f : Z) (s : list str) : res (list str * list (pair * Z)) :=
  match fuel with
  | O => Err OutOfFuel
  | S fuel' =>
      match search_pair p s with
      | None => Ok (s, [])
      | Some (u, v) =>
          r <- merge_word fuel' p f (u ++ (fst p ++ snd p : str) :: v) ;;
          Ok (fst r, match_deltas p f u v ++ snd r)
      end
  end.

(** merge_vocab (29-65) *)
Fixpoint merge_vocab_loop (p : pair) (inp out : split_vocab) (added : list (pair * Z))
  : res (split_vocab * list (pair * Z)) :=
  match inp with
  | [] => Ok (out, added)
  | (w, f) :: t =>
      r <- merge_word (S (length w)) p f w ;;
      merge_vocab_loop p t (dset out (fst r) f) (added ++ snd r)
  end.
Definition merge_vocab (p : pair) (v : split_vocab) : res (split_vocab * list (pair * Z)) :=
  merge_vocab_loop p v [] [].

(** do_merges (68-115) *)
Fixpoint do_merges_loop (n : nat) (i : nat) (v : split_vocab) (q : pc pair) (ml : merge_list)
  : res (split_vocab * merge_list) :=
  match n with
  | O => Ok (v, ml)
  | S n' =>
      match (pop <- pc_pop q ;;
             ml' <- ml_append ml (fst (fst pop)) (Some (snd (fst pop))) (Some (Z.of_nat i)) ;;
             Ok (fst (fst pop), snd pop, ml')) with
      | Err KeyError => Ok (v, ml)
      | Err e => Err e
      | Ok (best, q', ml') =>
          r <- merge_vocab best v ;;
          do_merges_loop n' (S i) (fst r)
            (fold_left (fun q a => pc_add q (fst a) (snd a)) (snd r) q') ml'
      end
  end.
Definition do_merges (v : split_vocab) (n : nat) : res (split_vocab * merge_list) :=
  do_merges_loop n 0 v (pc_init (get_stats v)) ml_empty.

(** create_bpe_cache (120-126) *)
Definition create_bpe_cache (v : split_vocab) : dict str (list str) :=
  fold_left (fun d wf => dset d (List.concat (fst wf)) (fst wf)) v [].

(** create_resulting_vocab (129-134) *)
Definition create_resulting_vocab (v : split_vocab) : dict str Z :=
  fold_left (fun d wf => fold_left (fun d s => dincr d s (snd wf)) (fst wf) d) v [].

(** separate_vocabs (139-147) *)
Definition separate_vocabs {V} (all : dict str V) (exclude : list str) : dict str V * dict str V :=
  (filter (fun kv => negb (mem (fst kv) exclude)) all, filter (fun kv => mem (fst kv) exclude) all).

(** prepare_vocabs from scratch (pipeline/bpelearner.py 48-52): [" ".join(k)] escaped, then split again at spaces *)
Definition initial_split (k : str) : list str :=
  split_on 32 (escape (join (lit " ") (map (fun c => [c]) k)) false).
Definition scratch_vocab (base : dict str Z) : split_vocab :=
  fold_left (fun d kv => dset d (initial_split (fst kv)) (snd kv)) base [].
