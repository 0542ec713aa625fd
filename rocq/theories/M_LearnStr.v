(** codeprep/bpepkg/bpe_learn.py and codeprep/pipeline/bpelearner.py once more, with the words of the vocabulary as the
    program has them: one string per word, with spaces between the symbols.  M_Learn and M_BpeRun have lists of
    symbols; P_LearnStr proves that both learn the same. *)
From Verif Require Import M_Base L_Base M_Merge M_BpeEncode M_Learn M_Regex M_Vocab M_Registry M_BpeRun.

Definition str_vocab := dict str Z.

(** get_stats (20-26) *)
Definition s_get_stats (v : str_vocab) : dict pair Z :=
  fold_left (fun d wf => word_stats (split_on 32 (fst wf)) (snd wf) d) v [].

(** The regular expression of line 43, [(^|[^ ]+ )(...)( [^ ]+|$)] *)
Definition not_space (c : N) : bool := negb (N.eqb 32 c).
Definition re_before : re := Seq (Plus (Chr not_space)) (Chr (N.eqb 32)).
Definition re_after : re := Seq (Chr (N.eqb 32)) (Plus (Chr not_space)).
(** [$] without the flag MULTILINE: at the end, and before a line feed at the end *)
Definition at_end (s : str) : bool := match s with [] => true | [c] => N.eqb c 10 | _ => false end.

(** all ways to match at the beginning of [s], in the order in which they are tried; [start] tells whether this is the
    beginning of the word.  A match is what remains of [s] after each of the three groups *)
Definition group1 (start : bool) (s : str) : list str := (if start then [s] else []) ++ ms re_before s.
Definition group2 (p : pair) (s : str) : list str := ms (Str (join (lit " ") [fst p; snd p])) s.
Definition group3 (s : str) : list str := ms re_after s ++ (if at_end s then [s] else []).
Definition matches (p : pair) (start : bool) (s : str) : list (str * str * str) :=
  List.concat (map (fun t1 => List.concat (map (fun t2 => map (fun t3 => (t1, t2, t3)) (group3 t2)) (group2 p t1)))
                   (group1 start s)).

Record match_object := { mo_group1 : str; mo_group3 : str; mo_start2 : nat; mo_end2 : nat }.

(** [t] is what remains after the beginning of [s] *)
Definition taken (s t : str) : nat := length s - length t.

(** reg.search(word) from position [i] on *)
Fixpoint s_search_from (p : pair) (i : nat) (s : str) : option match_object :=
  match matches p (Nat.eqb i 0) s with
  | (t1, t2, t3) :: _ =>
      Some {| mo_group1 := firstn (taken s t1) s; mo_group3 := firstn (taken t2 t3) t2;
              mo_start2 := i + taken s t1; mo_end2 := i + taken s t2 |}
  | [] => match s with [] => None | _ :: s' => s_search_from p (S i) s' end
  end.
Definition s_search (p : pair) (word : str) : option match_object := s_search_from p 0 word.

(** the pairs appended for one match (50-59) *)
Definition s_match_deltas (p : pair) (f : Z) (m : match_object) : list (pair * Z) :=
  let concat_pair : str := fst p ++ snd p in
  (match mo_group1 m with
   | [] => []
   | _ => let before : str := removelast (mo_group1 m) in
          ((before, concat_pair), f) :: (if eqb p (before, fst p) then [] else [((before, fst p), (- f)%Z)])
   end) ++
  (match mo_group3 m with
   | [] => []
   | _ :: after => ((concat_pair, after), f) :: (if eqb p (snd p, after) then [] else [((snd p, after), (- f)%Z)])
   end).

(** the while loop (48-63); with every match the word gets shorter by a space *)
Fixpoint s_merge_word (fuel : nat) (p : pair) (f : Z) (word : str) : res (str * list (pair * Z)) :=
  match fuel with
  | O => Err OutOfFuel
  | S fuel' =>
      match s_search p word with
      | None => Ok (word, [])
      | Some m =>
          r <- s_merge_word fuel' p f (firstn (mo_start2 m) word ++ (fst p ++ snd p) ++ skipn (mo_end2 m) word) ;;
          Ok (fst r, s_match_deltas p f m ++ snd r)
      end
  end.

(** merge_vocab (29-65) *)
Fixpoint s_merge_vocab_loop (p : pair) (inp out : str_vocab) (added : list (pair * Z))
  : res (str_vocab * list (pair * Z)) :=
  match inp with
  | [] => Ok (out, added)
  | (w, f) :: t =>
      r <- s_merge_word (S (length w)) p f w ;;
      s_merge_vocab_loop p t (dset out (fst r) f) (added ++ snd r)
  end.
Definition s_merge_vocab (p : pair) (v : str_vocab) : res (str_vocab * list (pair * Z)) := s_merge_vocab_loop p v [] [].

(** do_merges (68-115) *)
Fixpoint s_do_merges_loop (n : nat) (i : nat) (v : str_vocab) (q : pc pair) (ml : merge_list)
  : res (str_vocab * merge_list) :=
  match n with
  | O => Ok (v, ml)
  | S n' =>
      match (pop <- pc_pop q ;;
             ml' <- ml_append ml (fst (fst pop)) (Some (snd (fst pop))) (Some (Z.of_nat i)) ;;
             Ok (fst (fst pop), snd pop, ml')) with
      | Err KeyError => Ok (v, ml)
      | Err e => Err e
      | Ok (best, q', ml') =>
          r <- s_merge_vocab best v ;;
          s_do_merges_loop n' (S i) (fst r)
            (fold_left (fun q a => pc_add q (fst a) (snd a)) (snd r) q') ml'
      end
  end.
Definition s_do_merges (v : str_vocab) (n : nat) : res (str_vocab * merge_list) :=
  s_do_merges_loop n 0 v (pc_init (s_get_stats v)) ml_empty.

(** create_bpe_cache (120-126) *)
Definition s_create_bpe_cache (v : str_vocab) : dict str (list str) :=
  fold_left (fun d wf => dset d (List.concat (split_on 32 (fst wf))) (split_on 32 (fst wf))) v [].

(** create_resulting_vocab (129-134) *)
Definition s_create_resulting_vocab (v : str_vocab) : dict str Z :=
  fold_left (fun d wf => fold_left (fun d s => dincr d s (snd wf)) (split_on 32 (fst wf)) d) v [].

(** prepare_vocabs (bpelearner.py 48-59), from scratch *)
Definition s_initial (k : str) : str := escape (join (lit " ") (map (fun c => [c]) k)) false.
Definition s_prepare_scratch (c : corpus) : str_vocab * str_vocab :=
  let (base, other) := separate_vocabs (all_vocab c) (nonbpe c) in
  (dict_of (map (fun kv => (s_initial (fst kv), snd kv)) base), dict_of (map (fun kv => (escape (fst kv) true, snd kv)) other)).

(** ... with an earlier result *)
Definition s_prepare_resume (c : corpus) (d : bdir) : res (str_vocab * str_vocab) :=
  s <- open_file (f_reass d) ;;
  loaded <- load_vocab_dict s ;;
  Ok (separate_vocabs loaded (map (fun k => escape k true) (nonbpe c))).

(** save_results (71-84) *)
Definition s_results (v : str_vocab) (merges : merge_list) : contents :=
  {| c_res := dump_vocab_dict true (sort_desc (s_create_resulting_vocab v));
     c_cache := dump_bpe_cache (s_create_bpe_cache v);
     c_merges := dump_merges merges;
     c_reass := dump_vocab_dict true v |}.

Section Run.
  Variable py_int : str -> option Z.

  (** run (87-115) without its last statement *)
  Definition s_learn (c : corpus) (st : bstate) (n : nat) : res (option (nat * contents)) :=
    start <- match most_merges py_int st n with
             | Some k =>
                 match dget st k with
                 | Some d =>
                     s <- open_file (f_merges d) ;;
                     done <- read_merges s None ;;
                     vo <- s_prepare_resume c d ;;
                     Ok (done, vo)
                 | None => Err FileNotFoundError
                 end
             | None => Ok (ml_empty, s_prepare_scratch c)
             end ;;
    let (done, vo) := (start : merge_list * (str_vocab * str_vocab)) in
    let (v, other) := vo in
    learned <- s_do_merges v (n - length done) ;;
    let (v', new) := learned in
    let v2 := fold_left (fun d kv => dset d (fst kv) (snd kv)) other v' in
    merges <- ml_add done new ;;
    let k := length merges in
    Ok (if dmem st k then None else Some (k, s_results v2 merges)).

  Definition s_run (c : corpus) (st : bstate) (n : nat) : bstate :=
    match s_learn c st n with
    | Ok (Some (k, files)) => dset st k (complete files)
    | _ => st
    end.
End Run.
