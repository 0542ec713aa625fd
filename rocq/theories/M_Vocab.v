(** codeprep/pipeline/vocab.py (sequential parts), codeprep/util.py 12-30 and 205-235, codeprep/api/corpus.py 26-32 *)
From Verif Require Import M_Base L_Base M_Literal M_Tokens M_Learn.

Definition counts := dict str Z.

(** merge_dicts_ (util.py 12-30): the modified first dictionary and the new words *)
Definition merge_dicts (d1 d2 : counts) : counts * list str :=
  fold_left (fun r kv => let '(d, new) := r in let '(k, v) := kv in
               match dget d k with
               | None => (dset d k v, new ++ [k])
               | Some x => (dset d k (x + v)%Z, new)
               end) d2 (d1, []).

(** ** PartialVocab (44-106) *)
Record pvocab := {
  pv_id : N;                              (** id *)
  pv_chunk : nat;                         (** chunk *)
  pv_counts : counts;                     (** merged_word_counts *)
  pv_files : nat;                         (** n_files *)
  pv_stats : list (nat * (Z * Z))         (** stats: (number of files, (vocabulary size, non-English words)) *)
}.

(** [Counter[k]]: 0 if absent *)
Definition counter_get (d : counts) (k : str) : Z := match dget d k with Some x => x | None => 0%Z end.
Definition size_of (d : counts) : Z := Z.of_nat (length d).

(** __init__ (47-57) *)
Definition new_pvocab (i : N) (c : counts) (chunk : nat) : pvocab :=
  {| pv_id := i; pv_chunk := chunk; pv_counts := c; pv_files := 1;
     pv_stats := [(1, (size_of c, counter_get c ph_non_eng))] |}.

(** add_vocab (68-77), followed by renew_id (62-63) with the id [i] *)
Definition add_vocab (i : N) (p q : pvocab) : pvocab :=
  let c := fst (merge_dicts (pv_counts p) (pv_counts q)) in
  let n := pv_files p + pv_files q in
  {| pv_id := i; pv_chunk := pv_chunk p; pv_counts := c; pv_files := n;
     pv_stats := pv_stats p ++ (pv_stats q ++ [(n, (size_of c, counter_get c ph_non_eng))]) |}.

(** __generate_stats (101-106) and the first line of write_stats (79-85): the average of the vocabulary sizes
    of all entries with the largest number of files.  Division of floats is division of integers rounded down:
    int() of an exact quotient. *)
Definition vocab_size_line (p : pvocab) : res Z :=
  match pv_stats p with
  | [] => Err IndexError
  | _ =>
      let k := fold_right Nat.max 0 (map fst (pv_stats p)) in
      let vs := map (fun e => fst (snd e)) (filter (fun e => Nat.eqb (fst e) k) (pv_stats p)) in
      Ok (fold_right Z.add 0 vs / Z.of_nat (length vs))%Z
  end.

(** [sorted(items, key=lambda x: x[1], reverse=True)]: stable, largest first *)
Fixpoint insert_desc (x : str * Z) (l : list (str * Z)) : list (str * Z) :=
  match l with
  | [] => [x]
  | y :: t => if (snd x <=? snd y)%Z then y :: insert_desc x t else x :: l
  end.
Definition sort_desc (d : list (str * Z)) : list (str * Z) := fold_left (fun l x => insert_desc x l) d [].

(** limit_max_vocab (87-95) for thresholds that are not negative; [adjusted t f l] is adjusted_threshold + 1 *)
Fixpoint adjusted (t : nat) (f : Z) (l : list (str * Z)) : nat :=
  match t with
  | 0 => 0
  | S t' => match nth_error l t' with
            | Some e => if Z.eqb (snd e) f then adjusted t' f l else t
            | None => t
            end
  end.
Definition limit_max_vocab (threshold : nat) (d : counts) : res counts :=
  let sorted := sort_desc d in
  if Nat.ltb (length sorted) threshold then Ok d
  else match nth_error sorted threshold with
       | None => Err IndexError
       | Some e => Ok (firstn (adjusted threshold (snd e) sorted) sorted)
       end.

(** ** Vocabulary files: _dump_vocab_dict (322-327), write_vocab (97-99), _load_vocab_dict (333-340) *)
Definition tab : N := 9%N.
Definition vocab_line (word : str) (freq : Z) : str := word ++ tab :: decZ freq.
Definition dump_vocab_dict (to_literal : bool) (l : list (str * Z)) : str :=
  write_lines (map (fun wf => vocab_line (if to_literal then to_literal_str (fst wf) else fst wf) (snd wf)) l).
Definition write_vocab (d : counts) : str := dump_vocab_dict false (sort_desc d).

Definition load_vocab_line (line : str) (d : counts) : res counts :=
  match split_on tab line with
  | w :: f :: _ =>
      word <- to_non_literal_str w ;; freq <- parse_int f ;; Ok (dset d word freq)
  | _ => Err IndexError
  end.
Fixpoint load_vocab_lines (ls : list str) (d : counts) : res counts :=
  match ls with
  | [] => Ok d
  | l :: t => d' <- load_vocab_line l d ;; load_vocab_lines t d'
  end.
Definition load_vocab_dict (content : str) : res counts := load_vocab_lines (file_lines content) [].

(** ** get_vocab (206-213): [files] are the decoded contents *)
Definition space : N := 32%N.
Definition count_words (ws : list str) (d : counts) : counts := fold_left (fun d w => dincr d w 1%Z) ws d.
Definition get_vocab (files : list str) : counts :=
  fold_left (fun d f => fold_left (fun d line => count_words (split_on space line) d) (file_lines f) d) files [].

(** _calc_n_tokens (corpus.py 26-32) and _calc_corpus_size (56-69) *)
Definition n_tokens (file : str) : nat :=
  fold_left (fun n line => n + length (split_on space line)) (file_lines file) 0.
Definition calc_corpus_size (files : list str) : nat := fold_left (fun n f => n + n_tokens f) files 0.

(** ** create_chunk_generator (util.py 205-211) and groupify (214-235) *)
Definition chunk_labels (total n : nat) : list nat :=
  List.concat (repeat (seq 0 n) (total / n)) ++ seq 0 (total mod n).

Fixpoint append_at {A} (groups : list (list A)) (label : nat) (x : A) : res (list (list A)) :=
  match groups, label with
  | g :: t, 0 => Ok ((g ++ [x]) :: t)
  | g :: t, S k => t' <- append_at t k x ;; Ok (g :: t')
  | [], _ => Err IndexError
  end.
Fixpoint distribute {A} (xs : list (A * nat)) (groups : list (list A)) : res (list (list A)) :=
  match xs with
  | [] => Ok groups
  | (x, l) :: t => g <- append_at groups l x ;; distribute t g
  end.
(** [total // n] is evaluated when the first label is needed *)
Definition groupify {A} (all : list A) (n : nat) : res (list (list A)) :=
  match n, all with
  | 0, [] => Ok []
  | 0, _ => Err ZeroDivisionError
  | _, _ => distribute (combine all (chunk_labels (length all) n))
           (repeat [] (if Nat.leb n (length all) then n else length all))
  end.

(** create_initial_partial_vocabs (259-269): the partial vocabularies in the order of their groups; the pool
    yields them in any order.  [ids] are the generated ids. *)
Definition initial_partial_vocabs (max_groups n_chunks : nat) (files : list str) (ids : list N) : res (list pvocab) :=
  groups <- groupify files max_groups ;;
  Ok (map (fun x => let '(g, (chunk, i)) := x in new_pvocab i (get_vocab g) chunk)
        (combine groups (combine (chunk_labels (length groups) n_chunks) ids))).
