(** * C94: from the source text to the tokens - the language, and what is lost before lexing *)
From Coq Require Import List NArith ZArith Bool String Lia Arith.
From Verif Require Import M_Base L_Base M_Tokens M_Literal L_Literal M_Repr M_Merge M_BpeEncode M_PrepConfig P_PrepConfig
  L_Repr P_Repr L_Word P_ReprOptions L_Merge P_ReprStrings M_Regex M_Parse L_Regex P_Parse P_ParseRepr M_Registry M_Pipeline
  M_Dataset M_Api P_Api P_Merge S_Bpe L_Bpe L_BpeEncode P_Bpe M_Files P_Files P_Source P_Split P_Keep M_Lexer.
Import ListNotations.
Local Open Scope list_scope.

(** ** What the lexer is given *)
Lemma lstrip_nl_spec s : exists a, s = repeat 10%N a ++ lstrip_nl s /\ hd 0%N (lstrip_nl s) <> 10%N.
Proof.
  induction s as [|c t (a & IH1 & IH2)]; [exists 0; split; [reflexivity|discriminate]|]. cbn [lstrip_nl].
  destruct (N.eqb_spec c 10) as [->|Hc].
  - exists (S a). split; [cbn [repeat app]; f_equal; exact IH1|exact IH2].
  - exists 0. split; [reflexivity|exact Hc].
Qed.
Lemma lstrip_nl_repeat a s : lstrip_nl (repeat 10%N a ++ s) = lstrip_nl s.
Proof. induction a; [reflexivity|exact IHa]. Qed.
Lemma lstrip_nl_other s : hd 0%N s <> 10%N -> lstrip_nl s = s.
Proof. destruct s as [|c t]; [reflexivity|]. cbn. intros H. destruct (N.eqb_spec c 10); [contradiction|reflexivity]. Qed.
Lemma rev_repeat {A} (x : A) n : rev (repeat x n) = repeat x n.
Proof. induction n as [|n IH]; [reflexivity|]. cbn. rewrite IH. clear IH. induction n as [|n IH]; [reflexivity|]. cbn. f_equal. exact IH. Qed.
Lemma hd_rev (s : str) : hd 0%N (rev s) = last s 0%N.
Proof.
  destruct s as [|x s] using rev_ind; [reflexivity|]. rewrite rev_app_distr. cbn [rev app hd]. symmetry. apply last_last.
Qed.

Lemma strip_nl_parts a body b : hd 0%N body <> 10%N -> last body 0%N <> 10%N -> strip_nl (repeat 10%N a ++ body ++ repeat 10%N b) = body.
Proof.
  intros Hh Hl. unfold strip_nl. rewrite lstrip_nl_repeat.
  destruct body as [|c body].
  - cbn [app]. rewrite <- (app_nil_r (repeat 10%N b)), lstrip_nl_repeat. reflexivity.
  - rewrite (lstrip_nl_other ((c :: body) ++ repeat 10%N b)) by exact Hh. rewrite rev_app_distr, rev_repeat, lstrip_nl_repeat.
    rewrite lstrip_nl_other by (rewrite hd_rev; exact Hl). apply rev_involutive.
Qed.
Lemma strip_nl_spec s : exists a b, s = repeat 10%N a ++ strip_nl s ++ repeat 10%N b
  /\ hd 0%N (strip_nl s) <> 10%N /\ last (strip_nl s) 0%N <> 10%N.
Proof.
  destruct (lstrip_nl_spec s) as (a & H1 & H2). destruct (lstrip_nl_spec (rev (lstrip_nl s))) as (b & H3 & H4).
  fold (strip_nl s) in *. exists a, b.
  assert (E : lstrip_nl s = strip_nl s ++ repeat 10%N b).
  { unfold strip_nl. rewrite <- (rev_involutive (lstrip_nl s)) at 1. rewrite H3 at 1. rewrite rev_app_distr, rev_repeat. reflexivity. }
  split; [rewrite <- E; exact H1|]. split.
  - destruct (strip_nl s) as [|c t]; [discriminate|]. rewrite E in H2. exact H2.
  - unfold strip_nl. rewrite <- hd_rev, rev_involutive. exact H4.
Qed.

Lemma lexer_input_eq text : lexer_input text = strip_nl (univ_newlines (without_bom text)) ++ [10%N].
Proof.
  unfold lexer_input. destruct (strip_nl_spec (univ_newlines (without_bom text))) as (_ & _ & _ & _ & H).
  destruct (ends_with [10%N] (strip_nl (univ_newlines (without_bom text)))) eqn:Ew; [|reflexivity]. exfalso.
  apply H. unfold ends_with in Ew. rewrite <- hd_rev. cbn [rev app] in Ew.
  destruct (rev (strip_nl (univ_newlines (without_bom text)))) as [|c t]; [discriminate|]. cbn [starts_with hd] in Ew |- *. apply andb_true_iff in Ew. destruct Ew as [Ew _].
  apply N.eqb_eq in Ew. congruence.
Qed.

(** ** Specification *)
(** The text begins with a byte order mark *)
Definition bom : N := 65279%N.
(** a text without the byte order mark at its beginning *)
Definition marked (text rest : str) : Prop := text = bom :: rest \/ (text = rest /\ hd 0%N text <> bom).

Lemma marked_spec text rest : marked text rest -> without_bom text = rest.
Proof.
  intros [-> | [-> H]]; [reflexivity|]. unfold without_bom. destruct rest as [|c t]; [reflexivity|]. cbn in H.
  destruct (N.eqb_spec c 65279); [contradiction|reflexivity].
Qed.

Lemma newlines_fun s t t' : P_Files.newlines s t -> P_Files.newlines s t' -> t = t'.
Proof.
  intros H. revert t'. induction H as [|s t H IH|s t Hh H IH|c s t Hc H IH]; intros t' H'; inversion H'; subst; try congruence.
  - f_equal. auto.
  - exfalso. cbn in H1. apply H1. reflexivity.
  - exfalso. apply Hh. reflexivity.
  - f_equal. auto.
  - f_equal. auto.
Qed.
Lemma newlines_univ s t : P_Files.newlines s t -> univ_newlines s = t.
Proof. intros H. apply (newlines_fun s); [apply univ_newlines_spec|exact H]. Qed.

(** The lexer is given the text without a byte order mark, with the line ends of Unix, without newlines at the beginning and the end,
    and with one newline after that - for every text there is such a decomposition. *)
Theorem C94_lexer_input : forall text,
  exists rest unix a body b, marked text rest /\ P_Files.newlines rest unix /\ unix = repeat 10%N a ++ body ++ repeat 10%N b
    /\ hd 0%N body <> 10%N /\ last body 0%N <> 10%N /\ lexer_input text = body ++ [10%N].
Proof.
  intros text. destruct (strip_nl_spec (univ_newlines (without_bom text))) as (a & b & H1 & H2 & H3).
  exists (without_bom text), (univ_newlines (without_bom text)), a, (strip_nl (univ_newlines (without_bom text))), b.
  split; [|split; [apply univ_newlines_spec|split; [exact H1|split; [exact H2|split; [exact H3|apply lexer_input_eq]]]]].
  unfold marked, without_bom. destruct text as [|c t]; [right; split; [reflexivity|discriminate]|].
  destruct (N.eqb_spec c 65279) as [->|Hc]; [left; reflexivity|right; split; [reflexivity|exact Hc]].
Qed.
Print Assumptions C94_lexer_input.

Lemma lexer_input_parts text rest unix a body b : marked text rest -> P_Files.newlines rest unix ->
  unix = repeat 10%N a ++ body ++ repeat 10%N b -> hd 0%N body <> 10%N -> last body 0%N <> 10%N -> lexer_input text = body ++ [10%N].
Proof.
  intros Hm Hn Hu Hh Hl. rewrite lexer_input_eq, (marked_spec _ _ Hm), (newlines_univ _ _ Hn), Hu, strip_nl_parts by assumption. reflexivity.
Qed.

(** ** The language *)
(** The lexer is the one whose name is the extension, java without an extension; no other lexer and no guess has an influence. *)
Theorem C94_language : forall P P' E K text ext,
  let name := match ext with Some e => if eqb e [] then lit "java" else e | None => lit "java" end in
  by_name P name <> None -> by_name P' name = by_name P name ->
  parse_source P E K text ext = parse_source P' E K text ext
  /\ exists l, by_name P name = Some l /\ parse_source P E K text ext = convert_text E K (l (lexer_input text)).
Proof.
  intros P P' E K text ext name Hk He.
  assert (En : language ext = name) by (unfold name; destruct ext as [[|c e]|]; reflexivity).
  unfold parse_source, choose_lexer. rewrite En, He. destruct (by_name P name) as [l|]; [|contradiction].
  split; [reflexivity|]. exists l. split; reflexivity.
Qed.
Print Assumptions C94_language.

(** Finding: the documentation of the API says that without extension Pygments tries to guess the language.  Nothing is guessed: what
    the guess would be makes no difference, and Python text can be parsed as Java. *)
Theorem C94_not_guessed_refuted :
  (forall names g g' E K text, names (lit "java") <> None ->
     parse_source {| by_name := names; guess := g |} E K text None = parse_source {| by_name := names; guess := g' |} E K text None)
  /\ exists P E K text l lt, guess P text = Some l /\ convert_text E K (l (lexer_input text)) = Ok lt /\ parse_source P E K text None <> Ok lt.
Proof.
  split.
  - intros by_ g g' E K text Hk. unfold parse_source, choose_lexer. cbn [by_name guess]. change (language None) with (lit "java").
    destruct (by_ (lit "java")); [reflexivity|contradiction].
  - exists {| by_name := fun n => if eqb n (lit "java") then Some (fun s => [(["Keyword"]%string, s)]) else None;
              guess := fun _ => Some (fun s => [(["Name"]%string, s)]) |}, ascii_case, ascii_K, (lit "volatile").
    eexists. eexists. split; [reflexivity|]. split; [vm_compute; reflexivity|]. vm_compute. discriminate.
Qed.
Print Assumptions C94_not_guessed_refuted.

(** An extension that is no name of a lexer: the text decides, and there may be an error. *)
Theorem C94_unknown_refuted : forall P E K text ext, ext <> [] -> by_name P ext = None ->
  (forall l, guess P text = Some l -> parse_source P E K text (Some ext) = convert_text E K (l (lexer_input text)))
  /\ (guess P text = None -> parse_source P E K text (Some ext) = Err ValueError).
Proof.
  intros P E K text ext He Hk. unfold parse_source, choose_lexer, language. destruct ext as [|c e]; [contradiction|]. rewrite Hk.
  split; [intros l ->|intros ->]; reflexivity.
Qed.
Print Assumptions C94_unknown_refuted.

(** In a corpus the extension of the file decides: neither the directory nor the rest of the name has an influence. *)
Theorem C94_file_name : forall P E K path path' stem stem' dots dots' e ext bytes,
  basename path = repeat 46%N dots ++ stem ++ 46%N :: e -> stem <> [] -> hd 0%N stem <> 46%N ->
  basename path' = repeat 46%N dots' ++ stem' ++ 46%N :: e -> stem' <> [] -> hd 0%N stem' <> 46%N ->
  no_char 46%N e -> valid_str ext -> utf8 ext = Ok e ->
  parse_file (parse_source P E K) path bytes = parse_file (parse_source P E K) path' bytes
  /\ parse_file (parse_source P E K) path bytes = parse_source P E K (source_text bytes) (Some ext).
Proof.
  intros P E K path path' stem stem' dots dots' e ext bytes B1 S1 H1 B2 S2 H2 Hn Hv Hu. unfold parse_file.
  rewrite (C67_extension path stem dots e ext B1 S1 H1 Hn Hv Hu), (C67_extension path' stem' dots' e ext B2 S2 H2 Hn Hv Hu). split; reflexivity.
Qed.
Print Assumptions C94_file_name.

(** ** Blank lines, line ends, byte order mark *)
(** Newlines at the beginning and at the end of a text make no difference: they are lost. *)
Theorem C94_edges_refuted : forall P E K text ext a b, by_name P (match ext with Some (c :: e) => c :: e | _ => lit "java" end) <> None ->
  hd 0%N text <> bom -> no_char 13%N text ->
  parse_source P E K (repeat 10%N a ++ text ++ repeat 10%N b) ext = parse_source P E K text ext.
Proof.
  intros P E K text ext a b Hk Hb H13. unfold parse_source, choose_lexer.
  assert (En : language ext = match ext with Some (c :: e) => c :: e | _ => lit "java" end) by (destruct ext as [[|c e]|]; reflexivity).
  rewrite En. destruct (by_name P _) as [l|]; [|contradiction]. cbn [bind]. f_equal. f_equal.
  destruct (strip_nl_spec text) as (a' & b' & H1 & H2 & H3).
  assert (M : forall s, hd 0%N s <> bom -> marked s s) by (intros s Hs; right; split; [reflexivity|exact Hs]).
  assert (U : forall s, no_char 13%N s -> P_Files.newlines s s).
  { intros s Hs. rewrite <- (univ_newlines_id s Hs) at 2. apply univ_newlines_spec. }
  assert (R : forall k, no_char 13%N (repeat 10%N k)) by (intros k Hin; apply repeat_spec in Hin; discriminate).
  rewrite (lexer_input_parts (repeat 10%N a ++ text ++ repeat 10%N b) (repeat 10%N a ++ text ++ repeat 10%N b)
             (repeat 10%N a ++ text ++ repeat 10%N b) (a + a') (strip_nl text) (b' + b)).
  - symmetry. eapply lexer_input_parts; [apply M, Hb|apply U, H13|exact H1|exact H2|exact H3].
  - apply M. destruct a; [|discriminate]. cbn [repeat app]. destruct text as [|c t]; [|exact Hb].
    destruct b; [exact Hb|discriminate].
  - apply U. intros Hin. apply in_app_or in Hin. destruct Hin as [Hin|Hin]; [exact (R _ Hin)|]. apply in_app_or in Hin.
    destruct Hin as [Hin|Hin]; [exact (H13 Hin)|exact (R _ Hin)].
  - rewrite H1 at 1. rewrite !repeat_app, <- !app_assoc. reflexivity.
  - exact H2.
  - exact H3.
Qed.
Print Assumptions C94_edges_refuted.

(** Texts that differ only in the kind of their line ends, or in a byte order mark at the beginning, are parsed alike. *)
Theorem C94_line_ends : forall P E K text text' rest rest' unix ext, by_name P (match ext with Some (c :: e) => c :: e | _ => lit "java" end) <> None ->
  marked text rest -> marked text' rest' -> P_Files.newlines rest unix -> P_Files.newlines rest' unix ->
  parse_source P E K text ext = parse_source P E K text' ext.
Proof.
  intros P E K text text' rest rest' unix ext Hk M1 M2 N1 N2. unfold parse_source, choose_lexer.
  assert (En : language ext = match ext with Some (c :: e) => c :: e | _ => lit "java" end) by (destruct ext as [[|c e]|]; reflexivity).
  rewrite En. destruct (by_name P _) as [l|]; [|contradiction]. cbn [bind]. f_equal. f_equal.
  rewrite !lexer_input_eq, (marked_spec _ _ M1), (marked_spec _ _ M2), (newlines_univ _ _ N1), (newlines_univ _ _ N2). reflexivity.
Qed.
Print Assumptions C94_line_ends.

(** ** From the source to the output *)
(** the lexer gives back its text in pieces *)
Definition reads_all (l : lexer) : Prop := forall s, List.concat (map snd (l s)) = s.

Lemma visible_repeat K c n : is_blank K c = true -> visible K (repeat c n) = [].
Proof. intros H. induction n as [|n IH]; [reflexivity|]. cbn. rewrite H. exact IH. Qed.
Lemma visible_newlines K s t : is_blank K 10 = true -> is_blank K 13 = true -> P_Files.newlines s t -> visible K s = visible K t.
Proof.
  intros H10 H13 H. unfold visible. induction H as [|s t H IH|s t Hh H IH|c s t Hc H IH]; [reflexivity|..]; cbn [filter];
    rewrite ?H10, ?H13; cbn [negb]; [exact IH|exact IH|]. rewrite IH. reflexivity.
Qed.
Lemma visible_lexer_input K text rest : is_blank K 10 = true -> is_blank K 13 = true -> marked text rest ->
  visible K (lexer_input text) = visible K rest.
Proof.
  intros H10 H13 Hm. destruct (C94_lexer_input text) as (rest' & unix & a & body & b & M & Nn & Hu & _ & _ & ->).
  assert (rest' = rest) by (apply marked_spec in M, Hm; congruence). subst rest'.
  rewrite (visible_newlines K rest unix H10 H13 Nn), Hu, !visible_app, !(visible_repeat K 10) by exact H10.
  cbn [app]. rewrite app_nil_r. change [10%N] with (repeat 10%N 1). rewrite (visible_repeat K 10 1 H10), app_nil_r. reflexivity.
Qed.

Definition white (K : charclass) : Prop := is_blank K 10 = true /\ is_blank K 13 = true.

(** The parsed tokens spell the visible characters of the source text. *)
Theorem C94_spelling : forall P E K G lo up text rest ext lx l,
  ascii_classes K -> spaces_blank K -> white K -> simple_case E K G lo up -> marked text rest ->
  choose_lexer P text ext = Ok lx -> reads_all lx ->
  Forall (fun tv => Forall G (snd tv) /\ numbers_lower E K tv) (lx (lexer_input text)) ->
  parse_source P E K text ext = Ok l -> visible K (spell E l) = visible K rest.
Proof.
  intros P E K G lo up text rest ext lx l HK HB [H10 H13] HS Hm Hc Hr Hf Hp. unfold parse_source in Hp. rewrite Hc in Hp. cbn [bind] in Hp.
  rewrite (C71_spelling E K G lo up _ l HK HB HS Hf Hp), Hr. apply visible_lexer_input; assumption.
Qed.
Print Assumptions C94_spelling.

(** The newline tokens are as many as the line ends of the text, without the empty lines at the beginning and the end. *)
Theorem C94_lines : forall P E K text rest unix a body b ext lx l,
  ascii_classes K -> marked text rest -> P_Files.newlines rest unix -> unix = repeat 10%N a ++ body ++ repeat 10%N b ->
  hd 0%N body <> 10%N -> last body 0%N <> 10%N ->
  choose_lexer P text ext = Ok lx -> reads_all lx -> Forall (lines_apart K) (lx (lexer_input text)) ->
  parse_source P E K text ext = Ok l -> P_Source.newlines l = S (line_ends body).
Proof.
  intros P E K text rest unix a body b ext lx l HK Hm Hn Hu Hh Hl Hc Hr Hf Hp. unfold parse_source in Hp. rewrite Hc in Hp. cbn [bind] in Hp.
  rewrite (C72_lines E K _ l HK Hf Hp), Hr, (lexer_input_parts text rest unix a body b Hm Hn Hu Hh Hl), line_ends_app.
  change (line_ends [10%N]) with 1. lia.
Qed.
Print Assumptions C94_lines.

(** With nosplit the visible characters of the tokens are those of the source text, ... *)
Theorem C94_nosplit : forall P E K G lo up o d b text rest ext lx l out m,
  ascii_classes K -> simple_case E K G lo up -> blanks_ok K -> white K -> marked text rest ->
  choose_lexer P text ext = Ok lx -> reads_all lx -> source_ok E K G (lx (lexer_input text)) ->
  param d SPLIT = lit "F" -> keeps_all d l ->
  parse_source P E K text ext = Ok l -> to_repr E o d b l = Ok (out, m) ->
  visible K (written out) = visible K rest.
Proof.
  intros P E K G lo up o d b text rest ext lx l out m HK HS HB [H10 H13] Hm Hc Hr Hs HF Hk Hp H. unfold parse_source in Hp. rewrite Hc in Hp. cbn [bind] in Hp.
  rewrite (C86_nosplit E K G lo up o d b _ l out m HK HS HB Hs HF Hk Hp H), Hr. apply visible_lexer_input; assumption.
Qed.
Print Assumptions C94_nosplit.

(** ... with bpe and chars those of the tokens whose parts are joined and whose end mark is removed, ... *)
Theorem C94_bpe : forall P E K G lo up o d b merges text rest ext lx l out m,
  ascii_classes K -> simple_case E K G lo up -> blanks_ok K -> white K -> marked text rest ->
  choose_lexer P text ext = Ok lx -> reads_all lx -> source_ok E K G (lx (lexer_input text)) -> py_text E -> lexer_ok (lx (lexer_input text)) ->
  usable b merges -> is_bpe d = true -> keeps_all d l ->
  parse_source P E K text ext = Ok l -> to_repr E o d (Some b) l = Ok (out, m) ->
  exists texts, map (@List.concat N) (slices (wb m) out) = map (fun t => t ++ lit "</t>") texts /\
    List.concat (slices (wb m) out) = out /\ visible K (written texts) = visible K rest.
Proof.
  intros P E K G lo up o d b merges text rest ext lx l out m HK HS HB [H10 H13] Hm Hc Hr Hs HT HL Hu Hd Hk Hp H. unfold parse_source in Hp. rewrite Hc in Hp. cbn [bind] in Hp.
  destruct (C86_bpe E K G lo up o d b merges _ l out m HK HS HB Hs HT HL Hu Hd Hk Hp H) as (texts & H1 & H2 & H3).
  exists texts. split; [exact H1|]. split; [exact H2|]. rewrite H3, Hr. apply visible_lexer_input; assumption.
Qed.
Print Assumptions C94_bpe.

(** ... with basic those of the tokens after reading the marks. *)
Theorem C94_basic : forall P E K G lo up o d b text rest ext lx l out m,
  ascii_classes K -> simple_case E K G lo up -> blanks_ok K -> white K -> marked text rest ->
  choose_lexer P text ext = Ok lx -> reads_all lx -> source_ok E K G (lx (lexer_input text)) -> py_text E -> case_no_lt E ->
  lexer_no_marks (lx (lexer_input text)) -> mk_prep_config d = Ok d -> keeps_text o d -> keeps_all d l ->
  parse_source P E K text ext = Ok l -> to_repr E o d b l = Ok (out, m) ->
  visible K (written (map (put_together E) (slices (wb m) out))) = visible K rest.
Proof.
  intros P E K G lo up o d b text rest ext lx l out m HK HS HB [H10 H13] Hm Hc Hr Hs HT HC HL Hd Ht Hk Hp H. unfold parse_source in Hp. rewrite Hc in Hp. cbn [bind] in Hp.
  rewrite (C86_basic E K G lo up o d b _ l out m HK HS HB Hs HT HC HL Hd Ht Hk Hp H), Hr. apply visible_lexer_input; assumption.
Qed.
Print Assumptions C94_basic.

(** ** Files *)
Lemma newlines_marked chars rest t : marked chars rest -> P_Files.newlines chars t -> exists t', marked t t' /\ P_Files.newlines rest t'.
Proof.
  intros [-> | [-> H]] N.
  - inversion N; subst; try discriminate. eexists. split; [left; reflexivity|eassumption].
  - exists t. split; [|exact N]. right. split; [reflexivity|]. inversion N; subst; try discriminate; exact H.
Qed.
Lemma marked_snoc s c r : marked (s ++ [c]) r -> c <> bom -> exists r', marked s r' /\ r = r' ++ [c].
Proof.
  intros [H | [H H']] Hc.
  - destruct s as [|x s]; cbn [app] in H; [injection H as H _; contradiction|]. injection H as -> <-.
    exists s. split; [left; reflexivity|reflexivity].
  - exists s. split; [|symmetry; exact H]. right. split; [reflexivity|]. destruct s as [|x s]; [discriminate|exact H'].
Qed.

(** the text of a file that is parsed has the visible characters of the file *)
Lemma source_visible K bytes chars rest : white K -> holds bytes chars -> marked chars rest ->
  exists r, marked (source_text bytes) r /\ visible K r = visible K rest.
Proof.
  intros [H10 H13] Hh Hm. destruct (C65_text bytes) as (c & t & H1 & H2 & H3).
  destruct (C65_unique bytes chars c t t Hh H1) as [<- _]; [|exact H2|]. 
  { assert (chars = c); [|subst; exact H2]. destruct (C65_unique bytes chars c (univ_newlines chars) t Hh H1 (univ_newlines_spec chars) H2). assumption. }
  destruct (newlines_marked _ _ _ Hm H2) as (t' & M & N). rewrite (visible_newlines K rest t' H10 H13 N).
  destruct H3 as [-> | [-> _]].
  - destruct (marked_snoc _ _ _ M) as (r & Mr & ->); [discriminate|]. exists r. split; [exact Mr|].
    rewrite visible_app. change [10%N] with (repeat 10%N 1). rewrite (visible_repeat K 10 1 H10), app_nil_r. reflexivity.
  - exists t'. split; [exact M|reflexivity].
Qed.

(** A file of a corpus preprocessed with nosplit: the visible characters of the tokens before <EOF> are those of the file. *)
Theorem C94_file : forall P E K G lo up o dk g config id path ext bytes chars rest lx out m,
  ascii_classes K -> simple_case E K G lo up -> blanks_ok K -> white K -> holds bytes chars -> marked chars rest ->
  extension_of path = Ok ext -> choose_lexer P (source_text bytes) (Some ext) = Ok lx -> reads_all lx ->
  source_ok E K G (lx (lexer_input (source_text bytes))) -> mk_prep_config config = Ok config ->
  param config SPLIT = lit "F" -> (forall l, parse_source P E K (source_text bytes) (Some ext) = Ok l -> keeps_all config l) ->
  preprocess_file (parse_source P E K) (plain_repr E o) dk g config id path bytes = Ok (out, m) ->
  exists body, out = body ++ [lit "<EOF>"] /\ visible K (written body) = visible K rest.
Proof.
  intros P E K G lo up o dk g config id path ext bytes chars rest lx out m HK HS HB HW Hh Hm Hx Hc Hr Hs Hd HF Hk H.
  destruct (source_visible K bytes chars rest HW Hh Hm) as (r & Mr & <-).
  assert (Hb : is_bpe config = false).
  { unfold is_bpe, param_in. rewrite HF. reflexivity. }
  unfold preprocess_file, parse_file in H. rewrite Hx in H. cbn [bind] in H. apply bind_ok in H. destruct H as (l & Hl & H).
  rewrite Hb in H. rewrite (plain_repr_no_bpe E o config _ g None Hb) in H.
  change (to_repr E o config None (l ++ [NonProc NpSpecialToken ph_ect]) = Ok (out, m)) in H.
  destruct (C04_splits _ _ _ _ _ _ _ H) as ([body mb] & [x mx] & H1 & H2).
  pose proof (C04_compositional _ _ _ _ _ _ _ _ _ _ H1 H2) as H3. rewrite H in H3. injection H3 as -> _.
  rewrite (special_repr E o config None ph_ect Hd) in H2. injection H2 as <- _. unfold token_end; rewrite ?Hb.
  exists body. split; [reflexivity|].
  exact (C94_nosplit P E K G lo up o config None (source_text bytes) r (Some ext) lx l body mb HK HS HB HW Mr Hc Hr Hs HF (Hk l Hl) Hl H1).
Qed.
Print Assumptions C94_file.

(** ** Examples *)
Definition ex_body : str := List.concat (map snd keep_ex).
Definition ex_lexed : list (token_type * str) := keep_ex ++ [(["Text"]%string, [10%N])].
Definition ex_lexer : lexer := fun s => if eqb s (ex_body ++ [10%N]) then ex_lexed else [(["Text"]%string, s)].
Definition ex_pygments : pygments := {| by_name := fun n => if eqb n (lit "java") then Some ex_lexer else None; guess := fun _ => None |}.
(** a byte order mark, an empty line, the text with line ends of Windows, two empty lines *)
Definition ex_text : str := bom :: [13; 10]%N ++ flat_map (fun c => if N.eqb c 10 then [13; 10]%N else [c]) ex_body ++ [13; 10; 10; 13]%N.

Example C94_example :
  reads_all ex_lexer /\ white wide_K /\ lexer_input ex_text = ex_body ++ [10%N]
  /\ choose_lexer ex_pygments ex_text None = Ok ex_lexer
  /\ source_ok ascii_case wide_K (fun c => (c < 128)%N) (ex_lexer (lexer_input ex_text))
  /\ parse_source ex_pygments ascii_case wide_K ex_text None = parse_source ex_pygments ascii_case wide_K ex_body (Some (lit "java"))
  /\ exists l out m, parse_source ex_pygments ascii_case wide_K ex_text None = Ok l
     /\ to_repr ascii_case no_splitters (combine prep_params (chars_of "uc1Fsu")) None l = Ok (out, m)
     /\ visible wide_K (written out) = visible wide_K (tl ex_text) /\ visible wide_K (tl ex_text) = lit "intgetX_1=0x1f//A'aB'".
Proof.
  assert (HR : reads_all ex_lexer).
  { intros s. unfold ex_lexer. destruct (eqb_spec s (ex_body ++ [10%N])) as [->|_]; [reflexivity|]. cbn. apply app_nil_r. }
  destruct keep_ex_ok as (HK & HB & HS & Hs & Hm & HL).
  assert (HW : white wide_K) by (split; reflexivity).
  assert (Hi : lexer_input ex_text = ex_body ++ [10%N]) by (vm_compute; reflexivity).
  assert (Hlx : ex_lexer (lexer_input ex_text) = ex_lexed) by (rewrite Hi; unfold ex_lexer; rewrite eqb_refl; reflexivity).
  assert (HO : source_ok ascii_case wide_K (fun c => (c < 128)%N) (ex_lexer (lexer_input ex_text))).
  { rewrite Hlx. apply Forall_app. split; [exact Hs|]. constructor; [|constructor]. split; [repeat constructor|]. split; [|discriminate].
    split; [discriminate|]. intros ps w Hps Hw _. cbn [snd] in Hps.
    assert (Hq : pieces wide_K [10%N] [PChar 10%N]).
    { split; [reflexivity|split; [repeat constructor; try discriminate; try reflexivity|cbn; auto]]. }
    rewrite (C13_unique wide_K _ ps _ HK Hps Hq) in Hw. destruct Hw as [Hw|[]]. discriminate. }
  split; [exact HR|]. split; [exact HW|]. split; [exact Hi|]. split; [reflexivity|]. split; [exact HO|]. split; [vm_compute; reflexivity|].
  assert (Hl : exists l, parse_source ex_pygments ascii_case wide_K ex_text None = Ok l) by (eexists; vm_compute; reflexivity).
  destruct Hl as (l & Hl).
  assert (Ho : exists r, to_repr ascii_case no_splitters (combine prep_params (chars_of "uc1Fsu")) None l = Ok r).
  { vm_compute in Hl. injection Hl as <-. eexists. vm_compute. reflexivity. }
  destruct Ho as ([out m] & Ho). exists l, out, m. split; [exact Hl|]. split; [exact Ho|]. split; [|vm_compute; reflexivity].
  refine (C94_nosplit ex_pygments ascii_case wide_K _ _ _ no_splitters (combine prep_params (chars_of "uc1Fsu")) None ex_text (tl ex_text) None ex_lexer l out m HK HS HB HW
            (or_introl eq_refl) eq_refl HR HO eq_refl _ Hl Ho).
  vm_compute in Hl. injection Hl as <-. repeat (split; [reflexivity|]). exists maxsize. split; [right; reflexivity|]. split; [reflexivity|].
  intros k n H. vm_compute in H. repeat (destruct H as [H|H]; [try discriminate H; injection H as <- <-; vm_compute; discriminate|]). destruct H.
Qed.

(** three line ends in the text, two empty lines at its end: two newline tokens *)
Example C94_lines_example :
  Forall (lines_apart wide_K) (ex_lexer (lexer_input ex_text)) /\
  exists l, parse_source ex_pygments ascii_case wide_K ex_text None = Ok l /\ P_Source.newlines l = 2 /\ line_ends (univ_newlines (tl ex_text)) = 5.
Proof.
  split.
  - replace (ex_lexer (lexer_input ex_text)) with ex_lexed by (vm_compute; reflexivity).
    repeat (constructor; [cbn; first [left; reflexivity|right; left; cbn; intuition discriminate]|]). constructor.
  - eexists. split; [vm_compute; reflexivity|]. split; vm_compute; reflexivity.
Qed.
