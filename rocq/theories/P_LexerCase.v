(** * C94 without a condition on numbers: only the case of numbers can differ *)
From Coq Require Import List NArith ZArith Bool String Lia Arith.
From Verif Require Import M_Base L_Base M_Tokens M_Literal L_Literal M_Repr M_Merge M_BpeEncode M_PrepConfig P_PrepConfig
  L_Repr P_Repr L_Word P_ReprOptions L_Merge P_ReprStrings M_Regex M_Parse L_Regex P_Parse P_ParseRepr M_Registry M_Pipeline
  M_Dataset M_Api P_Api P_Merge S_Bpe L_Bpe L_BpeEncode P_Bpe M_Files P_Files P_Source P_Split P_Keep M_Lexer P_Lexer P_KeepCase.
Import ListNotations.
Local Open Scope list_scope.

(** Whatever numbers are in the source text: the visible characters of the output are those of the source, each as it is or put
    into lower case. *)
Theorem C94_nosplit_case : forall P E K G lo up o d b text rest ext lx l out m,
  ascii_classes K -> simple_case E K G lo up -> blanks_ok K -> plain_case K G lo -> white K -> marked text rest ->
  choose_lexer P text ext = Ok lx -> reads_all lx -> source_any K G (lx (lexer_input text)) ->
  param d SPLIT = lit "F" -> keeps_all d l ->
  parse_source P E K text ext = Ok l -> to_repr E o d b l = Ok (out, m) ->
  lowered lo (visible K rest) (visible K (written out)).
Proof.
  intros P E K G lo up o d b text rest ext lx l out m HK HS HB HP [H10 H13] Hm Hc Hr Hs HF Hk Hp H. unfold parse_source in Hp. rewrite Hc in Hp. cbn [bind] in Hp.
  rewrite <- (visible_lexer_input K text rest H10 H13 Hm), <- (Hr (lexer_input text)).
  exact (C86_nosplit_case E K G lo up o d b _ l out m HK HS HB HP Hs HF Hk Hp H).
Qed.
Print Assumptions C94_nosplit_case.

Theorem C94_bpe_case : forall P E K G lo up o d b merges text rest ext lx l out m,
  ascii_classes K -> simple_case E K G lo up -> blanks_ok K -> plain_case K G lo -> white K -> marked text rest ->
  choose_lexer P text ext = Ok lx -> reads_all lx -> source_any K G (lx (lexer_input text)) -> py_text E -> lexer_ok (lx (lexer_input text)) ->
  usable b merges -> is_bpe d = true -> keeps_all d l ->
  parse_source P E K text ext = Ok l -> to_repr E o d (Some b) l = Ok (out, m) ->
  exists texts, map (@List.concat N) (slices (wb m) out) = map (fun t => t ++ lit "</t>") texts /\
    List.concat (slices (wb m) out) = out /\ lowered lo (visible K rest) (visible K (written texts)).
Proof.
  intros P E K G lo up o d b merges text rest ext lx l out m HK HS HB HP [H10 H13] Hm Hc Hr Hs HT HL Hu Hd Hk Hp H. unfold parse_source in Hp. rewrite Hc in Hp. cbn [bind] in Hp.
  rewrite <- (visible_lexer_input K text rest H10 H13 Hm), <- (Hr (lexer_input text)).
  exact (C86_bpe_case E K G lo up o d b merges _ l out m HK HS HB HP Hs HT HL Hu Hd Hk Hp H).
Qed.
Print Assumptions C94_bpe_case.

Theorem C94_basic_case : forall P E K G lo up o d b text rest ext lx l out m,
  ascii_classes K -> simple_case E K G lo up -> blanks_ok K -> plain_case K G lo -> white K -> marked text rest ->
  choose_lexer P text ext = Ok lx -> reads_all lx -> source_any K G (lx (lexer_input text)) -> py_text E -> case_no_lt E ->
  lexer_no_marks (lx (lexer_input text)) -> mk_prep_config d = Ok d -> keeps_text o d -> keeps_all d l ->
  parse_source P E K text ext = Ok l -> to_repr E o d b l = Ok (out, m) ->
  lowered lo (visible K rest) (visible K (written (map (put_together E) (slices (wb m) out)))).
Proof.
  intros P E K G lo up o d b text rest ext lx l out m HK HS HB HP [H10 H13] Hm Hc Hr Hs HT HC HL Hd Ht Hk Hp H. unfold parse_source in Hp. rewrite Hc in Hp. cbn [bind] in Hp.
  rewrite <- (visible_lexer_input K text rest H10 H13 Hm), <- (Hr (lexer_input text)).
  exact (C86_basic_case E K G lo up o d b _ l out m HK HS HB HP Hs HT HC HL Hd Ht Hk Hp H).
Qed.
Print Assumptions C94_basic_case.

Theorem C94_file_case : forall P E K G lo up o dk g config id path ext bytes chars rest lx out m,
  ascii_classes K -> simple_case E K G lo up -> blanks_ok K -> plain_case K G lo -> white K -> holds bytes chars -> marked chars rest ->
  extension_of path = Ok ext -> choose_lexer P (source_text bytes) (Some ext) = Ok lx -> reads_all lx ->
  source_any K G (lx (lexer_input (source_text bytes))) -> mk_prep_config config = Ok config ->
  param config SPLIT = lit "F" -> (forall l, parse_source P E K (source_text bytes) (Some ext) = Ok l -> keeps_all config l) ->
  preprocess_file (parse_source P E K) (plain_repr E o) dk g config id path bytes = Ok (out, m) ->
  exists body, out = body ++ [lit "<EOF>"] /\ lowered lo (visible K rest) (visible K (written body)).
Proof.
  intros P E K G lo up o dk g config id path ext bytes chars rest lx out m HK HS HB HP HW Hh Hm Hx Hc Hr Hs Hd HF Hk H.
  destruct (source_visible K bytes chars rest HW Hh Hm) as (r & Mr & <-).
  assert (Hb : is_bpe config = false).
  { unfold is_bpe, param_in. rewrite HF. reflexivity. }
  unfold preprocess_file, parse_file in H. rewrite Hx in H. cbn [bind] in H. apply bind_ok in H. destruct H as (l & Hl & H).
  rewrite Hb in H. rewrite (plain_repr_no_bpe E o config _ g None Hb) in H.
  change (to_repr E o config None (l ++ [NonProc NpSpecialToken ph_ect]) = Ok (out, m)) in H.
  destruct (C04_splits _ _ _ _ _ _ _ H) as ([body mb] & [x mx] & H1 & H2).
  pose proof (C04_compositional _ _ _ _ _ _ _ _ _ _ H1 H2) as H3. rewrite H in H3. injection H3 as -> _.
  rewrite (special_repr E o config None ph_ect Hd) in H2. injection H2 as <- _. unfold token_end; rewrite ?Hb.
  exists body. split; [reflexivity|].
  exact (C94_nosplit_case P E K G lo up o config None (source_text bytes) r (Some ext) lx l body mb HK HS HB HP HW Mr Hc Hr Hs HF (Hk l Hl) Hl H1).
Qed.
Print Assumptions C94_file_case.

(** x = 0xFF with a newline: the number is written 0xff *)
Definition case_lexer : lexer := fun s =>
  if eqb s (lit "X=0xFF" ++ [10%N])
  then [(["Name"%string], lit "X"); (["Operator"%string], lit "="); (["Literal"; "Number"]%string, lit "0xFF"); (["Text"%string], [10%N])]
  else [(["Text"%string], s)].
Definition case_pygments : pygments := {| by_name := fun n => if eqb n (lit "java") then Some case_lexer else None; guess := fun _ => None |}.
Example C94_case_example :
  reads_all case_lexer /\ choose_lexer case_pygments (lit "X=0xFF") None = Ok case_lexer /\
  source_any ascii_K (fun c => (c < 128)%N) (case_lexer (lexer_input (lit "X=0xFF"))) /\
  exists l out m, parse_source case_pygments ascii_case ascii_K (lit "X=0xFF") None = Ok l /\
    to_repr ascii_case no_splitters (combine prep_params (chars_of "uc1Fsu")) None l = Ok (out, m) /\
    out = [lit "X"; lit "="; lit "0xff"; [10%N]] /\
    lowered ascii_to_lower (visible ascii_K (lit "X=0xFF")) (visible ascii_K (written out)).
Proof.
  split; [|split; [reflexivity|split]].
  - intros s. unfold case_lexer. destruct (eqb_spec s (lit "X=0xFF" ++ [10%N])) as [->|_]; [reflexivity|]. cbn. apply app_nil_r.
  - replace (case_lexer _) with [(["Name"%string], lit "X"); (["Operator"%string], lit "="); (["Literal"; "Number"]%string, lit "0xFF"); (["Text"%string], [10%N])]
      by (vm_compute; reflexivity).
    repeat (constructor; [split; [repeat (constructor; [reflexivity|]); constructor|discriminate]|]). constructor.
  - do 3 eexists. split; [vm_compute; reflexivity|]. split; [vm_compute; reflexivity|]. split; [reflexivity|].
    change (lowered ascii_to_lower (lit "X=0xFF") (lit "X=0xff")). repeat (constructor; [cbn; auto|]). constructor.
Qed.
