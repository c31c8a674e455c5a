(** C66 - C68: undefined entities, broken texts, text after the formula. *)
From Coq Require Import String.
From Verif Require Import SpecExamples LemXml3.
Local Open Scope string_scope.
Local Open Scope list_scope.

(** C66: a reference to an undefined entity in element content vanishes when the document type has an external subset and the
    document is not standalone; otherwise (here: without declaration and document type) the text is rejected. *)
Theorem C66_skipped : forall word_char parse_string d u v e x x' h, SpecXml.reads parse_string ->
  slot_document true d u v -> undefined e -> clean x = u ++ v -> clean x' = u ++ (lit "&" ++ e ++ lit ";") ++ v ->
  snd (mathml_to_latex word_char parse_string x' h) = snd (mathml_to_latex word_char parse_string x h)
  /\ snd (mathml_to_latex word_char parse_string x h) = document_latex d.
Proof.
  intros wc ps d u v e x x' h R SD U E E'.
  assert (D : document_text d (clean x)) by (rewrite E; apply (slot_filled true d u v []); [exact SD|left; reflexivity]).
  assert (D' : document_text d (clean x')) by (rewrite E'; apply (slot_filled true d u v); [exact SD|right; split; [reflexivity|eauto]]).
  rewrite (convert_text wc ps d x h R D), (convert_text wc ps d x' h R D'). auto.
Qed.
Print Assumptions C66_skipped.
Theorem C66_rejected : forall word_char parse_string ps n u e rest x h, reports parse_string ->
  inside ps (Some n) u -> undefined e -> clean x = u ++ (lit "&" ++ e ++ lit ";") ++ rest -> Forall good_char rest -> ~ In 32%N u ->
  mathml_to_latex word_char parse_string x h = (h, Raise (EExpat 11 1 (length u))).
Proof.
  intros wc parse ps n u e rest x h R U D E G N. apply (exact_malformed wc parse (u ++ lit "&" ++ e ++ lit ";") rest 11 (length u) x h R).
  - eapply malformed_entity; eassumption.
  - rewrite E, <- !app_assoc. reflexivity.
  - exact G.
  - rewrite !in_app_iff. apply proj1, name_not_special in D. intros [I|[I|[I|I]]]; [auto|vm_compute in I; intuition discriminate|apply (proj1 (proj2 D)), I|vm_compute in I; intuition discriminate].
Qed.
Print Assumptions C66_rejected.
Theorem C66_rejected_attributes : forall word_char parse_string ps n u e rest x h, reports parse_string -> needs_markup parse_string ->
  inside ps (Some n) u -> undefined e -> clean x = u ++ (lit "&" ++ e ++ lit ";") ++ rest -> Forall good_char rest -> no_late_space u ->
  exists ex, mathml_to_latex word_char parse_string x h = (h, Raise ex).
Proof.
  intros wc parse ps n u e rest x h R NM U D E G N. apply (raises_malformed wc parse (u ++ lit "&" ++ e ++ lit ";") rest 11 (length u) x h R NM).
  - eapply malformed_entity; eassumption.
  - rewrite E, <- !app_assoc. reflexivity.
  - exact G.
  - intros a b Q. change ([32%N] ++ b) with (32%N :: b) in Q. destruct (prefix_cases _ _ _ _ Q) as [(r1 & ->)|(b' & -> & NB)].
    + exfalso. rewrite <- app_assoc in Q. apply app_inv_head in Q. assert (I : In 32%N (lit "&" ++ e ++ lit ";")) by (rewrite Q; apply in_app_iff; right; left; reflexivity).
      apply proj1, name_not_special in D. rewrite !in_app_iff in I. destruct I as [I|[I|I]]; [vm_compute in I; intuition discriminate|apply (proj1 (proj2 D)), I|vm_compute in I; intuition discriminate].
    + rewrite <- app_assoc in Q. apply app_inv_head in Q. destruct b' as [|c b']; [congruence|]. injection Q as -> _. apply (N a b'). reflexivity.
Qed.
Print Assumptions C66_rejected_attributes.

Definition doctype_line : str := lit "<!DOCTYPE math SYSTEM 'm.dtd'>".
Definition alpha_document : document := [DElem (lit "math") [] [dleaf "mi" "x"]].
Lemma doctype_prolog : prolog_text true [] doctype_line.
Proof.
  apply (prolog_written false true [] [] [] doctype_line [] []); [left; auto|apply outer_white; constructor| |apply outer_white; constructor].
  right. apply (doctype_system (lit " ") (lit "math") (lit " ") (lit " ") 39 (lit "m.dtd") []);
    try discriminate; [apply blank_check; reflexivity|apply name_check; reflexivity|auto|].
  apply Forall_forall. intros c I. vm_compute in I. split; [chars|]; intuition lia.
Qed.
Example C66_example :
  slot_document true alpha_document (doctype_line ++ lit "<math><mi>") (lit "x</mi></math>") /\ undefined (lit "alpha")
  /\ snd (mathml_to_latex no_word parse_text (doctype_line ++ lit "<math><mi>&alpha;x</mi></math>") []) = Ok (lit "x")
  /\ inside [] (Some (lit "mi")) (lit "<math><mi>")
  /\ mathml_to_latex no_word parse_text (lit "<math><mi>&alpha;x</mi></math>") [] = ([], Raise (EExpat 11 1 10)).
Proof.
  assert (NC := name_check : forall n, name_b n = true -> good_name n).
  split; [|split; [split; [apply NC; reflexivity|vm_compute; intuition discriminate]|split; [vm_compute; reflexivity|split; [|vm_compute; reflexivity]]]].
  - exists [], doctype_line, (DElem (lit "math") [] [dleaf "mi" "x"]), (lit "<math><mi>"), (lit "x</mi></math>"), [], [].
    split; [reflexivity|]. split; [reflexivity|]. split; [reflexivity|]. split; [exact doctype_prolog|]. split; [|apply outer_white; constructor].
    apply (slot_element true [] (lit "math") [] (lit "<math") _ (lit "<mi>") (lit "x</mi>") []); [apply plain_tag, NC; reflexivity| |constructor].
    apply (slot_inside true _ (dleaf "mi" "x") (lit "<mi>") (lit "x</mi>") [] []); [|constructor].
    apply (slot_element true _ (lit "mi") [] (lit "<mi") _ [] (lit "x") []); [apply plain_tag, NC; reflexivity| |constructor].
    apply slot_first. apply (nodes_more true _ (DText (lit "x")) (lit "x") [] []); [|constructor|reflexivity].
    apply plain_text; [discriminate|reflexivity].
  - apply (in_element [] (Some (lit "math")) (lit "<math>") (lit "mi") [] (lit "<mi") [] []);
      [|apply plain_tag, NC; reflexivity|constructor].
    apply (in_element [] None [] (lit "math") [] (lit "<math") [] []); [|apply plain_tag, NC; reflexivity|constructor].
    apply (at_root []). apply outer_white. constructor.
Qed.

(** C67: broken texts are rejected, not converted. *)
Theorem C67_exact : forall word_char parse_string m rest code pos x h, reports parse_string ->
  malformed code pos m -> clean x = m ++ rest -> Forall good_char rest -> ~ In 32%N m ->
  mathml_to_latex word_char parse_string x h = (h, Raise (EExpat code 1 pos)).
Proof. exact exact_malformed. Qed.
Print Assumptions C67_exact.
Theorem C67_rejected : forall word_char parse_string m rest code pos x h, reports parse_string -> needs_markup parse_string ->
  malformed code pos m -> clean x = m ++ rest -> Forall good_char rest -> no_late_space m ->
  exists e, mathml_to_latex word_char parse_string x h = (h, Raise e).
Proof. exact raises_malformed. Qed.
Print Assumptions C67_rejected.
Theorem C67_truncated_exact : forall word_char parse_string x h, reports_end parse_string -> truncated (clean x) -> ~ In 32%N (clean x) ->
  exists code pos, parse_string (clean x) = Raise (EExpat code 1 pos) /\ mathml_to_latex word_char parse_string x h = (h, Raise (EExpat code 1 pos)).
Proof.
  intros wc ps x h R T N. destruct (R _ T (clean_one_line x)) as (code & pos & NC & P). exists code, pos. split; [exact P|].
  apply exact_stuck; [exact P|exact NC|]. apply cut_no_space; [apply clean_one_line|exact N].
Qed.
Print Assumptions C67_truncated_exact.
Theorem C67_truncated : forall word_char parse_string x h, reports_end parse_string -> needs_markup parse_string ->
  truncated (clean x) -> no_inner_space (clean x) -> exists e, mathml_to_latex word_char parse_string x h = (h, Raise e).
Proof.
  intros wc ps x h R NM T N. destruct (R _ T (clean_one_line x)) as (code & pos & NC & P). eapply raises_settled; eassumption.
Qed.
Print Assumptions C67_truncated.
Theorem C67_no_markup : forall word_char parse_string x h, needs_markup parse_string -> ~ In 62%N (clean x) ->
  exists e, mathml_to_latex word_char parse_string x h = (h, Raise e).
Proof.
  intros wc ps x h NM N. destruct (read_or_rejected wc ps x) as [(d & k & y & K & RE & P)|(e & RJ)]; [exfalso|exists e; apply convert_rejected; exact RJ].
  destruct (NM y) as (e & PE); [eapply no_markup_kept; eassumption|congruence].
Qed.
Print Assumptions C67_no_markup.
Theorem C67_parser : reports parse_text /\ reports_end parse_text /\ needs_markup parse_text.
Proof. split; [exact parser_reports|]. split; [exact parser_reports_end|exact parser_needs_markup]. Qed.
Print Assumptions C67_parser.
(** Not so for a stray [<]: the text is converted without what stands around it. *)
Theorem C67_refuted : exists x pos,
  parse_text (clean x) = Raise (EExpat 4 1 pos)
  /\ x = lit "<math> <mi>x</mi>< </math>"
  /\ snd (mathml_to_latex no_word parse_text x []) = Ok [].
Proof. eexists. eexists. split; [|split; [reflexivity|vm_compute; reflexivity]]. vm_compute. reflexivity. Qed.
Print Assumptions C67_refuted.

Lemma mfrac_inside : inside [] (Some (lit "mfrac")) (lit "<math><mfrac>1").
Proof.
  assert (NC := name_check : forall n, name_b n = true -> good_name n).
  apply (in_element [] (Some (lit "math")) (lit "<math>") (lit "mfrac") [] (lit "<mfrac") [DText (lit "1")] (lit "1"));
    [|apply plain_tag, NC; reflexivity|].
  - apply (in_element [] None [] (lit "math") [] (lit "<math") [] []); [|apply plain_tag, NC; reflexivity|constructor].
    apply (at_root []). apply outer_white. constructor.
  - apply (nodes_more false _ (DText (lit "1")) (lit "1") [] []); [|constructor|reflexivity]. apply plain_text; [discriminate|reflexivity].
Qed.
Example C67_end_example :
  malformed 7 16 (lit "<math><mfrac>1</mrow>")
  /\ mathml_to_latex no_word parse_text (lit "<math><mfrac>1</mrow> <mi>x</mi> </math>") [] = ([], Raise (EExpat 7 1 16)).
Proof.
  split; [|vm_compute; reflexivity].
  apply (malformed_end [] (lit "mfrac") (lit "<math><mfrac>1") (lit "mrow") []); [exact mfrac_inside|left; apply name_check; reflexivity|discriminate|constructor].
Qed.
Example C67_prefix_example :
  malformed 27 14 (lit "<math><mfrac>1<m:mi/>")
  /\ mathml_to_latex no_word parse_text (lit "<math><mfrac>1<m:mi/></mfrac></math>") [] = ([], Raise (EExpat 27 1 14)).
Proof.
  assert (NC := name_check : forall n, name_b n = true -> good_name n). split; [|vm_compute; reflexivity].
  apply (malformed_prefix [] (Some (lit "mfrac")) (lit "<math><mfrac>1") (lit "m") (lit "mi") (lit "m:mi") [] [] [] (lit "/>"));
    [exact mfrac_inside| |vm_compute; intuition discriminate|constructor|constructor|constructor|constructor|auto].
  split; [apply NC; reflexivity|]. split; [apply NC; reflexivity|reflexivity].
Qed.
Example C67_twice_example :
  malformed 8 12 (lit "<math a='1' a='2'>") /\ no_late_space (lit "<math a='1' a='2'>")
  /\ mathml_to_latex no_word parse_text (lit "<math a='1' a='2'><mi>x</mi></math>") [] = ([], Raise (EExpat 5 1 0)).
Proof.
  assert (NC := name_check : forall n, name_b n = true -> good_name n).
  assert (V : forall c, In c (lit "12") -> written false (fun c => ~ In c [39; 60; 38; 9; 10]%N) [c] [c]).
  { intros c I. apply raw_written. constructor; [|constructor]. vm_compute in I. split; [chars|cbn [In]]; intuition lia. }
  assert (GA : forall v, good_attribute (lit "a", v)).
  { intros v. split; [left; apply NC; reflexivity|]. split; [apply plain_free, NC; reflexivity|discriminate]. }
  split; [|split; [|vm_compute; reflexivity]].
  - apply (malformed_twice [] None [] (lit "math") [(lit "a", lit "1")] (lit " a='1'") (lit " ") (lit "a") [] [] 39 (lit "2") (lit "2") [] (lit ">"));
      [apply (at_root []), outer_white; constructor|apply NC; reflexivity|repeat constructor; intros []|repeat constructor; apply NC; reflexivity| |
       left; reflexivity|apply GA|discriminate|apply blank_check; reflexivity|auto|apply V; vm_compute; auto|constructor|auto].
    apply (attributes_more false (lit "a") (lit "1") [] (lit " ") [] [] 39 (lit "1") []);
      [discriminate|apply blank_check; reflexivity|auto|apply GA|apply V; vm_compute; auto|constructor].
  - intros a b E I. assert (Q : exists u v, lit "<math a='1' a='2'>" = u ++ 62%N :: v /\ In 32%N v).
    { apply in_split in I. destruct I as (u & v & ->). exists u, (v ++ [32%N] ++ b). split; [rewrite E, <- app_assoc; reflexivity|].
      apply in_app_iff. right. left. reflexivity. }
    destruct Q as (u & v & E' & I'). change (lit "<math a='1' a='2'>") with (lit "<math a='1' a='2'" ++ 62%N :: []) in E'.
    assert (S1 : split_last 62 (lit "<math a='1' a='2'" ++ 62%N :: []) = Some (lit "<math a='1' a='2'", [])) by reflexivity.
    destruct (in_dec N.eq_dec 62%N v) as [I2|N2].
    + apply in_split in I2. destruct I2 as (v1 & v2 & ->). assert (C : forall s, count_occ N.eq_dec s 62%N = 1 -> forall p q r, s <> p ++ 62%N :: q ++ 62%N :: r).
      { intros s C p q r ->. rewrite count_occ_app in C. cbn [count_occ] in C. rewrite count_occ_app in C. cbn [count_occ] in C.
        destruct (N.eq_dec 62 62); [|congruence]. lia. }
      apply (C (lit "<math a='1' a='2'" ++ 62%N :: [])) in E'; [exact E'|reflexivity].
    + assert (S2 : split_last 62 (u ++ 62%N :: v) = Some (u, v)) by (apply split_last_some; auto). rewrite <- E', S1 in S2. injection S2 as _ <-. destruct I'.
Qed.
Example C67_truncated_example :
  truncated (lit "<math><mi>x</mi>") /\ mathml_to_latex no_word parse_text (lit "<math><mi>x</mi>") [] = ([], Raise (EExpat 3 1 16)).
Proof.
  split; [|vm_compute; reflexivity].
  destruct (print_one false (DElem (lit "math") [] [dleaf "mi" "x"])) with (ps := @nil str) as [T _]; [apply printable_check; reflexivity|].
  exists [], [], (lit "math"), [], [dleaf "mi" "x"], (lit "<math><mi>x</mi></math>"), (lit "</math>").
  split; [apply outer_white; constructor|]. split; [exact T|]. split; [reflexivity|discriminate].
Qed.

(** C68: up to four tags after the formula, each after a space, are dropped without an error. *)
Theorem C68_littered : forall word_char parse_string d k x h, SpecXml.reads parse_string -> reports_junk parse_string -> k < 5 ->
  littered d k (clean x) -> snd (mathml_to_latex word_char parse_string x h) = document_latex d.
Proof. exact convert_littered. Qed.
Print Assumptions C68_littered.
Theorem C68_parser : reports_junk parse_text.
Proof. exact parser_reports_junk. Qed.
Print Assumptions C68_parser.
(** Without the space, or with more of them, the text is rejected. *)
Theorem C68_refuted :
  (exists e, snd (mathml_to_latex no_word parse_text (lit "<math><mi>x</mi></math><math><mi>y</mi></math>") []) = Raise e)
  /\ (exists e, snd (mathml_to_latex no_word parse_text (lit "<math><mi>x</mi></math> <a> <b> <c> <d> <e>") []) = Raise e).
Proof. split; eexists; vm_compute; reflexivity. Qed.
Print Assumptions C68_refuted.
Example C68_example :
  littered alpha_document 2 (lit "<math><mi>x</mi></math> <math><mi>y</mi></math> <br/>")
  /\ snd (mathml_to_latex no_word parse_text (lit "<math><mi>x</mi></math> <math><mi>y</mi></math> <br/>") []) = Ok (lit "x").
Proof.
  split; [|vm_compute; reflexivity].
  assert (G : forall s : str, forallb (fun c => is_good c && negb (c =? 32)%N && negb (c =? 10)%N) s = true -> Forall good_char s /\ ~ In 32%N s /\ ~ In 10%N s).
  { intros s H. rewrite forallb_forall in H. split; [apply good_check; apply forallb_forall; intros c I; specialize (H c I); lia|].
    split; intros I; specialize (H _ I); cbv beta in H; rewrite !andb_true_iff in H; destruct H as [[_ H] H']; discriminate. }
  apply (littered_S _ 1 (lit "<math><mi>x</mi></math> <math><mi>y</mi></math>") 98 (lit "r/")); try (apply G; reflexivity); [|chars; lia].
  apply (littered_S _ 0 (lit "<math><mi>x</mi></math>") 109 (lit "ath><mi>y</mi></math")); try (apply G; reflexivity); [|chars; lia].
  apply littered_0. destruct (print_document alpha_document) as [D _]; [apply document_check; reflexivity|exact D].
Qed.
