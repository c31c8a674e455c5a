(** C85: the source, from text to LaTeX.  No statement here uses a function of the model: the source is run by the interpreter, the LaTeX is that
    of the reference rendering ([document_latex]), texts are those of the grammar ([document_text]). *)
From Coq Require Import String.
From Verif Require LemTeX2 SpecLayout SpecGlyphs SpecSize SpecOrder SpecTeX SpecCommands SpecMath SpecXml SpecXml2 SpecContent SpecMarks PropDoc PropTeX PropGlyphs PropCommands PropOrder PropSize PropMath PropXml PropXml2 PropRecovery PropEquiv PropContent PropMarks.
From Verif Require Import SpecExamples LemWhole.
Local Open Scope string_scope.
Local Open Scope list_scope.

(** C85: every text is read as a document, and the source gives the LaTeX of that, or rejected, and the source raises the error. *)
Theorem C85_read_or_rejected : forall word_char parse_string x S,
  (exists d S', SpecDoc.read_as parse_string x d /\ source_ends word_char parse_string x S S' (as_source (SpecDoc.document_latex d)))
  \/ (exists e S', SpecDoc.rejected_with parse_string x e /\ source_ends word_char parse_string x S S' (Raised (parser_error e))).
Proof.
  intros wc ps x S. destruct (source_total wc ps x S) as (S' & E). destruct (PropDoc.C30_read_or_rejected wc ps x []) as [(d & R & L)|(e & R & L)].
  - left. exists d, S'. rewrite <- L. auto.
  - right. exists e, S'. rewrite L in E. auto.
Qed.
Print Assumptions C85_read_or_rejected.
Theorem C85_document : forall word_char parse_string x d S, SpecDoc.read_as parse_string x d ->
  exists S', source_ends word_char parse_string x S S' (as_source (SpecDoc.document_latex d)).
Proof. intros wc ps x d S R. destruct (source_total wc ps x S) as (S' & E). exists S'. rewrite <- (convert_read_snd wc ps x d [] R). exact E. Qed.
Print Assumptions C85_document.
(** From the text: what is written, in the grammar of XML, as a document. *)
Theorem C85_text : forall word_char x d S, SpecXml.document_text d (SpecRecovery.clean x) ->
  exists S', source_ends word_char parse_text x S S' (as_source (SpecDoc.document_latex d)).
Proof. intros wc x d S D. destruct (source_total wc parse_text x S) as (S' & E). exists S'. rewrite <- (PropXml.C57_text wc parse_text d x [] PropXml.C57_parser D). exact E. Qed.
Print Assumptions C85_text.
Theorem C85_print : forall word_char d S, SpecXml.printable_document d ->
  exists S', source_ends word_char parse_text (SpecXml.print d) S S' (as_source (SpecDoc.document_latex d)).
Proof. intros wc d S D. destruct (source_total wc parse_text (SpecXml.print d) S) as (S' & E). exists S'. rewrite <- (PropXml.C57_print wc parse_text d [] PropXml.C57_parser D). exact E. Qed.
Print Assumptions C85_print.
(** The LaTeX is read by TeX as the formula that the tree stands for. *)
Theorem C85_formula : forall word_char x d t l S, SpecXml.document_text d (SpecRecovery.clean x) -> SpecDoc.math_trees d = [t] -> SpecMath.formula_of t = Some l ->
  exists S' s, source_ends word_char parse_text x S S' (Done (VStr s)) /\ SpecMath.tex_reads false s = Some l.
Proof.
  intros wc x d t l S D M F. destruct (PropMath.C60_text wc parse_text d x [] t l PropXml.C57_parser D M F) as (s & E & R).
  destruct (source_total wc parse_text x S) as (S' & X). rewrite E in X. eauto.
Qed.
Print Assumptions C85_formula.
(** What is returned, if a value is returned, whatever the parser *)
Theorem C85_returned : forall word_char parse_string x S S' v, source_ends word_char parse_string x S S' (Done v) ->
  exists s d, v = VStr s /\ SpecDoc.read_as parse_string x d /\ SpecDoc.document_latex d = Ok s
  /\ (forall c s', s = c :: s' -> ~ In c SpecGlyphs.white_codes) /\ (forall c s', s = s' ++ [c] -> ~ In c SpecGlyphs.white_codes)
  /\ (forall c, In c s -> In c SpecGlyphs.white_codes -> c = 32%N) /\ (forall a b, s <> a ++ [32%N; 32%N] ++ b)
  /\ length s <= 100 * (SpecSize.document_math_depth d * SpecSize.document_size d)
  /\ (exists ps, Forall2 SpecOrder.piece (flat_map (SpecOrder.reading false) (SpecDoc.math_trees d)) ps /\ SpecOrder.in_order ps s)
  /\ ((forall t, In t (SpecDoc.math_trees d) -> SpecTeX.plain_tree t) -> SpecTeX.braces_balance s /\ SpecTeX.nested false (SpecTeX.tex_tokens s))
  /\ ((forall t, In t (SpecDoc.math_trees d) -> SpecTeX.fenced_tree t) -> SpecTeX.nested true (SpecTeX.tex_tokens s))
  /\ ((forall t, In t (SpecDoc.math_trees d) -> SpecCommands.tame_tree t) -> forall w, In w SpecCommands.dangerous -> ~ In (SpecTeX.Word w) (SpecTeX.tex_tokens s))
  /\ ((forall t, In t (SpecDoc.math_trees d) -> SpecCommands.regular_tree t) -> forall c, In c s ->
      SpecCommands.ascii_output c \/ exists t, In t (SpecDoc.math_trees d) /\ SpecCommands.from_input t c).
Proof.
  intros wc ps x S S' v H. destruct (source_value wc ps x S S' v H) as (s & -> & E). exists s.
  destruct (PropDoc.C30_read_or_rejected wc ps x []) as [(d & R & L)|(e & R & L)]; [|rewrite L in E; discriminate E].
  exists d. rewrite L in E. pose proof (eq_trans L E) as X. split; [reflexivity|]. split; [exact R|]. split; [exact E|].
  destruct (PropGlyphs.C01_white_codes wc ps x [] s X) as (A & B & C & D). split; [exact A|]. split; [exact B|]. split; [exact C|]. split; [exact D|].
  split; [exact (PropSize.C46_documents wc ps x d [] s R X)|]. split; [exact (PropOrder.C14_documents wc ps x d [] s R X)|].
  split; [intros P; split; [exact (PropTeX.C11_documents wc ps x d [] s R P X) | exact (PropTeX.C13_documents wc ps x d [] s R P X)]|].
  split; [intros P; exact (PropTeX.C12_documents wc ps x d [] s R P X)|].
  split; [intros P w; exact (PropCommands.C61_harmless wc ps x d [] s w R P X)|].
  intros P c. exact (PropCommands.C62_documents wc ps x d [] s c R P X).
Qed.
Print Assumptions C85_returned.
(** What is raised: the error of the parser in the fifth attempt, or that of an element with a wrong number of children *)
Theorem C85_raised : forall word_char parse_string x S S' v, source_ends word_char parse_string x S S' (Raised v) ->
  exists e, v = parser_error e /\ (SpecDoc.rejected_with parse_string x e \/ exists d, SpecDoc.read_as parse_string x d /\ SpecDoc.document_latex d = Raise e).
Proof.
  intros wc ps x S S' v H. destruct (source_error wc ps x S S' v H) as (e & -> & E). exists e. split; [reflexivity|].
  destruct (PropDoc.C30_read_or_rejected wc ps x []) as [(d & R & L)|(e' & R & L)].
  - right. exists d. split; [exact R|]. rewrite <- L. exact E.
  - left. rewrite L in E. injection E as ->. exact R.
Qed.
Print Assumptions C85_raised.
(** Texts that end too early, and texts without any tag, are rejected. *)
Theorem C85_broken : forall word_char x S, (SpecXml2.truncated (SpecRecovery.clean x) /\ SpecXml2.no_inner_space (SpecRecovery.clean x)) \/ ~ In 62%N (SpecRecovery.clean x) ->
  exists S' e, source_ends word_char parse_text x S S' (Raised (parser_error e)).
Proof.
  intros wc x S H. destruct (source_total wc parse_text x S) as (S' & E).
  assert (X : exists e, mathml_to_latex wc parse_text x [] = ([], Raise e)).
  { destruct H as [[T N]|N]; [exact (PropXml2.C67_truncated wc parse_text x [] (proj1 (proj2 PropXml2.C67_parser)) (proj2 (proj2 PropXml2.C67_parser)) T N) | exact (PropXml2.C67_no_markup wc parse_text x [] (proj2 (proj2 PropXml2.C67_parser)) N)]. }
  destruct X as (e & X). rewrite X in E. exists S', e. exact E.
Qed.
Print Assumptions C85_broken.
(** Up to four tags after the formula are dropped. *)
Theorem C85_littered : forall word_char d k x S, k < 5 -> SpecXml2.littered d k (SpecRecovery.clean x) ->
  exists S', source_ends word_char parse_text x S S' (as_source (SpecDoc.document_latex d)).
Proof. intros wc d k x S K L. destruct (source_total wc parse_text x S) as (S' & E). exists S'. rewrite <- (PropXml2.C68_littered wc parse_text d k x [] PropXml.C57_parser PropXml2.C68_parser K L). exact E. Qed.
Print Assumptions C85_littered.
(** Line breaks and prefixes: the same value or exception with and without them *)
Theorem C85_line_breaks : forall word_char parse_string a c b S, c = 10%N \/ c = 13%N -> exists S1 S2 o,
  source_ends word_char parse_string (a ++ c :: b) S S1 o /\ source_ends word_char parse_string (a ++ b) S S2 o.
Proof.
  intros wc ps a c b S C. destruct (source_total wc ps (a ++ c :: b) S) as (S1 & E1). destruct (source_total wc ps (a ++ b) S) as (S2 & E2).
  rewrite (PropRecovery.C33_line_breaks wc ps a c b [] C) in E1. eauto 6.
Qed.
Print Assumptions C85_line_breaks.
(** Text beside elements, comments, CDATA and processing instructions *)
Theorem C85_layout : forall word_char parse_string x y d d' S, SpecDoc.read_as parse_string x d -> SpecDoc.read_as parse_string y d' -> SpecLayout.bare_doc d = SpecLayout.bare_doc d' ->
  exists S1 S2 o, source_ends word_char parse_string x S S1 o /\ source_ends word_char parse_string y S S2 o.
Proof.
  intros wc ps x y d d' S R R' B. destruct (source_total wc ps x S) as (S1 & E1). destruct (source_total wc ps y S) as (S2 & E2).
  rewrite (PropDoc.C15_layout wc ps x y d d' [] R R' B) in E1. eauto 6.
Qed.
Print Assumptions C85_layout.

(** Prefixes mml: *)
Theorem C85_prefixes : forall word_char parse_string pieces S, ~ SpecLayout.occurs (lit "mml:") (SpecRecovery.no_line_breaks (concat pieces)) -> exists S1 S2 o,
  source_ends word_char parse_string (join (lit "mml:") pieces) S S1 o /\ source_ends word_char parse_string (concat pieces) S S2 o.
Proof.
  intros wc ps pieces S N. destruct (source_total wc ps (join (lit "mml:") pieces) S) as (S1 & E1). destruct (source_total wc ps (concat pieces) S) as (S2 & E2).
  rewrite (PropRecovery.C34_prefixes wc ps pieces [] N) in E1. eauto 6.
Qed.
Print Assumptions C85_prefixes.
(** Trees that differ in names of unknown elements, in attributes nobody looks at, in what is inside mphantom, in texts of elements other than tokens, in
    rows directly below math, and in any combination of these, one after the other *)
Inductive alike : SpecTree.tree -> SpecTree.tree -> Prop :=
| alike_same t : alike t t
| alike_renamed t u w : SpecEquiv.renamed t u -> alike u w -> alike t w
| alike_attributes t u w : SpecEquiv.same_looked_at t u -> alike u w -> alike t w
| alike_phantoms t u w : SpecEquiv.same_but_phantoms false t u -> alike u w -> alike t w
| alike_texts t u w : SpecContent.same_token_texts t u -> alike u w -> alike t w
| alike_rows v l l' a w : SpecEquiv.ungrouped l l' -> alike (SpecTree.T (lit "math") v l' a) w -> alike (SpecTree.T (lit "math") v l a) w
| alike_rows_back v l l' a w : SpecEquiv.ungrouped l' l -> alike (SpecTree.T (lit "math") v l' a) w -> alike (SpecTree.T (lit "math") v l a) w.
Theorem C85_alike : forall word_char parse_string x y d d' S, SpecDoc.read_as parse_string x d -> SpecDoc.read_as parse_string y d' ->
  Forall2 alike (SpecDoc.math_trees d) (SpecDoc.math_trees d') ->
  exists S1 S2 o, source_ends word_char parse_string x S S1 o /\ source_ends word_char parse_string y S S2 o.
Proof.
  intros wc ps x y d d' S R R' F. destruct (C85_document wc ps x d S R) as (S1 & E1). destruct (C85_document wc ps y d' S R') as (S2 & E2).
  assert (A : forall t u, alike t u -> SpecTree.latex_of t = SpecTree.latex_of u).
  { induction 1 as [t|t u w H _ IH|t u w H _ IH|t u w H _ IH|t u w H _ IH|v l l' a w H _ IH|v l l' a w H _ IH]; try reflexivity; rewrite <- IH.
    - exact (PropEquiv.C16_unknown_tags t u H).
    - exact (PropEquiv.C17_attributes t u H).
    - exact (PropEquiv.C10_invisible t u H).
    - exact (PropContent.C63_texts t u H).
    - exact (PropEquiv.C18_ungrouped v l l' a H).
    - symmetry. exact (PropEquiv.C18_ungrouped v l' l a H). }
  assert (L : SpecDoc.document_latex d = SpecDoc.document_latex d').
  { unfold SpecDoc.document_latex. replace (map SpecTree.latex_of (SpecDoc.math_trees d)) with (map SpecTree.latex_of (SpecDoc.math_trees d')); [reflexivity|].
    induction F as [|t u l l' H F IH]; cbn [map]; [reflexivity|]. rewrite IH, (A t u H). reflexivity. }
  rewrite L in E1. eauto 6.
Qed.
Print Assumptions C85_alike.
(** The marks of alignment: one & between two cells, one \\ between two rows, and no others *)
Theorem C85_marks : forall word_char parse_string x d S S' v, SpecDoc.read_as parse_string x d -> source_ends word_char parse_string x S S' (Done v) ->
  (forall t, In t (SpecDoc.math_trees d) -> SpecMarks.clean_tree t) ->
  exists s, v = VStr s /\ SpecMarks.count SpecMarks.ampersand s = SpecMarks.gaps_of "mtr" (flat_map SpecMarks.converted (SpecDoc.math_trees d))
  /\ ((forall t, In t (SpecDoc.math_trees d) -> SpecMarks.unquoted_tree t) ->
      SpecMarks.count SpecMarks.double_backslash s = SpecMarks.gaps_of "mtable" (flat_map SpecMarks.converted (SpecDoc.math_trees d)))
  /\ forall k, In k [SpecTeX.Chr 35; SpecTeX.Chr 36; SpecTeX.Chr 37]%N -> ~ In k (SpecTeX.tex_tokens s).
Proof.
  intros wc ps x d S S' v R H C. destruct (source_value wc ps x S S' v H) as (s & -> & E). exists s. split; [reflexivity|].
  destruct (PropMarks.C54_documents wc ps x d [] s R C E) as [A B]. split; [exact A|]. split; [exact B|]. intros k K. exact (PropMarks.C53_documents wc ps x d [] s k R C E K).
Qed.
Print Assumptions C85_marks.

(** A text with a declaration, a comment, a prefix and a line break; run as source, it gives the LaTeX of the reference rendering, for its document. *)
Definition page : str := lit "<?xml version='1.0'?><!--c--><mml:math>" ++ [10%N] ++ lit "<mfrac><mi>x</mi><msqrt><mn>2</mn></msqrt></mfrac></mml:math>".
Definition page_document : document := [DComment (lit "c"); del "math" [del "mfrac" [dleaf "mi" "x"; del "msqrt" [dleaf "mn" "2"]]]].
Example C85_example : SpecDoc.document_latex page_document = Ok (lit "\frac{x}{\sqrt{2}}")
  /\ snd (PySem.run (source_convert no_word parse_text page 60) (Memory [] [])) = Done (VStr (lit "\frac{x}{\sqrt{2}}"))
  /\ SpecDoc.read_as parse_text page page_document
  /\ (forall t, In t (SpecDoc.math_trees page_document) -> SpecTeX.plain_tree t).
Proof.
  split; [vm_compute; reflexivity|]. split; [vm_compute; reflexivity|]. split.
  - exists 0, (SpecRecovery.clean page). split; [lia|]. split; [constructor|vm_compute; reflexivity].
  - intros t [<-|[]]. apply LemTeX2.plain_check. vm_compute. reflexivity.
Qed.
Example C85_broken_example : ~ In 62%N (SpecRecovery.clean (lit "<math"))
  /\ snd (PySem.run (source_convert no_word parse_text (lit "<math") 60) (Memory [] [])) = Raised (parser_error (EExpat 5 1 0)).
Proof. split; [vm_compute; intuition discriminate|vm_compute; reflexivity]. Qed.
(** Two pages that differ in layout of rows, attributes and names *)
Example C85_alike_example :
  let x := lit "<math><mstyle color='red'><mi>x</mi><mrow><mn>2</mn></mrow></mstyle></math>" in let y := lit "<math><mi id='i'>x</mi><mn>2</mn></math>" in
  let d := [del "math" [DElem (lit "mstyle") [(lit "color", lit "red")] [dleaf "mi" "x"; del "mrow" [dleaf "mn" "2"]]]] in
  let d' := [del "math" [DElem (lit "mi") [(lit "id", lit "i")] [DText (lit "x")]; dleaf "mn" "2"]] in
  SpecDoc.read_as parse_text x d /\ SpecDoc.read_as parse_text y d' /\ Forall2 alike (SpecDoc.math_trees d) (SpecDoc.math_trees d')
  /\ snd (PySem.run (source_convert no_word parse_text x 60) (Memory [] [])) = Done (VStr (lit "x 2")).
Proof.
  cbv zeta. split; [eexists 0, _; split; [lia|]; split; [constructor|vm_compute; reflexivity]|].
  split; [eexists 0, _; split; [lia|]; split; [constructor|vm_compute; reflexivity]|]. split; [|vm_compute; reflexivity].
  set (l := SpecDoc.math_trees _). set (l' := SpecDoc.math_trees _). vm_compute in l, l'. subst l l'. constructor; [|constructor].
  eapply alike_rows.
  - apply SpecEquiv.ungrouped_open; [vm_compute; intuition discriminate|]. cbn [app]. apply SpecEquiv.ungrouped_keep.
    apply SpecEquiv.ungrouped_open; [vm_compute; intuition discriminate|]. cbn [app]. apply SpecEquiv.ungrouped_keep. apply SpecEquiv.ungrouped_nil.
  - eapply alike_attributes; [|apply alike_same]. constructor; [reflexivity|]. constructor; [|constructor; [|constructor]].
    + constructor; [|constructor]. intros s ks k I E K. vm_compute in I. repeat (destruct I as [I|I]; [injection I as <- <-; vm_compute in E; try discriminate E; vm_compute in K; repeat (destruct K as [<-|K]; [reflexivity|]); destruct K|]). destruct I.
    + constructor; [reflexivity|constructor].
Qed.
