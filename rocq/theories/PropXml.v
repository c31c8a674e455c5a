(** C57 - C59: from the text of the document to LaTeX. *)
From Coq Require Import String.
From Verif Require Import SpecExamples LemXml2.
Local Open Scope string_scope.
Local Open Scope list_scope.

(** C57: a text that writes a document converts as that document, with every parser that reads what is written. *)
Theorem C57_text : forall word_char parse_string d x h, SpecXml.reads parse_string -> document_text d (clean x) ->
  snd (mathml_to_latex word_char parse_string x h) = document_latex d.
Proof. exact convert_text. Qed.
Print Assumptions C57_text.
(** The text as it stands, when it has no line break and no mml: prefix. *)
Theorem C57_same : forall word_char parse_string d x h, SpecXml.reads parse_string -> document_text d x ->
  ~ In 10%N x -> ~ occurs (lit "mml:") x ->
  snd (mathml_to_latex word_char parse_string x h) = document_latex d.
Proof.
  intros wc ps d x h R D N O. apply convert_text; [exact R|].
  rewrite clean_id; [exact D|exact N|apply good_no_return; eapply good_document; exact D|exact O].
Qed.
Print Assumptions C57_same.
(** Every printable document has a text. *)
Theorem C57_print : forall word_char parse_string d h, SpecXml.reads parse_string -> printable_document d ->
  snd (mathml_to_latex word_char parse_string (print d) h) = document_latex d.
Proof.
  intros wc ps d h R P. destruct (print_document d P) as [A B]. apply convert_text; [exact R|]. rewrite B. exact A.
Qed.
Print Assumptions C57_print.
(** The parser of ModelExpat.v reads what is written, and reports attributes without a value. *)
Theorem C57_parser : SpecXml.reads parse_text.
Proof. exact parser_reads. Qed.
Print Assumptions C57_parser.
Theorem C58_parser : stops parse_text.
Proof. exact parser_stops. Qed.
Print Assumptions C58_parser.

Definition sample_document : document :=
  [DComment (lit " c ");
   DElem (lit "math") [(lit "xmlns", lit "http://www.w3.org/1998/Math/MathML")]
     [DText (lit " "); DElem (lit "mfrac") [(lit "bevelled", lit "true")] [dleaf "mi" "a"; DElem (lit "mo") [] [DText (lit "<&>")]];
      DElem (lit "mtext") [] [DCData (lit "a<b")]];
   DPI (lit "p") []].
Example C57_example :
  printable_document sample_document
  /\ print sample_document = lit "<!-- c --><math xmlns=" ++ [34%N] ++ lit "http&#58;//www.w3.org/1998/Math/MathML" ++ [34%N]
       ++ lit "> <mfrac bevelled=" ++ [34%N] ++ lit "true" ++ [34%N]
       ++ lit "><mi>a</mi><mo>&lt;&amp;&gt;</mo></mfrac><mtext><![CDATA[a<b]]></mtext></math><?p ?>"
  /\ parse_text (print sample_document) = Ok sample_document
  /\ snd (mathml_to_latex no_word parse_text (print sample_document) []) = Ok (lit "a/\left(<&>\right) \text{a}<\text{b}").
Proof.
  assert (D : forall s, forallb (fun c => xml_char c && negb (c =? 13)%N && negb (c =? 10)%N && negb (c =? 58)%N) s = true -> good_data s).
  { intros s H. apply Forall_forall. intros c I. rewrite forallb_forall in H. specialize (H c I). chars. lia. }
  assert (T : forall s, forallb xml_char s = true -> Forall (fun c => good_char c \/ c = 13%N) s).
  { intros s H. apply Forall_forall. intros c I. rewrite forallb_forall in H. specialize (H c I). chars. lia. }
  assert (Q : forall n l ch, good_name n -> NoDup (map fst l) -> dom_order l = l ->
      forallb (fun kv => match fst kv with [] => false | c :: s => name_start c && forallb name_char s end && forallb xml_char (snd kv)
                         && (negb (declares (fst kv)) || str_eqb (snd kv) (lit "http://www.w3.org/1998/Math/MathML"))) l = true ->
      Forall printable ch -> texts_apart ch -> printable (DElem n l ch)).
  { intros n l ch N ND O H P A. apply printable_element; try assumption. apply Forall_forall. intros [k v] I.
    rewrite forallb_forall in H. specialize (H _ I). cbn [fst snd] in *. rewrite !andb_true_iff, orb_true_iff in H. destruct H as [[H1 H2] H3].
    assert (G : good_name k) by (apply name_check; exact H1). split; [exact G|]. split; [|apply T; exact H2].
    split; [left; exact G|]. split; [apply plain_free; exact G|]. intros X. cbn [fst snd] in *. rewrite X in H3. destruct H3 as [H3|H3]; [discriminate|]. apply str_eqb_eq in H3. subst v.
    repeat split; intros E; vm_compute in E; intuition discriminate. }
  split; [|vm_compute; repeat split].
  exists [DComment (lit " c ")]. eexists. eexists. eexists. exists [DPI (lit "p") []]. split; [reflexivity|]. split; [|repeat constructor].
  assert (NO : forall w s : str, (match places w s 0 with [] => true | _ => false end = true) -> ~ occurs w s).
  { intros w s H (a & b & ->). assert (I := places_in w a b 0). destruct (places w (a ++ w ++ b) 0); [destruct I|discriminate]. }
  unfold sample_document, dleaf, del. repeat apply Forall_cons; try apply Forall_nil.
  - apply printable_comment; [apply D; reflexivity|apply NO; reflexivity].
  - repeat (first [apply Q | apply Forall_cons | apply Forall_nil]); try (apply name_check; reflexivity); try reflexivity;
      try (repeat constructor; vm_compute; intuition discriminate).
    all: try (apply printable_text; [discriminate|apply T; reflexivity]).
    all: try (apply printable_cdata; [discriminate|apply D; reflexivity|apply NO; reflexivity]).
    all: try (cbn; auto).
  - apply printable_pi; [apply name_check; reflexivity| |constructor|discriminate|apply NO; reflexivity].
    intros (a & b & c & E & _). discriminate.
Qed.

(** With an XML declaration, a document type and a prefix. *)
Definition full_text : str :=
  lit "<?xml version='1.0' encoding='UTF-8'?><!DOCTYPE math SYSTEM 'math.dtd'> <math xmlns:m='u'><m:x m:k='v'/><mi>&alpha;x</mi></math>".
Definition full_document : document :=
  [DElem (lit "math") [(lit "xmlns:m", lit "u")] [DElem (lit "m:x") [(lit "m:k", lit "v")] []; dleaf "mi" "x"]].
Example C57_full_example : document_text full_document full_text
  /\ snd (mathml_to_latex no_word parse_text full_text []) = Ok (lit "x").
Proof.
  split; [|vm_compute; reflexivity].
  assert (NC := name_check : forall n, name_b n = true -> good_name n).
  assert (R : forall n, name_b n = true -> Forall name_rest n).
  { intros n H. destruct (NC n H) as (c & s & -> & C & F). constructor; [left; exact C|exact F]. }
  exists true, [], (lit "<?xml version='1.0' encoding='UTF-8'?><!DOCTYPE math SYSTEM 'math.dtd'> "), (lit "math"), [(lit "xmlns:m", lit "u")],
    [DElem (lit "m:x") [(lit "m:k", lit "v")] []; dleaf "mi" "x"], (lit "<math xmlns:m='u'><m:x m:k='v'/><mi>&alpha;x</mi></math>"), [], [].
  split; [reflexivity|]. split; [reflexivity|]. split; [|split; [|apply outer_white; constructor]].
  - apply (prolog_written false true (lit "<?xml version='1.0' encoding='UTF-8'?>") [] [] (lit "<!DOCTYPE math SYSTEM 'math.dtd'>") [] (lit " ")).
    + right. exists (lit "1.0"), (lit " version='1.0'"), (lit " encoding='UTF-8'"), [], [].
      split; [|split; [|split; [|split; [constructor|reflexivity]]]].
      * apply (setting_written (lit "version") (lit "1.0") (lit " ") [] [] 39); [discriminate|apply blank_check; reflexivity|auto|].
        apply Forall_forall. intros c I. vm_compute in I. chars. intuition lia.
      * right. exists (lit "UTF-8"). split; [apply NC; reflexivity|]. split; [discriminate|].
        apply (setting_written (lit "encoding") (lit "UTF-8") (lit " ") [] [] 39); [discriminate|apply blank_check; reflexivity|auto|].
        apply R. reflexivity.
      * left. auto.
    + apply outer_white. constructor.
    + right. apply (doctype_system (lit " ") (lit "math") (lit " ") (lit " ") 39 (lit "math.dtd") []);
        try discriminate; [apply blank_check; reflexivity|apply NC; reflexivity|auto|].
      apply Forall_forall. intros c I. vm_compute in I. split; [chars|]; intuition lia.
    + apply outer_white, blank_check. reflexivity.
  - assert (V : forall c, In c (lit "uv") -> written true (fun c => ~ In c [39; 60; 38; 9; 10]%N) [c] [c]).
    { intros c I. apply raw_written. constructor; [|constructor]. vm_compute in I. split; [chars|cbn [In]]; intuition lia. }
    apply (element_written true [] (lit "math") _ (lit "<math xmlns:m='u'") _ (lit "<m:x m:k='v'/><mi>&alpha;x</mi>") []); [| |constructor].
    + exists [(lit "xmlns:m", lit "u")], (lit " xmlns:m='u'"), []. split; [left; apply NC; reflexivity|]. split; [repeat constructor; intros []|].
      split; [|split; [|repeat split; constructor]].
      * apply bound_check; [left; apply NC; reflexivity| |reflexivity]. constructor; [|constructor].
        apply (prefixed_check (lit "xmlns") (lit "m")); reflexivity.
      * apply (attributes_more true (lit "xmlns:m") (lit "u") [] (lit " ") [] [] 39 (lit "u") []);
          [discriminate|apply blank_check; reflexivity|auto| |apply V; vm_compute; auto|constructor].
        split; [apply (prefixed_check (lit "xmlns") (lit "m")); reflexivity|].
        split; [intros I; vm_compute in I; intuition discriminate|]. intros _. repeat split; try discriminate. intros I. vm_compute in I. intuition discriminate.
    + apply (nodes_more true _ (DElem (lit "m:x") _ []) (lit "<m:x m:k='v'/>") [dleaf "mi" "x"] (lit "<mi>&alpha;x</mi>")); [| |reflexivity].
      * apply (empty_written true _ (lit "m:x") _ (lit "<m:x m:k='v'")).
        exists [(lit "m:k", lit "v")], (lit " m:k='v'"), []. split; [apply (prefixed_check (lit "m") (lit "x")); reflexivity|].
        split; [repeat constructor; intros []|]. split; [|split; [|repeat split; constructor]].
        -- apply bound_check; [apply (prefixed_check (lit "m") (lit "x")); reflexivity| |reflexivity]. constructor; [|constructor].
           apply (prefixed_check (lit "m") (lit "k")); reflexivity.
        -- apply (attributes_more true (lit "m:k") (lit "v") [] (lit " ") [] [] 39 (lit "v") []);
             [discriminate|apply blank_check; reflexivity|auto| |apply V; vm_compute; auto|constructor].
           split; [apply (prefixed_check (lit "m") (lit "k")); reflexivity|].
           split; [intros I; vm_compute in I; intuition discriminate|]. discriminate.
      * apply (nodes_more true _ (dleaf "mi" "x") (lit "<mi>&alpha;x</mi>") [] []); [|constructor|reflexivity].
        apply (element_written true _ (lit "mi") [] (lit "<mi") [DText (lit "x")] (lit "&alpha;x") []); [apply plain_tag, NC; reflexivity| |constructor].
        apply (nodes_skip true _ (lit "&alpha;") [DText (lit "x")] (lit "x")).
        -- apply (written_skip true _ (lit "alpha") [] []); [reflexivity| |constructor]. split; [apply NC; reflexivity|].
           intros I. vm_compute in I. intuition discriminate.
        -- apply (nodes_more true _ (DText (lit "x")) (lit "x") [] []); [|constructor|reflexivity]. apply plain_text; [discriminate|reflexivity].
Qed.

(** C58: at most four attributes without a value, or with an unquoted one, are dropped - each the last before [>] (with an unquoted
    value: before a space or [>]), after a space, and a word that occurs once. *)
Theorem C58_dropped : forall word_char parse_string d k x h, SpecXml.reads parse_string -> stops parse_string ->
  k < 5 -> damaged d k (clean x) ->
  snd (mathml_to_latex word_char parse_string x h) = document_latex d.
Proof. exact convert_damaged. Qed.
Print Assumptions C58_dropped.
(** One of them. *)
Theorem C58_one : forall word_char parse_string d u v m x h, SpecXml.reads parse_string -> stops parse_string ->
  gap_document d u v -> unquoted m v -> Forall good_char m -> clean x = u ++ lit " " ++ m ++ v ->
  (forall a b, clean x = a ++ m ++ b -> a = u ++ lit " ") ->
  snd (mathml_to_latex word_char parse_string x h) = document_latex d.
Proof.
  intros wc ps d u v m x h R S G B M E U. apply (convert_damaged wc ps d 1 x h R S); [lia|]. rewrite E in *.
  apply (damaged_S d 0 u v [] m v); auto.
  - apply Forall_app. split; [exact M|]. assert (D := gap_filled d u v [] G (Forall_nil _)). apply good_document in D.
    apply Forall_app in D. apply D.
  - constructor. apply (gap_filled d u v (lit " ") G). constructor; [right; right; reflexivity|constructor].
Qed.
Print Assumptions C58_one.

(** The text [<math><mi>a</mi></math>], to be cut after [<mi], with [v] the rest of the start tag. *)
Definition math_mi : document := [del "math" [dleaf "mi" "a"]].
Lemma math_mi_gap : gap_document math_mi (lit "<math><mi") (lit ">a</mi></math>").
Proof.
  exists false, [], [], (del "math" [dleaf "mi" "a"]), (lit "<math><mi"), (lit ">a</mi></math>"), [], [].
  do 3 (split; [reflexivity|]). split; [apply plain_prolog, outer_white; constructor|]. split; [|apply outer_white; constructor].
  apply (gap_inside false [] (lit "math") [] (lit "<math") [] [] (dleaf "mi" "a") (lit "<mi") (lit ">a</mi>") [] [] []); try constructor.
  - apply plain_tag, name_check. reflexivity.
  - apply (gap_start false [] (lit "mi") [] [] [] [] [] [DText (lit "a")] (lit "a") []); try (constructor; fail).
    + left. apply name_check. reflexivity.
    + apply plain_bound; [apply name_check; reflexivity|constructor].
    + apply (nodes_more false [] (DText (lit "a")) (lit "a") [] []); [|constructor|reflexivity].
      apply plain_text; [discriminate|reflexivity].
Qed.
Example C58_example :
  snd (mathml_to_latex no_word parse_text (lit "<math><mi checked>a</mi></math>") []) = Ok (lit "a")
  /\ gap_document math_mi (lit "<math><mi") (lit ">a</mi></math>") /\ unquoted (lit "checked") (lit ">a</mi></math>")
  /\ (forall a b, lit "<math><mi checked>a</mi></math>" = a ++ lit "checked" ++ b -> a = lit "<math><mi ").
Proof.
  split; [vm_compute; reflexivity|]. split; [exact math_mi_gap|]. split; [apply unquoted_name, name_check; reflexivity|].
  intros a b. apply once_check; vm_compute; reflexivity.
Qed.
Example C58_four : damaged math_mi 4 (lit "<math><mi k1=v k2=w k3=u k4=>a</mi></math>")
  /\ snd (mathml_to_latex no_word parse_text (lit "<math><mi k1=v k2=w k3=u k4=>a</mi></math>") []) = Ok (lit "a").
Proof.
  split; [|vm_compute; reflexivity].
  assert (G := math_mi_gap).
  assert (V : forall n c rest, good_name (lit n) -> In c (lit "vwu") -> unquoted (lit n ++ lit "=" ++ [c]) (32%N :: rest)).
  { intros n c rest N I. apply unquoted_value; auto.
    - intros [->|[->| ->]]; vm_compute in I; intuition discriminate.
    - intros J. cbn [In] in J. vm_compute in I. intuition congruence. }
  apply (damaged_S math_mi 3 (lit "<math><mi") (lit ">a</mi></math>") [] (lit "k1=v") (lit " k2=w k3=u k4=>a</mi></math>")); auto.
  { apply (V "k1" 118%N); [apply name_check; reflexivity|vm_compute; auto]. }
  { apply good_check. reflexivity. }
  { intros a b. apply once_check; vm_compute; reflexivity. }
  apply (damaged_S math_mi 2 (lit "<math><mi") (lit ">a</mi></math>") [32%N] (lit "k2=w") (lit " k3=u k4=>a</mi></math>")); auto.
  { apply blank_check. reflexivity. }
  { apply (V "k2" 119%N); [apply name_check; reflexivity|vm_compute; auto]. }
  { apply good_check. reflexivity. }
  { intros a b. apply once_check; vm_compute; reflexivity. }
  apply (damaged_S math_mi 1 (lit "<math><mi") (lit ">a</mi></math>") [32%N; 32%N] (lit "k3=u") (lit " k4=>a</mi></math>")); auto.
  { apply blank_check. reflexivity. }
  { apply (V "k3" 117%N); [apply name_check; reflexivity|vm_compute; auto]. }
  { apply good_check. reflexivity. }
  { intros a b. apply once_check; vm_compute; reflexivity. }
  apply (damaged_S math_mi 0 (lit "<math><mi") (lit ">a</mi></math>") [32%N; 32%N; 32%N] (lit "k4=") (lit ">a</mi></math>")); auto.
  { apply blank_check. reflexivity. }
  { apply (unquoted_equals (lit "k4") (lit "a</mi></math>")), name_check. reflexivity. }
  { apply good_check. reflexivity. }
  { intros a b. apply once_check; vm_compute; reflexivity. }
  constructor. apply (gap_filled math_mi _ _ (lit "    ") G), blank_check. reflexivity.
Qed.

(** Not so when the word occurs elsewhere (here the [a] of [math], too, is dropped, and nothing is left to convert), when it
    stands before a space, another attribute or [/>], and from the fifth on. *)
Theorem C58_refuted :
  document_latex math_mi = Ok (lit "a")
  /\ (exists m, good_name m /\
       snd (mathml_to_latex no_word parse_text (lit "<math><mi" ++ lit " " ++ m ++ lit ">a</mi></math>") []) = Ok [])
  /\ (exists m e, good_name m /\
       snd (mathml_to_latex no_word parse_text (lit "<math><mi" ++ lit " " ++ m ++ lit " >a</mi></math>") []) = Raise e)
  /\ (exists m e, good_name m /\
       snd (mathml_to_latex no_word parse_text (lit "<math><mi" ++ lit " " ++ m ++ lit " id='1'>a</mi></math>") []) = Raise e)
  /\ (exists m e, good_name m /\
       snd (mathml_to_latex no_word parse_text (lit "<math><mspace" ++ lit " " ++ m ++ lit "/><mi>a</mi></math>") []) = Raise e)
  /\ (exists e, snd (mathml_to_latex no_word parse_text (lit "<math><mi k1=v k2=w k3=u k4=t k5=>a</mi></math>") []) = Raise e).
Proof.
  split; [vm_compute; reflexivity|].
  split; [exists (lit "a"); split; [apply name_check; reflexivity|vm_compute; reflexivity]|].
  do 3 (split; [exists (lit "checked"); eexists; split; [apply name_check; reflexivity|vm_compute; reflexivity]|]).
  eexists. vm_compute. reflexivity.
Qed.
Print Assumptions C58_refuted.
(** A value given properly elsewhere is lost, without an error. *)
Theorem C58_quoted_refuted : exists x y, x <> y
  /\ snd (mathml_to_latex no_word parse_text (lit "<math><mfrac bevelled><mn>1</mn><mn>2</mn></mfrac><mfrac bevelled='true'><mn>3</mn><mn>4</mn></mfrac></math>") []) = Ok x
  /\ snd (mathml_to_latex no_word parse_text (lit "<math><mfrac><mn>1</mn><mn>2</mn></mfrac><mfrac bevelled='true'><mn>3</mn><mn>4</mn></mfrac></math>") []) = Ok y.
Proof. eexists. eexists. split; [|split; vm_compute; reflexivity]. discriminate. Qed.
Print Assumptions C58_quoted_refuted.

(** C59: what does not matter in a text: how it is written, the order of attributes, what stands between elements. *)
Theorem C59_alike : forall word_char parse_string d d' x x' h, SpecXml.reads parse_string ->
  document_text d (clean x) -> document_text d' (clean x') -> Forall2 alike (elements d) (elements d') ->
  snd (mathml_to_latex word_char parse_string x h) = snd (mathml_to_latex word_char parse_string x' h).
Proof.
  intros wc ps d d' x x' h R D D' A. apply (documents_alike wc ps x x' d d').
  - exists 0, (clean x). split; [lia|]. split; [constructor|apply R; exact D].
  - exists 0, (clean x'). split; [lia|]. split; [constructor|apply R; exact D'].
  - eapply Forall2_mono; [|apply alike_documents; exact A]. intros t u S.
    exact (eq_trans (latex_of_render t) (eq_trans (same_render t u false S) (eq_sym (latex_of_render u)))).
Qed.
Print Assumptions C59_alike.

Definition written_one_way : document :=
  [DElem (lit "math") []
    [DElem (lit "mfrac") [(lit "id", lit "1"); (lit "bevelled", lit "true")] [dleaf "mn" "1"; dleaf "mi" "x"]]].
Definition written_another_way : document :=
  [DElem (lit "math") []
    [DText (lit " some text ");
     DElem (lit "mfrac") [(lit "bevelled", lit "true"); (lit "id", lit "1")]
       [DComment (lit " a half "); DElem (lit "mn") [] [DCData (lit "1")]; DText (lit "  "); dleaf "mi" "  x "]]].
Example C59_example :
  document_text written_one_way (clean (print written_one_way))
  /\ document_text written_another_way (clean (print written_another_way))
  /\ Forall2 alike (elements written_one_way) (elements written_another_way)
  /\ print written_one_way <> print written_another_way
  /\ snd (mathml_to_latex no_word parse_text (print written_one_way) []) = Ok (lit "1/x")
  /\ snd (mathml_to_latex no_word parse_text (print written_another_way) []) = Ok (lit "1/x").
Proof.
  split; [|split; [|split; [|split; [discriminate|split; vm_compute; reflexivity]]]].
  - destruct (print_document written_one_way) as [A ->]; [apply document_check; reflexivity|exact A].
  - destruct (print_document written_another_way) as [A ->]; [apply document_check; reflexivity|exact A].
  - cbn. unfold dleaf. repeat (first [apply Forall2_cons | apply Forall2_nil | apply alike_element]); try reflexivity; try apply Permutation.perm_nil.
    all: try (apply NoDup_nil). 
    + apply Permutation.perm_swap.
    + apply apart_check. reflexivity.
Qed.
