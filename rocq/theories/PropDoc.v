(** C01, C09, C15, C30, C32, C35, C41, C44: the document level. *)
From Coq Require Import String.
From Verif Require Import SpecExamples LemDoc2.
Local Open Scope string_scope.
Local Open Scope list_scope.

(** A parser for the examples: knows a few texts. *)
Fixpoint table_parser (l : list (string * document)) (s : str) : res document :=
  match l with
  | [] => Raise (EExpat 3 1 0)
  | (t, d) :: l' => if str_eqb s (lit t) then Ok d else table_parser l' s
  end.
Definition two_maths : document :=
  [DComment (lit " "); del "html" [del "math" [dleaf "mi" "x"; DText (lit "  "); dleaf "mo" "+"; dleaf "mi" "a  b"];
                          del "p" [del "math" [del "msup" [dleaf "mi" "y"; dleaf "mn" "2"]]]]].

(** C01 *)
Theorem C01_canonical_whitespace : forall word_char parse_string xml h s,
  snd (mathml_to_latex word_char parse_string xml h) = Ok s ->
  (forall c s', s = c :: s' -> is_space c = false)
  /\ (forall s' c, s = s' ++ [c] -> is_space c = false)
  /\ (forall c, In c s -> is_space c = true -> c = 32%N)
  /\ (forall a b, s <> a ++ [32%N; 32%N] ++ b).
Proof. exact output_canonical. Qed.
Print Assumptions C01_canonical_whitespace.
Example C01_example :
  snd (mathml_to_latex no_word (table_parser [("t", two_maths)]) (lit "t") []) = Ok (lit "x + a by^{2}").
Proof. vm_compute. reflexivity. Qed.

(** C09: concatenation in document order; nothing without math; the first failure is the failure of the call. *)
Theorem C09_concatenation : forall word_char parse_string xml d ss h,
  read_as parse_string xml d -> Forall2 (fun t s => latex_of t = Ok s) (math_trees d) ss ->
  snd (mathml_to_latex word_char parse_string xml h) = Ok (concat ss).
Proof. exact (fun wc ps xml d ss h R F => eq_trans (convert_read_snd wc ps xml d h R) (document_all d ss F)). Qed.
Print Assumptions C09_concatenation.
Theorem C09_no_math : forall word_char parse_string xml d h,
  read_as parse_string xml d -> math_trees d = [] ->
  snd (mathml_to_latex word_char parse_string xml h) = Ok [].
Proof.
  exact (fun wc ps xml d h R E => eq_trans (convert_read_snd wc ps xml d h R)
           (document_all d [] (eq_ind_r (fun l => Forall2 _ l []) (Forall2_nil _) E))).
Qed.
Print Assumptions C09_no_math.
Theorem C09_first_failure : forall word_char parse_string xml d before t behind ss e h,
  read_as parse_string xml d -> math_trees d = before ++ t :: behind ->
  Forall2 (fun t s => latex_of t = Ok s) before ss -> latex_of t = Raise e ->
  snd (mathml_to_latex word_char parse_string xml h) = Raise e.
Proof.
  exact (fun wc ps xml d l1 t l2 ss e h R E F X =>
           eq_trans (convert_read_snd wc ps xml d h R) (document_fails d l1 t l2 ss e E F X)).
Qed.
Print Assumptions C09_first_failure.
Example C09_example : read_as (table_parser [("t", two_maths)]) (lit "t") two_maths
  /\ map latex_of (math_trees two_maths) = [Ok (lit "x + a b"); Ok (lit "y^{2}")]
  /\ length (math_trees [del "math" [del "math" [dleaf "mi" "x"]]]) = 2
  /\ math_trees [del "p" [dleaf "mi" "x"]] = [].
Proof. split; [exists 0, (lit "t"); split; [lia|split; [constructor|reflexivity]]|]. vm_compute. repeat split. Qed.
Example C09_failure_example :
  document_latex [del "math" [dleaf "mi" "x"]; del "math" [del "mfrac" []]; del "math" [del "msup" []]]
  = Raise (EInvalidChildren (lit "mfrac") 2 0 (lit "exactly")).
Proof. vm_compute. reflexivity. Qed.

(** C15: documents that differ only in text, comments, CDATA and processing instructions beside elements. *)
Theorem C15_layout : forall word_char parse_string xml xml' d d' h,
  read_as parse_string xml d -> read_as parse_string xml' d' -> bare_doc d = bare_doc d' ->
  snd (mathml_to_latex word_char parse_string xml h) = snd (mathml_to_latex word_char parse_string xml' h).
Proof. exact same_bare. Qed.
Print Assumptions C15_layout.
Example C15_example :
  let d := [del "math" [dleaf "mi" "x"; dleaf "mi" "y"]] in
  let d' := [DComment (lit "c"); del "math" [DText (lit "   "); dleaf "mi" "x"; DPI (lit "a") (lit "b"); dleaf "mi" "y"; DCData (lit "z")]] in
  d <> d' /\ bare_doc d = bare_doc d' /\ document_latex d' = Ok (lit "x y").
Proof. vm_compute. repeat split. discriminate. Qed.

(** C30: every input is read (within five parses) or rejected, never both ways; the first success counts; after five failures the
    fifth error is raised. *)
Theorem C30_read_or_rejected : forall word_char parse_string xml h,
  (exists d, read_as parse_string xml d /\ snd (mathml_to_latex word_char parse_string xml h) = document_latex d)
  \/ (exists e, rejected_with parse_string xml e /\ mathml_to_latex word_char parse_string xml h = (h, Raise e)).
Proof.
  exact (fun wc ps xml h => match read_or_rejected wc ps xml with
    | or_introl (ex_intro _ d R) => or_introl (ex_intro _ d (conj R (convert_read_snd wc ps xml d h R)))
    | or_intror (ex_intro _ e R) => or_intror (ex_intro _ e (conj R (convert_rejected wc ps xml e h R)))
    end).
Qed.
Print Assumptions C30_read_or_rejected.
(** Only the at most five texts reached matter: any parser that agrees on them gives the same outcome. *)
Theorem C30_at_most_five : forall word_char parse_string parse_string' xml h,
  (forall k y, k < 5 -> reaches parse_string k (clean xml) y -> parse_string y = parse_string' y) ->
  snd (mathml_to_latex word_char parse_string xml h) = snd (mathml_to_latex word_char parse_string' xml h).
Proof. exact outcome_agree. Qed.
Print Assumptions C30_at_most_five.
(** A round of recovery before success; and a text that is never parsed. *)
Example C30_example :
  let p := table_parser [("<a ", two_maths)] in
  reaches p 1 (lit "<a b>") (lit "<a ")
  /\ snd (mathml_to_latex no_word p (lit "<a b>") []) = Ok (lit "x + a by^{2}")
  /\ mathml_to_latex no_word p (lit "<a") [] = ([], Raise (EExpat 3 1 0)).
Proof.
  split; [|vm_compute; repeat split].
  eapply reaches_S; [vm_compute; reflexivity| |apply reaches_0].
  change (lit "<a ") with (cut (lit "<a b>")). apply recovers_generic. lia.
Qed.

(** C32: if the cleaned text parses, that is the document; errors that are not expat errors leave the text alone. *)
Theorem C32_well_formed : forall word_char parse_string xml d h, parse_string (clean xml) = Ok d ->
  snd (mathml_to_latex word_char parse_string xml h) = document_latex d.
Proof.
  exact (fun wc ps xml d h P => convert_read_snd wc ps xml d h
           (ex_intro _ 0 (ex_intro _ (clean xml) (conj (le_n_S _ _ (Nat.le_0_l 4)) (conj (reaches_0 _ _) P))))).
Qed.
Print Assumptions C32_well_formed.
Theorem C32_other_errors : forall word_char s e, (forall code lineno offset, e <> EExpat code lineno offset) ->
  fix_error word_char s e = Ok s.
Proof. intros wc s e H. destruct e; auto. destruct (H code lineno offset eq_refl). Qed.
Print Assumptions C32_other_errors.
Example C32_example : table_parser [("<math/>", [del "math" []])] (clean (lit "<mml:ma" ++ [10%N] ++ lit "th/>")) = Ok [del "math" []].
Proof. vm_compute. reflexivity. Qed.

(** C35: the attributes of the element object built from a DOM element. *)
Theorem C35_attributes : forall tag l children h, NoDup (map fst l) ->
  exists h' e, convert_element (DElem tag l children) h = (h', [e])
  /\ hget h' (e_attributes e) = map (fun nv => (fst nv, if str_eqb (snd nv) (fst nv) then [] else snd nv)) l.
Proof.
  exact (fun tag l ch h N => match element_attributes tag l ch h with
    | ex_intro _ h' (ex_intro _ e (conj E (conj _ (conj _ A)))) =>
        ex_intro _ h' (ex_intro _ e (conj E (eq_trans A (attributes_unique l N)))) end).
Qed.
Print Assumptions C35_attributes.
Example C35_example :
  let frac b := [del "math" [DElem (lit "mfrac") [(lit "bevelled", lit b)] [dleaf "mi" "a"; dleaf "mi" "b"]]] in
  document_latex (frac "bevelled") = Ok (lit "\frac{a}{b}") /\ document_latex (frac "false") = Ok (lit "a/b").
Proof. vm_compute. repeat split. Qed.

(** C41: the text of the element object. *)
Theorem C41_text : forall tag l children h,
  exists h' e, convert_element (DElem tag l children) h = (h', [e]) /\ e_name e = tag /\
  match children with
  | [] => e_value e = []
  | first :: _ => if existsb is_elem_node children then e_value e = [] else e_value e = strip (node_value first)
  end.
Proof. exact element_text. Qed.
Print Assumptions C41_text.
Example C41_example :
  document_latex [del "math" [del "mi" [DComment (lit " c "); DText (lit "x")]; del "mi" [DText (lit " y "); DCData (lit "z")]]]
  = Ok (lit "c y").
Proof. vm_compute. reflexivity. Qed.

(** C44 *)
Theorem C44_adapter_reusable : forall word_char parse_string xmls st h,
  one_adapter word_char parse_string st xmls h = new_adapters word_char parse_string xmls h.
Proof. exact adapter_reusable. Qed.
Print Assumptions C44_adapter_reusable.
Example C44_example :
  snd (one_adapter no_word (table_parser [("t", [del "math" []])]) (lit "rubbish") [lit "bad"; lit "t"; lit "t"] [])
  = [Raise (EExpat 3 1 0); Ok [Elem (lit "math") [] [] 0]; Ok [Elem (lit "math") [] [] 1]].
Proof. vm_compute. reflexivity. Qed.
