(** C81, C82: elements made by hand and threads, in the source itself. *)
From Coq Require Import String.
From Verif Require Import SpecExamples SpecRun LemPyElements.
Local Open Scope string_scope.
Local Open Scope list_scope.

(** C81: for an element with any dictionaries of attributes (some of them may be one dictionary), to_latex_converter gives a converter
    and writes what the model writes; whenever convert() of it is called, with any contents of the dictionaries, it gives and
    writes what the model gives and writes. *)
Theorem C81_elements : forall word_char parse_string e h n S, (forall l, In l (locs e) -> l < n) -> holds n h S ->
  exists converter S1, expression_ends word_char parse_string [("element", object_of e)] make_expression S S1 (Done converter)
    /\ holds n (fst (to_latex_converter e h)) S1
    /\ forall h2 S2, holds n h2 S2 -> exists S3,
         expression_ends word_char parse_string [("converter", converter)] convert_expression S2 S3 (as_source (snd (snd (to_latex_converter e h) h2)))
         /\ holds n (fst (snd (to_latex_converter e h) h2)) S3.
Proof. intros wc ps e h n S B H. exact (elements_source wc ps e h n S B H). Qed.
Print Assumptions C81_elements.
(** The constructor of GenericMathMLElement makes these objects. *)
Theorem C81_made : forall word_char parse_string name value children attributes S, expression_ends word_char parse_string
  [("n", VStr name); ("v", VStr value); ("c", VList (map object_of children)); ("a", VDict attributes)]
  (PCall (PGlobal "GenericMathMLElement") [PName "n"; PName "v"; PName "c"; PName "a"] []) S S (Done (object_of (Elem name value children attributes))).
Proof. intros wc ps n v ch a S. exact (made_source wc ps n v ch a S). Qed.
Print Assumptions C81_made.
(** A table in a table that shares its dictionary with an identifier, converted; then the identifier is made bold and the
    same converter asked again. *)
Definition shared_table : elem :=
  Elem (lit "mtable") [] [Elem (lit "mtr") [] [Elem (lit "mtd") [] [Elem (lit "mtable") [] [Elem (lit "mtr") [] [Elem (lit "mi") (lit "x") [] 2] 0] 2] 0] 0] 1.
Example C81_example :
  let S := Memory [[]; []; []] [] in
  holds 3 [[]; []; []] S
  /\ match PySem.run (eval (call no_word parse_text 40) [("element", object_of shared_table)] make_expression) S with
     | (S1, Done c) =>
         firstn 3 (dicts S1) = [[]; []; [(lit "innerTable", lit "innerTable")]]
         /\ snd (PySem.run (eval (call no_word parse_text 40) [("converter", c)] convert_expression) S1) = Done (VStr (lit "\begin{matrix}x\end{matrix}"))
         /\ snd (PySem.run (eval (call no_word parse_text 40) [("converter", c)] convert_expression) (Memory [[]; []; [(lit "mathvariant", lit "bold")]] []))
            = Done (VStr (lit "\mathbf{x}"))
     | _ => False
     end.
Proof.
  cbv zeta. split; [|vm_compute; repeat split]. split; [cbn; lia|]. intros l Hl. reflexivity.
Qed.

(** C82: threads that share the memory.  Whatever the schedule of their single accesses to the memory, a thread that had [N] turns has
    ended, each of its calls with what the model gives for its text. *)
Theorem C82_threads : forall word_char parse_string texts, exists n0, forall n, n0 <= n -> forall S, exists N, forall schedule i xs,
  nth_error texts i = Some xs -> N <= count_occ Nat.eq_dec schedule i ->
  nth_error (fst (interleave schedule (map (thread word_char parse_string n) texts) S)) i
  = Some (Ret (map (fun x => as_source (snd (mathml_to_latex word_char parse_string x []))) xs)).
Proof.
  intros wc ps texts. destruct (threads_ok wc ps texts) as (n0 & H). exists n0. intros n Hn S. destruct (H n Hn S) as (N & K). exists N.
  intros schedule i xs Ei Hc. apply K; [exact Ei|]. rewrite <- count_occ_count. exact Hc.
Qed.
Print Assumptions C82_threads.
(** At no moment has it ended in another way: with other results, with an exception that a call does not give, or stuck. *)
Theorem C82_any_moment : forall word_char parse_string texts, exists n0, forall n, n0 <= n -> forall S schedule i xs m,
  nth_error texts i = Some xs -> nth_error (fst (interleave schedule (map (thread word_char parse_string n) texts) S)) i = Some m ->
  match m with
  | Act _ _ => True
  | Ret rs => rs = map (fun x => as_source (snd (mathml_to_latex word_char parse_string x []))) xs
  | Throw _ | PySem.Wrong => False
  end.
Proof.
  intros wc ps texts. destruct (any_moment wc ps texts) as (n0 & H). exists n0. intros n Hn S schedule i xs m Ei Em. specialize (H n Hn S schedule i xs m Ei Em).
  destruct m; cbn [ended] in H; try exact I; specialize (H I); [injection H as H; exact H | discriminate H | discriminate H].
Qed.
Print Assumptions C82_any_moment.
(** What was in the memory before stays as it is, at every moment. *)
Theorem C82_memory : forall word_char parse_string texts, exists n0, forall n, n0 <= n -> forall S schedule,
  let S' := snd (interleave schedule (map (thread word_char parse_string n) texts) S) in
  firstn (length (dicts S)) (dicts S') = dicts S /\ firstn (length (objects S)) (objects S') = objects S.
Proof. exact threads_memory. Qed.
Print Assumptions C82_memory.
Definition some_texts : list (list str) :=
  [[lit "<math><mtable><mtr><mtd><mi>x</mi></mtd></mtr></mtable></math>"; lit "<math><mi a=""1"" x>b</mi></math>"];
   [lit "<math><mfrac><mi>a</mi></mfrac></math>"; lit "<math><mn mathvariant=""bold"">2</mn></math>"]].
Example C82_example :
  let S := Memory [[(lit "a", lit "b")]] [("XmlToMathMLAdapter", [("_xml", VStr (lit "<"))])] in
  let (ms, S') := interleave (flat_map (fun _ => [0; 1]) (seq 0 200)) (map (thread no_word parse_text 40) some_texts) S in
  ms = [Ret [Done (VStr (lit "x")); Done (VStr (lit "b"))]; Ret [Raised (parser_error (EInvalidChildren (lit "mfrac") 2 1 (lit "exactly"))); Done (VStr (lit "2"))]]
  /\ firstn 1 (dicts S') = dicts S /\ firstn 1 (objects S') = objects S /\ length (dicts S') = 17 /\ length (objects S') = 7.
Proof. vm_compute. repeat split. Qed.

(** One XmlToMathMLAdapter object used by two threads: the second text is converted in both. *)
Definition with_adapter : expr :=
  PCall (PAttr (PCall (PAttr (PCall (PGlobal "MathMLElementToLatexConverterAdapter") [] []) "to_latex_converter")
    [PIndex (PCall (PAttr (PName "adapter") "convert") [PName "text"] []) (PInt 0)] []) "convert") [] [].
Definition user (x : str) : MM value := eval (call no_word parse_text 40) [("adapter", VRef 0); ("text", VStr x)] with_adapter.
Theorem C82_shared_adapter_refuted : exists S x y schedule,
  PySem.run (call no_word parse_text 40 (VFunction "make_xml_to_mathml_adapter") [] []) (Memory [] []) = (S, Done (VRef 0))
  /\ snd (PySem.run (user x) S) = Done (VStr (lit "x"))
  /\ fst (interleave schedule [user x; user y] S) = [Ret (VStr (lit "y")); Ret (VStr (lit "y"))].
Proof.
  eexists. exists (lit "<math><mi>x</mi></math>"), (lit "<math><mi>y</mi></math>"), ([0; 0; 0; 1; 1; 1; 1; 1; 1] ++ repeat 0 60 ++ repeat 1 60).
  split; [vm_compute; reflexivity|]. split; vm_compute; reflexivity.
Qed.
Print Assumptions C82_shared_adapter_refuted.
