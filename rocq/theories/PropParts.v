(** C84: parts of the library used by themselves, in the source. *)
From Coq Require Import String.
From Verif Require SpecTree SpecTokens SpecRecovery LemTokens LemRefine LemRecovery.
From Verif Require Import SpecExamples SpecParts LemPyParts.
Local Open Scope string_scope.
Local Open Scope list_scope.

(** C84: an XmlToMathMLAdapter, whatever text it still holds, gives for a text the elements (or the exception) of the model and leaves
    the dictionaries of the model; of the other objects none is changed. *)
Theorem C84_adapter : forall word_char parse_string r k old x S, nth_error (objects S) r = Some (adapter_object k old) ->
  let result := adapter_convert word_char parse_string old x (dicts S) in
  expression_ends word_char parse_string [("adapter", VRef r); ("text", VStr x)] adapter_call S
    (Memory (fst (snd result)) (put (objects S) r (adapter_object k (fst result)))) (elements_or_error (snd (snd result))).
Proof. exact adapter_source. Qed.
Print Assumptions C84_adapter.
Theorem C84_new_adapter : forall word_char parse_string S, expression_ends word_char parse_string [] new_adapter S
  (Memory (dicts S ++ [[]]) (objects S ++ [adapter_object (length (dicts S)) []])) (Done (VRef (length (objects S)))).
Proof. exact new_adapter_source. Qed.
Print Assumptions C84_new_adapter.
(** So the text it holds does not matter. *)
Theorem C84_reusable : forall word_char parse_string r k old old' x S S', dicts S = dicts S' ->
  nth_error (objects S) r = Some (adapter_object k old) -> nth_error (objects S') r = Some (adapter_object k old') ->
  exists S1 S1' o, expression_ends word_char parse_string [("adapter", VRef r); ("text", VStr x)] adapter_call S S1 o
    /\ expression_ends word_char parse_string [("adapter", VRef r); ("text", VStr x)] adapter_call S' S1' o
    /\ dicts S1 = dicts S1' /\ nth_error (objects S1) r = nth_error (objects S1') r.
Proof.
  intros wc ps r k old old' x S S' E H H'. pose proof (adapter_source wc ps r k old x S H) as A. pose proof (adapter_source wc ps r k old' x S' H') as A'. cbv zeta in *.
  rewrite <- E in A'. change (adapter_convert wc ps old' x (dicts S)) with (adapter_convert wc ps old x (dicts S)) in A'.
  eexists. eexists. eexists. split; [exact A|]. split; [exact A'|]. split; [reflexivity|]. cbn [objects]. rewrite (put_nth _ _ _ _ H), (put_nth _ _ _ _ H'). reflexivity.
Qed.
Print Assumptions C84_reusable.

(** ErrorHandler().fix_error: for any text and any exception what the model of C31, C42 and C43 gives *)
Theorem C84_recovery : forall word_char parse_string x e S, expression_ends word_char parse_string [("text", VStr x); ("error", parser_error e)] fix_call S
  (Memory (dicts S ++ [[]]) (objects S)) (as_source (fix_error word_char x e)).
Proof. exact fix_source. Qed.
Print Assumptions C84_recovery.
(** So it only deletes. *)
Theorem C84_only_deletes : forall word_char parse_string x e S S' y, word_char 10%N = false ->
  expression_ends word_char parse_string [("text", VStr x); ("error", parser_error e)] fix_call S S' (Done (VStr y)) ->
  SpecRecovery.subseq y x /\ (y = x \/ length y < length x).
Proof.
  intros wc ps x e S S' y W (n1 & H1). destruct (fix_source wc ps x e S) as (n2 & H2). specialize (H1 (n1 + n2) ltac:(lia)). specialize (H2 (n1 + n2) ltac:(lia)).
  rewrite H2 in H1. destruct (fix_error wc x e) as [z|err] eqn:F; [|discriminate H1]. injection H1 as _ ->.
  apply (LemRecovery.fix_recovers wc x (or_introl W)) in F. apply LemRecovery.recovers_subseq in F. split; [exact F|].
  destruct (LemRecovery.subseq_length _ _ F) as (L & E). destruct (le_lt_eq_dec _ _ L) as [Lt|Eq]; [right; exact Lt | left; exact (E Eq)].
Qed.
Print Assumptions C84_only_deletes.
(** ElementsToMathMLAdapter().convert of nodes that are elements (C41) *)
Theorem C84_nodes : forall word_char parse_string ns S, Forall element_node ns ->
  expression_ends word_char parse_string [("nodes", VList (map VNode ns))] nodes_call S
    (Memory (fst (convert_elements ns (dicts S))) (objects S)) (Done (VList (map object_of (snd (convert_elements ns (dicts S)))))).
Proof. exact nodes_source. Qed.
Print Assumptions C84_nodes.
(** HashUTF8ToLtXConverter().convert (C26) *)
Theorem C84_accents : forall word_char parse_string x, expression_gives word_char parse_string [("text", VStr x)] accents_call (VStr (utf8_convert x)).
Proof. exact accents_source. Qed.
Print Assumptions C84_accents.
(** The services: white space, separators, brackets *)
Theorem C84_normalize : forall word_char parse_string x, expression_gives word_char parse_string [("text", VStr x)] normalize_call (VStr (join (lit " ") (SpecTokens.words x))).
Proof. intros wc ps x. change (join (lit " ") (SpecTokens.words x)) with (SpecTokens.squeeze x). rewrite <- LemTokens.normalize_squeeze. apply normalize_source. Qed.
Print Assumptions C84_normalize.
Theorem C84_join : forall word_char parse_string separators l,
  expression_gives word_char parse_string [("separators", texts separators); ("texts", texts l)] join_call (VStr (SpecTree.fence_join separators l)).
Proof. intros wc ps seps l. rewrite <- LemRefine.sep_join_spec. apply join_source. Qed.
Print Assumptions C84_join.
Theorem C84_wrap : forall word_char parse_string op close x,
  expression_gives word_char parse_string [("open", VStr op); ("close", VStr close); ("text", VStr x)] wrap_call (VStr (lit "\left" ++ op ++ x ++ lit "\right" ++ close))
  /\ expression_gives word_char parse_string [("text", VStr x)] bracket_call (VStr (lit "{" ++ x ++ lit "}"))
  /\ expression_gives word_char parse_string [("text", VStr x)] parenthesis_call (VStr (lit "\left(" ++ x ++ lit "\right)"))
  /\ expression_gives word_char parse_string [("text", VStr x)] long_parenthesis_call
       (VStr (match x with _ :: _ :: _ => lit "\left(" ++ x ++ lit "\right)" | _ => x end)).
Proof. intros wc ps op close x. exact (wraps_source wc ps op close x). Qed.
Print Assumptions C84_wrap.

(** An adapter that still holds the text of a failed conversion; a broken attribute; a document with a comment; services *)
Definition got (r : names) (e : expr) (S : memory) : memory * out value := PySem.run (eval (call no_word parse_text 60) r e) S.
Example C84_example :
  let S := Memory [[(lit "a", lit "b")]] [adapter_object 0 (lit "<math>")] in
  got [("adapter", VRef 0); ("text", VStr (lit "<math x><mn>2</mn></math>"))] adapter_call S
  = (Memory [[(lit "a", lit "b")]; []; []] [adapter_object 0 (lit "<math ><mn>2</mn></math>")],
     Done (VList [object_of (Elem (lit "math") [] [Elem (lit "mn") (lit "2") [] 2] 1)])).
Proof. vm_compute. reflexivity. Qed.
Example C84_example_recovery :
  snd (got [("text", VStr (lit "<mi a=1>x</mi>")); ("error", parser_error (EExpat 4 1 6))] fix_call (Memory [] [])) = Done (VStr (lit "<mi >x</mi>"))
  /\ snd (got [("text", VStr (lit "<mi a=1>x</mi>")); ("error", parser_error (EExpat 4 7 6))] fix_call (Memory [] [])) = Raised index_error.
Proof. vm_compute. split; reflexivity. Qed.
Example C84_example_nodes :
  got [("nodes", VList (map VNode [DElem (lit "mi") [(lit "bevelled", lit "bevelled")] [DComment (lit " c "); DText (lit "x")]]))] nodes_call (Memory [] [])
  = (Memory [[(lit "bevelled", [])]] [], Done (VList [object_of (Elem (lit "mi") (lit "c") [] 0)])).
Proof. vm_compute. reflexivity. Qed.
Example C84_example_services :
  snd (got [("text", VStr [233%N])] accents_call (Memory [] [])) = Done (VStr (lit "\acute{e}"))
  /\ snd (got [("text", VStr (lit "  a   b "))] normalize_call (Memory [] [])) = Done (VStr (lit "a b"))
  /\ snd (got [("separators", texts [lit ";"; lit ":"]); ("texts", texts [lit "a"; lit "b"; lit "c"; lit "d"])] join_call (Memory [] [])) = Done (VStr (lit "a;b:c:d"))
  /\ snd (got [("separators", texts []); ("texts", texts [lit "a"; lit "b"])] join_call (Memory [] [])) = Done (VStr (lit "a,b")).
Proof. vm_compute. repeat split. Qed.
