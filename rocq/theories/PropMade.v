(** C87: programs that make converters for element objects and run them, in the source.  No statement here uses a function of the model: the
    source is run by the interpreter, the LaTeX is that of the tree that the objects hold. *)
From Coq Require Import String.
From Verif Require LemTeX2 SpecTeX SpecSize SpecOrder PropShape PropTeX PropSize PropOrder PropShared PropObjects.
From Verif Require Import SpecExamples LemMade.
Local Open Scope string_scope.
Local Open Scope list_scope.

(** C87: in any order of making and running, each call of convert() gives the LaTeX of the tree that its element held at the start, or the
    exception of that tree.  Elements may be parts of one another and dictionaries may be shared, as long as no mtable is at once inside and outside of
    other mtables. *)
Theorem C87_programs : forall word_char parse_string acts S,
  (forall e, In e (subjects_of acts) -> in_heap (dicts S) e) ->
  (forall e f, In e (subjects_of acts) -> In f (subjects_of acts) -> unmixed (dicts S) e f) ->
  (exists S', performed word_char parse_string acts [] S S' (map as_source (outcomes (dicts S) acts [])))
  /\ forall S' os, performed word_char parse_string acts [] S S' os -> os = map as_source (outcomes (dicts S) acts []).
Proof.
  intros wc ps acts S B U. destruct (program_source wc ps acts S B) as (S1 & P & _). rewrite (PropShared.C69_interleaving acts (dicts S) B U) in P.
  split; [eauto|]. intros S' os Q. destruct (performed_same _ _ _ _ _ _ _ P _ _ Q) as [_ <-]. reflexivity.
Qed.
Print Assumptions C87_programs.

(** One element, once *)
Theorem C87_latex : forall word_char parse_string e S, in_heap (dicts S) e -> unmixed (dicts S) e e ->
  exists S', converted_once word_char parse_string e S S' (as_source (latex_of (tree_at (dicts S) e))).
Proof.
  intros wc ps e S B U. destruct (once_source wc ps e S B) as (S' & C & _). exists S'. rewrite <- (PropShared.C69_function_of_tree e (dicts S) B U). exact C.
Qed.
Print Assumptions C87_latex.
(** Whatever is shared, the call of convert() returns a str or raises one of the two exceptions. *)
Theorem C87_total : forall word_char parse_string e S, in_heap (dicts S) e ->
  exists S' o, converted_once word_char parse_string e S S' o
  /\ match o with
     | Done v => exists s, v = VStr s
     | Raised v => exists err, v = parser_error err
     | Stuck => False
     end.
Proof.
  intros wc ps e S B. destruct (once_source wc ps e S B) as (S' & C & _). exists S'. eexists. split; [exact C|]. destruct (snd (convert_elem e (dicts S))); cbn; eauto.
Qed.
Print Assumptions C87_total.
(** What it writes: of the dictionaries that were there each is as before, or it is that of an mtable inside an mtable and differs only by innerTable. *)
Theorem C87_writes : forall word_char parse_string e S S' o, in_heap (dicts S) e -> unmixed (dicts S) e e -> converted_once word_char parse_string e S S' o ->
  forall l d, nth_error (dicts S) l = Some d -> exists d', nth_error (dicts S') l = Some d'
  /\ (d' = d \/ (exists x, inner_table e x /\ l = e_attributes x /\ dget d' (lit "innerTable") = Some (lit "innerTable")
                 /\ forall k, k <> lit "innerTable" -> dget d' k = dget d k)).
Proof.
  intros wc ps e S S' o B U C l d E. destruct (once_source wc ps e S B) as (S2 & C2 & _ & H). destruct (once_same _ _ _ _ _ _ _ _ C C2) as [<- _].
  assert (L : l < length (dicts S)) by (apply nth_error_Some; congruence). rewrite (H l L).
  destruct (PropShared.C69_only_inner_table_flags e (dicts S) B U) as [Len W]. cbv zeta in *. specialize (W l).
  destruct (nth_error (fst (convert_elem e (dicts S))) l) as [d'|] eqn:E'; [|apply nth_error_None in E'; lia].
  assert (G : hget (dicts S) l = d) by exact (nth_error_nth _ _ [] E). assert (G' : hget (fst (convert_elem e (dicts S))) l = d') by exact (nth_error_nth _ _ [] E').
  rewrite G, G' in W. exists d'. auto.
Qed.
Print Assumptions C87_writes.
(** Converting again gives the same. *)
Theorem C87_again : forall word_char parse_string e S n, in_heap (dicts S) e -> unmixed (dicts S) e e ->
  exists S' o, performed word_char parse_string (New e :: repeat (Run 0) n ++ New e :: repeat (Run 1) n) [] S S' (repeat o (n + n))
  /\ o = as_source (latex_of (tree_at (dicts S) e)).
Proof.
  intros wc ps e S n B U. set (acts := New e :: repeat (Run 0) n ++ New e :: repeat (Run 1) n).
  assert (I : forall f, In f (subjects_of acts) -> f = e).
  { assert (Z : forall i k, subjects_of (repeat (Run i) k) = []) by (intros i k; induction k; cbn; auto). intros f Hf. unfold acts in Hf.
    change (subjects_of (New e :: ?l)) with (e :: subjects_of l) in Hf. unfold subjects_of in Hf. cbn [flat_map] in Hf. rewrite flat_map_app in Hf.
    cbn [flat_map app] in Hf. fold (subjects_of (repeat (Run 0) n)) in Hf. fold (subjects_of (repeat (Run 1) n)) in Hf. rewrite !Z in Hf. cbn in Hf. intuition. }
  destruct (C87_programs wc ps acts S) as [(S' & P) _]; [intros f Hf; now rewrite (I f Hf) | intros f g Hf Hg; now rewrite (I f Hf), (I g Hg)|].
  exists S'. eexists. split; [|reflexivity].
  assert (R : forall i k es rest, nth_error es i = Some e ->
    outcomes (dicts S) (repeat (Run i) k ++ rest) es = repeat (latex_of (tree_at (dicts S) e)) k ++ outcomes (dicts S) rest es).
  { intros i k es rest N. induction k as [|k IH]; cbn; [reflexivity|]. rewrite N, IH. reflexivity. }
  replace (repeat (as_source (latex_of (tree_at (dicts S) e))) (n + n)) with (map as_source (outcomes (dicts S) acts [])); [exact P|].
  unfold acts. cbn [outcomes app]. rewrite (R 0 n [e]) by reflexivity. cbn [outcomes app]. rewrite <- (app_nil_r (repeat (Run 1) n)), (R 1 n [e; e]) by reflexivity.
  cbn [outcomes]. rewrite app_nil_r, <- repeat_app. generalize (n + n). intros k. induction k as [|k IH]; cbn; [reflexivity|]. rewrite IH. reflexivity.
Qed.
Print Assumptions C87_again.
(** Which elements are converted: those without a wrong number of children in what is visited. *)
Theorem C87_exactly : forall word_char parse_string e S, in_heap (dicts S) e -> unmixed (dicts S) e e ->
  ((exists S' s, converted_once word_char parse_string e S S' (Done (VStr s))) <-> forall u, visits (tree_at (dicts S) e) u -> own_fault u = None).
Proof.
  intros wc ps e S B U. rewrite <- PropShape.C07_exactly_well_formed. split.
  - intros (S' & s & C). apply once_latex in C; auto. destruct (latex_of (tree_at (dicts S) e)) as [s'|]; [eauto|discriminate C].
  - intros (s & E). destruct (C87_latex wc ps e S B U) as (S' & C). rewrite E in C. exists S', s. exact C.
Qed.
Print Assumptions C87_exactly.
(** What is returned *)
Theorem C87_returned : forall word_char parse_string e S S' v, in_heap (dicts S) e -> unmixed (dicts S) e e -> converted_once word_char parse_string e S S' (Done v) ->
  let t := tree_at (dicts S) e in
  exists s, v = VStr s /\ length s <= 100 * SpecSize.size t
  /\ (SpecTeX.plain_tree t -> SpecTeX.braces_balance s /\ SpecTeX.nested false (SpecTeX.tex_tokens s))
  /\ (SpecTeX.fenced_tree t -> SpecTeX.nested true (SpecTeX.tex_tokens s)).
Proof.
  intros wc ps e S S' v B U C t. apply once_latex in C; auto. fold t in C. destruct (latex_of t) as [s|] eqn:E; [|discriminate C]. injection C as ->.
  exists s. split; [reflexivity|]. split; [exact (PropSize.C40_linear t s E)|]. split.
  - intros P. split; [exact (PropTeX.C11_braces t s P E) | exact (proj1 (PropTeX.C13_environments t s P E))].
  - intros P. exact (proj1 (PropTeX.C12_fences t s P E)).
Qed.
Print Assumptions C87_returned.
(** What is raised: InvalidNumberOfChildrenError with its message, or IndexError, for the first wrong element in the order of conversion *)
Theorem C87_raised : forall word_char parse_string e S S' v, in_heap (dicts S) e -> unmixed (dicts S) e e -> converted_once word_char parse_string e S S' (Raised v) ->
  exists err u, first_fault (tree_at (dicts S) e) err /\ visits (tree_at (dicts S) e) u
  /\ ((exists how k sk sn, numeral sk k /\ numeral sn (length (t_children u))
       /\ v = VObj "InvalidNumberOfChildrenError"
                [("args", VList [VStr (t_name u ++ lit " tag must have " ++ how ++ lit " " ++ sk ++ lit " children. It's actually " ++ sn)]);
                 ("name", VStr (lit "InvalidNumberOfChildrenError"))]
       /\ (how = lit "exactly" /\ In (t_name u, k) (map (fun p => (lit (fst p), snd p)) exact_counts) /\ length (t_children u) <> k
           \/ how = lit "at least" /\ t_name u = lit "mmultiscripts" /\ k = 3 /\ length (t_children u) < 3))
      \/ (v = VObj "IndexError" [] /\ t_name u = lit "maction" /\ t_children u = [])).
Proof.
  intros wc ps e S S' v B U C. apply once_latex in C; auto. set (t := tree_at (dicts S) e) in *. destruct (latex_of t) as [s|err] eqn:E; [discriminate C|]. injection C as ->.
  destruct (PropShape.C08_kinds t err E) as (u & V & K). apply PropShape.C08_first_fault in E. exists err, u. split; [exact E|]. split; [exact V|].
  destruct u as [n val ch a]. cbn [t_name t_children t_attributes] in *.
  destruct K as [(k & I & Ne & ->)|[(-> & Lt & ->)|(-> & -> & A1 & A2 & ->)]].
  - left. destruct (PropShape.C08_message n k (length ch) (lit "exactly")) as (sk & sn & Nk & Nn & M). exists (lit "exactly"), k, sk, sn.
    split; [exact Nk|]. split; [exact Nn|]. split; [unfold parser_error; rewrite M; reflexivity|]. left. auto.
  - left. destruct (PropShape.C08_message (lit "mmultiscripts") 3 (length ch) (lit "at least")) as (sk & sn & Nk & Nn & M). exists (lit "at least"), 3, sk, sn.
    split; [exact Nk|]. split; [exact Nn|]. split; [unfold parser_error; rewrite M; reflexivity|]. right. auto.
  - right. auto.
Qed.
Print Assumptions C87_raised.

(** Attributes changed between making and running: whatever the memory in which the converter was made, convert() gives the LaTeX of the tree that
    the element holds when it is called ... *)
Theorem C87_late : forall word_char parse_string e S S1 c S2, in_heap (dicts S) e ->
  expression_ends word_char parse_string [("element", object_of e)] make_expression S S1 (Done c) ->
  reads_early (e_name e) = false -> sound (dicts S2) (locs e) -> inner_flags_set (dicts S2) e ->
  exists S3, expression_ends word_char parse_string [("converter", c)] convert_expression S2 S3 (as_source (latex_of (tree_at (dicts S2) e))).
Proof.
  intros wc ps e S S1 c S2 B M R Sd F. destruct (made_then_run wc ps e S S1 c S2 B (proj2 Sd) M) as (S3 & E). exists S3.
  rewrite (PropObjects.C55_late e (dicts S) (dicts S2) R Sd F) in E. exact E.
Qed.
Print Assumptions C87_late.
(** ... but mfenced and menclose keep their own attributes of the moment they were made. *)
Theorem C87_early : forall word_char parse_string n v ch l S S1 c S2, let e := Elem n v ch l in in_heap (dicts S) e ->
  expression_ends word_char parse_string [("element", object_of e)] make_expression S S1 (Done c) ->
  reads_early n = true -> sound (dicts S2) (locs e) ->
  exists S3, expression_ends word_char parse_string [("converter", c)] convert_expression S2 S3
    (as_source (latex_of (T n v (map (tree_at (dicts S2)) ch) (hget (dicts S) l)))).
Proof.
  intros wc ps n v ch l S S1 c S2 e B M R Sd. destruct (made_then_run wc ps e S S1 c S2 B (proj2 Sd) M) as (S3 & E). exists S3.
  unfold e in E. rewrite (PropObjects.C55_early n v ch l (dicts S) (dicts S2) R Sd) in E. exact E.
Qed.
Print Assumptions C87_early.
(** A fraction and a fence, changed before convert() is called *)
Example C87_example_late :
  let x := Elem (lit "mi") (lit "x") [] 1 in let y := Elem (lit "mi") (lit "y") [] 2 in
  let run_later e d0 d0' :=
    match PySem.run (eval (call no_word parse_text 40) [("element", object_of e)] make_expression) (Memory [d0; []; []] []) with
    | (_, Done c) => snd (PySem.run (eval (call no_word parse_text 40) [("converter", c)] convert_expression) (Memory [d0'; []; [(lit "mathvariant", lit "bold")]] []))
    | _ => Stuck
    end in
  run_later (Elem (lit "mfrac") [] [x; y] 0) [] [(lit "bevelled", lit "true")] = Done (VStr (lit "x/\left(\mathbf{y}\right)"))
  /\ run_later (Elem (lit "mfenced") [] [x; y] 0) [(lit "open", lit "[")] [(lit "open", lit "|")] = Done (VStr (lit "\left[x,\mathbf{y}\right)")).
Proof. vm_compute. split; reflexivity. Qed.

(** Shared objects, as in C69: converters of an identifier, of a row that holds it and of the whole, made and run in a mixed order *)
Example C87_example :
  let row := Elem (lit "mtr") [] [PropShared.shared_mi; PropShared.shared_mi] 1 in
  let acts := [New row; New PropShared.shared_graph; New PropShared.shared_mi; Run 1; Run 0; Run 2] in
  let S := Memory PropShared.shared_heap [] in
  (forall e, In e (subjects_of acts) -> in_heap (dicts S) e)
  /\ (forall e f, In e (subjects_of acts) -> In f (subjects_of acts) -> unmixed (dicts S) e f)
  /\ nth_error (outcomes (dicts S) acts []) 1 = Some (Ok (lit "\mathbf{x} & \mathbf{x}")).
Proof.
  cbv zeta. pose proof PropShared.C69_interleaving_example as (A & B & _). split; [exact A|]. split; [exact B|]. vm_compute. reflexivity.
Qed.
(** A fraction with one child, made by hand *)
Example C87_example_raised :
  let e := Elem (lit "mrow") [] [Elem (lit "mi") (lit "x") [] 0; Elem (lit "mfrac") [] [Elem (lit "mi") (lit "y") [] 0] 0] 0 in
  let S := Memory [[]] [] in
  in_heap (dicts S) e
  /\ match PySem.run (eval (call no_word parse_text 40) [("element", object_of e)] make_expression) S with
     | (S1, Done c) =>
         snd (PySem.run (eval (call no_word parse_text 40) [("converter", c)] convert_expression) S1)
         = Raised (VObj "InvalidNumberOfChildrenError" [("args", VList [VStr (lit "mfrac tag must have exactly 2 children. It's actually 1")]);
                                                        ("name", VStr (lit "InvalidNumberOfChildrenError"))])
     | _ => False
     end.
Proof. cbv zeta. split; [|vm_compute; reflexivity]. intros l H. vm_compute in H. repeat (destruct H as [<-|H]; [cbn; lia|]). destruct H. Qed.
