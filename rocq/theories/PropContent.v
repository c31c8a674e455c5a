(** C63 - C65: what of a document reaches the output. *)
From Coq Require Import String.
From Verif Require Import SpecExamples LemContent.
Local Open Scope string_scope.
Local Open Scope list_scope.

(** C63: of all texts only those of mi, mo, mn and mtext matter. *)
Theorem C63_texts : forall t u, same_token_texts t u -> latex_of t = latex_of u.
Proof. intros t u H. rewrite !latex_of_render. apply texts_render. exact H. Qed.
Print Assumptions C63_texts.
Theorem C63_documents : forall word_char parse_string xml xml' d d' h,
  read_as parse_string xml d -> read_as parse_string xml' d' -> Forall2 same_token_texts (math_trees d) (math_trees d') ->
  snd (mathml_to_latex word_char parse_string xml h) = snd (mathml_to_latex word_char parse_string xml' h).
Proof. exact (fun wc ps xml xml' d d' h R R' F => documents_alike wc ps xml xml' d d' h R R' (Forall2_mono _ _ _ _ C63_texts F)). Qed.
Print Assumptions C63_documents.
(** Those four do matter. *)
Theorem C63_needed : forall n, In n (map lit ["mi"; "mo"; "mn"; "mtext"]) -> exists v v' ch a, latex_of (T n v ch a) <> latex_of (T n v' ch a).
Proof.
  intros n I. exists (lit "x"), (lit "y"), [], []. repeat (destruct I as [<-|I]; [vm_compute; discriminate|]). destruct I.
Qed.
Print Assumptions C63_needed.
Example C63_example :
  same_token_texts (el "math" [leaf "ms" "abc"; el "mrow" [mi "x"; leaf "mspace" "lost"]]) (el "math" [leaf "ms" "xyz"; el "mrow" [mi "x"; leaf "mspace" ""]])
  /\ latex_of (el "math" [leaf "ms" "abc"; el "mrow" [mi "x"; leaf "mspace" "lost"]]) = Ok (lit "x").
Proof.
  split; [|vm_compute; reflexivity].
  repeat first [apply same_token_texts_T; [first [reflexivity | intro J; exfalso; vm_compute in J; intuition discriminate]|] | apply Forall2_cons | apply Forall2_nil].
Qed.
(** A childless element that the library does not know gives nothing, whatever its text and attributes. *)
Theorem C63_leaves : forall n v a, row_tag n -> latex_of (T n v [] a) = Ok [].
Proof.
  intros n v a R. rewrite latex_of_render. cbn [render map]. unfold node. destruct (tag_lookup_spec known_tags n) as [(s & J & E)|[E _]].
  - exfalso. apply R. subst n. apply in_map. revert J.
    assert (X : forallb (fun p => existsb (String.eqb (fst p)) library_tags) known_tags = true) by (vm_compute; reflexivity).
    rewrite forallb_forall in X. intro J. specialize (X _ J). cbn [fst] in X. apply existsb_exists in X as (z & Z & Q). apply String.eqb_eq in Q. subst. exact Z.
  - change (tag_lookup known_tags n) with (tag_of n) in E. rewrite E. reflexivity.
Qed.
Print Assumptions C63_leaves.
(** semantics: an annotation (text only) is dropped, and the presentation child stands alone. *)
Theorem C63_annotations : forall v w l ns a b, Forall (fun u => row_tag (t_name u) /\ t_children u = []) ns ->
  latex_of (T (lit "math") v [T (lit "semantics") w (l ++ ns) b] a) = latex_of (T (lit "math") v l a).
Proof.
  intros v w l ns a b F. apply ungrouped_math. apply ungrouped_open.
  - intro J. vm_compute in J. intuition discriminate.
  - rewrite app_nil_r. induction l as [|t l IH]; [|apply ungrouped_keep; exact IH]. cbn [app].
    induction F as [|[n x ch y] ns [R C] F IH]; [constructor|]. cbn [t_name t_children] in *. subst ch. apply ungrouped_open; auto.
Qed.
Print Assumptions C63_annotations.
Example C63_annotations_example :
  latex_of (el "math" [el "semantics" [el "mfrac" [mi "a"; mi "b"]; leaf "annotation" "\frac ab"]]) = Ok (lit "\frac{a}{b}").
Proof. vm_compute. reflexivity. Qed.
(** An alternative given as XML is converted as well, beside the presentation. *)
Theorem C63_alternatives_refuted : exists t, t = el "math" [el "semantics" [el "msup" [mi "x"; mn "2"]; el "annotation-xml" [el "apply" [leaf "power" ""; leaf "ci" "x"; leaf "cn" "2"]]]]
  /\ latex_of t = Ok (lit "x^{2}")
  /\ latex_of (el "math" [el "semantics" [mi "x"; el "annotation-xml" [mi "y"]]]) = Ok (lit "x y").
Proof. eexists. split; [reflexivity|]. vm_compute. auto. Qed.
Print Assumptions C63_alternatives_refuted.
(** Text that a reader of the MathML would see and that is lost: a string literal; a text around an element. *)
Theorem C63_lost_refuted : latex_of (el "math" [leaf "ms" "abc"]) = Ok []
  /\ document_latex [del "math" [del "mtext" [DText (lit "for all "); del "mi" [DText (lit "x")]]]] = Ok [].
Proof. vm_compute. auto. Qed.
Print Assumptions C63_lost_refuted.

(** C64: names are compared exactly; an element with a prefix, a capital or any character but a - z in its name is not known. *)
Theorem C64_foreign : forall n, foreign_name n -> row_tag n.
Proof. exact foreign_row. Qed.
Print Assumptions C64_foreign.
Theorem C64_names : forall v ch a, Forall (fun u => row_tag (t_name u)) (flat_map preorder ch) -> latex_of (T (lit "math") v ch a) = Ok [].
Proof. exact unknown_math. Qed.
Print Assumptions C64_names.
Theorem C64_documents : forall word_char parse_string xml d h,
  read_as parse_string xml d -> Forall (fun u => t_name u <> lit "math") (flat_map preorder (flat_map tree_of_node d)) ->
  snd (mathml_to_latex word_char parse_string xml h) = Ok [].
Proof.
  intros wc ps xml d h R F. rewrite (convert_read_snd wc ps xml d h R). unfold document_latex. rewrite (no_math d F). reflexivity.
Qed.
Print Assumptions C64_documents.
(** All names with a prefix. *)
Theorem C64_prefixed : forall word_char parse_string xml d h,
  read_as parse_string xml d -> Forall (fun u => foreign_name (t_name u)) (flat_map preorder (flat_map tree_of_node d)) ->
  snd (mathml_to_latex word_char parse_string xml h) = Ok [].
Proof.
  intros wc ps xml d h R F. apply (C64_documents wc ps xml d h R). eapply Forall_impl; [|exact F]. intros u (c & J & K) E. rewrite E in J.
  apply K. vm_compute in J. intuition subst; lia.
Qed.
Print Assumptions C64_prefixed.
Example C64_example :
  foreign_name (lit "m:math") /\ foreign_name (lit "MATH") /\ ~ foreign_name (lit "math")
  /\ document_latex [del "m:math" [del "m:mi" [DText (lit "x")]]] = Ok []
  /\ document_latex [del "math" [del "MI" [DText (lit "x")]; del "mi" [DText (lit "y")]]] = Ok (lit "y").
Proof.
  split; [exists 58%N; vm_compute; intuition discriminate|]. split; [exists 77%N; vm_compute; intuition discriminate|].
  split; [|vm_compute; auto]. intros (c & J & K). apply K. vm_compute in J. intuition subst; lia.
Qed.

(** C65: no letter and no digit is special.  The outcome for a tree is a text with places for the letters and digits of its names,
    numbers and texts; renaming them renames these places and nothing else. *)
Theorem C65_renaming : forall t,
  (exists e, forall s, renaming s -> latex_of (rename s t) = Raise e)
  \/ (exists p, Forall (fun x => match x with Fixed _ => True | Renamed c => letter c \/ digit c end) p
      /\ forall s, renaming s -> latex_of (rename s t) = Ok (fill s p)).
Proof.
  intro t. destruct (latex_gives t) as ([p|e] & O & H); [right; exists p|left; exists e; exact H]. split; [|exact H].
  eapply Forall_impl; [|exact (proj1 O)]. intros [c|c]; cbn; auto. unfold alnum, letter, digit. lia.
Qed.
Print Assumptions C65_renaming.
(** For documents: the same. *)
Theorem C65_documents : forall word_char parse_string d,
  (exists e, forall s xml' d' h, renaming s -> read_as parse_string xml' d' -> math_trees d' = map (rename s) (math_trees d) ->
    snd (mathml_to_latex word_char parse_string xml' h) = Raise e)
  \/ (exists p, Forall (fun x => match x with Fixed _ => True | Renamed c => letter c \/ digit c end) p
      /\ forall s xml' d' h, renaming s -> read_as parse_string xml' d' -> math_trees d' = map (rename s) (math_trees d) ->
         snd (mathml_to_latex word_char parse_string xml' h) = Ok (fill s p)).
Proof.
  intros wc ps d. destruct (documents_rename (math_trees d)) as ([p|e] & O & H); [right; exists p; split|left; exists e].
  - eapply Forall_impl; [|exact O]. intros [c|c]; cbn; auto. unfold alnum, letter, digit. lia.
  - intros s xml' d' h R R' M. rewrite (convert_read_snd wc ps xml' d' h R'). unfold document_latex. rewrite M. exact (H s R).
  - intros s xml' d' h R R' M. rewrite (convert_read_snd wc ps xml' d' h R'). unfold document_latex. rewrite M. exact (H s R).
Qed.
Print Assumptions C65_documents.
Definition swap (c : N) : N := if (c =? 97)%N then 122%N else if (c =? 49)%N then 55%N else c.
Example C65_example : renaming swap
  /\ rename swap (el "math" [el "msup" [mi "a"; mn "1.1"]; leaf "mtext" "a 1"; mo "sina"]) = el "math" [el "msup" [mi "z"; mn "7.7"]; leaf "mtext" "z 7"; mo "sinz"]
  /\ latex_of (el "math" [el "msup" [mi "a"; mn "1.1"]; leaf "mtext" "a 1"; mo "sina"]) = Ok (lit "a^{1.1} \text{a 1} sina")
  /\ latex_of (el "math" [el "msup" [mi "z"; mn "7.7"]; leaf "mtext" "z 7"; mo "sinz"]) = Ok (lit "z^{7.7} \text{z 7} sinz").
Proof.
  split; [|vm_compute; auto]. intro c. unfold renaming, letter, digit, swap.
  destruct (c =? 97)%N eqn:E1; [lia|]. destruct (c =? 49)%N eqn:E2; lia.
Qed.
