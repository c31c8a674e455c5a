(** C11, C12, C13, C45: how TeX reads the output. *)
From Coq Require Import String.
From Verif Require Import SpecExamples LemTeX2.
Local Open Scope string_scope.
Local Open Scope list_scope.

(** (x over 1), a fenced table and a root: used below *)
Definition sample : tree :=
  el "math" [el "mfrac" [mi "x"; mn "1"]; ela "mfenced" [("open", "["); ("close", "]")] [inner_tab];
             ela "mfenced" [] [el "msqrt" [mo "+"]; T (lit "mi") [945%N] [] []]].
(** an alpha *)
Definition alpha : tree := T (lit "mi") [945%N] [] [].

(** C11 *)
Theorem C11_braces : forall t s, plain_tree t -> latex_of t = Ok s -> braces_balance s.
Proof. exact latex_balance. Qed.
Print Assumptions C11_braces.
Theorem C11_documents : forall word_char parse_string xml d h s,
  read_as parse_string xml d -> (forall t, In t (math_trees d) -> plain_tree t) ->
  snd (mathml_to_latex word_char parse_string xml h) = Ok s -> braces_balance s.
Proof. exact convert_balance. Qed.
Print Assumptions C11_documents.
Example C11_example : plain_tree sample
  /\ latex_of sample = Ok (lit "\frac{x}{1} \begin{bmatrix} x \\ 1 \end{bmatrix} \left(\sqrt{+},\alpha\right)").
Proof. split; [apply plain_check|]; vm_compute; reflexivity. Qed.
(** Without the condition: *)
Theorem C11_needed_refuted : exists t s, latex_of t = Ok s /\ ~ braces_balance s.
Proof. exists (mo "{"). eexists. split; [vm_compute; reflexivity|]. vm_compute. discriminate. Qed.
Print Assumptions C11_needed_refuted.
Example C11_scanner : braces_balance (lit "{a}\}{{}}") /\ ~ braces_balance (lit "a}{") /\ ~ braces_balance (lit "{\}").
Proof. vm_compute. repeat split; discriminate. Qed.

(** C12 *)
Theorem C12_fences : forall t s, fenced_tree t -> latex_of t = Ok s ->
  nested true (tex_tokens s) /\ occurrences "left" (tex_tokens s) = occurrences "right" (tex_tokens s).
Proof. exact (fun t s F E => conj (latex_fences t s F E) (proj2 (nested_counts _ _ (latex_fences t s F E)) eq_refl)). Qed.
Print Assumptions C12_fences.
Theorem C12_documents : forall word_char parse_string xml d h s,
  read_as parse_string xml d -> (forall t, In t (math_trees d) -> fenced_tree t) ->
  snd (mathml_to_latex word_char parse_string xml h) = Ok s -> nested true (tex_tokens s).
Proof. exact convert_fences. Qed.
Print Assumptions C12_documents.
Example C12_example : fenced_tree (el "mrow" [sample; ela "mfenced" [("open", "|"); ("close", ")")] [inner_tab; alpha]])
  /\ latex_of (ela "mfenced" [("open", "|"); ("close", ")")] [inner_tab; alpha])
     = Ok (lit "\left|\begin{matrix}" ++ nl ++ lit "x \\" ++ nl ++ lit "1\alpha" ++ nl ++ lit "\end{matrix}\right)").
Proof. split; [apply fenced_check|]; vm_compute; reflexivity. Qed.
(** A fence around a table that is open on one side ends with a bare \right, which merges with letters that follow. *)
Theorem C12_one_sided_refuted : exists t s, plain_tree t /\ latex_of t = Ok s
  /\ occurrences "left" (tex_tokens s) <> occurrences "right" (tex_tokens s).
Proof.
  exists (ela "mfenced" [("open", "|"); ("close", "|")] [ela "mfenced" [("open", "|")] [inner_tab]; mi "x"]). eexists.
  split; [apply plain_check; vm_compute; reflexivity|]. split; [vm_compute; reflexivity|]. vm_compute. discriminate.
Qed.
Print Assumptions C12_one_sided_refuted.
(** The notation left leaves \left out. *)
Theorem C12_notation_refuted : exists t s, plain_tree t /\ latex_of t = Ok s
  /\ occurrences "left" (tex_tokens s) <> occurrences "right" (tex_tokens s).
Proof.
  exists (ela "menclose" [("notation", "left")] [mi "x"]). eexists.
  split; [apply plain_check; vm_compute; reflexivity|]. split; [vm_compute; reflexivity|]. vm_compute. discriminate.
Qed.
Print Assumptions C12_notation_refuted.
(** A fence that starts with a letter: \lefta. *)
Theorem C12_letter_refuted : exists t s, plain_tree t /\ latex_of t = Ok s
  /\ occurrences "left" (tex_tokens s) <> occurrences "right" (tex_tokens s).
Proof.
  exists (ela "mfenced" [("open", "a")] [mi "x"]). eexists.
  split; [apply plain_check; vm_compute; reflexivity|]. split; [vm_compute; reflexivity|]. vm_compute. discriminate.
Qed.
Print Assumptions C12_letter_refuted.

(** C13 *)
Theorem C13_environments : forall t s, plain_tree t -> latex_of t = Ok s ->
  nested false (tex_tokens s) /\ occurrences "begin" (tex_tokens s) = occurrences "end" (tex_tokens s).
Proof. exact (fun t s F E => conj (latex_nested t s F E) (proj1 (nested_counts _ _ (latex_nested t s F E)))). Qed.
Print Assumptions C13_environments.
Theorem C13_documents : forall word_char parse_string xml d h s,
  read_as parse_string xml d -> (forall t, In t (math_trees d) -> plain_tree t) ->
  snd (mathml_to_latex word_char parse_string xml h) = Ok s -> nested false (tex_tokens s).
Proof. exact convert_nested. Qed.
Print Assumptions C13_documents.
Example C13_example : plain_tree (el "math" [ela "mfenced" [("open", "{"); ("close", "}")] [outer_tab]])
  /\ exists s, latex_of (el "math" [ela "mfenced" [("open", "{"); ("close", "}")] [outer_tab]]) = Ok s
     /\ occurrences "begin" (tex_tokens s) = 2.
Proof. split; [apply plain_check; vm_compute; reflexivity|]. eexists. split; vm_compute; reflexivity. Qed.
(** Nesting is not trivial: *)
Example C13_wrong : ~ nested false (tex_tokens (lit "\begin{a}x\end{b}")) /\ ~ nested false (tex_tokens (lit "\end{a}"))
  /\ ~ nested true (tex_tokens (lit "\left(x")).
Proof.
  split; [|split]; intro N.
  - remember (tex_tokens (lit "\begin{a}x\end{b}")) as ts eqn:E. vm_compute in E. destruct N as [|t b O B|a b A B|name a b L A B|d1 a d2 b F]; try discriminate.
    + injection E as -> _. discriminate O.
    + unfold group in E. injection E as E.
      destruct name as [|c [|c2 name]]; [discriminate E| |].
      * injection E as -> E. destruct a as [|t a]; [discriminate E|]. injection E as -> E.
        destruct a as [|t a]; [discriminate E|]. injection E as -> E. apply nested_tail in A; [|reflexivity].
        inversion A as [|? ? O _| | |]. discriminate O.
      * injection E as _ -> _. apply Forall_inv_tail, Forall_inv in L. discriminate L.
  - remember (tex_tokens (lit "\end{a}")) as ts eqn:E. vm_compute in E. destruct N as [|t b O B|a b A B|name a b L A B|d1 a d2 b F]; try discriminate.
    injection E as -> _. discriminate O.
  - apply nested_counts in N as [_ N]. discriminate (N eq_refl).
Qed.
(** The condition is needed: *)
Theorem C13_needed_refuted : exists t s, latex_of t = Ok s
  /\ occurrences "begin" (tex_tokens s) <> occurrences "end" (tex_tokens s).
Proof. exists (mo "\begin"). eexists. split; vm_compute; [reflexivity|discriminate]. Qed.
Print Assumptions C13_needed_refuted.

(** C45 *)
Theorem C45_rows : forall n v ch a ss before gap after out, converts ch ss -> (forall s, In s ss -> ~ unfinished s) ->
  row_layout a n before gap after -> latex_of (T n v ch a) = Ok out ->
  tex_tokens out = tex_tokens before ++ gapped (tex_tokens gap) (map tex_tokens ss) ++ tex_tokens after.
Proof. exact rows_tokens. Qed.
Print Assumptions C45_rows.
Theorem C45_tables : forall v rows a ss,
  Forall2 (fun row s => latex_of (T (lit "mtable") [] [row] []) = Ok s) rows ss -> attr a "innerTable" = [] ->
  (forall s, In s ss -> ~ unfinished s) ->
  exists out, latex_of (T (lit "mtable") v rows a) = Ok out
  /\ tex_tokens out = gapped (tex_tokens (lit " \\" ++ nl)) (map tex_tokens ss).
Proof. exact table_tokens. Qed.
Print Assumptions C45_tables.
(** math normalises white space: the tokens other than white space *)
Theorem C45_math : forall v ch a ss, converts ch ss ->
  (forall s, In s ss -> ~ unfinished s /\ forall c, In (Sym c) (tex_tokens s) -> is_space c = false) ->
  exists out, latex_of (T (lit "math") v ch a) = Ok out
  /\ filter (fun t => negb (blank t)) (tex_tokens out) = concat (map (fun s => filter (fun t => negb (blank t)) (tex_tokens s)) ss).
Proof. exact math_tokens. Qed.
Print Assumptions C45_math.
(** What converts from texts without braces and backslashes meets both conditions. *)
Theorem C45_plain : forall t s, plain_tree t -> latex_of t = Ok s ->
  ~ unfinished s /\ forall c, In (Sym c) (tex_tokens s) -> is_space c = false.
Proof. exact plain_finished. Qed.
Print Assumptions C45_plain.
Example C45_example :
  converts [alpha; mi "x"] [lit "\alpha"; lit "x"]
  /\ row_layout [] (lit "mrow") [] (lit " ") []
  /\ gapped (tex_tokens (lit " ")) (map tex_tokens [lit "\alpha"; lit "x"]) = [Word (lit "alpha"); Chr 32; Chr 120]
  /\ row_layout [(lit "notation", lit "roundedbox")] (lit "menclose") (lit "\boxed{") (lit " ") (lit "}").
Proof.
  split; [repeat constructor|]. split; [apply layout_row; vm_compute; intuition discriminate|]. split; [vm_compute; reflexivity|].
  apply (layout_enclose _ "roundedbox"); vm_compute; auto 30.
Qed.
Example C45_unfinished : unfinished (lit "x\") /\ ~ unfinished (lit "x\\") /\ exists s, latex_of (mn "\") = Ok s /\ unfinished s.
Proof.
  split; [exists [Chr 120]; reflexivity|]. split.
  - intros ([|? [|? [|? ?]]] & E); discriminate.
  - eexists. split; [vm_compute; reflexivity|]. exists []. reflexivity.
Qed.
(** Several math elements, mtext, separators and fenced tables do merge: *)
Theorem C45_documents_refuted : exists d s s1 s2, map latex_of (math_trees d) = [Ok s1; Ok s2] /\ document_latex d = Ok s
  /\ tex_tokens s1 = [Word (lit "alpha")] /\ tex_tokens s2 = [Chr 120] /\ tex_tokens s = [Word (lit "alphax")].
Proof.
  exists [del "math" [DElem (lit "mi") [] [DText [945%N]]]; del "math" [dleaf "mi" "x"]]. do 3 eexists. vm_compute. repeat split; reflexivity.
Qed.
Print Assumptions C45_documents_refuted.
Theorem C45_mtext_refuted : exists s, latex_of (T (lit "mtext") [945%N; 1093%N] [] []) = Ok s /\ tex_tokens s = [Word (lit "alphax")].
Proof. eexists. vm_compute. split; reflexivity. Qed.
Print Assumptions C45_mtext_refuted.
Theorem C45_fenced_refuted : exists s, latex_of (ela "mfenced" [("separators", "x")] [alpha; mi "y"]) = Ok s
  /\ In (Word (lit "alphaxy")) (tex_tokens s).
Proof. eexists. split; [vm_compute; reflexivity|]. vm_compute. auto 50. Qed.
Print Assumptions C45_fenced_refuted.
Theorem C45_fenced_table_refuted : exists s, latex_of (ela "mfenced" [] [inner_tab; alpha; mi "y"]) = Ok s
  /\ In (Word (lit "alphay")) (tex_tokens s).
Proof. eexists. split; [vm_compute; reflexivity|]. vm_compute. auto 60. Qed.
Print Assumptions C45_fenced_table_refuted.
