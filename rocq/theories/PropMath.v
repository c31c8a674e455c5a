(** C60: TeX reads the formula the MathML stands for. *)
From Coq Require Import String.
From Verif Require Import SpecExamples LemXml2 LemMath SpecMath.
Local Open Scope string_scope.
Local Open Scope list_scope.

(** A tree that stands for a formula converts, and TeX reads that formula in the LaTeX. *)
Theorem C60_reads : forall t l, formula_of t = Some l -> exists s, latex_of t = Ok s /\ tex_reads false s = Some l.
Proof. exact formula_read. Qed.
Print Assumptions C60_reads.
(** The same for a document with one math element. *)
Theorem C60_document : forall d t l, math_trees d = [t] -> formula_of t = Some l ->
  exists s, document_latex d = Ok s /\ tex_reads false s = Some l.
Proof.
  intros d t l M F. destruct (formula_read t l F) as (s & E & R). exists s. split; [|exact R].
  unfold document_latex. rewrite M. cbn [map rseq]. rewrite E. cbn. rewrite app_nil_r. reflexivity.
Qed.
Print Assumptions C60_document.
(** From the text of the document. *)
Theorem C60_text : forall word_char parse_string d x h t l, SpecXml.reads parse_string -> document_text d (clean x) ->
  math_trees d = [t] -> formula_of t = Some l ->
  exists s, snd (mathml_to_latex word_char parse_string x h) = Ok s /\ tex_reads false s = Some l.
Proof.
  intros wc ps d x h t l R D M F. rewrite (convert_text wc ps d x h R D). exact (C60_document d t l M F).
Qed.
Print Assumptions C60_text.
(** Several math elements: the formulas one after the other, if no result ends in a command name. *)
Theorem C60_several : forall d ls, oseq (map formula_of (math_trees d)) = Some ls ->
  exists ss, converts (math_trees d) ss /\ document_latex d = Ok (concat ss)
             /\ (Forall closed_end ss -> tex_reads false (concat ss) = Some (concat ls)).
Proof. exact several_read. Qed.
Print Assumptions C60_several.
(** Every ordinary tree stands for a formula, so TeX can read its LaTeX. *)
Theorem C60_ordinary : forall t, ordinary false false t ->
  exists l s, l <> [] /\ formula_of t = Some l /\ latex_of t = Ok s /\ tex_reads false s = Some l.
Proof.
  intros t O. destruct (ordinary_formula t O) as (l & F & N). destruct (formula_read t l F) as (s & E & R). exists l, s. auto.
Qed.
Print Assumptions C60_ordinary.
(** Trees that stand for different formulas have different LaTeX. *)
Theorem C60_different : forall t u l m s, formula_of t = Some l -> formula_of u = Some m -> l <> m ->
  latex_of t = Ok s -> latex_of u <> Ok s.
Proof.
  intros t u l m s T U D E F. destruct (formula_read t l T) as (s1 & E1 & R1). destruct (formula_read u m U) as (s2 & E2 & R2).
  rewrite E in E1. rewrite F in E2. injection E1 as <-. injection E2 as <-. rewrite R1 in R2. apply D. congruence.
Qed.
Print Assumptions C60_different.
(** A number stands for its characters. *)
Theorem C60_number : forall v ch a, v <> [] -> (forall c, In c v -> (c < 128)%N /\ is_space c = false /\ ~ In c (lit "\{}$%&#'^_]")) ->
  formula_of (T (lit "mn") v ch a) = Some (map (fun c => Atom (Chr c)) v).
Proof. exact number_formula. Qed.
Print Assumptions C60_number.

(** x = (-b ± √(b² - 4ac)) / 2a *)
Definition quadratic : tree :=
  el "math" [mi "x"; mo "="; el "mfrac" [
    el "mrow" [mo "-"; mi "b"; T (lit "mo") [177%N] [] []; el "msqrt" [el "msup" [mi "b"; mn "2"]; mo "-"; mn "4"; mi "a"; mi "c"]];
    el "mrow" [mn "2"; mi "a"]]].
Definition ch (s : string) : item := match lit s with [c] => Atom (Chr c) | _ => Group [] end.
Example C60_example :
  formula_of quadratic = Some
    [ch "x"; ch "=";
     Applied (lit "frac")
       [[ch "-"; ch "b"; Atom (Word (lit "pm")); Applied (lit "sqrt") [[Scripts (ch "b") None (Some [ch "2"]); ch "-"; ch "4"; ch "a"; ch "c"]]];
        [ch "2"; ch "a"]]]
  /\ latex_of quadratic = Ok (lit "x = \frac{- b \pm \sqrt{b^{2} - 4 a c}}{2 a}").
Proof. split; vm_compute; reflexivity. Qed.
(** A matrix in brackets, with a matrix in it; a root with an index, an accent, limits. *)
Definition block_matrix : tree :=
  el "math" [ela "mfenced" [("open", "["); ("close", "]")] [outer_tab]; el "mroot" [mi "x"; mn "3"];
             el "mover" [mi "y"; mo "^"]; el "munderover" [T (lit "mo") [8721%N] [] []; mi "i"; mi "n"]].
Example C60_matrix :
  formula_of block_matrix = Some
    [Matrix (lit "bmatrix") [[[Matrix (lit "matrix") [[[ch "x"]]; [[ch "1"]]]]]; [[ch "y"]]];
     Root [ch "3"] [ch "x"]; Applied (lit "hat") [[ch "y"]];
     Scripts (Atom (Word (lit "sum"))) (Some [ch "i"]) (Some [ch "n"])].
Proof. vm_compute. reflexivity. Qed.
Example C60_ordinary_example : ordinary false false quadratic.
Proof.
  assert (K : forall b n v, (exists s l, token_latex (lit n) v [] = Some s /\ token_formula b s = Some l /\ l <> [] /\ existsb scripted l = false) ->
            ordinary b false (T (lit n) v [] [])).
  { intros b n v (s & l & A & B & C & D). eapply ordinary_token; eauto. }
  assert (TK : forall b n v, match token_latex (lit n) v [] with
                             | Some s => match token_formula b s with Some (i :: l) => negb (existsb scripted (i :: l)) | _ => false end
                             | None => false end = true -> ordinary b false (T (lit n) v [] [])).
  { intros b n v Q. destruct (token_latex (lit n) v []) as [s|] eqn:E; [|discriminate]. destruct (token_formula b s) as [[|i l]|] eqn:F; try discriminate.
    apply K. exists s, (i :: l). repeat split; auto; [discriminate|]. apply Bool.negb_true_iff. exact Q. }
  unfold quadratic, el, mi, mo, mn, leaf.
  apply ordinary_row; [right; reflexivity|discriminate|]. repeat apply Forall_cons; [apply TK; vm_compute; reflexivity|apply TK; vm_compute; reflexivity| |constructor].
  apply ordinary_frac; [reflexivity|reflexivity| |].
  - apply ordinary_row; [left; reflexivity|discriminate|]. repeat apply Forall_cons; [apply TK; vm_compute; reflexivity..| |constructor].
    apply ordinary_braced; [left; reflexivity|discriminate|]. repeat apply Forall_cons; [|apply TK; vm_compute; reflexivity..|constructor].
    apply ordinary_script; [left; reflexivity|intros [Q|Q]; discriminate|apply TK; vm_compute; reflexivity|apply TK; vm_compute; reflexivity].
  - apply ordinary_row; [left; reflexivity|discriminate|]. repeat apply Forall_cons; [apply TK; vm_compute; reflexivity..|constructor].
Qed.

Example C60_several_example :
  let d := [del "p" [del "math" [dleaf "mn" "1"]; del "math" [dleaf "mi" "x"]]] in
  oseq (map formula_of (math_trees d)) = Some [[ch "1"]; [ch "x"]] /\ document_latex d = Ok (lit "1x") /\ Forall closed_end [lit "1"; lit "x"].
Proof. split; [vm_compute; reflexivity|]. split; [vm_compute; reflexivity|]. repeat constructor. Qed.

(** ** What TeX cannot read, or reads as something else *)
(** A script on a row whose only child has such a script: a double superscript. *)
Theorem C60_double_script_refuted : exists t s, well_formed t /\ latex_of t = Ok s /\ s = lit "x^{2}^{3}" /\ tex_reads false s = None.
Proof.
  exists (el "math" [el "msup" [el "mrow" [el "msup" [mi "x"; mn "2"]]; mn "3"]]), (lit "x^{2}^{3}").
  assert (E : latex_of (el "math" [el "msup" [el "mrow" [el "msup" [mi "x"; mn "2"]]; mn "3"]]) = Ok (lit "x^{2}^{3}")) by (vm_compute; reflexivity).
  split; [apply (render_converts_iff _ false); rewrite <- latex_of_render; eauto|]. split; [exact E|]. split; [reflexivity|vm_compute; reflexivity].
Qed.
Print Assumptions C60_double_script_refuted.
(** A root in the index of a root: the first ] ends the index. *)
Theorem C60_nested_root_refuted : exists t s, well_formed t /\ latex_of t = Ok s /\ s = lit "\sqrt[\sqrt[3]{y}]{x}" /\ tex_reads false s = None.
Proof.
  exists (el "math" [el "mroot" [mi "x"; el "mroot" [mi "y"; mn "3"]]]), (lit "\sqrt[\sqrt[3]{y}]{x}").
  assert (E : latex_of (el "math" [el "mroot" [mi "x"; el "mroot" [mi "y"; mn "3"]]]) = Ok (lit "\sqrt[\sqrt[3]{y}]{x}")) by (vm_compute; reflexivity).
  split; [apply (render_converts_iff _ false); rewrite <- latex_of_render; eauto|]. split; [exact E|]. split; [reflexivity|vm_compute; reflexivity].
Qed.
Print Assumptions C60_nested_root_refuted.
(** A table that is not in fences has no environment. *)
Theorem C60_bare_table_refuted : exists t s, well_formed t /\ latex_of t = Ok s /\ s = lit "a & b" /\ tex_reads false s = None.
Proof.
  exists (el "math" [el "mtable" [el "mtr" [el "mtd" [mi "a"]; el "mtd" [mi "b"]]]]), (lit "a & b").
  assert (E : latex_of (el "math" [el "mtable" [el "mtr" [el "mtd" [mi "a"]; el "mtd" [mi "b"]]]]) = Ok (lit "a & b")) by (vm_compute; reflexivity).
  split; [apply (render_converts_iff _ false); rewrite <- latex_of_render; eauto|]. split; [exact E|]. split; [reflexivity|vm_compute; reflexivity].
Qed.
Print Assumptions C60_bare_table_refuted.
(** Fences { and } are not escaped. *)
Theorem C60_brace_fence_refuted : exists t s, well_formed t /\ latex_of t = Ok s /\ s = lit "\left{x\right}" /\ tex_reads false s = None.
Proof.
  exists (el "math" [ela "mfenced" [("open", "{"); ("close", "}")] [mi "x"]]), (lit "\left{x\right}").
  assert (E : latex_of (el "math" [ela "mfenced" [("open", "{"); ("close", "}")] [mi "x"]]) = Ok (lit "\left{x\right}")) by (vm_compute; reflexivity).
  split; [apply (render_converts_iff _ false); rewrite <- latex_of_render; eauto|]. split; [exact E|]. split; [reflexivity|vm_compute; reflexivity].
Qed.
Print Assumptions C60_brace_fence_refuted.
(** The overline as an accent is a command without its argument. *)
Theorem C60_overline_refuted : exists t s, well_formed t /\ latex_of t = Ok s /\ s = lit "\overset{\overline}{x}" /\ tex_reads false s = None.
Proof.
  exists (el "math" [el "mover" [mi "x"; T (lit "mo") [8254%N] [] []]]), (lit "\overset{\overline}{x}").
  assert (E : latex_of (el "math" [el "mover" [mi "x"; T (lit "mo") [8254%N] [] []]]) = Ok (lit "\overset{\overline}{x}")) by (vm_compute; reflexivity).
  split; [apply (render_converts_iff _ false); rewrite <- latex_of_render; eauto|]. split; [exact E|]. split; [reflexivity|vm_compute; reflexivity].
Qed.
Print Assumptions C60_overline_refuted.
(** Prescripts: TeX reads an underscore sign, a group with a superscript, and the base without scripts. *)
Theorem C60_prescripts_refuted : exists t s, well_formed t /\ latex_of t = Ok s /\ s = lit "\_{1}^{2}X_{3}^{4}"
  /\ tex_reads false s = Some [Atom (Sym 95); Scripts (Group [ch "1"]) None (Some [ch "2"]); Scripts (ch "X") (Some [ch "3"]) (Some [ch "4"])].
Proof.
  exists (el "math" [el "mmultiscripts" [mi "X"; mn "3"; mn "4"; el "mprescripts" []; mn "1"; mn "2"]]), (lit "\_{1}^{2}X_{3}^{4}").
  assert (E : latex_of (el "math" [el "mmultiscripts" [mi "X"; mn "3"; mn "4"; el "mprescripts" []; mn "1"; mn "2"]]) = Ok (lit "\_{1}^{2}X_{3}^{4}")) by (vm_compute; reflexivity).
  split; [apply (render_converts_iff _ false); rewrite <- latex_of_render; eauto|]. split; [exact E|]. split; [reflexivity|vm_compute; reflexivity].
Qed.
Print Assumptions C60_prescripts_refuted.
(** Two math elements, alpha and x: TeX reads one unknown command. *)
Theorem C60_several_refuted : exists d ls s, oseq (map formula_of (math_trees d)) = Some ls /\ document_latex d = Ok s /\ s = lit "\alphax"
  /\ ls = [[Atom (Word (lit "alpha"))]; [ch "x"]] /\ tex_reads false s = Some [Atom (Word (lit "alphax"))].
Proof.
  exists [del "p" [del "math" [DElem (lit "mi") [] [DText [945%N]]]; del "math" [dleaf "mi" "x"]]],
    [[Atom (Word (lit "alpha"))]; [ch "x"]], (lit "\alphax").
  repeat split; vm_compute; reflexivity.
Qed.
Print Assumptions C60_several_refuted.
