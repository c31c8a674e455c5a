(** C14: no visible token is lost or reordered. *)
From Coq Require Import String.
From Verif Require Import SpecExamples LemOrder.
Local Open Scope string_scope.
Local Open Scope list_scope.

(** C14: the pieces of the visible tokens occur in the LaTeX of an element in reading order, without overlap ... *)
Theorem C14_order : forall t s, latex_of t = Ok s -> exists ps, Forall2 piece (reading false t) ps /\ in_order ps s.
Proof. exact latex_order. Qed.
Print Assumptions C14_order.
(** ... and the visible tokens are exactly the tokens among the elements that are converted. *)
Theorem C14_tokens : forall t s u, latex_of t = Ok s ->
  ((exists under, In (under, u) (reading false t)) <-> visits t u /\ In (t_name u) token_tags).
Proof. exact (fun t s u E => reading_tokens t (proj1 (converts_iff t) (ex_intro _ s E)) false u). Qed.
Print Assumptions C14_tokens.
(** Documents: the tokens of the math elements one after the other. *)
Theorem C14_documents : forall word_char parse_string xml d h s,
  read_as parse_string xml d -> snd (mathml_to_latex word_char parse_string xml h) = Ok s ->
  exists ps, Forall2 piece (flat_map (reading false) (math_trees d)) ps /\ in_order ps s.
Proof. exact convert_order. Qed.
Print Assumptions C14_documents.
Example C14_example :
  let t := el "mrow" [el "mroot" [mi "x"; mn "3"]; el "mover" [mi "v"; mo "_"]; el "mphantom" [mi "z"];
                      el "math" [el "mfrac" [mi "a"; mi "b"]];
                      el "mmultiscripts" [mi "F"; mn "1"; mn "2"; el "mprescripts" []; mn "4"; mn "5"]] in
  reading false t = [(false, mn "3"); (false, mi "x"); (false, mo "_"); (false, mi "v"); (true, mi "a"); (true, mi "b");
                     (false, mn "4"); (false, mn "5"); (false, mi "F"); (false, mn "1"); (false, mn "2")]
  /\ exists s, latex_of t = Ok s /\ s = lit "\sqrt[3]{x} \overset{\underline}{v}  \frac{a}{b} \_{4}^{5}F_{1}^{2}".
Proof. vm_compute. split; [reflexivity|]. eexists. split; reflexivity. Qed.
Example C14_not_trivial : in_order (map lit ["ab"; "b"]) (lit "cabb") /\ ~ in_order (map lit ["ab"; "b"]) (lit "cab")
  /\ ~ in_order (map lit ["b"; "a"]) (lit "ab").
Proof.
  assert (X : forall p q s, in_order [p; q] s -> exists g1 g2 r, s = g1 ++ p ++ g2 ++ q ++ r).
  { intros p q s I. inversion I as [|g p' ps s' J]; subst. inversion J as [|g' p' ps s'' J']; subst. eauto. }
  split; [exact (in_order_cons (lit "c") (lit "ab") _ _ (in_order_cons [] (lit "b") _ _ (in_order_nil [])))|].
  split; intro I; apply X in I as (g1 & g2 & r & E); apply (f_equal (@length N)) in E as L; rewrite !app_length in L;
    (destruct g1 as [|c g1]; [discriminate E|]); cbn [length] in L; unfold lit in L; cbn in L; lia.
Qed.
