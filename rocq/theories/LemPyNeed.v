(** Elements for which the depth of calls must grow with the nesting. *)
From Coq Require Import String.
From Verif Require Export LemPyElements.
Local Open Scope string_scope.
Local Open Scope list_scope.
Section Need.
Variable word_char : N -> bool.
Variable parse_string : str -> res document.
Notation C := (call word_char parse_string).
Notation el := (elem_value (fun l => l)).
(** With the bound [m] the computation gets stuck. *)
Definition stk {A} (m : nat) (p : nat -> MM A) (S : memory) : Prop := exists S', run (p m) S = (S', Stuck).
Lemma stk_first {A B} m (p : nat -> MM A) (k : nat -> A -> MM B) S : stk m p S -> stk m (fun n => bnd (p n) (k n)) S.
Proof. intros (S' & E). exists S'. rewrite run_bnd, E. reflexivity. Qed.
Lemma stk_then {A B} K m (p : nat -> MM A) (k : nat -> A -> MM B) v S : calc K S p v -> K <= m -> (forall S1, stk m (fun n => k n v) S1) -> stk m (fun n => bnd (p n) (k n)) S.
Proof.
  intros H L W. destruct (H S (grown_refl S)) as (S1 & _ & E). destruct (W S1) as (S' & E'). exists S'. rewrite run_bnd, (E m L). exact E'.
Qed.
Lemma stk_assoc {A B C} m (p : nat -> MM A) (k1 : nat -> A -> MM B) (k2 : nat -> B -> MM C) S :
  stk m (fun n => bnd (p n) (fun a => bnd (k1 n a) (k2 n))) S -> stk m (fun n => bnd (bnd (p n) (k1 n)) (k2 n)) S.
Proof.
  intros (S' & E). exists S'. rewrite <- E, !run_bnd. destruct (run (p m) S) as [S1 [a|e|]]; try reflexivity. rewrite run_bnd. reflexivity.
Qed.
Lemma stk_call m f args kws S : stk m (fun n => call_value word_char parse_string (C n) n f args kws) S -> stk (Datatypes.S m) (fun n => C n f args kws) S.
Proof. intros (S' & E). exists S'. exact E. Qed.
Notation power e := (script_object (fun l => l) "MSup" e).
Notation A := "MathMLElementToLatexConverterAdapter".
Lemma made n v ch a S0 : n = lit "msup" ->
  calc 6 S0 (fun k => C k (VMethod adapter A "to_latex_converter") [el (Elem n v ch a)] []) (power (Elem n v ch a)).
Proof.
  intros ->. pose proof (factories_ok word_char parse_string) as F. enter. 
  repeat apply calc_assoc. eapply calc_bnd; [apply name_at; lia|]. cbn [e_name]. simple.
  repeat apply calc_assoc. eapply calc_bnd; [apply F; lia|]. simple. run_all.
  assert (G : dget factories (lit "msup") = Some (VMethod adapter A "_make_msup_tag_converter")) by reflexivity. rewrite G. simple. run_all.
Qed.
Lemma stuck_small n m S : m <= 7 -> m <= 2 * n + 1 -> stk m (fun k => C k (VMethod (power (powers (Datatypes.S n))) "MSup" "convert") [] []) S.
Proof.
  intros H1 H2. do 8 (try destruct m as [|m]); try lia; do 4 (try destruct n as [|n]; try lia).
  all: eexists; vm_compute; reflexivity.
Qed.
Lemma stuck n : forall m S, m <= 2 * n + 1 -> stk m (fun k => C k (VMethod (power (powers (Datatypes.S n))) "MSup" "convert") [] []) S.
Proof.
  induction n as [|n IH]; intros m S H; [apply stuck_small; lia|].
  destruct (Nat.le_gt_cases m 7) as [L|L]; [apply stuck_small; lia|].
  destruct m as [|[|m]]; [lia | lia |]. specialize (fun S => IH m S ltac:(lia)).
  change (powers (Datatypes.S (Datatypes.S n))) with (Elem (lit "msup") [] [powers (Datatypes.S n); Elem (lit "mn") (lit "2") [] 0] 0).
  set (e := powers (Datatypes.S n)) in *. unfold script_object.
  apply stk_call. unfold call_value. simple. repeat apply stk_assoc. 
  eapply (stk_then 1); [apply name_at; lia | lia | intros S1]. simple. repeat apply stk_assoc.
  eapply (stk_then 1); [apply children_at; lia | lia | intros S2]. simple. repeat apply stk_assoc.
  eapply (stk_then 1); [enter; run_all | lia | intros S3]. simple. repeat apply stk_assoc.
  apply stk_first. apply stk_call. unfold call_value. simple. repeat apply stk_assoc.
  eapply (stk_then 1); [apply children_at; lia | lia | intros S4]. simple. repeat apply stk_assoc.
  eapply (stk_then 6); [apply made; reflexivity | lia | intros S5]. simple. repeat apply stk_assoc.
  apply stk_first. apply IH.
Qed.
Theorem powers_need n S : exists w S1, expression_ends_within 7 word_char parse_string [("element", object_of (powers (Datatypes.S n)))] make_expression S S1 (Done w)
  /\ forall m S2, m <= 2 * n + 1 -> snd (PySem.run (eval (C m) [("converter", w)] convert_expression) S2) = Stuck.
Proof.
  destruct (made (lit "msup") [] [powers n; Elem (lit "mn") (lit "2") [] 0] 0 S eq_refl S (grown_refl S)) as (S1 & _ & E).
  exists (power (powers (Datatypes.S n))), S1. split.
  - rewrite object_of_value. unfold expression_ends_within, make_expression. cbn [eval mapM lookup String.eqb].
    change (evs 7 (fun n0 => v <~ (v <~ (g <~ Ret (global "MathMLElementToLatexConverterAdapter") ; vs <~ Ret [] ; ws <~ Ret [] ; C n0 g vs ws) ; attribute (C n0) v "to_latex_converter") ; vs <~ (v <~ Ret (el (powers (Datatypes.S n))) ; Ret [v]) ; ws <~ Ret [] ; C n0 v vs ws) S S1 (Done (power (powers (Datatypes.S n))))).
    repeat apply evs_assoc. eapply evs_bnd; [apply evs_ret|]. cbn [bnd]. eapply evs_bnd; [penter; apply evs_ret|]. simple. eapply evs_more; [exact E | lia].
  - intros m S2 H. destruct (stuck n m S2 H) as (S3 & Q).
    set (e := powers (Datatypes.S n)) in *. clearbody e. change (snd (PySem.run (g <~ attribute (C m) (power e) "convert" ; C m g [] []) S2) = Stuck). unfold script_object in *. simple.
    rewrite Q. reflexivity.
Qed.
End Need.
