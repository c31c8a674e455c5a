(** The source of the token converters of usecases.py gives what the model gives. *)
From Coq Require Import String.
From Verif Require Export LemPyTokens.
Local Open Scope string_scope.
Local Open Scope list_scope.

Local Opaque all_math_symbols_by_char all_math_symbols_by_glyph math_number_by_glyph all_math_operators_by_char all_math_operators_by_glyph
  utf8_convert normalize strip dget.

Section Sem.
Variable word_char : N -> bool.
Variable parse_string : str -> res document.
Notation C := (call word_char parse_string).
Notation "'gives' k f args v" := (forall K (HK : k <= K) S0, calc K S0 (fun n => C n f args []) v) (at level 10, k at level 9, f at level 9, args at level 9, v at level 9).

(** ** Character and Operator *)
Lemma put_last {A} (l : list A) a b : put (l ++ [a]) (length l) b = l ++ [b].
Proof. induction l as [|c l IH]; cbn; [reflexivity | rewrite IH; reflexivity]. Qed.
Lemma last_object {A} (l : list A) a : nth_error (l ++ [a]) (length l) = Some a.
Proof. rewrite nth_error_app2, Nat.sub_diag by lia. reflexivity. Qed.
Lemma grown_object_added S o : grown S (Memory (dicts S) (objects S ++ [o])).
Proof. exists [], [o]. rewrite app_nil_r. split; reflexivity. Qed.
Lemma character_new s S K (HK : 1 <= K) :
  evs K (fun n => C n (VClass "Character") [VStr s] []) S (Memory (dicts S) (objects S ++ [("Character", [("value", VStr s)])])) (Done (VRef (length (objects S)))).
Proof.
  enter. eapply evs_act; [reflexivity|]. simplify. eapply evs_act.
  { unfold set_field. cbn [objects dicts]. rewrite last_object. reflexivity. }
  simplify. rewrite put_last. apply evs_ret.
Qed.
Lemma character_ok s : gives 6 (VMethod VNone "Character" "apply") [VStr s] (VStr (character_apply s)).
Proof.
  intros K HK S0. enter. repeat apply calc_assoc. apply calc_step. intros S G.
  exists (Memory (dicts S) (objects S ++ [("Character", [("value", VStr s)])])), (VRef (length (objects S))).
  split; [apply grown_object_added|]. split; [apply character_new; lia|].
  set (S1 := Memory _ _). assert (H : nth_error (objects S1) (length (objects S)) = Some ("Character", [("value", VStr s)])) by apply last_object.
  clearbody S1. simplify. unfold character_apply, py_or. run_all.
Qed.
Hint Resolve character_ok : py.
Lemma operator_ok s : gives 6 (VMethod VNone "Operator" "operate") [VStr s] (VStr (operator_operate s)).
Proof.
  unfold operator_operate. enter. run_all.
  all: destruct (dget all_math_operators_by_char s) as [[|c1 r1]|]; try discriminate; try reflexivity.
  all: destruct (dget all_math_operators_by_glyph s) as [[|c2 r2]|]; try discriminate; try reflexivity.
  all: destruct (dget math_number_by_glyph s) as [[|c3 r3]|]; try discriminate; reflexivity.
Qed.
Hint Resolve operator_ok : py.

(** ** Elements *)
Fixpoint elem_value (pi : nat -> nat) (e : elem) : value :=
  match e with
  | Elem n v ch a => VObj "GenericMathMLElement" [("_name", VStr n); ("_value", VStr v); ("_children", VList (map (elem_value pi) ch)); ("_attributes", VDict (pi a))]
  end.
(** ** MN, MO *)
Lemma mn_ok norm n v ch a : norm = normalizer ->
  gives 7 (VMethod (VObj "MN" [("_normalizer", norm); ("_math_element", VObj "GenericMathMLElement" [("_name", n); ("_value", VStr v); ("_children", ch); ("_attributes", a)])]) "MN" "convert") []
    (VStr (mn_convert v)).
Proof. intros ->. unfold mn_convert, py_or. enter. run_all. Qed.
Lemma mo_ok norm n v ch a : norm = normalizer ->
  gives 7 (VMethod (VObj "MO" [("normalizer", norm); ("_math_element", VObj "GenericMathMLElement" [("_name", n); ("_value", VStr v); ("_children", ch); ("_attributes", a)])]) "MO" "convert") []
    (VStr (mo_convert v)).
Proof. intros ->. enter. run_all. Qed.
Hint Resolve mn_ok mo_ok : py.

End Sem.
Global Hint Resolve character_ok operator_ok mn_ok mo_ok : py.
