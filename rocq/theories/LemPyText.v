(** The source of MI and TextCommand of usecases.py gives what the model gives. *)
From Coq Require Import String.
From Verif Require Export LemPyChars.
Local Open Scope string_scope.
Local Open Scope list_scope.

Local Opaque all_math_symbols_by_char all_math_symbols_by_glyph math_number_by_glyph all_math_operators_by_char all_math_operators_by_glyph
  utf8_convert normalize strip dget.

Section Sem.
Variable word_char : N -> bool.
Variable parse_string : str -> res document.
Notation C := (call word_char parse_string).
Notation "'gives' k f args v" := (forall K (HK : k <= K) S0, calc K S0 (fun n => C n f args []) v) (at level 10, k at level 9, f at level 9, args at level 9, v at level 9).

(** ** MI *)
Lemma variant_ok self c v : gives 4 (VMethod self "MI" "_wrap_in_math_variant") [VStr c; VStr v] (VStr (wrap_in_math_variant c v)).

Proof. unfold wrap_in_math_variant, cmd1. enter. run_all. Qed.
Lemma get_variant_ok self r d S0 K (HK : 4 <= K) : nth_error (dicts S0) r = Some d ->
  calc K S0 (fun n => C n (VMethod self "MI" "_get_math_variant") [VDict r] []) (VStr (get_math_variant d)).
Proof.
  unfold get_math_variant. enter. run_all.
  all: destruct d as [|p d]; try discriminate; try reflexivity; destruct (dget (p :: d) (lit "mathvariant")); try discriminate; try reflexivity; simplify; run_all.
Qed.
Hint Resolve variant_ok get_variant_ok : py.
Definition mi_object (norm el : value) := VObj "MI" [("_utf8_converter", utf8_converter); ("_normalizer", norm); ("_math_element", el)].
Lemma mi_ok n v ch r d S0 K (HK : 8 <= K) : nth_error (dicts S0) r = Some d ->
  calc K S0 (fun k => C k (VMethod (mi_object normalizer (VObj "GenericMathMLElement" [("_name", n); ("_value", VStr v); ("_children", ch); ("_attributes", VDict r)])) "MI" "convert") [] [])
    (VStr (mi_convert v d)).
Proof. unfold mi_convert. enter. run_all. Qed.
(** The attributes of an MIMathMlElement: a new dictionary *)
Lemma calc_mi_attributes {K} (HK : 2 <= K) S0 fs {B} (k : nat -> value -> MM B) b :
  (forall S1 r, grown S0 S1 -> nth_error (dicts S1) r = Some [] -> calc K S1 (fun n => k n (VDict r)) b) ->
  calc K S0 (fun n => bnd (C n (VMethod (VObj "MIMathMlElement" fs) "MIMathMlElement" "attributes") [] []) (k n)) b.
Proof.
  intros H. apply calc_step. intros S G.
  exists (Memory (dicts S ++ [[]]) (objects S)), (VDict (length (dicts S))).
  assert (G1 : grown S (Memory (dicts S ++ [[]]) (objects S))) by (exists [[]], []; rewrite app_nil_r; split; reflexivity).
  split; [exact G1|]. split.
  - enter. eapply evs_act; [reflexivity|]. simplify. apply evs_ret.
  - apply H; [eapply grown_trans; eauto | apply last_object].
Qed.
Ltac special_step ::= match goal with
  | |- calc _ _ (fun n => bnd (call _ _ n (VMethod (VObj "MIMathMlElement" _) _ "attributes") _ _) _) _ => apply calc_mi_attributes; [lia|]; intros; simplify
  end.
Lemma mi_plain_ok v S0 K (HK : 8 <= K) :
  calc K S0 (fun k => C k (VMethod (mi_object normalizer (VObj "MIMathMlElement" [("_value", VStr v)])) "MI" "convert") [] [])
    (VStr (mi_convert v [])).
Proof. unfold mi_convert. enter. run_all. Qed.
Hint Resolve mi_ok mi_plain_ok : py.
Lemma mi_new el : gives 4 (VClass "MI") [el] (mi_object normalizer el).
Proof. enter. run_all. Qed.
Lemma mi_element_new v : gives 2 (VClass "MIMathMlElement") [VStr v] (VObj "MIMathMlElement" [("_value", VStr v)]).
Proof. enter. run_all. Qed.
Hint Resolve mi_new mi_element_new : py.

(** ** TextCommand *)
Definition text_command (v : option str) := VObj "TextCommand" [("_math_variant", VStr (text_variant v))].
Lemma text_new v : gives 4 (VClass "TextCommand") [text_or_none v] (text_command v).
Proof. destruct v as [[|c v]|]; enter; run_all. Qed.
Lemma commands_ok v : gives 4 (VMethod (text_command v) "TextCommand" "_commands") [] (VList (map VStr (map lit (text_commands (text_variant v))))).
Proof. unfold text_commands. enter. run_all. Qed.
Hint Resolve text_new commands_ok : py.
Lemma text_apply_ok v s : gives 8 (VMethod (text_command v) "TextCommand" "apply") [VStr s] (VStr (text_command_apply v s)).
Proof.
  unfold text_command_apply. enter. run_all.
  set (Inv := fun (l : list value) (r : names) => exists cs acc, l = map VStr (map lit cs) /\ lookup r "acc" = Some (VStr acc)
    /\ fold_left (fun acc command => cmd1 command acc) cs acc = fold_left (fun acc command => cmd1 command acc) (text_commands (text_variant v)) s).
  loop Inv.
  - intros u l r ([|c cs] & acc & El & H1 & H2); [discriminate|]. injection El as -> ->.
    do 2 eexists. split; [|split; [left; reflexivity|]]; [simplify; run_all|].
    exists cs, (cmd1 c acc). split; [reflexivity|]. split; [|exact H2]. simplify. unfold cmd1. same_text.
  - exists (text_commands (text_variant v)), s. repeat split.
  - destruct H' as ([|c cs] & acc & El & H1 & H2); [|discriminate]. rewrite H1. simplify. run_all. rewrite <- H2. reflexivity.
Qed.
Hint Resolve text_apply_ok : py.

End Sem.
Global Hint Resolve variant_ok get_variant_ok mi_ok mi_plain_ok mi_new mi_element_new text_new commands_ok text_apply_ok : py.
