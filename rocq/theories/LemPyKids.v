(** The source of the converters of usecases.py that look at children does what the model does. *)
From Coq Require Import String.
From Verif Require Export LemPySim.
Local Open Scope string_scope.
Local Open Scope list_scope.

Create HintDb sim.
Lemma concat_strings ss : concat (map (fun s => [VStr s]) ss) = map VStr ss.
Proof. rewrite (concat_singles (fun s => s)), map_id. reflexivity. Qed.
Lemma index_first {A} (a : A) l : py_index (a :: l) 0 = Some a.
Proof. reflexivity. Qed.
Lemma index_pos {A} (l : list A) p : py_index l (Zpos p) = nth_error l (Pos.to_nat p).
Proof. unfold py_index. cbn [Z.leb Z.compare]. rewrite Z2Nat.inj_pos. reflexivity. Qed.
Lemma text_of_nat a : text_of (VInt (Z.of_nat a)) = Ret (nat_str a).
Proof. unfold text_of. destruct (Z.leb_spec 0 (Z.of_nat a)); [|lia]. rewrite Nat2Z.id. reflexivity. Qed.
Lemma text_of_pos p : text_of (VInt (Zpos p)) = Ret (nat_str (Pos.to_nat p)).
Proof. reflexivity. Qed.
Ltac more_rewrites ::= match goal with
  | |- context [concat (map (fun s => [VStr s]) ?l)] => rewrite (concat_strings l)
  | |- context [py_index (?a :: ?l) 0] => rewrite (index_first a l)
  | |- context [py_index ?l (Zpos ?p)] => rewrite (index_pos l p)
  | |- context [text_of (VInt (Z.of_nat ?a))] => rewrite (text_of_nat a)
  | |- context [text_of (VInt (Zpos ?p))] => rewrite (text_of_pos p)
  end.
Global Hint Resolve name_at value_at children_at attributes_at : py.

Ltac counted := repeat match goal with
  | |- context [Nat.eqb ?a ?b] => let r := eval cbv [Nat.eqb] in (Nat.eqb a b) in match r with true => idtac | false => idtac end; change (Nat.eqb a b) with r
  | |- context [Nat.leb ?a ?b] => let r := eval cbv [Nat.leb] in (Nat.leb a b) in match r with true => idtac | false => idtac end; change (Nat.leb a b) with r
  | |- context [Nat.ltb ?a ?b] => let r := eval cbv [Nat.ltb Nat.leb] in (Nat.ltb a b) in match r with true => idtac | false => idtac end; change (Nat.ltb a b) with r
  end.
Ltac simple := simplify; repeat (progress counted; simplify).
Ltac senter := apply sims_call; [lia|]; unfold call_value; simple.
Ltac kid_known := first [eassumption | match goal with H : Forall _ _ |- _ => rewrite Forall_forall in H; apply H; cbn; tauto end].
Ltac readable := repeat match goal with
  | HR : R ?pi ?L ?h ?S, Hl : ?L ?a |- _ =>
      lazymatch goal with H : nth_error (dicts S) (pi a) = _ |- _ => fail | _ => pose proof (R_read pi L h S a HR Hl) end
  end.
#[global] Hint Extern 0 (_ <= _) => lia : sim.
Ltac known_sim := solve [eauto 4 with sim nocore].
Ltac sstep :=
  match goal with
  | |- sims _ _ _ (fun n => Ret _) _ (ret _ _) _ => eapply sims_ret; [eassumption | decided; try reflexivity; try same_text]
  | |- sims _ _ _ (fun n => Throw _) _ (raise _ _) _ => eapply sims_throw; [eassumption | try reflexivity]
  | |- sims _ _ _ _ _ (bind (read_attributes _) _ _) _ => apply sims_read
  | |- sims _ _ _ (fun n => bnd (bnd _ _) _) _ _ _ => apply sims_assoc
  | |- sims _ _ _ (fun n => bnd (Act _ _) _) _ _ _ => cbn [bnd]
  | |- sims _ _ _ (fun n => bnd _ (fun a => Ret a)) _ _ _ => apply sims_last
  | |- sims _ _ _ (fun n => bnd (if ?b then _ else _) _) _ _ _ => known_term b; simple
  | |- sims _ _ _ (fun n => if ?b then _ else _) _ _ _ => known_term b; simple
  | |- sims _ _ _ (fun n => bnd (if ?b then _ else _) _) _ _ _ => destruct b eqn:?; simple
  | |- sims _ _ _ (fun n => if ?b then _ else _) _ _ _ => destruct b eqn:?; simple
  | HR : R _ ?L _ _, Hl : ?L ?a |- sims _ ?L _ (fun n => Act (with_dict (_ ?a) _) _) _ _ _ => eapply sims_dict; [eapply R_read; [exact HR | exact Hl] | simple]
  | |- sims _ _ _ (fun n => bnd (mapM _ _) _) _ (bind (convert_all _) _ _) _ => eapply sims_all; [eassumption | lia | assumption | intros; simple]
  | |- sims _ _ _ (fun n => bnd (call _ _ n (VMethod _ _ "to_latex_converter") _ _) _) _ (bind (kid_convert _) _ _) _ =>
      eapply sims_kid; [kid_known | lia | assumption | intros; simple]
  | |- sims _ _ _ (fun n => bnd (call _ _ n _ _ _) _) _ (bind _ _ _) _ => eapply sims_bnd; [known_sim | intros; simple]
  | |- sims _ _ _ (fun n => bnd _ _) _ _ _ => eapply sims_pure; [eassumption | readable; first [known_call | enter; run_all] | intros; simple]
  | |- sims _ _ _ (fun n => call _ _ n _ _ _) _ _ _ => first [known_sim | eapply sims_value; [eassumption | readable; known_call | decided; try reflexivity; try same_text] | senter]
  end.
Ltac srun := repeat sstep.

Section Kids.
Variable pi : loc -> nat.
Variable L : loc -> Prop.
Variable word_char : N -> bool.
Variable parse_string : str -> res document.
Notation C := (call word_char parse_string).
Notation "'gives' k f args v" := (forall K (HK : k <= K) S0, calc K S0 (fun n => C n f args []) v) (at level 10, k at level 9, f at level 9, args at level 9, v at level 9).
Notation el := (elem_value pi).
Variable D : nat.                                   (* a bound that is enough for the children *)
Hypothesis HD : 14 <= D.
Notation kid_ok := (kid_ok pi L word_char parse_string D).
Notation "'does' k f args m" := (forall K (HK : D + k <= K) h S, R pi L h S -> sims pi L K (fun n => C n f args []) S (m h) VStr) (at level 10, k at level 9, f at level 9, args at level 9, m at level 9).

Lemma has_text_or d k : has_text (dget d k) = truthy (dget_or d k []).
Proof. unfold dget_or. destruct (dget d k); reflexivity. Qed.
Lemma error2 tag a : gives 2 (VClass "InvalidNumberOfChildrenError") [VStr tag; VInt 2; VInt (Z.of_nat a)] (parser_error (EInvalidChildren tag 2 a (lit "exactly"))).
Proof. enter. run_all. Qed.
Lemma error3 tag a : gives 2 (VClass "InvalidNumberOfChildrenError") [VStr tag; VInt 3; VInt (Z.of_nat a)] (parser_error (EInvalidChildren tag 3 a (lit "exactly"))).
Proof. enter. run_all. Qed.
Lemma error_least tag a :
  gives 2 (VClass "InvalidNumberOfChildrenError") [VStr tag; VInt 3; VInt (Z.of_nat a); VStr (lit "at least")] (parser_error (EInvalidChildren tag 3 a (lit "at least"))).
Proof. enter. run_all. Qed.
Hint Resolve error2 error3 error_least : py.

Definition math_object e := VObj "Math" [("_white_space_normalizer", normalizer); ("_adapter", adapter); ("_math_element", el e)].
Lemma math_ok n v ch a : Forall kid_ok ch -> does 1 (VMethod (math_object (Elem n v ch a)) "Math" "convert") [] (Math_convert (map kid_of ch)).
Proof. intros F K HK h S H. unfold Math_convert. senter. srun. Qed.
Definition plain_object c e := VObj c [("_math_element", el e); ("_adapter", adapter)].
Definition wrap_object c e := VObj c [("_math_element", el e); ("_adapter", adapter); ("_parenthesis_wrapper", parenthesis_wrapper)].
Definition script_object c e :=
  VObj c [("_math_element", el e); ("_adapter", adapter); ("_parenthesis_wrapper", parenthesis_wrapper); ("_bracket_wrapper", bracket_wrapper)].
Lemma generic_ok n v ch a : Forall kid_ok ch ->
  does 1 (VMethod (plain_object "GenericSpacingWrapper" (Elem n v ch a)) "GenericSpacingWrapper" "convert") [] (GenericSpacingWrapper_convert (map kid_of ch)).
Proof. intros F K HK h S H. unfold GenericSpacingWrapper_convert. senter. srun. Qed.
Lemma msqrt_ok n v ch a : Forall kid_ok ch ->
  does 1 (VMethod (plain_object "MSqrt" (Elem n v ch a)) "MSqrt" "convert") [] (MSqrt_convert (map kid_of ch)).
Proof. intros F K HK h S H. unfold MSqrt_convert, cmd1. senter. srun. Qed.
Lemma mtr_ok n v ch a : Forall kid_ok ch ->
  does 1 (VMethod (plain_object "MTr" (Elem n v ch a)) "MTr" "convert") [] (MTr_convert (map kid_of ch)).
Proof. intros F K HK h S H. unfold MTr_convert. senter. srun. Qed.
Lemma merror_ok n v ch a : Forall kid_ok ch ->
  does 1 (VMethod (plain_object "MError" (Elem n v ch a)) "MError" "convert") [] (MError_convert (map kid_of ch)).
Proof. intros F K HK h S H. unfold MError_convert. senter. srun. Qed.
Lemma mroot_ok n v ch a : Forall kid_ok ch ->
  does 1 (VMethod (plain_object "MRoot" (Elem n v ch a)) "MRoot" "convert") [] (MRoot_convert n (map kid_of ch)).
Proof. intros F K HK h S H. unfold MRoot_convert, invalid_children. destruct ch as [|c0 [|c1 [|c2 ch]]]; senter; srun. Qed.
Lemma munderover_ok n v ch a : Forall kid_ok ch ->
  does 1 (VMethod (plain_object "MUnderover" (Elem n v ch a)) "MUnderover" "convert") [] (MUnderover_convert n (map kid_of ch)).
Proof. intros F K HK h S H. unfold MUnderover_convert, invalid_children. destruct ch as [|c0 [|c1 [|c2 [|c3 ch]]]]; senter; srun. Qed.
Lemma mfrac_ok n v ch a : L a -> Forall kid_ok ch ->
  does 1 (VMethod (wrap_object "MFrac" (Elem n v ch a)) "MFrac" "convert") [] (MFrac_convert n (map kid_of ch) a).
Proof. intros La F K HK h S H. unfold MFrac_convert, invalid_children. destruct ch as [|c0 [|c1 [|c2 ch]]]; senter; srun; rewrite has_text_or in Heqb; rewrite Heqb; same_text. Qed.
Lemma MSup_base e b : kid_ok b -> does 1 (VMethod (script_object "MSup" e) "MSup" "_handle_base_child") [el b] (handle_base_child (kid_of b)).
Proof. intros HE K HK h S H. unfold handle_base_child. senter. srun. Qed.
Lemma MSub_base e b : kid_ok b -> does 1 (VMethod (script_object "MSub" e) "MSub" "_handle_base_child") [el b] (handle_base_child (kid_of b)).
Proof. intros HE K HK h S H. unfold handle_base_child. senter. srun. Qed.
Lemma MSubsup_base e b : kid_ok b -> does 1 (VMethod (script_object "MSubsup" e) "MSubsup" "_handle_base_child") [el b] (handle_base_child (kid_of b)).
Proof. intros HE K HK h S H. unfold handle_base_child. senter. srun. Qed.
Lemma MSup_exponent e b : kid_ok b -> does 1 (VMethod (script_object "MSup" e) "MSup" "_handle_exponent_child") [el b] (handle_script_child (kid_of b)).
Proof. intros HE K HK h S H. unfold handle_script_child. senter. srun. Qed.
Lemma MSub_subscript e b : kid_ok b -> does 1 (VMethod (script_object "MSub" e) "MSub" "_handle_subscript_child") [el b] (handle_script_child (kid_of b)).
Proof. intros HE K HK h S H. unfold handle_script_child. senter. srun. Qed.
Lemma MSubsup_subscript e b : kid_ok b -> does 1 (VMethod (script_object "MSubsup" e) "MSubsup" "_handle_subscript_child") [el b] (handle_script_child (kid_of b)).
Proof. intros HE K HK h S H. unfold handle_script_child. senter. srun. Qed.
Lemma MSubsup_superscript e b : kid_ok b -> does 1 (VMethod (script_object "MSubsup" e) "MSubsup" "_handle_superscript_child") [el b] (handle_script_child (kid_of b)).
Proof. intros HE K HK h S H. unfold handle_script_child. senter. srun. Qed.
Lemma first_kid e es : Forall kid_ok (e :: es) -> kid_ok e.
Proof. intros F. inversion F. assumption. Qed.
Lemma second_kid e1 e es : Forall kid_ok (e1 :: e :: es) -> kid_ok e.
Proof. intros F. inversion F as [|? ? ? F1]. inversion F1. assumption. Qed.
Lemma third_kid e1 e2 e es : Forall kid_ok (e1 :: e2 :: e :: es) -> kid_ok e.
Proof. intros F. inversion F as [|? ? ? F1]. inversion F1 as [|? ? ? F2]. inversion F2. assumption. Qed.
Hint Resolve first_kid second_kid third_kid MSup_base MSub_base MSubsup_base MSup_exponent MSub_subscript MSubsup_subscript MSubsup_superscript : sim.
Lemma msup_ok n v ch a : Forall kid_ok ch ->
  does 2 (VMethod (script_object "MSup" (Elem n v ch a)) "MSup" "convert") [] (MSup_convert n (map kid_of ch)).
Proof. intros F K HK h S H. unfold MSup_convert, invalid_children. destruct ch as [|c0 [|c1 [|c2 ch]]]; senter; srun. Qed.
Lemma msub_ok n v ch a : Forall kid_ok ch ->
  does 2 (VMethod (script_object "MSub" (Elem n v ch a)) "MSub" "convert") [] (MSub_convert n (map kid_of ch)).
Proof. intros F K HK h S H. unfold MSub_convert, invalid_children. destruct ch as [|c0 [|c1 [|c2 ch]]]; senter; srun. Qed.
Lemma msubsup_ok n v ch a : Forall kid_ok ch ->
  does 2 (VMethod (script_object "MSubsup" (Elem n v ch a)) "MSubsup" "convert") [] (MSubsup_convert n (map kid_of ch)).
Proof. intros F K HK h S H. unfold MSubsup_convert, invalid_children. destruct ch as [|c0 [|c1 [|c2 [|c3 ch]]]]; senter; srun. Qed.
End Kids.
Global Hint Resolve error2 error3 error_least : py.
Global Hint Resolve first_kid second_kid third_kid : sim.
