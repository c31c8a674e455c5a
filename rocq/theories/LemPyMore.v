(** The other converters of usecases.py: the source does what the model does. *)
From Coq Require Import String.
From Verif Require Export LemPyKids LemPyHeight.
Local Open Scope string_scope.
Local Open Scope list_scope.
Section More.
Variable pi : loc -> nat.
Variable L : loc -> Prop.
Variable word_char : N -> bool.
Variable parse_string : str -> res document.
Notation C := (call word_char parse_string).
Notation "'gives' k f args v" := (forall K (HK : k <= K) S0, calc K S0 (fun n => C n f args []) v) (at level 10, k at level 9, f at level 9, args at level 9, v at level 9).
Notation el := (elem_value pi).
Variable D : nat.                                   (* a bound that is enough for the children *)
Hypothesis HD : 14 <= D.
Notation kid_ok := (kid_ok pi L word_char parse_string D).
Notation "'does' k f args m" := (forall K (HK : D + k <= K) h S, R pi L h S -> sims pi L K (fun n => C n f args []) S (m h) VStr) (at level 10, k at level 9, f at level 9, args at level 9, m at level 9).

(** ** Void, MI, MO, MN, MText *)
Lemma void_ok e : does 1 (VMethod (VObj "Void" [("_math_element", el e)]) "Void" "convert") [] Void_convert.
Proof. intros  K HK h S H. unfold Void_convert. senter. srun. Qed.
Lemma mi_does n v ch a : L a ->
  does 1 (VMethod (mi_object normalizer (el (Elem n v ch a))) "MI" "convert") [] (MI_convert v a).
Proof.
  intros La K HK h S H. unfold MI_convert. apply sims_read. eapply sims_value; [exact H | | reflexivity].
  apply mi_ok; [lia|]. apply (R_read pi L h S a H La).
Qed.
Lemma mtext_does n v ch a : L a ->
  does 1 (VMethod (VObj "MText" [("_math_element", el (Elem n v ch a))]) "MText" "convert") [] (MText_convert v a).
Proof.
  intros La K HK h S H. unfold MText_convert. apply sims_read. eapply sims_value; [exact H | | reflexivity].
  apply mtext_ok; [lia|]. apply (R_read pi L h S a H La).
Qed.
Lemma mn_does n v ch a :
  does 1 (VMethod (VObj "MN" [("_normalizer", normalizer); ("_math_element", el (Elem n v ch a))]) "MN" "convert") [] (MN_convert v).
Proof. intros  K HK h S H. eapply sims_value; [exact H | | reflexivity]. apply mn_ok; [reflexivity | lia]. Qed.
Lemma mo_does n v ch a :
  does 1 (VMethod (VObj "MO" [("normalizer", normalizer); ("_math_element", el (Elem n v ch a))]) "MO" "convert") [] (MO_convert v).
Proof. intros  K HK h S H. eapply sims_value; [exact H | | reflexivity]. apply mo_ok; [reflexivity | lia]. Qed.

(** ** MAction *)
Lemma and_return {A} (m : M A) h : bind m ret h = m h.
Proof. unfold bind, ret. destruct (m h) as [h' [a|e]]; reflexivity. Qed.
Lemma toggle_ok e K (HK : 4 <= K) S0 d : nth_error (dicts S0) (pi (e_attributes e)) = Some d ->
  calc K S0 (fun n => C n (VMethod (plain_object pi "MAction" e) "MAction" "_is_toggle") [] []) (VBool (is_toggle d)).
Proof. intros H. unfold is_toggle. destruct e; cbn in H. destruct (dget d (lit "actiontype")) as [t|] eqn:E; enter; run_all. Qed.
Hint Resolve toggle_ok : py.
Lemma maction_ok n v ch a : L a -> Forall kid_ok ch ->
  does 1 (VMethod (plain_object pi "MAction" (Elem n v ch a)) "MAction" "convert") [] (MAction_convert (map kid_of ch) a).
Proof.
  intros La F K HK h S H. unfold MAction_convert. apply sims_read. pose proof (toggle_ok (Elem n v ch a)) as T. cbn [e_attributes] in T.
  destruct (is_toggle (hget h a)) eqn:E.
  - senter. srun.
  - destruct ch as [|c ch]; [senter; srun; change (py_index (@nil value) 0) with (@None value); simple; srun|]. cbn [map]. rewrite <- and_return. senter. srun.
Qed.

(** ** MEnclose *)
Lemma menclose_ok notation n v ch a : Forall kid_ok ch ->
  does 1 (VMethod (VObj "MEnclose" [("_math_element", el (Elem n v ch a)); ("_adapter", adapter); ("_notation", VStr notation)]) "MEnclose" "convert") []
    (latex <- convert_all (map kid_of ch) ;; ret (enclose notation (join (lit " ") latex))).
Proof. intros F K HK h S H. unfold enclose, cmd1. senter. srun. Qed.

(** ** MFenced *)
Definition separators op close := VObj "Separators" [("_open", VStr op); ("_close", VStr close)].
Lemma compare_ok op close a b : gives 4 (VMethod (separators op close) "Separators" "_compare") [VStr a; VStr b] (VBool (sep_compare op close a b)).
Proof. unfold sep_compare. enter. run_all. Qed.
Hint Resolve compare_ok : py.
Definition matrix op close := VObj "Matrix" [("_separators", separators op close); ("_generic_command", VStr (lit "matrix"))].
Lemma matrix_new op close : gives 4 (VClass "Matrix") [VStr op; VStr close] (matrix op close).
Proof. enter. run_all. Qed.
Lemma command_ok op close : gives 6 (VMethod (matrix op close) "Matrix" "_command") [] (VStr (lit (matrix_command op close))).
Proof. unfold matrix_command. enter. run_all. Qed.
Hint Resolve matrix_new command_ok : py.
Lemma is_matrix op close : str_eqb (lit (matrix_command op close)) (lit "matrix") = String.eqb (matrix_command op close) "matrix".
Proof. unfold matrix_command. repeat match goal with |- context [if ?b then _ else _] => destruct b; try reflexivity end. Qed.
Lemma matrix_apply_ok op close l : gives 8 (VMethod (matrix op close) "Matrix" "apply") [VList (map VStr l)] (VStr (Matrix_apply op close l)).
Proof. unfold Matrix_apply, cmd1. rewrite <- is_matrix. enter. run_all. all: rewrite join_nothing; same_text. Qed.
Definition vector op close seps := VObj "Vector" [("_open", VStr (if negb (str_eqb op []) then op else lit "(")); ("_close", VStr (if negb (str_eqb close []) then close else lit ")")); ("_separators", VList (map VStr seps))].
Lemma vector_new op close seps : gives 4 (VClass "Vector") [VStr op; VStr close; VList (map VStr seps)] (vector op close seps).
Proof. unfold vector. enter. run_all. Qed.
Lemma vector_apply_ok op close seps l : gives 8 (VMethod (vector op close seps) "Vector" "apply") [VList (map VStr l)] (VStr (Vector_apply op close seps l)).
Proof. unfold Vector_apply, vector. enter. run_all. Qed.
Hint Resolve matrix_apply_ok vector_new vector_apply_ok : py.
Definition fenced_object e op close seps :=
  VObj "MFenced" [("_math_element", el e); ("_adapter", adapter); ("_open", VStr op); ("_close", VStr close); ("_separators", VList (map VStr seps))].
Lemma any_bools (f : elem -> bool) es : any_true (concat (map (fun e => [VBool (f e)]) es)) = Ret (existsb f es).
Proof. induction es as [|e es IH]; cbn [map concat app]; [reflexivity|]. cbn. destruct (f e); [reflexivity|]. exact IH. Qed.
Lemma relative_ok e0 op close seps name : forall es,
  gives (list_max (map height es) + 2) (VMethod (fenced_object e0 op close seps) "MFenced" "_is_there_relative_of_name") [VList (map el es); VStr name] (VBool (is_there_relative_of_name es name)).
Proof.
  set (self := fenced_object e0 op close seps).
  assert (A : forall es k, 1 <= k -> Forall (fun e => gives k (VMethod self "MFenced" "_is_there_relative_of_name") [VList (map el (e_children e)); VStr name] (VBool (is_there_relative_of_name (e_children e) name))) es ->
    gives (S k) (VMethod self "MFenced" "_is_there_relative_of_name") [VList (map el es); VStr name] (VBool (is_there_relative_of_name es name))).
  { intros es k Hk F. enter. repeat apply calc_assoc. eapply calc_bnd.
    - apply calc_mapM with (l' := map (fun e => [VBool (is_relative_of_name name e)]) es). induction F as [|e es He F IH]; cbn [map]; constructor; [|exact IH].
      destruct e as [n v ch a]. cbn [is_relative_of_name e_children] in *. subst self. simplify. run_all.
    - simplify. run_all. rewrite any_bools. simplify. run_all. }
  assert (B : forall e, gives (height e + 1) (VMethod self "MFenced" "_is_there_relative_of_name") [VList (map el (e_children e)); VStr name] (VBool (is_there_relative_of_name (e_children e) name))).
  { induction e as [n v ch a IH] using elem_ind'. cbn [e_children height]. rewrite Nat.add_succ_l. apply A; [lia|]. rewrite Forall_forall in IH |- *.
    intros c Hc K HK. apply (IH c Hc). pose proof (height_in _ _ Hc). lia. }
  intros es. rewrite Nat.add_succ_r. apply A; [lia|]. apply Forall_forall. intros e He K HK. apply B. pose proof (height_in _ _ He). lia.
Qed.
Hint Resolve relative_ok : py.
Lemma kid_elems ch : map kid_elem (map kid_of ch) = ch.
Proof. rewrite map_map. apply map_id. Qed.
Lemma mfenced_ok op close seps n v ch a : list_max (map height ch) + 2 <= D -> Forall kid_ok ch ->
  does 1 (VMethod (fenced_object (Elem n v ch a) op close seps) "MFenced" "convert") []
    (latex_children <- convert_all (map kid_of ch) ;;
      if is_there_relative_of_name (map kid_elem (map kid_of ch)) (lit "mtable")
      then ret (Matrix_apply op close latex_children)
      else ret (Vector_apply op close seps latex_children)).
Proof. intros Hh F K HK h S H. rewrite kid_elems. senter. srun. Qed.

(** ** GenericUnderOver *)
Lemma search_under s : gives 1 (VBuiltin "re.search") [VStr (lit "under"); VStr s] (found (re_search (RLit (lit "under")) s)).
Proof. enter. destruct (under_pattern word_char) as (r & E & H). rewrite E. simplify. rewrite (req_search _ _ s H). run_all. Qed.
Lemma search_space s : gives 1 (VBuiltin "re.search") [VStr (lit "\s+"); VStr s] (found (re_search (RPlus (RChar is_space)) s)).
Proof. enter. destruct (space_pattern word_char) as (r & E & H). rewrite E. simplify. rewrite (req_search _ _ s H). run_all. Qed.
Hint Resolve search_under search_space : py.
Lemma setter_ok (under : bool) content accent :
  gives 9 (VMethod (VObj "UnderOverSetter" [("_type", VEnum "TagTypes" (if under then "Under" else "Over"))]) "UnderOverSetter" "apply") [VStr content; VStr accent]
    (VStr (under_over_apply under content accent)).
Proof. unfold under_over_apply. destruct under; enter; run_all. Qed.
Definition setter_under : forall content accent, _ := setter_ok true.
Definition setter_over : forall content accent, _ := setter_ok false.
Hint Resolve setter_under setter_over : py.
Lemma apply_command_ok e content accent :
  gives 10 (VMethod (plain_object pi "GenericUnderOver" e) "GenericUnderOver" "_apply_command") [VStr content; VStr accent]
    (VStr (under_over_apply (re_search (RLit (lit "under")) (e_name e)) content accent)).
Proof.
  pose proof (search_under (e_name e)) as Hs. destruct (re_search (RLit (lit "under")) (e_name e)); unfold found in Hs; enter; run_all.
Qed.
Hint Resolve apply_command_ok : py.
Lemma under_over_ok n v ch a : Forall kid_ok ch ->
  does 1 (VMethod (plain_object pi "GenericUnderOver" (Elem n v ch a)) "GenericUnderOver" "convert") [] (GenericUnderOver_convert n (map kid_of ch)).
Proof. intros F K HK h S H. unfold GenericUnderOver_convert, invalid_children. destruct ch as [|c0 [|c1 [|c2 ch]]]; senter; srun. Qed.

(** ** MMultiscripts *)
Lemma wrap_space_ok e s : gives 6 (VMethod (wrap_object pi "MMultiscripts" e) "MMultiscripts" "_wrap_in_parenthesis_if_there_is_space") [VStr s] (VStr (wrap_in_parenthesis_if_there_is_space s)).
Proof. unfold wrap_in_parenthesis_if_there_is_space. enter. run_all. Qed.
Lemma prescripts_ok e c : gives 4 (VMethod (wrap_object pi "MMultiscripts" e) "MMultiscripts" "_is_prescripts") [el c] (VBool (is_prescripts (kid_of c))).
Proof. unfold is_prescripts. enter. run_all. Qed.
Hint Resolve wrap_space_ok prescripts_ok : py.
Lemma prescript_ok n v ch a : Forall kid_ok ch ->
  does 1 (VMethod (wrap_object pi "MMultiscripts" (Elem n v ch a)) "MMultiscripts" "_prescript_latex") [] (prescript_latex (map kid_of ch)).
Proof.
  intros F K HK h S H. unfold prescript_latex, is_prescripts_nth, convert_nth.
  destruct ch as [|c0 [|c1 [|c2 [|c3 [|c4 [|c5 ch]]]]]]; senter; srun.
Qed.
Lemma postscript_ok n v ch a : Forall kid_ok ch ->
  does 1 (VMethod (wrap_object pi "MMultiscripts" (Elem n v ch a)) "MMultiscripts" "_postscript_latex") [] (postscript_latex (map kid_of ch)).
Proof.
  intros F K HK h S H. unfold postscript_latex, is_prescripts_nth, convert_nth.
  destruct ch as [|c0 [|c1 [|c2 ch]]]; senter; srun.
Qed.
Local Arguments prescript_latex : simpl never.
Local Arguments postscript_latex : simpl never.
Lemma mmultiscripts_ok n v ch a : Forall kid_ok ch ->
  does 2 (VMethod (wrap_object pi "MMultiscripts" (Elem n v ch a)) "MMultiscripts" "convert") [] (MMultiscripts_convert n (map kid_of ch)).
Proof.
  intros F K HK h S H. unfold MMultiscripts_convert, convert_nth. destruct ch as [|c0 [|c1 [|c2 ch]]]. 1-3: senter; srun.
  pose proof (prescript_ok n v _ a F) as Hpre. pose proof (postscript_ok n v _ a F) as Hpost. cbn [map] in Hpre, Hpost. senter; srun.
Qed.
End More.
