(** el_to_tex/adapter.py: the source makes the converters that the model makes. *)
From Coq Require Import String.
From Verif Require Export LemPyTable.
Local Open Scope string_scope.
Local Open Scope list_scope.
Global Arguments converter_table : simpl never.
Section Adapter.
Variable pi : loc -> nat.
Variable L : loc -> Prop.
Hypothesis apart : forall l l', L l -> L l' -> pi l = pi l' -> l = l'.
Variable word_char : N -> bool.
Variable parse_string : str -> res document.
Notation C := (call word_char parse_string).
Notation "'gives' k f args v" := (forall K (HK : k <= K) S0, calc K S0 (fun n => C n f args []) v) (at level 10, k at level 9, f at level 9, args at level 9, v at level 9).
Notation el := (elem_value pi).
Notation kid_ok := (kid_ok pi L word_char parse_string).
Notation makes := (makes pi L word_char parse_string).
Notation converting := (converting word_char parse_string).
Notation A := "MathMLElementToLatexConverterAdapter".

Lemma makes_calc K K2 p (mk : heap -> heap * converter) : (forall h S, R pi L h S -> exists w, calc K S p w /\ fst (mk h) = h /\ forall h2 S2, R pi L h2 S2 -> sims pi L K2 (converting w) S2 (snd (mk h) h2) VStr) -> makes K K2 p mk.
Proof.
  intros Q h S H. destruct (Q h S H) as (w & Cw & E & W). destruct (Cw S (grown_refl S)) as (S' & G & Ew).
  exists w, S'. rewrite E. split; [exact (R_grown pi L _ _ _ G H)|]. split; [exact Ew | exact W].
Qed.
Lemma makes_plain K K2 p w (m : M str) : (forall S0, calc K S0 p w) -> (forall h2 S2, R pi L h2 S2 -> sims pi L K2 (converting w) S2 (m h2) VStr) -> makes K K2 p (fun h => (h, m)).
Proof. intros Q W. apply makes_calc. intros h S H. exists w. auto. Qed.
Lemma makes_after {K K2} {B} (p : nat -> MM B) v k mk : (forall S0, calc K S0 p v) -> makes K K2 (fun n => k n v) mk -> makes K K2 (fun n => bnd (p n) (k n)) mk.
Proof.
  intros Q W h S H. destruct (Q S S (grown_refl S)) as (S1 & G & E1). destruct (W h S1 (R_grown pi L _ _ _ G H)) as (w & S' & H' & E & W').
  exists w, S'. split; [exact H'|]. split; [eapply evs_bnd; [exact E1 | exact E] | exact W'].
Qed.
Lemma makes_assoc {K K2} {B B'} (m : nat -> MM B) (k1 : nat -> B -> MM B') k2 mk :
  makes K K2 (fun n => bnd (m n) (fun a => bnd (k1 n a) (k2 n))) mk -> makes K K2 (fun n => bnd (bnd (m n) (k1 n)) (k2 n)) mk.
Proof. intros W h S H. destruct (W h S H) as (w & S' & H' & E & W'). exists w, S'. split; [exact H'|]. split; [apply evs_assoc; exact E | exact W']. Qed.
Lemma makes_last K K2 p mk : makes K K2 p mk -> makes K K2 (fun n => bnd (p n) (fun a => Ret a)) mk.
Proof. intros W h S H. destruct (W h S H) as (w & S' & H' & E & W'). exists w, S'. split; [exact H'|]. split; [eapply evs_bnd; [exact E | apply evs_ret] | exact W']. Qed.
Lemma makes_call K K2 f args kws mk : 0 < K -> makes (pred K) K2 (fun n => call_value word_char parse_string (C n) n f args kws) mk -> makes K K2 (fun n => C n f args kws) mk.
Proof. intros HK W h S H. destruct (W h S H) as (w & S' & H' & E & W'). exists w, S'. split; [exact H'|]. split; [apply evs_call; [exact HK | exact E] | exact W']. Qed.

Definition factories : list (str * value) :=
  let make m := VMethod adapter A m in
  [(lit "math", make "_make_math_tag_converter"); (lit "mi", VClass "MI"); (lit "mo", VClass "MO"); (lit "mn", VClass "MN");
   (lit "msqrt", make "_make_msqrt_tag_converter"); (lit "mfenced", make "_make_mfenced_tag_converter"); (lit "mfrac", make "_make_mfrac_tag_converter");
   (lit "mroot", make "_make_mroot_tag_converter"); (lit "maction", make "_make_maction_tag_converter"); (lit "menclose", make "_make_menclose_tag_converter");
   (lit "merror", make "_make_merror_tag_converter"); (lit "mphantom", VClass "Void"); (lit "msup", make "_make_msup_tag_converter");
   (lit "msub", make "_make_msub_tag_converter"); (lit "msubsup", make "_make_msubsup_tag_converter"); (lit "mmultiscripts", make "_make_mmultiscripts_tag_converter");
   (lit "mtext", VClass "MText"); (lit "munderover", make "_make_munderover_tag_converter"); (lit "mtable", make "_make_mtable_tag_converter");
   (lit "mtr", make "_make_mtr_tag_converter"); (lit "mover", make "_make_generic_under_over_converter"); (lit "munder", make "_make_generic_under_over_converter");
   (lit "mrow", make "_make_generic_spacing_wrapper"); (lit "mpadded", make "_make_generic_spacing_wrapper")].
Lemma factories_ok : gives 4 (VMethod adapter A "_from_mathml_element_to_latex_converter") [] (VMap factories).
Proof. enter. run_all. Qed.
Lemma void_name S0 K (HK : 4 <= K) : calc K S0 (fun n => attribute (C n) (VObj "VoidMathMLElement" []) "name") (VStr (lit "void")).
Proof. enter. run_all. Qed.

Lemma get_related {X Y} (P : X -> Y -> Prop) t t' k d d' :
  Forall2 (fun a b => fst a = fst b /\ P (snd a) (snd b)) t t' -> P d d' -> P (match dget t k with Some v => v | None => d end) (dget_or t' k d').
Proof.
  intros F Hd. unfold dget_or. induction F as [|[k1 a] [k2 b] t t' (E & Hp) F IH]; [exact Hd|]. cbn [fst snd] in *. subst k2. 
  change (dget ((k1, a) :: t) k) with (if str_eqb k k1 then Some a else dget t k). change (dget ((k1, b) :: t') k) with (if str_eqb k k1 then Some b else dget t' k).
  destruct (str_eqb k k1); [exact Hp | exact IH].
Qed.

Section One.
Variables (n v : str) (ch : list elem) (a : loc).
Notation e := (Elem n v ch a).
Hypothesis Ie : inside L e.
Variable D : nat.
Hypothesis HD : 14 <= D.
Hypothesis HH : list_max (map height ch) + 4 <= D.
Hypothesis Kch : Forall (kid_ok D) ch.
Definition maker (f : value) (c : converter_class) : Prop := forall K K2 (HK : D + 1 <= K) (HK2 : D + 2 <= K2), makes K K2 (fun k => C k f [el e] []) (c n v (map kid_of ch) a).
Lemma La : L a.
Proof. exact (proj1 (inside_parts _ _ _ _ _ Ie)). Qed.
Ltac made w := unfold maker, plain; intros K K2 HK HK2; eapply (makes_plain _ _ _ w); [enter; run_all | intros h2 S2 H2; unfold LemPySim.converting; simple].
Lemma math_made : maker (VMethod adapter A "_make_math_tag_converter") (plain (fun _ _ ks _ => Math_convert ks)).
Proof. made (math_object pi e). eapply math_ok; first [exact La | eassumption | lia]. Qed.
Lemma generic_made : maker (VMethod adapter A "_make_generic_spacing_wrapper") generic_spacing_wrapper.
Proof. unfold generic_spacing_wrapper. made (plain_object pi "GenericSpacingWrapper" e). eapply generic_ok; first [exact La | eassumption | lia]. Qed.
Lemma msqrt_made : maker (VMethod adapter A "_make_msqrt_tag_converter") (plain (fun _ _ ks _ => MSqrt_convert ks)).
Proof. made (plain_object pi "MSqrt" e). eapply msqrt_ok; first [exact La | eassumption | lia]. Qed.
Lemma mfrac_made : maker (VMethod adapter A "_make_mfrac_tag_converter") (plain (fun n _ ks a => MFrac_convert n ks a)).
Proof. made (wrap_object pi "MFrac" e). eapply mfrac_ok; first [exact La | eassumption | lia]. Qed.
Lemma mroot_made : maker (VMethod adapter A "_make_mroot_tag_converter") (plain (fun n _ ks _ => MRoot_convert n ks)).
Proof. made (plain_object pi "MRoot" e). eapply mroot_ok; first [exact La | eassumption | lia]. Qed.
Lemma maction_made : maker (VMethod adapter A "_make_maction_tag_converter") (plain (fun _ _ ks a => MAction_convert ks a)).
Proof. made (plain_object pi "MAction" e). eapply maction_ok; first [exact La | eassumption | lia]. Qed.
Lemma merror_made : maker (VMethod adapter A "_make_merror_tag_converter") (plain (fun _ _ ks _ => MError_convert ks)).
Proof. made (plain_object pi "MError" e). eapply merror_ok; first [exact La | eassumption | lia]. Qed.
Lemma msup_made : maker (VMethod adapter A "_make_msup_tag_converter") (plain (fun n _ ks _ => MSup_convert n ks)).
Proof. made (script_object pi "MSup" e). eapply msup_ok; first [exact La | eassumption | lia]. Qed.
Lemma msub_made : maker (VMethod adapter A "_make_msub_tag_converter") (plain (fun n _ ks _ => MSub_convert n ks)).
Proof. made (script_object pi "MSub" e). eapply msub_ok; first [exact La | eassumption | lia]. Qed.
Lemma msubsup_made : maker (VMethod adapter A "_make_msubsup_tag_converter") (plain (fun n _ ks _ => MSubsup_convert n ks)).
Proof. made (script_object pi "MSubsup" e). eapply msubsup_ok; first [exact La | eassumption | lia]. Qed.
Lemma mmultiscripts_made : maker (VMethod adapter A "_make_mmultiscripts_tag_converter") (plain (fun n _ ks _ => MMultiscripts_convert n ks)).
Proof. made (wrap_object pi "MMultiscripts" e). eapply mmultiscripts_ok; first [exact La | eassumption | lia]. Qed.
Lemma munderover_made : maker (VMethod adapter A "_make_munderover_tag_converter") (plain (fun n _ ks _ => MUnderover_convert n ks)).
Proof. made (plain_object pi "MUnderover" e). eapply munderover_ok; first [exact La | eassumption | lia]. Qed.
Lemma mtr_made : maker (VMethod adapter A "_make_mtr_tag_converter") (plain (fun _ _ ks _ => MTr_convert ks)).
Proof. made (plain_object pi "MTr" e). eapply mtr_ok; first [exact La | eassumption | lia]. Qed.
Lemma under_over_made : maker (VMethod adapter A "_make_generic_under_over_converter") (plain (fun n _ ks _ => GenericUnderOver_convert n ks)).
Proof. made (plain_object pi "GenericUnderOver" e). eapply under_over_ok; first [exact La | eassumption | lia]. Qed.
Lemma mi_made : maker (VClass "MI") (plain (fun _ v _ a => MI_convert v a)).
Proof. made (mi_object normalizer (el e)). eapply mi_does; first [exact La | eassumption | lia]. Qed.
Lemma mo_made : maker (VClass "MO") (plain (fun _ v _ _ => MO_convert v)).
Proof. made (VObj "MO" [("normalizer", normalizer); ("_math_element", el e)]). eapply mo_does; first [exact La | eassumption | lia]. Qed.
Lemma mn_made : maker (VClass "MN") (plain (fun _ v _ _ => MN_convert v)).
Proof. made (VObj "MN" [("_normalizer", normalizer); ("_math_element", el e)]). eapply mn_does; first [exact La | eassumption | lia]. Qed.
Lemma void_made : maker (VClass "Void") (plain (fun _ _ _ _ => Void_convert)).
Proof. made (VObj "Void" [("_math_element", el e)]). eapply void_ok; first [exact La | eassumption | lia]. Qed.
Lemma mtext_made : maker (VClass "MText") (plain (fun _ v _ a => MText_convert v a)).
Proof. made (VObj "MText" [("_math_element", el e)]). eapply mtext_does; first [exact La | eassumption | lia]. Qed.
Lemma menclose_made : maker (VMethod adapter A "_make_menclose_tag_converter") (fun _ _ ks a => MEnclose_new ks a).
Proof.
  intros K K2 HK HK2. apply makes_calc. intros h S H. pose proof (R_read pi L h S a H La) as Hd.
  exists (VObj "MEnclose" [("_math_element", el e); ("_adapter", adapter); ("_notation", VStr (dget_or (hget h a) (lit "notation") (lit "longdiv")))]).
  split; [enter; run_all|]. split; [reflexivity|]. intros h2 S2 H2. unfold LemPySim.converting. simple. eapply menclose_ok; first [exact La | eassumption | lia].
Qed.
Lemma chars_of s : map (fun c => VStr [c]) s = map VStr (map (fun c => [c]) s).
Proof. rewrite map_map. reflexivity. Qed.
Lemma mfenced_made : maker (VMethod adapter A "_make_mfenced_tag_converter") (fun _ _ ks a => MFenced_new ks a).
Proof.
  intros K K2 HK HK2. apply makes_calc. intros h S H. pose proof (R_read pi L h S a H La) as Hd.
  exists (fenced_object pi e (dget_or (hget h a) (lit "open") []) (dget_or (hget h a) (lit "close") []) (map (fun c => [c]) (dget_or (hget h a) (lit "separators") []))).
  split; [unfold fenced_object; rewrite <- chars_of; enter; run_all|]. split; [reflexivity|]. intros h2 S2 H2. unfold LemPySim.converting. simple. eapply mfenced_ok; first [exact La | eassumption | lia].
Qed.
Lemma mtable_made : maker (VMethod adapter A "_make_mtable_tag_converter") (fun _ _ ks a => MTable_new ks a).
Proof.
  intros K K2 HK HK2 h S H. pose proof (proj2 (inside_parts _ _ _ _ _ Ie)) as Ich.
  destruct (mtable_new pi L apart word_char parse_string D HD n v ch a h S (pred K) ltac:(lia) Ich H) as (S' & H' & E). cbn [fst snd outcome] in *.
  exists (plain_object pi "MTable" e), S'. split; [unfold MTable_new; cbn [fst]; rewrite kid_elems; exact H'|]. split.
  - apply evs_call; [lia|]. unfold call_value. simple. repeat apply evs_assoc. eapply evs_bnd; [exact E|]. simple. apply evs_ret.
  - intros h2 S2 H2. unfold LemPySim.converting. simple. eapply mtable_ok; first [exact La | eassumption | lia].
Qed.
Lemma all_made : Forall2 (fun x y => fst x = fst y /\ maker (snd x) (snd y)) factories converter_table.
Proof.
  unfold factories, converter_table. repeat (apply Forall2_cons; [split; [reflexivity|]; cbn [snd]|]); try apply Forall2_nil.
  all: first [exact math_made | exact mi_made | exact mo_made | exact mn_made | exact msqrt_made | exact mfenced_made | exact mfrac_made | exact mroot_made
    | exact maction_made | exact menclose_made | exact merror_made | exact void_made | exact msup_made | exact msub_made | exact msubsup_made
    | exact mmultiscripts_made | exact mtext_made | exact munderover_made | exact mtable_made | exact mtr_made | exact under_over_made | exact generic_made].
Qed.
Lemma one_ok : kid_ok (D + 2) e.
Proof.
  unfold LemPySim.kid_ok. intros K HK. assert (X : maker (match dget factories (py_or n (lit "void")) with Some f => f | None => VMethod adapter A "_make_generic_spacing_wrapper" end)
    (dget_or converter_table (py_or n (lit "void")) generic_spacing_wrapper)) by (apply get_related; [exact all_made | exact generic_made]).
  change (to_latex_converter e) with (make_converter n v (map kid_of ch) a). unfold make_converter, maker in *.
  apply makes_call; [lia|]. unfold call_value. simple. repeat apply makes_assoc. eapply makes_after; [intros; apply name_at; lia|]. cbn [e_name]. simple.
  eapply makes_after with (v := VStr (py_or n (lit "void"))).
  { intros S0. unfold py_or. destruct (truthy n); [apply calc_ret|]. eapply calc_bnd; [|apply void_name; lia]. enter. run_all. }
  simple. repeat apply makes_assoc. eapply makes_after; [apply factories_ok; lia|]. simple. repeat apply makes_assoc.
  eapply makes_after with (v := match dget factories (py_or n (lit "void")) with Some f => f | None => VMethod adapter A "_make_generic_spacing_wrapper" end).
  { set (F := factories). clearbody F. enter. run_all. }
  set (w := match _ with Some _ => _ | None => _ end) in *. clearbody w. simple. repeat apply makes_assoc. apply makes_last. apply X; lia.
Qed.
End One.
(** Every element whose attributes are known *)
Lemma element_ok e : inside L e -> kid_ok (2 * height e + 14) e.
Proof.
  induction e as [n v ch a IH] using elem_ind'. intros I. cbn [height].
  replace (2 * S (list_max (map height ch)) + 14) with (2 * list_max (map height ch) + 14 + 2) by lia. apply one_ok; [exact I | lia | lia|].
  pose proof (proj2 (inside_parts _ _ _ _ _ I)) as Ich. rewrite Forall_forall in *. intros c Hc K HK. apply (IH c Hc (Ich c Hc)). pose proof (height_in _ _ Hc). lia.
Qed.
End Adapter.
