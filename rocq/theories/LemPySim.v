(** The converters of usecases.py against the model: rules.  The memory of the interpreter and the heap of the model have the same
    attribute dictionaries, [pi l] being where the interpreter keeps the one that the model keeps at [l]. *)
From Coq Require Import String.
From Verif Require Export LemPyMText LemBase.
Local Open Scope string_scope.
Local Open Scope list_scope.

Global Arguments bind : simpl never.
Global Arguments elem_value : simpl never.
Global Arguments read_attributes : simpl never.
Global Arguments kid_convert : simpl never.
Global Arguments convert_all : simpl never.
Global Arguments hget : simpl never.
Global Arguments to_latex_converter : simpl never.
Global Arguments parser_error : simpl never.
Global Arguments generic_wrap : simpl never.
Global Arguments paren_wrap : simpl never.
Global Arguments bracket_wrap : simpl never.
Global Arguments paren_wrap_if_more_than_one_char : simpl never.
Global Arguments normalize : simpl never.
Global Arguments sep_join : simpl never.
Global Arguments newline : simpl never.
Global Arguments under_over_apply : simpl never.

Section Sim.
Variable pi : loc -> nat.
Variable L : loc -> Prop.
Definition R (h : heap) (S : memory) : Prop := forall l, L l -> l < length h /\ nth_error (dicts S) (pi l) = Some (hget h l).
Lemma R_grown h S S' : grown S S' -> R h S -> R h S'.
Proof. intros G H l Hl. destruct (H l Hl) as (H1 & H2). split; [exact H1|]. eapply grown_dict; eauto. Qed.
Lemma R_read h S l : R h S -> L l -> nth_error (dicts S) (pi l) = Some (hget h l).
Proof. intros H Hl. apply H, Hl. Qed.

Definition outcome {A B} (g : A -> B) (r : res A) : out B := match r with Ok a => Done (g a) | Raise e => Raised (parser_error e) end.
(** The computation does in memory [S] what the model does: the same heap, the same result. *)
Definition sims (K : nat) {A B} (p : nat -> MM B) (S : memory) (o : heap * res A) (g : A -> B) : Prop :=
  exists S', R (fst o) S' /\ evs K p S S' (outcome g (snd o)).
Lemma sims_ret {K} {A B} S h (a : A) (b : B) g : R h S -> b = g a -> sims K (fun _ => Ret b) S (ret a h) g.
Proof. intros H ->. exists S. split; [exact H | apply evs_ret]. Qed.
Lemma sims_throw {K} {A B} S h e v (g : A -> B) : R h S -> v = parser_error e -> sims K (fun _ => Throw v) S (raise e h) g.
Proof. intros H ->. exists S. split; [exact H | apply evs_throw]. Qed.
Lemma sims_bnd {K} {A B A' B'} (p : nat -> MM B) (k : nat -> B -> MM B') (m : M A) (km : A -> M A') S h g1 g :
  sims K p S (m h) g1 -> (forall a h' S', R h' S' -> sims K (fun n => k n (g1 a)) S' (km a h') g) -> sims K (fun n => bnd (p n) (k n)) S (bind m km h) g.
Proof.
  intros (S' & H' & E) H. unfold bind. destruct (m h) as [h' [a|e]]; cbn [fst snd outcome] in *.
  - destruct (H a h' S' H') as (S2 & H2 & E2). exists S2. split; [exact H2 | eapply evs_bnd; eauto].
  - exists S'. split; [exact H' | apply evs_bnd_raised; exact E].
Qed.
Lemma sims_pure {K} {A B B'} (p : nat -> MM B) (k : nat -> B -> MM B') S h (o : heap * res A) v g :
  R h S -> calc K S p v -> (forall S', R h S' -> grown S S' -> sims K (fun n => k n v) S' o g) -> sims K (fun n => bnd (p n) (k n)) S o g.
Proof.
  intros H C W. destruct (C S (grown_refl S)) as (S' & G & E). destruct (W S' (R_grown _ _ _ G H) G) as (S2 & H2 & E2).
  exists S2. split; [exact H2 | eapply evs_bnd; eauto].
Qed.
Lemma sims_value {K} {A B} (p : nat -> MM B) S h (a : A) v g : R h S -> calc K S p v -> v = g a -> sims K p S (ret a h) g.
Proof. intros H C ->. destruct (C S (grown_refl S)) as (S' & G & E). exists S'. split; [exact (R_grown _ _ _ G H) | exact E]. Qed.
Lemma sims_assoc {K} {A B B' B''} (m : nat -> MM B) (k1 : nat -> B -> MM B') (k2 : nat -> B' -> MM B'') S (o : heap * res A) g :
  sims K (fun n => bnd (m n) (fun a => bnd (k1 n a) (k2 n))) S o g -> sims K (fun n => bnd (bnd (m n) (k1 n)) (k2 n)) S o g.
Proof. intros (S' & H & E). exists S'. split; [exact H | apply evs_assoc; exact E]. Qed.
Lemma sims_last {K} {A B} (p : nat -> MM B) S (o : heap * res A) g : sims K p S o g -> sims K (fun n => bnd (p n) (fun a => Ret a)) S o g.
Proof.
  intros (S' & H & E). exists S'. split; [exact H|]. destruct (snd o); cbn in *; [eapply evs_bnd; [exact E | apply evs_ret] | apply evs_bnd_raised; exact E].
Qed.
Lemma sims_dict {K} {A B} r d f (k : nat -> value -> MM B) S (o : heap * res A) g :
  nth_error (dicts S) r = Some d -> sims K (fun n => k n (f d)) S o g -> sims K (fun n => Act (with_dict r f) (k n)) S o g.
Proof. intros H (S' & H' & E). exists S'. split; [exact H'|]. eapply evs_act; [unfold with_dict; rewrite H; reflexivity | exact E]. Qed.
Lemma sims_read {K} {B A'} (p : nat -> MM B) (km : dict str -> M A') l S h (g : A' -> B) :
  sims K p S (km (hget h l) h) g -> sims K p S (bind (read_attributes l) km h) g.
Proof. intros H. exact H. Qed.

Section Sem.
Variable word_char : N -> bool.
Variable parse_string : str -> res document.
Notation C := (call word_char parse_string).
Notation "'gives' k f args v" := (forall K (HK : k <= K) S0, calc K S0 (fun n => C n f args []) v) (at level 10, k at level 9, f at level 9, args at level 9, v at level 9).
Lemma sims_call {K} {A} f args kws S (o : heap * res A) g :
  0 < K -> sims (pred K) (fun n => call_value word_char parse_string (C n) n f args kws) S o g -> sims K (fun n => C n f args kws) S o g.
Proof. intros HK (S' & G & E). exists S'. split; [exact G | apply evs_call; [exact HK | exact E]]. Qed.

(** ** Elements *)
Notation el := (elem_value pi).
Lemma name_ok e : gives 1 (VMethod (el e) "GenericMathMLElement" "name") [] (VStr (e_name e)).
Proof. destruct e; unfold elem_value. enter. run_all. Qed.
Lemma name_at e K (HK : 1 <= K) S0 : calc K S0 (fun n => attribute (C n) (el e) "name") (VStr (e_name e)).
Proof. pose proof (name_ok e) as H. destruct e. exact (H K HK S0). Qed.
Lemma value_ok e : gives 1 (VMethod (el e) "GenericMathMLElement" "value") [] (VStr (e_value e)).
Proof. destruct e; unfold elem_value. enter. run_all. Qed.
Lemma value_at e K (HK : 1 <= K) S0 : calc K S0 (fun n => attribute (C n) (el e) "value") (VStr (e_value e)).
Proof. pose proof (value_ok e) as H. destruct e. exact (H K HK S0). Qed.
Lemma children_ok e : gives 1 (VMethod (el e) "GenericMathMLElement" "children") [] (VList (map el (e_children e))).
Proof. destruct e; unfold elem_value. enter. run_all. Qed.
Lemma children_at e K (HK : 1 <= K) S0 : calc K S0 (fun n => attribute (C n) (el e) "children") (VList (map el (e_children e))).
Proof. pose proof (children_ok e) as H. destruct e. exact (H K HK S0). Qed.
Lemma attributes_ok e : gives 1 (VMethod (el e) "GenericMathMLElement" "attributes") [] (VDict (pi (e_attributes e))).
Proof. destruct e; unfold elem_value. enter. run_all. Qed.
Lemma attributes_at e K (HK : 1 <= K) S0 : calc K S0 (fun n => attribute (C n) (el e) "attributes") (VDict (pi (e_attributes e))).
Proof. pose proof (attributes_ok e) as H. destruct e. exact (H K HK S0). Qed.

(** ** Converters *)
Definition adapter := VObj "MathMLElementToLatexConverterAdapter" [].
Definition converting (w : value) (n : nat) := bnd (attribute (C n) w "convert") (fun g => C n g [] []).
(** A computation that gives a converter, and a constructor of the model *)
Definition makes (K K2 : nat) (p : nat -> MM value) (mk : heap -> heap * converter) : Prop := forall h S, R h S ->
  exists w S', R (fst (mk h)) S' /\ evs K p S S' (Done w) /\ forall h2 S2, R h2 S2 -> sims K2 (converting w) S2 (snd (mk h) h2) VStr.
Definition kid_of (e : elem) := Kid e (to_latex_converter e).
Definition kid_ok (D : nat) (e : elem) : Prop := forall K, D <= K ->
  makes K K (fun n => C n (VMethod adapter "MathMLElementToLatexConverterAdapter" "to_latex_converter") [el e] []) (to_latex_converter e).
Lemma sims_kid {K D} {A B} e (k : nat -> value -> MM B) (km : str -> M A) S h g :
  kid_ok D e -> D <= K -> R h S -> (forall s h' S', R h' S' -> sims K (fun n => k n (VStr s)) S' (km s h') g) ->
  sims K (fun n => bnd (C n (VMethod adapter "MathMLElementToLatexConverterAdapter" "to_latex_converter") [el e] [])
                   (fun v => bnd (attribute (C n) v "convert") (fun a => bnd (C n a [] []) (k n)))) S (bind (kid_convert (kid_of e)) km h) g.
Proof.
  intros HE HD H F. destruct (HE K HD h S H) as (w & S' & H' & E & W).
  assert (X : sims K (fun n => bnd (converting w n) (k n)) S' (bind (fun h1 => snd (to_latex_converter e h) h1) km (fst (to_latex_converter e h))) g).
  { eapply sims_bnd; [apply W; exact H'|]. intros s h2 S2 H2. apply F. exact H2. }
  destruct X as (S2 & H2 & E2). exists S2. unfold bind, kid_convert, kid_of in *. cbn [kid_mk] in *. destruct (to_latex_converter e h) as [h1 c]; cbn [fst snd] in *.
  split; [exact H2|]. eapply evs_bnd; [exact E|].
  intros n Hn. transitivity (run (bnd (converting w n) (k n)) S'); [|apply E2; exact Hn]. unfold converting.
  rewrite !run_bnd. destruct (run (attribute (C n) w "convert") S') as [S3 [a|x|]]; try reflexivity. rewrite !run_bnd. reflexivity.
Qed.
Lemma sims_all {K D} {A B} ch (k : nat -> list (list value) -> MM B) (km : list str -> M A) S h g :
  Forall (kid_ok D) ch -> D <= K -> R h S -> (forall ss h' S', R h' S' -> sims K (fun n => k n (map (fun s => [VStr s]) ss)) S' (km ss h') g) ->
  sims K (fun n => bnd (mapM (fun w => bnd (bnd (bnd (C n (VMethod adapter "MathMLElementToLatexConverterAdapter" "to_latex_converter") [w] [])
                                   (fun v => attribute (C n) v "convert")) (fun a => C n a [] [])) (fun u => Ret [u])) (map el ch)) (k n))
    S (bind (convert_all (map kid_of ch)) km h) g.
Proof.
  intros F HD H HK. eapply sims_bnd with (g1 := map (fun s => [VStr s])); [|intros; apply HK; assumption]. clear HK.
  revert h S H. induction F as [|e ch He F IH]; intros h S H; cbn [map mapM convert_all]; [apply sims_ret; auto|].
  repeat apply sims_assoc. apply (sims_kid (D := D)); [exact He | exact HD | exact H|]. intros s h' S' H'.
  cbn [bnd].
  eapply sims_bnd; [apply IH; exact H'|]. intros ss h2 S2 H2. apply sims_ret; auto.
Qed.
End Sem.
End Sim.
