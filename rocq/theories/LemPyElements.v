(** Elements made by hand, in the source. *)
From Coq Require Import String.
From Verif Require Export SpecDepth LemPyThreads.
Local Open Scope string_scope.
Local Open Scope list_scope.
Section Elements.
Variable word_char : N -> bool.
Variable parse_string : str -> res document.
Notation C := (call word_char parse_string).
Lemma object_of_value e : object_of e = elem_value (fun l => l) e.
Proof.
  induction e as [n v ch a IH] using elem_ind'. unfold elem_value; fold elem_value. cbn [object_of]. do 4 f_equal. f_equal. f_equal.
  induction IH as [|e l He IH IHl]; [reflexivity|]. cbn. rewrite He, IHl. reflexivity.
Qed.
Lemma holds_R n h S : holds n h S <-> R (fun l => l) (fun l => l < n) h S.
Proof.
  unfold holds, R, hget. split.
  - intros [L H] l Hl. split; [lia|]. rewrite (H l Hl). apply nth_error_nth'. lia.
  - intros H. assert (L : n <= length h) by (destruct n as [|n]; [lia | apply (H n); lia]). split; [exact L|].
    intros l Hl. rewrite (proj2 (H l Hl)). symmetry. apply nth_error_nth'. lia.
Qed.
Lemma outcome_source r : outcome VStr r = as_source r.
Proof. destruct r; reflexivity. Qed.
Theorem elements_depth e h n S : (forall l, In l (locs e) -> l < n) -> holds n h S ->
  exists w S1, expression_ends_within (2 * height e + 14) word_char parse_string [("element", object_of e)] make_expression S S1 (Done w) /\ holds n (fst (to_latex_converter e h)) S1
    /\ forall h2 S2, holds n h2 S2 ->
         exists S3, expression_ends_within (2 * height e + 14) word_char parse_string [("converter", w)] convert_expression S2 S3 (as_source (snd (snd (to_latex_converter e h) h2)))
           /\ holds n (fst (snd (to_latex_converter e h) h2)) S3.
Proof.
  intros B H. apply holds_R in H.
  assert (K : LemPySim.kid_ok (fun l => l) (fun l => l < n) word_char parse_string (2 * height e + 14) e) by (apply element_ok; [auto | exact B]).
  destruct (K (2 * height e + 14) (le_n _) h S H) as (w & S1 & H1 & E1 & W). exists w, S1. split; [|split; [apply holds_R, H1|]].
  - rewrite object_of_value. unfold expression_ends_within, make_expression. cbn [eval mapM lookup String.eqb]. 
    change (evs (2 * height e + 14) (fun n => v <~ (v <~ (g <~ Ret (global "MathMLElementToLatexConverterAdapter") ; vs <~ Ret [] ; ws <~ Ret [] ; C n g vs ws) ; attribute (C n) v "to_latex_converter") ; vs <~ (v <~ Ret (elem_value (fun l => l) e) ; Ret [v]) ; ws <~ Ret [] ; C n v vs ws) S S1 (Done w)).
    repeat apply evs_assoc. eapply evs_bnd; [apply evs_ret|]. cbn [bnd]. eapply evs_bnd; [penter; apply evs_ret|]. simple. exact E1.
  - intros h2 S2 H2. apply holds_R in H2. destruct (W h2 S2 H2) as (S3 & H3 & E3). exists S3. split; [|apply holds_R, H3]. rewrite <- outcome_source.
    intros k Hk. specialize (E3 k Hk). rewrite <- E3. unfold converting.
    change (run (g <~ attribute (C k) w "convert" ; C k g [] []) S2 = run (g <~ attribute (C k) w "convert" ; C k g [] []) S2). reflexivity.
Qed.
Theorem elements_source e h n S : (forall l, In l (locs e) -> l < n) -> holds n h S ->
  exists w S1, expression_ends word_char parse_string [("element", object_of e)] make_expression S S1 (Done w) /\ holds n (fst (to_latex_converter e h)) S1
    /\ forall h2 S2, holds n h2 S2 ->
         exists S3, expression_ends word_char parse_string [("converter", w)] convert_expression S2 S3 (as_source (snd (snd (to_latex_converter e h) h2)))
           /\ holds n (fst (snd (to_latex_converter e h) h2)) S3.
Proof.
  intros B H. destruct (elements_depth e h n S B H) as (w & S1 & E1 & H1 & W). exists w, S1. split; [eexists; exact E1|]. split; [exact H1|].
  intros h2 S2 H2. destruct (W h2 S2 H2) as (S3 & E3 & H3). exists S3. split; [eexists; exact E3 | exact H3].
Qed.
Theorem made_source n v ch a S : expression_ends word_char parse_string
  [("n", VStr n); ("v", VStr v); ("c", VList (map object_of ch)); ("a", VDict a)]
  (PCall (PGlobal "GenericMathMLElement") [PName "n"; PName "v"; PName "c"; PName "a"] []) S S (Done (object_of (Elem n v ch a))).
Proof.
  unfold expression_ends.
  exists 1. change (evs 1 (fun k => C k (VClass "GenericMathMLElement") [VStr n; VStr v; VList (map object_of ch); VDict a] []) S S (Done (object_of (Elem n v ch a)))).
  penter. prun. 
Qed.
End Elements.

(** ** At every moment *)
Definition ended {A} (m : MM A) : Prop := match m with Act _ _ => False | _ => True end.
Lemma ended_stays {A} schedule : forall (ms : list (MM A)) S i m, nth_error ms i = Some m -> ended m -> nth_error (fst (interleave schedule ms S)) i = Some m.
Proof.
  induction schedule as [|j rest IH]; intros ms S i m E H; cbn [interleave]; [exact E|]. destruct (nth_error ms j) as [m1|] eqn:Ej; [|apply IH; assumption].
  destruct (turn m1 S) as [m2 S2] eqn:T. apply IH; [|exact H]. destruct (Nat.eq_dec j i) as [->|N]; [|rewrite put_other by exact N; exact E].
  assert (m1 = m) by congruence. subst m1. rewrite (put_same _ _ _ _ Ej). destruct m; cbn in T, H; congruence || contradiction.
Qed.
Lemma interleave_app {A} s1 : forall s2 (ms : list (MM A)) S,
  interleave (s1 ++ s2) ms S = interleave s2 (fst (interleave s1 ms S)) (snd (interleave s1 ms S)).
Proof.
  induction s1 as [|i s1 IH]; intros s2 ms S; cbn [app interleave fst snd]; [reflexivity|]. destruct (nth_error ms i); [|apply IH]. destruct (turn m S). apply IH.
Qed.
Lemma count_occ_count schedule i : count_occ Nat.eq_dec schedule i = count i schedule.
Proof.
  induction schedule as [|j rest IH]; cbn [count_occ count]; [reflexivity|]. destruct (Nat.eq_dec j i) as [->|N].
  - rewrite Nat.eqb_refl, IH. reflexivity.
  - destruct (Nat.eqb_spec i j); [congruence | exact IH].
Qed.
Lemma count_app i s1 s2 : count i (s1 ++ s2) = count i s1 + count i s2.
Proof. induction s1 as [|j s1 IH]; cbn [app count]; [reflexivity|]. destruct (Nat.eqb i j); rewrite IH; reflexivity. Qed.
Lemma count_repeat i n : count i (repeat i n) = n.
Proof. induction n; cbn [repeat count]; [reflexivity|]. rewrite Nat.eqb_refl. congruence. Qed.
Lemma any_moment word_char parse_string texts : exists n0, forall n, n0 <= n -> forall S schedule i xs m,
  nth_error texts i = Some xs -> nth_error (fst (interleave schedule (map (thread word_char parse_string n) texts) S)) i = Some m -> ended m ->
  m = Ret (results word_char parse_string xs).
Proof.
  destruct (threads_ok word_char parse_string texts) as (n0 & H). exists n0. intros n Hn S schedule i xs m Ei Em Ed. destruct (H n Hn S) as (N & K).
  specialize (K (schedule ++ repeat i N) i xs Ei). rewrite count_app, count_repeat, interleave_app in K. rewrite (ended_stays _ _ _ _ _ Em Ed) in K.
  assert (Some m = Some (Ret (results word_char parse_string xs))) by (apply K; lia). congruence.
Qed.
