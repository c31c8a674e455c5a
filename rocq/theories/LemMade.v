(** Programs that make and run converters: the source does what the model does (for C87). *)
From Coq Require Import String.
From Verif Require Export LemShared SpecMade.
From Verif Require Export LemPyElements.
Local Open Scope string_scope.
Local Open Scope list_scope.

Section Made.
Variable word_char : N -> bool.
Variable parse_string : str -> res document.
Local Notation ends := (expression_ends word_char parse_string).
Local Notation performed := (performed word_char parse_string).

Lemma ends_same r e S S1 o1 S2 o2 : ends r e S S1 o1 -> ends r e S S2 o2 -> S1 = S2 /\ o1 = o2.
Proof.
  intros (n1 & H1) (n2 & H2). specialize (H1 (n1 + n2) ltac:(lia)). specialize (H2 (n1 + n2) ltac:(lia)). rewrite H1 in H2. injection H2 as -> ->. auto.
Qed.
Lemma performed_same acts made S S1 os1 : performed acts made S S1 os1 -> forall S2 os2, performed acts made S S2 os2 -> S1 = S2 /\ os1 = os2.
Proof.
  induction 1 as [made S|e acts made c S S1 S2 os E P IH|i acts made c S S1 S2 o os N E P IH|i acts made S S2 os N P IH]; intros S3 os3 Q.
  - inversion Q; subst; auto.
  - inversion Q as [|e' acts' made' c' X1 X2 X3 X4 E' P'| |]; subst. destruct (ends_same _ _ _ _ _ _ _ E E') as [<- X]. injection X as <-. exact (IH _ _ P').
  - inversion Q as [| |i' acts' made' c' X1 X2 X3 o' X4 N' E' P'|i' acts' made' X1 X2 X3 N' P']; subst; [|congruence]. rewrite N in N'. injection N' as <-.
    destruct (ends_same _ _ _ _ _ _ _ E E') as [<- <-]. destruct (IH _ _ P') as [<- <-]. auto.
  - inversion Q as [| |i' acts' made' c' X1 X2 X3 o' X4 N' E' P'|i' acts' made' X1 X2 X3 N' P']; subst; [congruence|]. exact (IH _ _ P').
Qed.

(** A converter object that does what a converter of the model does. *)
Definition does (n : nat) (v : value) (c : converter) : Prop :=
  forall h S, holds n h S -> exists S', ends [("converter", v)] convert_expression S S' (as_source (snd (c h))) /\ holds n (fst (c h)) S'.

Lemma Forall2_nth {A B} (R : A -> B -> Prop) l l' i : Forall2 R l l' ->
  match nth_error l i, nth_error l' i with Some a, Some b => R a b | None, None => True | _, _ => False end.
Proof. intros F. revert i. induction F as [|a b l l' H F IH]; intros [|i]; cbn; auto. apply IH. Qed.

Lemma performed_model n acts : forall vs cs h S, Forall2 (does n) vs cs -> (forall e, In e (subjects_of acts) -> forall l, In l (locs e) -> l < n) ->
  holds n h S -> exists S', performed acts vs S S' (map as_source (snd (perform acts cs h))) /\ holds n (fst (perform acts cs h)) S'.
Proof.
  induction acts as [|[e|i] acts IH]; intros vs cs h S F B H; cbn [perform].
  - exists S. split; [constructor|exact H].
  - destruct (elements_source word_char parse_string e h n S) as (w & S1 & E1 & H1 & D); [intros l; apply B; now left | exact H|].
    destruct (to_latex_converter e h) as [h1 c]. cbn [fst snd] in *.
    destruct (IH (vs ++ [w]) (cs ++ [c]) h1 S1) as (S' & P & H'); [|intros f I; apply B; now right|exact H1|].
    + apply Forall2_app; [exact F|]. constructor; [exact D|constructor].
    + exists S'. split; [econstructor; eassumption|exact H'].
  - assert (B' : forall e, In e (subjects_of acts) -> forall l, In l (locs e) -> l < n) by exact B.
    pose proof (Forall2_nth _ _ _ i F) as Fi. destruct (nth_error vs i) as [w|] eqn:Ev, (nth_error cs i) as [c|] eqn:Ec; try contradiction.
    + destruct (Fi h S H) as (S1 & E1 & H1). destruct (c h) as [h1 r] eqn:Ch. cbn [fst snd] in *.
      destruct (IH vs cs h1 S1 F B' H1) as (S' & P & H'). destruct (perform acts cs h1) as [h2 rs]. cbn [fst snd map] in *.
      exists S'. split; [econstructor; eassumption|exact H'].
    + destruct (IH vs cs h S F B' H) as (S' & P & H'). exists S'. split; [apply performed_none; assumption|exact H'].
Qed.

Lemma holds_all S : holds (length (dicts S)) (dicts S) S.
Proof. split; auto. Qed.

Lemma program_source acts S : (forall e, In e (subjects_of acts) -> in_heap (dicts S) e) ->
  exists S', performed acts [] S S' (map as_source (snd (perform acts [] (dicts S)))) /\ holds (length (dicts S)) (fst (perform acts [] (dicts S))) S'.
Proof. intros B. apply performed_model; [constructor|exact B|apply holds_all]. Qed.

Lemma perform_once e h : perform [New e; Run 0] [] h = (fst (convert_elem e h), [snd (convert_elem e h)]).
Proof. unfold convert_elem. cbn. destruct (to_latex_converter e h) as [h1 c]. cbn. destruct (c h1) as [h2 r]. reflexivity. Qed.

Lemma once_source e S : in_heap (dicts S) e -> exists S', converted_once word_char parse_string e S S' (as_source (snd (convert_elem e (dicts S))))
  /\ holds (length (dicts S)) (fst (convert_elem e (dicts S))) S'.
Proof.
  intros B. destruct (program_source [New e; Run 0] S) as (S' & P & H). { intros f [<-|[]]. exact B. } rewrite perform_once in P, H. eauto.
Qed.
Lemma once_same e S S1 S2 o1 o2 : converted_once word_char parse_string e S S1 o1 -> converted_once word_char parse_string e S S2 o2 -> S1 = S2 /\ o1 = o2.
Proof. intros A B. destruct (performed_same _ _ _ _ _ A _ _ B) as [-> E]. injection E as ->. auto. Qed.
Lemma once_latex e S S' o : in_heap (dicts S) e -> unmixed (dicts S) e e -> converted_once word_char parse_string e S S' o ->
  o = as_source (latex_of (tree_at (dicts S) e)).
Proof.
  intros B U C. destruct (once_source e S B) as (S2 & C2 & _). destruct (once_same _ _ _ _ _ _ C C2) as [_ ->].
  destruct (convert_shared e (dicts S) B U) as (W & _ & E & _). rewrite E. reflexivity.
Qed.

Lemma made_then_run e S S1 c S2 : in_heap (dicts S) e -> in_heap (dicts S2) e -> ends [("element", object_of e)] make_expression S S1 (Done c) ->
  exists S3, ends [("converter", c)] convert_expression S2 S3 (as_source (snd (snd (to_latex_converter e (dicts S)) (dicts S2)))).
Proof.
  intros B B2 M. set (n := Nat.min (length (dicts S)) (length (dicts S2))).
  destruct (elements_source word_char parse_string e (dicts S) n S) as (w & S1' & E1 & _ & D).
  - intros l I. specialize (B l I). specialize (B2 l I). unfold n. lia.
  - split; [unfold n; lia|reflexivity].
  - destruct (ends_same _ _ _ _ _ _ _ M E1) as [_ X]. injection X as ->. destruct (D (dicts S2) S2) as (S3 & E3 & _); [split; [unfold n; lia|reflexivity]|]. eauto.
Qed.
End Made.
