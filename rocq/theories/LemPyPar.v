(** The interpreter does the same in two memories that differ in where things are. *)
From Coq Require Import String.
From Verif Require Export LemPyRename.
Local Open Scope string_scope.
Local Open Scope list_scope.

Definition same {A} (p : places) (a b : A) : Prop := a = b.
Ltac vcase H :=
  let F := fresh "F" in
  inversion H as [? F | ? ? F | ? ? F | ? ? F | ? ? ? F | ? ? F | ? ? ? ? F | ? ? ? F | ? ? ? F | ? ? ? F]; subst; try discriminate F;
  try match type of F with flat ?v = true => is_var v; destruct v; try discriminate F end.
Ltac cases :=
  repeat match goal with
  | H : Forall2 _ ?l ?l' |- context [match ?l with _ => _ end] => is_var l; inversion H; subst; clear H
  | H : vrel _ ?v ?w |- context [match ?v with _ => _ end] => is_var v; vcase H
  | |- context [match ?s with _ => _ end] => is_var s; match type of s with str => destruct s | N => destruct s | option _ => destruct s | list _ => destruct s end
  end.
Ltac fin := try (constructor; fail); try (apply c_ret; try (apply r_flat; reflexivity); try reflexivity; try assumption; fail).

Lemma lookup_rel p fs fs' a : nsrel p fs fs' ->
  match lookup fs a, lookup fs' a with Some v, Some w => vrel p v w | None, None => True | _, _ => False end.
Proof.
  induction 1 as [|[x v] [y w] l l' [E V] F IH]; cbn; [trivial|]. cbn in E, V. subst y. destruct (String.eqb a x); [exact V | exact IH].
Qed.
Lemma assign_rel p fs fs' a v w : nsrel p fs fs' -> vrel p v w -> nsrel p (assign fs a v) (assign fs' a w).
Proof.
  intros F V. induction F as [|[x u] [y z] l l' [E U] F IH]; cbn; [constructor; [split; [reflexivity | exact V] | constructor]|].
  cbn in E, U. subst y. destruct (String.eqb a x); constructor; auto; split; auto.
Qed.
Lemma done_rel {A} (P : places -> A -> A -> Prop) p (o o' : option A) :
  match o, o' with Some a, Some b => P p a b | None, None => True | _, _ => False end -> crel P p (done o) (done o').
Proof. destruct o, o'; cbn; intros H; try destruct H; constructor. exact H. Qed.
Lemma done_lookup p fs fs' a : nsrel p fs fs' -> crel vrel p (done (lookup fs a)) (done (lookup fs' a)).
Proof. intros F. apply done_rel, lookup_rel, F. Qed.
Lemma done_same {A} p (o : option A) : crel same p (done o) (done o).
Proof. destruct o; constructor; reflexivity. Qed.

Lemma truth_rel p v w : vrel p v w -> crel same p (truth v) (truth w).
Proof.
  intros H. destruct H as [v F | l l' F | r i E | | | | | | |]; cbn [truth]; fin.
  - destruct v; try discriminate F; cbn; fin.
  - destruct F; fin.
  - apply c_with_dict; [exact E|]. intros q d _. fin.
Qed.
Lemma equal_rel p v w v' w' : vrel p v w -> vrel p v' w' -> equal v v' = equal w w'.
Proof. intros H H'. vcase H; vcase H'; reflexivity. Qed.
Lemma is_none_rel p v w : vrel p v w -> is_none v = is_none w.
Proof. intros H. vcase H; reflexivity. Qed.
Lemma strings_rel p l l' : vsrel p l l' -> strings l = strings l'.
Proof. induction 1 as [|v w l l' V F IH]; [reflexivity|]. cbn. rewrite IH. vcase V; reflexivity. Qed.
Lemma member_rel p v w v' w' : vrel p v w -> vrel p v' w' -> crel same p (member v v') (member w w').
Proof.
  intros H H'. vcase H; cbn [member]; fin. vcase H'; fin.
  - rewrite (strings_rel _ _ _ F0). apply done_same.
  - apply c_with_dict; [exact F0|]. intros q d _. fin.
Qed.
Lemma compare_rel p op v w v' w' : vrel p v w -> vrel p v' w' -> crel same p (compare op v v') (compare op w w').
Proof.
  intros H H'. destruct op; cbn [compare].
  1, 2: rewrite (equal_rel _ _ _ _ _ H H'); apply done_same.
  1, 2, 3, 4: vcase H; fin; vcase H'; fin.
  1, 2: vcase H'; fin; apply c_ret; unfold same; rewrite (is_none_rel _ _ _ H); reflexivity.
  - apply member_rel; assumption.
  - eapply crel_bnd; [apply member_rel; eassumption|]. intros q a b _ ->. fin.
Qed.
Lemma binary_rel p op v w v' w' : vrel p v w -> vrel p v' w' -> crel vrel p (binary op v v') (binary op w w').
Proof. intros H H'. destruct op; vcase H; cbn [binary]; fin; vcase H'; fin. Qed.
Lemma text_of_rel p v w : vrel p v w -> crel same p (text_of v) (text_of w).
Proof. intros H. vcase H; cbn [text_of]; fin. destruct (0 <=? z)%Z; fin. Qed.
Lemma vsrel_flat p l : forallb flat l = true -> vsrel p l l.
Proof. induction l as [|a l IH]; cbn; intros H; constructor; apply andb_prop in H; destruct H as [H1 H2]; [apply r_flat, H1 | apply IH, H2]. Qed.
Lemma vsrel_map {A} p (f : A -> value) l : (forall a, flat (f a) = true) -> vsrel p (map f l) (map f l).
Proof. intros H. apply vsrel_flat. induction l; cbn; [reflexivity|]. rewrite H. assumption. Qed.
Lemma items_rel p v w : vrel p v w -> crel (fun q => vsrel q) p (items v) (items w).
Proof. intros H. vcase H; cbn [items]; fin. apply c_ret. apply vsrel_map. reflexivity. Qed.
Lemma Forall2_length {A B} (R : A -> B -> Prop) l l' : Forall2 R l l' -> length l = length l'.
Proof. induction 1; cbn; congruence. Qed.
Lemma nth_rel p l l' i : vsrel p l l' -> match nth_error l i, nth_error l' i with Some a, Some b => vrel p a b | None, None => True | _, _ => False end.
Proof. intros F. revert i. induction F as [|a b l l' V F IH]; intros [|i]; cbn [nth_error]; [exact I | exact I | exact V | apply IH]. Qed.
Lemma py_index_rel p l l' z : vsrel p l l' -> match py_index l z, py_index l' z with Some a, Some b => vrel p a b | None, None => True | _, _ => False end.
Proof.
  intros F. unfold py_index. rewrite (Forall2_length _ _ _ F). destruct (0 <=? z)%Z; [|destruct (_ <? 0)%Z].
  all: try exact I; apply nth_rel, F.
Qed.
Lemma index_rel p v w v' w' : vrel p v w -> vrel p v' w' -> crel vrel p (index v v') (index w w').
Proof.
  intros H H'. vcase H; cbn [index]; fin; vcase H'; fin.
  - destruct (option_map _ _) eqn:E; cbn [or_throw]; [|constructor; apply closed_self; reflexivity].
    destruct (py_index s z); [|discriminate]. injection E as <-. fin.
  - pose proof (py_index_rel p l l' z F) as X. destruct (py_index l z), (py_index l' z); cbn [or_throw]; try contradiction.
    + apply c_ret, X.
    + constructor. apply closed_self. reflexivity.
  - apply c_with_dict; [exact F|]. intros q d _. destruct (dget d s); [fin | constructor; apply closed_self; reflexivity].
Qed.
Lemma slice_rel p v w v' w' v2 w2 : vrel p v w -> vrel p v' w' -> vrel p v2 w2 -> crel vrel p (slice v v' v2) (slice w w' w2).
Proof. intros H H' H2. vcase H; cbn [slice]; fin; vcase H'; fin; vcase H2; fin. destruct (_ && _); fin. Qed.
Lemma node_attribute_rel p n a : crel vrel p (node_attribute n a) (node_attribute n a).
Proof.
  unfold node_attribute. destruct (String.eqb a "nodeType"); [fin|]. destruct n; repeat (destruct (String.eqb _ _); fin).
  - apply c_ret. apply r_list. apply vsrel_map. reflexivity.
  - apply c_ret. destruct children; apply r_flat; reflexivity.
Qed.

Section Par.
Variable word_char : N -> bool.
Variable parse_string : str -> res document.
Lemma regex_of_rel p v w i m : vrel p v w -> crel same p (regex_of word_char v i m) (regex_of word_char w i m).
Proof. intros H. vcase H; cbn [regex_of]; fin; [apply done_same | destruct (_ || _); fin]. Qed.
Lemma substituted_rel p r t s : crel vrel p (substituted r t s) (substituted r t s).
Proof. unfold substituted. destruct (expand t []); fin. Qed.
Lemma any_true_rel p l l' : vsrel p l l' -> crel same p (any_true l) (any_true l').
Proof.
  intros F. assert (X : forall q, wider p q -> crel same q (any_true l) (any_true l')); [|apply X, wider_refl].
  induction F as [|v w l l' V F IH]; intros q Hq; cbn; [fin|]. eapply crel_bnd; [apply truth_rel; eapply vrel_mono; eassumption|].
  intros q' a b L ->. destruct b; [fin|]. apply IH. eauto using wider_trans.
Qed.
Lemma numbered_rel p l l' z : vsrel p l l' ->
  vsrel p (map (fun p => VList [VInt (fst p); snd p]) (numbered z l)) (map (fun p => VList [VInt (fst p); snd p]) (numbered z l')).
Proof.
  intros F. revert z. induction F; intros z; cbn; constructor; auto. apply r_list. constructor; [apply r_flat; reflexivity | constructor; [assumption | constructor]].
Qed.
Lemma parser_error_closed e : closed (parser_error e) = true.
Proof. destruct e; reflexivity. Qed.
Ltac one H := inversion H; subst; clear H; fin.
Lemma builtin_rel p name args args' : vsrel p args args' -> crel vrel p (builtin word_char parse_string name args) (builtin word_char parse_string name args').
Proof.
  intros H. unfold builtin.
  destruct (String.eqb name "len").
  { destruct H as [|v w l l' V F]; fin. destruct F; [vcase V; fin | vcase V; fin]. apply c_ret. rewrite (Forall2_length _ _ _ F). apply r_flat. reflexivity. }
  destruct (String.eqb name "bool").
  { destruct H as [|v w l l' V F]; fin. destruct F; fin. eapply crel_bnd; [apply truth_rel; exact V|]. intros q a b _ ->. fin. }
  destruct (String.eqb name "list").
  { destruct H as [|v w l l' V F]; fin. destruct F; fin. eapply crel_bnd; [apply items_rel; exact V|]. intros q a b _ F. apply c_ret, r_list, F. }
  destruct (String.eqb name "any").
  { destruct H as [|v w l l' V F]; fin. destruct F; fin. eapply crel_bnd; [apply items_rel; exact V|]. intros q a b _ F. eapply crel_bnd; [apply any_true_rel; exact F|].
    intros q2 c d _ ->. fin. }
  destruct (String.eqb name "range").
  { destruct H as [|v w l l' V F]; fin. vcase V; fin; destruct F; fin. apply c_ret, r_list, vsrel_map. reflexivity. }
  destruct (String.eqb name "enumerate").
  { destruct H as [|v w l l' V F]; fin. destruct F; fin. eapply crel_bnd; [apply items_rel; exact V|]. intros q a b _ F. apply c_ret, r_list, numbered_rel, F. }
  destruct (String.eqb name "isinstance").
  { destruct H as [|v w l l' V F]; fin. vcase V; fin; destruct F as [|v2 w2 l2 l2' V2 F2]; fin; vcase V2; fin; destruct F2; fin. }
  destruct (String.eqb name "parseString").
  { destruct H as [|v w l l' V F]; fin. vcase V; fin; destruct F; fin. destruct (parse_string s); [fin|]. constructor. apply closed_self, parser_error_closed. }
  destruct (String.eqb name "re.escape").
  { destruct H as [|v w l l' V F]; fin. vcase V; fin; destruct F; fin. }
  destruct (String.eqb name "re.compile").
  { destruct H as [|v w l l' V F]; fin. destruct F as [|v2 w2 l2 l2' V2 F2].
    - eapply crel_bnd; [apply regex_of_rel; exact V|]. intros q a b _ ->. fin.
    - vcase V2; fin; destruct F2; fin. eapply crel_bnd; [apply regex_of_rel; exact V|]. intros q a b _ ->. fin. }
  destruct (String.eqb name "re.match").
  { destruct H as [|v w l l' V F]; fin. destruct F as [|v2 w2 l2 l2' V2 F2]; fin. vcase V2; fin. destruct F2 as [|v3 w3 l3 l3' V3 F3].
    - eapply crel_bnd; [apply regex_of_rel; exact V|]. intros q a b _ ->. apply c_ret. destruct (re_match b s); apply r_flat; reflexivity.
    - vcase V3; fin; destruct F3; fin. eapply crel_bnd; [apply regex_of_rel; exact V|]. intros q a b _ ->. apply c_ret. destruct (re_match b s); apply r_flat; reflexivity. }
  destruct (String.eqb name "re.search").
  { destruct H as [|v w l l' V F]; fin. destruct F as [|v2 w2 l2 l2' V2 F2]; fin. vcase V2; fin. destruct F2; fin.
    eapply crel_bnd; [apply regex_of_rel; exact V|]. intros q a b _ ->. apply c_ret. destruct (re_search b s); apply r_flat; reflexivity. }
  destruct (String.eqb name "re.sub"); fin.
  { destruct H as [|v w l l' V F]; fin. destruct F as [|v2 w2 l2 l2' V2 F2]; fin. vcase V2; fin. destruct F2 as [|v3 w3 l3 l3' V3 F3]; fin. vcase V3; fin. destruct F3; fin.
    eapply crel_bnd; [apply regex_of_rel; exact V|]. intros q a b _ ->. apply substituted_rel. }
Qed.

Lemma table_get_closed t k o v : table_get t k = Some o -> o = Some v -> closed v = true.
Proof.
  unfold table_get, dict_value. intros E ->. repeat (destruct (String.eqb t _); [injection E as E; match type of E with option_map _ ?d = _ => destruct d end; [injection E as <-; reflexivity | discriminate]|]).
  discriminate.
Qed.
Lemma dget_rel p (l l' : dict value) k : Forall2 (fun a b => fst a = fst b /\ vrel p (snd a) (snd b)) l l' ->
  match dget l k, dget l' k with Some v, Some w => vrel p v w | None, None => True | _, _ => False end.
Proof.
  induction 1 as [|[x v] [y w] l l' [E V] F IH]; cbn; [exact I|]. cbn in E, V. subst y. destruct (str_eqb _ _); [exact V | exact IH].
Qed.
Lemma primitive_rel p v w m args args' : vrel p v w -> vsrel p args args' -> crel vrel p (primitive v m args) (primitive w m args').
Proof.
  intros H A. vcase H; cbn [primitive]; fin.
  - destruct (String.eqb m "join").
    { destruct A as [|v w l l' V F2]; fin. vcase V; fin; destruct F2; fin. rewrite (strings_rel _ _ _ F0). eapply crel_bnd; [apply done_same|]. intros q a b _ ->. fin. }
    destruct (String.eqb m "split").
    { destruct A as [|v w l l' V F2]; [apply c_ret, r_list, vsrel_map; reflexivity|]. vcase V; fin. destruct s0 as [|c [|]]; fin. destruct F2; fin.
      apply c_ret, r_list, vsrel_map. reflexivity. }
    destruct (String.eqb m "strip"); fin. destruct A; fin.
  - destruct (String.eqb m "get"); fin. destruct A as [|v w l l' V F2]; fin. vcase V; fin. destruct F2 as [|v2 w2 l2 l2' V2 F3].
    + destruct (table_get t s) as [o|] eqn:G; cbn [done bnd]; fin. apply c_ret. destruct o; [|apply r_flat; reflexivity]. apply closed_self. eapply table_get_closed; eauto.
    + destruct F3; fin. destruct (table_get t s) as [o|] eqn:G; cbn [done bnd]; fin. apply c_ret. destruct o; [|exact V2]. apply closed_self. eapply table_get_closed; eauto.
  - destruct (String.eqb m "sub"); fin. destruct A as [|v w l l' V F2]; fin. vcase V; fin. destruct F2 as [|v2 w2 l2 l2' V2 F3]; fin. vcase V2; fin. destruct F3; fin. apply substituted_rel.
  - destruct (String.eqb m "getElementsByTagName"); fin. destruct A as [|v w l l' V F2]; fin. vcase V; fin; destruct F2; fin. apply c_ret, r_list, vsrel_map. reflexivity.
  - destruct (String.eqb m "values"); fin. destruct A; fin. apply c_ret, r_list, vsrel_map. reflexivity.
  - destruct (String.eqb m "get"); fin. destruct A as [|v w l l' V F2]; fin. vcase V; fin. destruct F2 as [|v2 w2 l2 l2' V2 F3].
    + apply c_with_dict; [exact F|]. intros q d _. apply c_ret. unfold dict_value. destruct (dget d s); apply r_flat; reflexivity.
    + vcase V2; fin; destruct F3; fin. apply c_with_dict; [exact F|]. intros q d _. fin.
  - destruct (String.eqb m "get"); fin. destruct A as [|v w l0 l0' V F2]; fin. vcase V; fin. destruct F2 as [|v2 w2 l2 l2' V2 F3]; fin. destruct F3; fin.
    apply c_ret. pose proof (dget_rel p l l' s F) as X. destruct (dget l s), (dget l' s); try contradiction; [exact X | exact V2].
Qed.

(** ** Expressions and statements *)
Section Level.
Variable call : value -> list value -> list (string * value) -> MM value.
Variable turns : nat.
Hypothesis call_rel : forall p f g args args' kws kws', vrel p f g -> vsrel p args args' -> nsrel p kws kws' -> crel vrel p (call f args kws) (call g args' kws').
Notation eval := (eval call).
Notation exec := (exec call turns).
Notation attribute := (attribute call).

Lemma class_attribute_rel p v w c a : vrel p v w -> crel vrel p (class_attribute call v c a) (class_attribute call w c a).
Proof.
  intros V. unfold class_attribute. destruct (find_method c a) as [[d f]|]; fin. destruct (f_kind f).
  - apply c_ret, r_method, V.
  - apply c_ret, r_method, V.
  - apply call_rel; [apply r_method, V | constructor | constructor].
Qed.
Lemma attribute_rel p v w a : vrel p v w -> crel vrel p (attribute v a) (attribute w a).
Proof.
  intros V. pose proof V as V0. vcase V; cbn [PySem.attribute]; fin; try (apply c_ret, r_prim; exact V0).
  - unfold class_member. destruct (lookup source_classes c); fin. destruct (existsb _ _); fin. destruct (find_method c a) as [[d f]|]; fin.
    destruct (f_kind f); fin. apply c_ret, r_method. apply r_flat. reflexivity.
  - destruct (String.eqb name "re"); fin. destruct (_ && _); fin.
  - apply node_attribute_rel.
  - destruct (String.eqb a "name"); fin. destruct (String.eqb a "value"); fin.
  - pose proof (lookup_rel p l l' a F) as X. destruct (lookup l a), (lookup l' a); try contradiction; [apply c_ret, X|]. apply class_attribute_rel. exact V0.
  - apply c_field; [exact F | |].
    + intros q u u' L U. apply c_ret, U.
    + intros q c L. apply class_attribute_rel. eapply vrel_mono; eassumption.
  - unfold super_attribute. destruct (find_method c a) as [[d f]|]; fin. apply c_ret, r_method, F.
Qed.

Fixpoint expr_ind' (P : expr -> Prop)
  (Hname : forall x, P (PName x)) (Hglobal : forall x, P (PGlobal x)) (Hstr : forall s, P (PStr s)) (Hint : forall z, P (PInt z)) (Hbool : forall b, P (PBool b)) (Hnone : P PNone)
  (Hattr : forall e a, P e -> P (PAttr e a)) (Hcall : forall f args kws, P f -> Forall P args -> Forall (fun k => P (snd k)) kws -> P (PCall f args kws))
  (Hsuper : P PSuper) (Hindex : forall e i, P e -> P i -> P (PIndex e i)) (Hslice : forall e i j, P e -> P i -> P j -> P (PSlice e i j))
  (Hbin : forall op a b, P a -> P b -> P (PBin op a b)) (Hcmp : forall op a b, P a -> P b -> P (PCmp op a b))
  (Hand : forall a b, P a -> P b -> P (PAnd a b)) (Hor : forall a b, P a -> P b -> P (POr a b)) (Hnot : forall a, P a -> P (PNot a))
  (Hif : forall c a b, P c -> P a -> P b -> P (PIf c a b)) (Hlist : forall l, Forall P l -> P (PList l))
  (Hdict : forall l, Forall (fun k => P (fst k) /\ P (snd k)) l -> P (PDict l)) (Hformat : forall l, Forall P l -> P (PFormat l))
  (Hcomp : forall e x it c, P e -> P it -> match c with Some c => P c | None => True end -> P (PComp e x it c)) (e : expr) {struct e} : P e.
Proof.
  pose proof (expr_ind' P Hname Hglobal Hstr Hint Hbool Hnone Hattr Hcall Hsuper Hindex Hslice Hbin Hcmp Hand Hor Hnot Hif Hlist Hdict Hformat Hcomp) as IH.
  destruct e.
  - apply Hname. - apply Hglobal. - apply Hstr. - apply Hint. - apply Hbool. - apply Hnone.
  - apply Hattr, IH.
  - apply Hcall; [apply IH | |].
    + induction args as [|a l IHl]; constructor; [apply IH | apply IHl].
    + induction kws as [|[k a] l IHl]; constructor; [apply IH | apply IHl].
  - apply Hsuper.
  - apply Hindex; apply IH. - apply Hslice; apply IH. - apply Hbin; apply IH. - apply Hcmp; apply IH. - apply Hand; apply IH. - apply Hor; apply IH.
  - apply Hnot; apply IH. - apply Hif; apply IH.
  - apply Hlist. induction l as [|a l IHl]; constructor; [apply IH | apply IHl].
  - apply Hdict. induction l as [|[a b] l IHl]; constructor; [split; apply IH | apply IHl].
  - apply Hformat. induction l as [|a l IHl]; constructor; [apply IH | apply IHl].
  - apply Hcomp; [apply IH | apply IH | destruct c; [apply IH | exact I]].
Qed.
Lemma nrel_mono {K} q r (a b : K * value) : wider q r -> nrel q a b -> nrel r a b.
Proof. intros L [E V]. split; [exact E | eapply vrel_mono; eassumption]. Qed.
Lemma same_mono {A} q r (a b : A) : wider q r -> same q a b -> same r a b.
Proof. intros _ H. exact H. Qed.
Lemma concat_rel p l l' : Forall2 (fun a b => vsrel p a b) l l' -> vsrel p (concat l) (concat l').
Proof. induction 1; cbn; [constructor | apply Forall2_app; assumption]. Qed.
Hint Resolve wider_trans wider_refl vrel_mono nsrel_mono vsrel_mono : rel.
Lemma eval_rel e : forall p r r', nsrel p r r' -> crel vrel p (eval r e) (eval r' e).
Proof.
  induction e using expr_ind'; intros p r r' R; cbn [PySem.eval]; fin.
  - apply done_lookup, R.
  - apply c_ret. unfold global. destruct (lookup source_classes x); [apply r_flat; reflexivity|]. destruct (lookup source_functions x); [apply r_flat; reflexivity|].
    destruct (existsb _ _); apply r_flat; reflexivity.
  - eapply crel_bnd; [apply IHe, R|]. intros. apply attribute_rel. assumption.
  - eapply crel_bnd; [apply IHe, R|]. intros p1 g g' L1 G. eapply crel_bnd.
    { apply crel_each with (Q := vrel); [intros; eauto with rel|]. eapply Forall_impl; [|exact H]. cbv beta. intros a Ha q Lq. apply Ha. eauto with rel. }
    intros p2 vs vs' L2 V. eapply crel_bnd.
    { apply crel_each with (Q := nrel); [intros; eapply nrel_mono; eassumption|]. eapply Forall_impl; [|exact H0]. cbv beta. intros [k a] Ha q Lq.
      eapply crel_bnd; [apply Ha; eauto with rel|]. intros q1 u u' _ U. apply c_ret. split; [reflexivity | exact U]. }
    intros p3 ws ws' L3 W. apply call_rel; eauto with rel.
  - pose proof (lookup_rel p r r' "self" R) as X. pose proof (lookup_rel p r r' "__class__" R) as Y.
    destruct (lookup r "self"), (lookup r' "self"); try contradiction; fin. destruct (lookup r "__class__"), (lookup r' "__class__"); try contradiction; fin.
    vcase Y; fin. apply c_ret, r_super, X.
  - eapply crel_bnd; [apply IHe1, R|]. intros p1 a b L1 A. eapply crel_bnd; [apply IHe2; eauto with rel|]. intros p2 c d L2 B. apply index_rel; eauto with rel.
  - eapply crel_bnd; [apply IHe1, R|]. intros p1 a b L1 A. eapply crel_bnd; [apply IHe2; eauto with rel|]. intros p2 c d L2 B.
    eapply crel_bnd; [apply IHe3; eauto with rel|]. intros p3 u w L3 C. apply slice_rel; eauto with rel.
  - eapply crel_bnd; [apply IHe1, R|]. intros p1 a b L1 A. eapply crel_bnd; [apply IHe2; eauto with rel|]. intros p2 c d L2 B. apply binary_rel; eauto with rel.
  - eapply crel_bnd; [apply IHe1, R|]. intros p1 a b L1 A. eapply crel_bnd; [apply IHe2; eauto with rel|]. intros p2 c d L2 B.
    eapply crel_bnd; [apply compare_rel; eauto with rel|]. intros p3 u w L3 ->. fin.
  - eapply crel_bnd; [apply IHe1, R|]. intros p1 a b L1 A. eapply crel_bnd; [apply truth_rel, A|]. intros p2 c d L2 ->. destruct d; [apply IHe2 | apply c_ret]; eauto with rel.
  - eapply crel_bnd; [apply IHe1, R|]. intros p1 a b L1 A. eapply crel_bnd; [apply truth_rel, A|]. intros p2 c d L2 ->. destruct d; [apply c_ret | apply IHe2]; eauto with rel.
  - eapply crel_bnd; [apply IHe, R|]. intros p1 a b L1 A. eapply crel_bnd; [apply truth_rel, A|]. intros p2 c d L2 ->. fin.
  - eapply crel_bnd; [apply IHe1, R|]. intros p1 a b L1 A. eapply crel_bnd; [apply truth_rel, A|]. intros p2 c d L2 ->. destruct d; [apply IHe2 | apply IHe3]; eauto with rel.
  - eapply crel_bnd.
    { apply crel_each with (Q := vrel); [intros; eauto with rel|]. eapply Forall_impl; [|exact H]. cbv beta. intros a Ha q Lq. apply Ha. eauto with rel. }
    intros p2 vs vs' L2 V. apply c_ret, r_list, V.
  - destruct l as [|k l]; [apply c_new_dict; intros; apply c_ret, r_dict; assumption|]. eapply crel_bnd.
    { apply crel_each with (Q := nrel (K := str)); [intros; eapply nrel_mono; eassumption|]. eapply Forall_impl; [|exact H]. cbv beta. intros [u w] [Hu Hw] q Lq. cbn [fst snd] in *.
      eapply crel_bnd; [apply Hu; eauto with rel|]. intros q1 a b L1 A. eapply crel_bnd; [apply Hw; eauto with rel|]. intros q2 c d L2 B.
      vcase A; fin. apply c_ret. split; [reflexivity | exact B]. }
    intros p2 vs vs' L2 V. apply c_ret, r_map, V.
  - eapply crel_bnd.
    { apply crel_each with (Q := same); [intros; assumption|]. eapply Forall_impl; [|exact H]. cbv beta. intros a Ha q Lq.
      eapply crel_bnd; [apply Ha; eauto with rel|]. intros q1 u w L1 U. apply text_of_rel, U. }
    intros p2 vs vs' L2 V. apply c_ret. replace vs' with vs; [apply r_flat; reflexivity|]. clear - V. induction V as [|a b l l' E V IH]; [reflexivity|]. unfold same in E. congruence.
  - eapply crel_bnd; [apply IHe2, R|]. intros p1 a b L1 A. eapply crel_bnd; [apply items_rel, A|]. intros p2 l l' L2 F. eapply crel_bnd.
    { eapply crel_mapM with (P := vrel) (Q := fun q => vsrel q); [intros; eauto with rel | intros; eauto with rel | | exact F].
      intros q u w Lq U. cbv beta zeta. assert (R' : nsrel q (assign r x u) (assign r' x w)) by (apply assign_rel; eauto with rel).
      eapply crel_bnd with (P := same).
      - destruct c as [c|]; [|fin]. eapply crel_bnd; [apply H, R'|]. intros. apply truth_rel. assumption.
      - intros q1 t t' Lt ->. destruct t'; [|apply c_ret; constructor]. eapply crel_bnd; [apply IHe1; eauto with rel|].
        intros q2 y z L3 Y. apply c_ret. constructor; [exact Y | constructor]. }
    intros p3 vs vs' L3 V. apply c_ret, r_list, concat_rel, V.
Qed.

Definition erel (p : places) (a b : ending) : Prop :=
  match a, b with
  | Next r, Next r' | Continued r, Continued r' => nsrel p r r'
  | Returned v, Returned w => vrel p v w
  | _, _ => False
  end.
Lemma bind_all_rel xs : forall p r r' vs ws, nsrel p r r' -> vsrel p vs ws -> crel (fun q => nsrel q) p (bind_all r xs vs) (bind_all r' xs ws).
Proof.
  induction xs as [|x xs IH]; intros p r r' vs ws R V; destruct V; cbn [bind_all]; fin. apply IH; [apply assign_rel; assumption | assumption].
Qed.
Lemma targets_rel p xs r r' v w : nsrel p r r' -> vrel p v w -> crel (fun q => nsrel q) p (targets r xs v) (targets r' xs w).
Proof.
  intros R V. unfold targets. destruct xs as [|x [|y xs]].
  - vcase V; fin. apply bind_all_rel; assumption.
  - apply c_ret, assign_rel; assumption.
  - vcase V; fin. apply bind_all_rel; assumption.
Qed.
Section Loops.
Variables body body' : names -> MM ending.
Variable p0 : places.
Hypothesis body_rel : forall p r r', wider p0 p -> nsrel p r r' -> crel erel p (body r) (body' r').
Lemma for_rel xs l l' : vsrel p0 l l' -> forall p r r', wider p0 p -> nsrel p r r' -> crel erel p (for_loop body xs l r) (for_loop body' xs l' r').
Proof.
  induction 1 as [|v w l l' V F IH]; intros p r r' L R; cbn [for_loop]; [apply c_ret, R|].
  eapply crel_bnd; [apply targets_rel; [exact R | eauto with rel]|]. intros p1 r1 r1' L1 R1. eapply crel_bnd; [apply body_rel; eauto with rel|].
  intros p2 a b L2 E. destruct a, b; try contradiction E; try (apply IH; eauto with rel); apply c_ret; exact E.
Qed.
Variables cond cond' : names -> MM bool.
Hypothesis cond_rel : forall p r r', wider p0 p -> nsrel p r r' -> crel same p (cond r) (cond' r').
Lemma while_rel n : forall p r r', wider p0 p -> nsrel p r r' -> crel erel p (while_loop body cond n r) (while_loop body' cond' n r').
Proof.
  induction n as [|n IH]; intros p r r' L R; cbn [while_loop]; fin.
  eapply crel_bnd; [apply cond_rel; eassumption|]. intros p1 t t' L1 ->. destruct t'; [|apply c_ret; eapply nsrel_mono; eassumption].
  eapply crel_bnd; [apply body_rel; eauto with rel|].
  intros p2 a b L2 E. destruct a, b; try contradiction E; try (apply IH; eauto with rel); apply c_ret; exact E.
Qed.
End Loops.
Lemma exec_rel s : forall p r r', nsrel p r r' -> crel erel p (exec r s) (exec r' s).
Proof.
  induction s as [e | x e | o a e | o k e | x e | args | e | c s1 IH1 s2 IH2 | xs it body IH | c body IH | e | body IHb x handler IHh | | | s1 IH1 s2 IH2]; intros p r r' R; cbn [PySem.exec].
  - eapply crel_bnd; [apply eval_rel, R|]. intros p1 v w L V. apply c_ret. exact (nsrel_mono _ _ _ _ L R).
  - eapply crel_bnd; [apply eval_rel, R|]. intros p1 v w L V. apply c_ret. apply assign_rel; eauto with rel.
  - eapply crel_bnd; [apply eval_rel, R|]. intros p1 v w L V. eapply crel_bnd; [apply eval_rel; eauto with rel|]. intros p2 u z L2 U.
    vcase U; fin.
    + destruct o; fin. repeat match goal with |- context [match ?x with _ => _ end] => is_var x; destruct x; fin end.
      apply c_ret. apply assign_rel; [eauto with rel|]. apply r_obj, assign_rel; eauto with rel.
    + apply c_set_field; [exact F | eauto with rel|]. intros q Lq. apply c_ret. cbn. eauto with rel.
  - eapply crel_bnd; [apply eval_rel, R|]. intros p1 v w L V. eapply crel_bnd; [apply eval_rel; eauto with rel|]. intros p2 u z L2 U.
    eapply crel_bnd; [apply eval_rel; eauto with rel|]. intros p3 y y' L3 Y. vcase U; fin. vcase Y; fin. vcase V; fin.
    apply c_set_item; [eapply wider_dict; eassumption|]. intros q Lq. apply c_ret. cbn. eauto with rel.
  - eapply crel_bnd; [apply eval_rel, R|]. intros p1 v w L V. pose proof (lookup_rel p1 r r' x (nsrel_mono _ _ _ _ L R)) as X.
    destruct (lookup r x), (lookup r' x); try contradiction; fin. vcase X; fin. apply c_ret, assign_rel; [eauto with rel|].
    apply r_list, Forall2_app; [exact F | constructor; [exact V | constructor]].
  - eapply crel_bnd.
    { apply crel_each with (Q := vrel); [intros; eauto with rel|]. apply Forall_forall. intros e _ q Lq. apply eval_rel. eauto with rel. }
    intros p1 vs ws L V. pose proof (lookup_rel p r r' "self" R) as X. pose proof (lookup_rel p r r' "__class__" R) as Y.
    destruct (lookup r "self"), (lookup r' "self"); try contradiction; fin. destruct (lookup r "__class__"), (lookup r' "__class__"); try contradiction; fin.
    vcase Y; fin. eapply crel_bnd; [apply call_rel; [apply r_init; eauto with rel | exact V | constructor]|].
    intros p2 a b L2 A. apply c_ret, assign_rel; eauto with rel.
  - eapply crel_bnd; [apply eval_rel, R|]. intros p1 v w L V. apply c_ret. exact V.
  - eapply crel_bnd; [apply eval_rel, R|]. intros p1 v w L V. eapply crel_bnd; [apply truth_rel, V|]. intros p2 t t' L2 ->. destruct t'; [apply IH1 | apply IH2]; eauto with rel.
  - eapply crel_bnd; [apply eval_rel, R|]. intros p1 v w L V. eapply crel_bnd; [apply items_rel, V|]. intros p2 l l' L2 F.
    eapply for_rel; [| exact F | apply wider_refl | eauto with rel]. intros. apply IH. assumption.
  - eapply while_rel with (p0 := p); [intros; apply IH; assumption | | apply wider_refl | exact R].
    intros. eapply crel_bnd; [apply eval_rel; eassumption|]. intros. apply truth_rel. assumption.
  - eapply crel_bnd; [apply eval_rel, R|]. intros p1 v w L V. apply c_throw, V.
  - apply crel_catch; [apply IHb, R|]. intros q v w L V. apply IHh. apply assign_rel; eauto with rel.
  - apply c_ret. exact R.
  - apply c_ret. exact R.
  - eapply crel_bnd; [apply IH1, R|]. intros p1 a b L E. destruct a, b; try contradiction E; [apply IH2; exact E | apply c_ret; exact E | apply c_ret; exact E].
Qed.
Lemma parameters_rel kws kws' ps : forall p args args', nsrel p kws kws' -> vsrel p args args' -> crel (fun q => nsrel q) p (parameters call ps args kws) (parameters call ps args' kws').
Proof.
  induction ps as [|[x d] ps IH]; intros p args args' K A; destruct A as [|v w l l' V F]; cbn [parameters]; fin.
  - apply c_ret. constructor.
  - eapply crel_bnd with (P := vrel).
    + pose proof (lookup_rel p kws kws' x K) as X. destruct (lookup kws x), (lookup kws' x); try contradiction; [apply c_ret, X|]. destruct d; [|fin]. apply eval_rel. constructor.
    + intros p1 v w L V. eapply crel_bnd; [apply IH; [eauto with rel | constructor]|]. intros p2 r r' L2 R. apply c_ret. constructor; [split; [reflexivity | eauto with rel] | exact R].
  - eapply crel_bnd; [apply IH; eassumption|]. intros p2 r r' L2 R. apply c_ret. constructor; [split; [reflexivity | eauto with rel] | exact R].
Qed.
Lemma env_rel p r r' c : nsrel p r r' -> nsrel p (r ++ [("__class__", VClass c)]) (r' ++ [("__class__", VClass c)]).
Proof. intros R. apply Forall2_app; [exact R|]. constructor; [split; [reflexivity | apply r_flat; reflexivity] | constructor]. Qed.
Lemma invoke_rel p c f args args' kws kws' : vsrel p args args' -> nsrel p kws kws' -> crel vrel p (invoke call turns c f args kws) (invoke call turns c f args' kws').
Proof.
  intros A K. unfold invoke. eapply crel_bnd; [apply parameters_rel; eassumption|]. intros p1 r r' L R. eapply crel_bnd; [apply exec_rel, env_rel, R|].
  intros p2 a b L2 E. destruct a, b; try contradiction E; fin.
Qed.
Lemma construct_rel p v w c args args' kws kws' : vrel p v w -> vsrel p args args' -> nsrel p kws kws' ->
  crel vrel p (construct call turns v c args kws) (construct call turns w c args' kws').
Proof.
  intros V A K. unfold construct. destruct (find_method c "__init__") as [[d f]|].
  - eapply crel_bnd; [apply parameters_rel; [exact K | constructor; eassumption]|]. intros p1 r r' L R. eapply crel_bnd; [apply exec_rel, env_rel, R|].
    intros p2 a b L2 E. destruct a, b; try contradiction E; fin. apply done_lookup, E.
  - destruct A as [|a b l l' AB F]; [apply c_ret, V|]. vcase V; fin. destruct (String.eqb c "Exception"); fin. apply c_ret, r_obj, assign_rel; [assumption|].
    apply r_list. constructor; assumption.
Qed.
Lemma call_value_rel p f g args args' kws kws' : vrel p f g -> vsrel p args args' -> nsrel p kws kws' ->
  crel vrel p (call_value word_char parse_string call turns f args kws) (call_value word_char parse_string call turns g args' kws').
Proof.
  intros V A K. vcase V; cbn [call_value]; fin.
  - destruct (changes c).
    + apply c_new_object. intros q r i L E. apply construct_rel; [apply r_ref, E | eauto with rel | eauto with rel].
    + apply construct_rel; [apply r_obj; constructor | assumption | assumption].
  - destruct (lookup source_functions _); fin. apply invoke_rel; assumption.
  - destruct K; fin. apply builtin_rel, A.
  - destruct (find_method c m) as [[d h]|]; fin. destruct (f_kind h); apply invoke_rel; try assumption; constructor; assumption.
  - apply construct_rel; assumption.
  - destruct K; fin. apply primitive_rel; assumption.
Qed.
End Level.
Lemma call_rel n : forall p f g args args' kws kws', vrel p f g -> vsrel p args args' -> nsrel p kws kws' ->
  crel vrel p (call word_char parse_string n f args kws) (call word_char parse_string n g args' kws').
Proof.
  induction n as [|n IH]; intros; cbn [call]; [constructor|]. apply call_value_rel; assumption.
Qed.
End Par.
