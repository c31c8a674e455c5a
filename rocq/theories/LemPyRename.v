(** Two runs of one program in memories that differ in where things are: relation between values, between computations. *)
From Coq Require Import String.
From Verif Require Export PySem.
Local Open Scope string_scope.
Local Open Scope list_scope.

(** Where the second run keeps the dictionaries and the instances of the first *)
Record places := Places { rd : list nat; ro : list nat }.
Definition wider (p q : places) : Prop := exists a b, rd q = rd p ++ a /\ ro q = ro p ++ b.
Lemma wider_refl p : wider p p.
Proof. exists [], []. rewrite !app_nil_r. auto. Qed.
Lemma wider_trans p q r : wider p q -> wider q r -> wider p r.
Proof. intros (a & b & A & B) (c & d & C & D). exists (a ++ c), (b ++ d). rewrite C, D, A, B, !app_assoc. auto. Qed.
Lemma wider_dict p q r i : wider p q -> nth_error (rd p) r = Some i -> nth_error (rd q) r = Some i.
Proof. intros (a & b & A & B) H. rewrite A, nth_error_app1; [exact H|]. apply nth_error_Some. congruence. Qed.
Lemma wider_object p q r i : wider p q -> nth_error (ro p) r = Some i -> nth_error (ro q) r = Some i.
Proof. intros (a & b & A & B) H. rewrite B, nth_error_app1; [exact H|]. apply nth_error_Some. congruence. Qed.

Definition flat (v : value) : bool :=
  match v with
  | VNone | VBool _ | VInt _ | VStr _ | VTable _ | VClass _ | VFunction _ | VBuiltin _ | VEnum _ _ | VRegex _ | VMatch
  | VDocument _ | VNode _ | VAttributes _ | VAttribute _ _ => true
  | _ => false
  end.
Definition fields_rel {K} (R : value -> value -> Prop) (a b : K * value) : Prop := fst a = fst b /\ R (snd a) (snd b).
Inductive vrel (p : places) : value -> value -> Prop :=
| r_flat v : flat v = true -> vrel p v v
| r_list l l' : Forall2 (vrel p) l l' -> vrel p (VList l) (VList l')
| r_dict r i : nth_error (rd p) r = Some i -> vrel p (VDict r) (VDict i)
| r_map l l' : Forall2 (fun a b => fst a = fst b /\ vrel p (snd a) (snd b)) l l' -> vrel p (VMap l) (VMap l')
| r_obj c l l' : Forall2 (fun a b => fst a = fst b /\ vrel p (snd a) (snd b)) l l' -> vrel p (VObj c l) (VObj c l')
| r_ref r i : nth_error (ro p) r = Some i -> vrel p (VRef r) (VRef i)
| r_method v w c m : vrel p v w -> vrel p (VMethod v c m) (VMethod w c m)
| r_init v w c : vrel p v w -> vrel p (VInit v c) (VInit w c)
| r_super v w c : vrel p v w -> vrel p (VSuper v c) (VSuper w c)
| r_prim v w m : vrel p v w -> vrel p (VPrim v m) (VPrim w m).
Definition nrel {K} (p : places) (a b : K * value) : Prop := fst a = fst b /\ vrel p (snd a) (snd b).
Notation vsrel p := (Forall2 (vrel p)).
Notation nsrel p := (Forall2 (nrel p)).

Fixpoint vrel_mono p q v w (H : wider p q) (V : vrel p v w) {struct V} : vrel q v w.
Proof.
  destruct V as [v F | l l' F | r i E | l l' F | c l l' F | r i E | v w c m V | v w c V | v w c V | v w m V].
  - apply r_flat, F.
  - apply r_list. induction F as [|a b l l' Hab F IH]; constructor; [apply (vrel_mono p q a b H Hab) | exact IH].
  - apply r_dict. eapply wider_dict; eauto.
  - apply r_map. induction F as [|a b l l' [Hf Hab] F IH]; constructor; [split; [exact Hf | apply (vrel_mono p q _ _ H Hab)] | exact IH].
  - apply r_obj. induction F as [|a b l l' [Hf Hab] F IH]; constructor; [split; [exact Hf | apply (vrel_mono p q _ _ H Hab)] | exact IH].
  - apply r_ref. eapply wider_object; eauto.
  - apply r_method, (vrel_mono p q _ _ H V).
  - apply r_init, (vrel_mono p q _ _ H V).
  - apply r_super, (vrel_mono p q _ _ H V).
  - apply r_prim, (vrel_mono p q _ _ H V).
Qed.
Lemma vsrel_mono p q l l' : wider p q -> vsrel p l l' -> vsrel q l l'.
Proof. intros H. induction 1; constructor; eauto using vrel_mono. Qed.
Lemma nsrel_mono {K} p q (l l' : list (K * value)) : wider p q -> nsrel p l l' -> nsrel q l l'.
Proof. intros H. induction 1 as [|a b l l' [E V] F IH]; constructor; [split; eauto using vrel_mono | exact IH]. Qed.

(** A value without references *)
Fixpoint closed (v : value) : bool :=
  match v with
  | VList l => forallb closed l
  | VObj _ l => forallb (fun f => closed (snd f)) l
  | _ => flat v
  end.
Fixpoint closed_same p v w (V : vrel p v w) {struct V} : closed v = true -> w = v.
Proof.
  destruct V as [v F | l l' F | r i E | l l' F | c l l' F | r i E | v w c m V | v w c V | v w c V | v w m V]; cbn [closed flat]; try discriminate.
  - reflexivity.
  - intros C. f_equal. induction F as [|a b l l' Hab F IH]; [reflexivity|]. cbn in C. apply andb_prop in C. destruct C as [C1 C2].
    f_equal; [apply (closed_same p a b Hab C1) | apply IH, C2].
  - intros C. f_equal. induction F as [|a b l l' [Hf Hab] F IH]; [reflexivity|]. cbn in C. apply andb_prop in C. destruct C as [C1 C2].
    f_equal; [|apply IH, C2]. pose proof (closed_same p _ _ Hab C1) as D. destruct a, b; cbn in *; congruence.
Qed.
Lemma closed_self p v : closed v = true -> vrel p v v.
Proof.
  revert v. fix IH 1. intros v C. destruct v; try discriminate C; try (apply r_flat; reflexivity).
  - apply r_list. cbn in C. induction l as [|a l IHl]; constructor; cbn in C; apply andb_prop in C; destruct C as [C1 C2]; auto.
  - apply r_obj. cbn in C. induction fields as [|a l IHl]; constructor; cbn in C; apply andb_prop in C; destruct C as [C1 C2]; auto.
Qed.

(** ** Computations *)
Section Crel.
Context {A : Type} (P : places -> A -> A -> Prop).
Inductive crel : places -> MM A -> MM A -> Prop :=
| c_ret p a b : P p a b -> crel p (Ret a) (Ret b)
| c_throw p v w : vrel p v w -> crel p (Throw v) (Throw w)
| c_wrong p : crel p Wrong Wrong
| c_new_dict p k k' : (forall q r i, wider p q -> nth_error (rd q) r = Some i -> crel q (k (VDict r)) (k' (VDict i))) -> crel p (Act new_dict k) (Act new_dict k')
| c_with_dict p r i f k k' : nth_error (rd p) r = Some i -> (forall q d, wider p q -> crel q (k (f d)) (k' (f d))) -> crel p (Act (with_dict r f) k) (Act (with_dict i f) k')
| c_set_item p r i x s k k' : nth_error (rd p) r = Some i -> (forall q, wider p q -> crel q (k VNone) (k' VNone)) -> crel p (Act (set_item r x s) k) (Act (set_item i x s) k')
| c_new_object p c k k' : (forall q r i, wider p q -> nth_error (ro q) r = Some i -> crel q (k (VRef r)) (k' (VRef i))) -> crel p (Act (new_object c) k) (Act (new_object c) k')
| c_field p r i a k k' : nth_error (ro p) r = Some i ->
    (forall q w w', wider p q -> vrel q w w' -> crel q (k (VList [w])) (k' (VList [w']))) ->
    (forall q c, wider p q -> crel q (k (VClass c)) (k' (VClass c))) ->
    crel p (Act (with_object r (fun c fs => Some (match lookup fs a with Some w => VList [w] | None => VClass c end))) k)
           (Act (with_object i (fun c fs => Some (match lookup fs a with Some w => VList [w] | None => VClass c end))) k')
| c_set_field p r i a v w k k' : nth_error (ro p) r = Some i -> vrel p v w -> (forall q, wider p q -> crel q (k VNone) (k' VNone)) ->
    crel p (Act (set_field r a v) k) (Act (set_field i a w) k').
End Crel.
Lemma crel_bnd {A B} (P : places -> A -> A -> Prop) (Q : places -> B -> B -> Prop) p m m' k k' :
  crel P p m m' -> (forall q a b, wider p q -> P q a b -> crel Q q (k a) (k' b)) -> crel Q p (bnd m k) (bnd m' k').
Proof.
  induction 1; intros K; cbn [bnd]; try (constructor; eauto using wider_trans; fail).
  apply K; [apply wider_refl | assumption].
Qed.
Lemma crel_catch {A} (P : places -> A -> A -> Prop) p m m' h h' :
  crel P p m m' -> (forall q v w, wider p q -> vrel q v w -> crel P q (h v) (h' w)) -> crel P p (catch h m) (catch h' m').
Proof.
  induction 1; intros K; cbn [catch]; try (constructor; eauto using wider_trans; fail).
  apply K; [apply wider_refl | assumption].
Qed.
Lemma crel_weaken {A} (P Q : places -> A -> A -> Prop) p m m' : (forall q a b, P q a b -> Q q a b) -> crel P p m m' -> crel Q p m m'.
Proof. intros PQ. induction 1; constructor; auto. Qed.
Lemma crel_mapM {A B} (P : places -> A -> A -> Prop) (Q : places -> B -> B -> Prop) (f f' : A -> MM B) p l l' :
  (forall q r a b, wider q r -> P q a b -> P r a b) -> (forall q r a b, wider q r -> Q q a b -> Q r a b) ->
  (forall q a b, wider p q -> P q a b -> crel Q q (f a) (f' b)) -> Forall2 (P p) l l' ->
  crel (fun q => Forall2 (Q q)) p (mapM f l) (mapM f' l').
Proof.
  intros MP MQ H F. assert (G : forall q, wider p q -> Forall2 (P q) l l') by (intros q Hq; induction F; constructor; eauto).
  clear F. assert (X : forall q, wider p q -> crel (fun q => Forall2 (Q q)) q (mapM f l) (mapM f' l')); [|apply X, wider_refl].
  revert l' G. induction l as [|a l IH]; intros l' G q Hq; pose proof (G q Hq) as Gq; inversion Gq; subst; cbn [mapM].
  - constructor. constructor.
  - eapply crel_bnd; [apply H; eassumption|]. intros q1 u w L1 U. eapply crel_bnd.
    + apply IH; [|eauto using wider_trans]. intros q2 L2. specialize (G q2 L2). inversion G; subst; assumption.
    + intros q2 us ws L2 Us. constructor. constructor; eauto.
Qed.
(** The same list of expressions *)
Lemma crel_each {A B} (Q : places -> B -> B -> Prop) (f f' : A -> MM B) p l :
  (forall q r a b, wider q r -> Q q a b -> Q r a b) -> Forall (fun a => forall q, wider p q -> crel Q q (f a) (f' a)) l ->
  crel (fun q => Forall2 (Q q)) p (mapM f l) (mapM f' l).
Proof.
  intros MQ F. assert (X : forall q, wider p q -> crel (fun q => Forall2 (Q q)) q (mapM f l) (mapM f' l)); [|apply X, wider_refl].
  induction F as [|a l Ha F IH]; intros q Hq; cbn [mapM]; [constructor; constructor|].
  eapply crel_bnd; [apply Ha, Hq|]. intros q1 u w L1 U. eapply crel_bnd; [apply IH; eauto using wider_trans|].
  intros q2 us ws L2 Us. constructor. constructor; eauto.
Qed.
