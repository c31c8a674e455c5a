(** Basic lemmas: strings, dictionaries, heaps, induction principles for the nested trees. *)
From Coq Require Import String.
From Verif Require Export SpecTree.
Local Open Scope string_scope.
Local Open Scope list_scope.

Global Arguments lit : simpl never.

(** ** Strings *)
Lemma str_eqb_eq a b : str_eqb a b = true <-> a = b.
Proof.
  revert b; induction a as [|x a IH]; intros [|y b]; cbn; split; intro H; try congruence; auto.
  - apply andb_true_iff in H as [H1 H2]. apply N.eqb_eq in H1. apply IH in H2. congruence.
  - inversion H; subst. rewrite N.eqb_refl. cbn. apply IH; auto.
Qed.
Lemma str_eqb_refl a : str_eqb a a = true.
Proof. apply str_eqb_eq; auto. Qed.
Lemma str_eqb_neq a b : str_eqb a b = false <-> a <> b.
Proof.
  split; intro H.
  - intro E. apply str_eqb_eq in E. congruence.
  - destruct (str_eqb a b) eqn:E; auto. apply str_eqb_eq in E. congruence.
Qed.
Lemma str_eqb_sym a b : str_eqb a b = str_eqb b a.
Proof.
  destruct (str_eqb a b) eqn:E; symmetry.
  - apply str_eqb_eq in E. subst. apply str_eqb_refl.
  - apply str_eqb_neq. apply str_eqb_neq in E. congruence.
Qed.
Lemma str_dec (a b : str) : {a = b} + {a <> b}.
Proof. destruct (str_eqb a b) eqn:E; [left; apply str_eqb_eq | right; apply str_eqb_neq]; auto. Qed.

Lemma str_in_spec s l : str_in s l = true <-> In s l.
Proof.
  unfold str_in. rewrite existsb_exists. split.
  - intros [x [H1 H2]]. apply str_eqb_eq in H2. congruence.
  - intro H. exists s. split; auto. apply str_eqb_refl.
Qed.

Lemma lit_app a b : lit (a ++ b)%string = lit a ++ lit b.
Proof. unfold lit. induction a; cbn; congruence. Qed.

Lemma truthy_false s : truthy s = false <-> s = [].
Proof. destruct s; cbn; split; congruence. Qed.

(** ** Dictionaries *)
Lemma dget_dset_same {A} (d : dict A) k v : dget (dset d k v) k = Some v.
Proof.
  induction d as [|[k' v'] d IH]; cbn.
  - rewrite str_eqb_refl; auto.
  - destruct (str_eqb k k') eqn:E; cbn; rewrite E; auto.
Qed.
Lemma dget_dset_other {A} (d : dict A) k k2 v : k2 <> k -> dget (dset d k v) k2 = dget d k2.
Proof.
  intro N. induction d as [|[k' v'] d IH]; cbn.
  - apply str_eqb_neq in N. rewrite N; auto.
  - destruct (str_eqb k k') eqn:E; cbn.
    + apply str_eqb_eq in E; subst. apply str_eqb_neq in N. rewrite N; auto.
    + rewrite IH; auto.
Qed.
Lemma dset_dset {A} (d : dict A) k v w : dset (dset d k v) k w = dset d k w.
Proof.
  induction d as [|[k' v'] d IH]; cbn.
  - rewrite str_eqb_refl; auto.
  - destruct (str_eqb k k') eqn:E; cbn; rewrite E; congruence.
Qed.
Lemma dget_In {A} (d : dict A) k v : dget d k = Some v -> In (k, v) d.
Proof.
  induction d as [|[k' v'] d IH]; cbn; intro H; try congruence.
  destruct (str_eqb k k') eqn:E; auto.
  apply str_eqb_eq in E. left. congruence.
Qed.
Lemma dget_app {A} (d d' : dict A) k :
  dget (d ++ d') k = match dget d k with Some v => Some v | None => dget d' k end.
Proof. induction d as [|[k' v'] d IH]; cbn; auto. destruct (str_eqb k k'); auto. Qed.

(** ** Heaps *)
Lemma hset_length h l d : length (hset h l d) = length h.
Proof. revert l; induction h; intros [|l]; cbn; auto. Qed.
Lemma hget_hset_same h l d : l < length h -> hget (hset h l d) l = d.
Proof.
  unfold hget. revert l; induction h as [|x h IH]; intros [|l] H; cbn in *; try lia; auto.
  apply IH; lia.
Qed.
Lemma hget_hset_other h l l' d : l' <> l -> hget (hset h l d) l' = hget h l'.
Proof.
  unfold hget. revert l l'; induction h as [|x h IH]; intros [|l] [|l'] H; cbn in *; try lia; auto.
Qed.
Lemma heap_ext (h h' : heap) :
  length h = length h' -> (forall l, l < length h -> hget h l = hget h' l) -> h = h'.
Proof. intros. apply nth_ext with (d := []) (d' := []); auto. Qed.

(** ** Induction principles *)
Section TreeInd.
  Variable P : tree -> Prop.
  Hypothesis step : forall n v ch a, Forall P ch -> P (T n v ch a).
  Fixpoint tree_ind' (t : tree) : P t :=
    match t with
    | T n v ch a =>
        step n v ch a ((fix go (l : list tree) : Forall P l :=
          match l with [] => Forall_nil _ | x :: l' => Forall_cons _ (tree_ind' x) (go l') end) ch)
    end.
End TreeInd.
Section ElemInd.
  Variable P : elem -> Prop.
  Hypothesis step : forall n v ch a, Forall P ch -> P (Elem n v ch a).
  Fixpoint elem_ind' (e : elem) : P e :=
    match e with
    | Elem n v ch a =>
        step n v ch a ((fix go (l : list elem) : Forall P l :=
          match l with [] => Forall_nil _ | x :: l' => Forall_cons _ (elem_ind' x) (go l') end) ch)
    end.
End ElemInd.
Section DnodeInd.
  Variable P : dnode -> Prop.
  Hypothesis elem_step : forall tag a ch, Forall P ch -> P (DElem tag a ch).
  Hypothesis other_step : forall n, is_elem_node n = false -> P n.
  Fixpoint dnode_ind' (n : dnode) : P n :=
    match n with
    | DElem tag a ch =>
        elem_step tag a ch ((fix go (l : list dnode) : Forall P l :=
          match l with [] => Forall_nil _ | x :: l' => Forall_cons _ (dnode_ind' x) (go l') end) ch)
    | DText d => other_step (DText d) eq_refl
    | DCData d => other_step (DCData d) eq_refl
    | DComment d => other_step (DComment d) eq_refl
    | DPI t d => other_step (DPI t d) eq_refl
    end.
End DnodeInd.

(** ** Lists *)
Lemma existsb_map {A B} (f : A -> B) p l : existsb p (map f l) = existsb (fun x => p (f x)) l.
Proof. induction l; cbn; congruence. Qed.
Lemma existsb_ext_in {A} (p q : A -> bool) l : (forall x, In x l -> p x = q x) -> existsb p l = existsb q l.
Proof. induction l as [|x l IH]; cbn; intro H; auto. rewrite H by auto. rewrite IH; auto. Qed.
Lemma map_ext_Forall {A B} (f g : A -> B) l : Forall (fun x => f x = g x) l -> map f l = map g l.
Proof. induction 1; cbn; congruence. Qed.
Lemma flat_map_app {A B} (f : A -> list B) l l' : flat_map f (l ++ l') = flat_map f l ++ flat_map f l'.
Proof. induction l; cbn; auto. rewrite IHl, app_assoc; auto. Qed.
Lemma NoDup_app_inv {A} (l l' : list A) :
  NoDup (l ++ l') -> NoDup l /\ NoDup l' /\ (forall x, In x l -> ~ In x l').
Proof.
  induction l as [|x l IH]; cbn; intro H.
  - repeat split; auto using NoDup_nil.
  - inversion H; subst. destruct (IH H3) as (A1 & A2 & A3). repeat split; auto.
    + constructor; auto. rewrite in_app_iff in H2. tauto.
    + intros y [E|E]; subst; auto. rewrite in_app_iff in H2. tauto.
Qed.
Lemma NoDup_app_intro {A} (l l' : list A) :
  NoDup l -> NoDup l' -> (forall x, In x l -> ~ In x l') -> NoDup (l ++ l').
Proof.
  induction 1; cbn; intros; auto. constructor.
  - rewrite in_app_iff. intros [?|?]; auto. eapply H2; eauto.
  - apply IHNoDup; auto.
Qed.
Lemma Forall2_len {A B} (P : A -> B -> Prop) l l' : Forall2 P l l' -> length l = length l'.
Proof. induction 1; cbn; congruence. Qed.
Lemma flat_map_NoDup_in {A B} (f : A -> list B) l x : NoDup (flat_map f l) -> In x l -> NoDup (f x).
Proof.
  induction l as [|y l IH]; cbn; intros H I; [tauto|].
  apply NoDup_app_inv in H as (H1 & H2 & H3). destruct I as [->|I]; auto.
Qed.
