(** The number of steps and the depth of calls. *)
From Coq Require Import String.
From Verif Require Export SpecCost LemThreads.
Local Open Scope string_scope.
Local Open Scope list_scope.

(** Predicates "at most so much" that are closed under the ways programs are built. *)
Record closed (wa ws wf : nat) (P : forall A, nat -> prog A -> Prop) : Prop := {
  P_done : forall A n (r : res A), P A n (Done r);
  P_mono : forall A a b (p : prog A), a <= b -> P A a p -> P A b p;
  P_catch : forall A B a b (p : prog A) (f : res A -> prog B), P A a p -> (forall r, P B b (f r)) -> P B (a + b) (catch p f);
  P_look : forall A n l (k : dict str -> prog A), (forall d, P A n (k d)) -> P A (wa + n) (Look l k);
  P_put : forall A n l key v (p : prog A), P A n p -> P A (wa + n) (Put l key v p);
  P_search : forall A n (p : prog A), P A n p -> P A (ws + n) (Mark Searching p);
  P_flag : forall A n (p : prog A), P A n p -> P A (wf + n) (Mark Flagging p)
}.

Section Closed.
  Variables (wa ws wf : nat) (P : forall A, nat -> prog A -> Prop).
  Hypothesis C : closed wa ws wf P.
  Arguments P {_} _ _.

  Lemma P_give {A} n (a : A) : P n (give a).
  Proof. apply (P_done _ _ _ _ C). Qed.
  Lemma P_fail {A} n e : P n (@fail A e).
  Proof. apply (P_done _ _ _ _ C). Qed.
  Lemma P_then {A B} a b (p : prog A) (f : A -> prog B) : P a p -> (forall x, P b (f x)) -> P (a + b) (then_ p f).
  Proof. intros H F. apply (P_catch _ _ _ _ C); auto. intros [x|e]; auto. apply (P_done _ _ _ _ C). Qed.
  Lemma P_le {A} a b (p : prog A) : P a p -> a <= b -> P b p.
  Proof. intros H L. eapply (P_mono _ _ _ _ C); eauto. Qed.
  Lemma P_get_or {B} n l k d (f : str -> prog B) : (forall x, P n (f x)) -> P (wa + n) (then_ (get_or l k d) f).
  Proof. intro F. unfold then_, get_or. cbn. apply (P_look _ _ _ _ C). auto. Qed.
  Lemma P_get {B} n l k (f : option str -> prog B) : (forall x, P n (f x)) -> P (wa + n) (then_ (get l k) f).
  Proof. intro F. unfold then_, get. cbn. apply (P_look _ _ _ _ C). auto. Qed.
  Lemma P_there_gen {A} es name : Forall (fun e => forall n (k : bool -> prog A), (forall b, P n (k b)) -> P (ws * places e + n) (s_relative name e k)) es ->
    forall n (k : bool -> prog A) b, (forall b, P n (k b)) ->
    P (ws * list_sum (map places es) + n) (fold_right (fun c k' b => s_relative name c (fun b' => k' (b || b'))) k es b).
  Proof.
    induction 1 as [|e es He F IH]; intros n k b Hk; cbn [map]; cbn [fold_right].
    - eapply P_le; [apply Hk|lia].
    - eapply P_le; [apply He; intro b'; apply IH; auto|]. change (list_sum (places e :: map places es)) with (places e + list_sum (map places es)). rewrite Nat.mul_add_distr_l. lia.
  Qed.
  Lemma P_relative {A} name e : forall n (k : bool -> prog A), (forall b, P n (k b)) -> P (ws * places e + n) (s_relative name e k).
  Proof.
    induction e as [en ev ch l IH] using elem_ind'. intros n k Hk. cbn [s_relative places].
    eapply P_le; [apply (P_search _ _ _ _ C) with (n := ws * list_sum (map places ch) + n)|lia].
    destruct (str_eqb en name); [eapply P_le; [apply Hk|lia]|]. apply P_there_gen; auto.
  Qed.
  Lemma P_there {A} es name n (k : bool -> prog A) : (forall b, P n (k b)) -> P (ws * list_sum (map places es) + n) (s_there es name k).
  Proof. intro Hk. apply P_there_gen; auto. apply Forall_forall. intros e _. apply P_relative. Qed.
  Lemma P_flags_gen {A} es name fl : Forall (fun e => forall n (k : prog A), P n k -> P ((wf + wa) * places e + n) (s_add_flag name fl e k)) es ->
    forall n (k : prog A), P n k -> P ((wf + wa) * list_sum (map places es) + n) (fold_right (s_add_flag name fl) k es).
  Proof.
    induction 1 as [|e es He F IH]; intros n k Hk; cbn [fold_right map].
    - eapply P_le; [apply Hk|lia].
    - eapply P_le; [apply He; apply IH; eauto|]. change (list_sum (places e :: map places es)) with (places e + list_sum (map places es)). rewrite Nat.mul_add_distr_l. lia.
  Qed.
  Lemma P_add_flag {A} name fl e : forall n (k : prog A), P n k -> P ((wf + wa) * places e + n) (s_add_flag name fl e k).
  Proof.
    induction e as [en ev ch l IH] using elem_ind'. intros n k Hk. cbn [s_add_flag places].
    pose proof (P_flags_gen ch name fl IH n k Hk) as X.
    eapply P_le; [apply (P_flag _ _ _ _ C) with (n := wa + ((wf + wa) * list_sum (map places ch) + n))|lia].
    destruct (str_eqb en name); [apply (P_put _ _ _ _ C); exact X|eapply P_le; [exact X|lia]].
  Qed.
  Lemma P_add_flags {A} es name fl n (k : prog A) : P n k -> P ((wf + wa) * list_sum (map places es) + n) (fold_right (s_add_flag name fl) k es).
  Proof. apply P_flags_gen. apply Forall_forall. intros e _. apply P_add_flag. Qed.

  (** Running a converter, the children taking [cs]. *)
  Definition kids_take (ks : list s_kid) (cs : list nat) : Prop := Forall2 (fun k c => P c (s_kid_convert k)) ks cs.
  Lemma P_convert_all ks cs : kids_take ks cs -> P (list_sum cs) (s_convert_all ks).
  Proof.
    induction 1 as [|k c ks cs K F IH]; cbn [s_convert_all]; [apply P_give|]. change (list_sum (c :: cs)) with (c + list_sum cs).
    apply P_then; auto. intro s. eapply P_le; [apply P_then; [exact IH|intro; apply (P_give 0)]|lia].
  Qed.
  Lemma P_all_then {B} ks cs n (f : list str -> prog B) : kids_take ks cs -> (forall x, P n (f x)) -> P (list_sum cs + n) (then_ (s_convert_all ks) f).
  Proof. intros. apply P_then; auto. apply P_convert_all; auto. Qed.
  Lemma P_nth ks cs i : kids_take ks cs -> P (nth i cs 0) (s_convert_nth ks i).
  Proof.
    intro K. revert i. unfold s_convert_nth. induction K as [|k c ks cs K F IH]; intros [|i]; cbn [nth_error nth]; auto; apply P_fail.
  Qed.
  Lemma P_base k c : P c (s_kid_convert k) -> P c (s_handle_base_child k).
  Proof. intro K. eapply P_le; [apply P_then; [exact K|intro s; destruct (Nat.leb _ 1); apply (P_give 0)]|lia]. Qed.
  Lemma P_script k c : P c (s_kid_convert k) -> P c (s_handle_script_child k).
  Proof. intro K. eapply P_le; [apply P_then; [exact K|intro s; apply (P_give 0)]|lia]. Qed.

  Ltac runs := repeat first [apply (P_give 0) | apply P_base; eassumption | apply P_script; eassumption | eassumption
    | apply P_get_or; intro | apply P_get; intro | apply P_then; [|intro]].
  Ltac two := match goal with K : kids_take ?ks ?cs |- _ => destruct K as [|? ? ? ? ? [|? ? ? ? ? [|? ? ? ? ? ?]]]; try apply P_fail end.
  Ltac three := match goal with K : kids_take ?ks ?cs |- _ => destruct K as [|? ? ? ? ? [|? ? ? ? ? [|? ? ? ? ? [|? ? ? ? ? ?]]]]; try apply P_fail end.
  Ltac sums := unfold list_sum; cbn [fold_right]; lia.

  Section Runs.
    Variables (n v : str) (ks : list s_kid) (cs : list nat) (al : loc).
    Hypothesis K : kids_take ks cs.
    Lemma P_two_plain F : (forall k1 k2 c1 c2, P c1 (s_kid_convert k1) -> P c2 (s_kid_convert k2) -> P (c1 + c2 + 3 * wa) (F k1 k2)) -> forall m,
      P (list_sum cs + 3 * wa) (match ks with [k1; k2] => F k1 k2 | _ => s_invalid_children n 2 m end : prog str).
    Proof. intros H m. revert K. intro K. two. eapply P_le; [apply H; eassumption|sums]. Qed.
    Lemma P_three_plain F : (forall k1 k2 k3 c1 c2 c3, P c1 (s_kid_convert k1) -> P c2 (s_kid_convert k2) -> P c3 (s_kid_convert k3) -> P (c1 + c2 + c3) (F k1 k2 k3)) -> forall m,
      P (list_sum cs + 3 * wa) (match ks with [k1; k2; k3] => F k1 k2 k3 | _ => s_invalid_children n 3 m end : prog str).
    Proof. intros H m. revert K. intro K. three. eapply P_le; [apply H; eassumption|sums]. Qed.

    Lemma P_MI : P (3 * wa) (s_MI v al).
    Proof.
      unfold s_MI. destruct (str_eqb _ _); [apply P_give|]. destruct (negb _); [apply P_give|].
      eapply P_le; [apply P_then with (a := 3 * wa); [|intro; apply (P_give 0)]|lia]. unfold s_get_math_variant.
      eapply P_le; [apply (P_look _ _ _ _ C) with (n := 2 * wa)|lia]. intros [|q d]; [apply P_give|].
      eapply P_le; [apply (P_look _ _ _ _ C) with (n := wa)|lia]. intro d1. destruct (dget d1 _); [|apply P_give].
      eapply P_le; [apply (P_look _ _ _ _ C) with (n := 0)|lia]. intro d2. destruct (dget d2 _); [apply P_give|apply P_fail].
    Qed.
    Lemma P_text_parts chars : P (wa * length chars) (s_text_parts al chars).
    Proof.
      induction chars as [|ch chars IH]; [apply P_give|]. cbn [s_text_parts length].
      eapply P_le; [apply P_then with (a := wa) (b := wa * length chars)|lia].
      - destruct (negb _); [apply P_give|]. eapply P_le; [apply P_get; intro; apply (P_give 0)|lia].
      - intro s. eapply P_le; [apply P_then; [exact IH|intro; apply (P_give 0)]|lia].
    Qed.
    Lemma merge_length chars : forall m, length (mtext_merge_loop chars m) <= length chars + length m.
    Proof.
      induction chars as [|ch chars IH]; intro m; cbn [mtext_merge_loop]; [rewrite rev_length; cbn; lia|].
      destruct (ch_alnum ch); [destruct m as [|x m]; [|destruct (ch_alnum x)]|];
        (etransitivity; [apply IH|]); cbn [length]; lia.
    Qed.
    Lemma P_MText : P (wa * length v) (s_MText v al).
    Proof.
      unfold s_MText. eapply P_le; [apply P_then; [apply P_text_parts|intro; apply (P_give 0)]|].
      pose proof (merge_length (mtext_chars v) []) as L. unfold mtext_merge, mtext_chars in *. rewrite map_length in L. cbn [length] in L. nia.
    Qed.
    Lemma P_Action : P (list_sum cs + 3 * wa) (s_MAction ks al).
    Proof.
      unfold s_MAction. eapply P_le; [apply P_get with (n := list_sum cs)|lia]. intro x.
      match goal with |- P _ (if ?b then _ else _) => destruct b end.
      - eapply P_le; [apply P_all_then; [exact K|intro; apply (P_give 0)]|lia].
      - destruct K as [|k c ks0 cs0 K1 F]; [apply P_fail|]. eapply P_le; [exact K1|sums].
    Qed.
    Lemma nths1 (l : list nat) : nth 0 l 0 + nth 1 l 0 + nth 2 l 0 + nth 4 l 0 + nth 5 l 0 <= list_sum l.
    Proof. unfold list_sum. destruct l as [|? [|? [|? [|? [|? [|? ?]]]]]]; cbn [nth fold_right]; lia. Qed.
    Lemma nths2 (l : list nat) : nth 0 l 0 + nth 2 l 0 + nth 3 l 0 <= list_sum l.
    Proof. unfold list_sum. destruct l as [|? [|? [|? [|? ?]]]]; cbn [nth fold_right]; lia. Qed.
    Lemma P_Multi : P (list_sum cs) (s_MMultiscripts n ks).
    Proof.
      pose proof (nths1 cs). pose proof (nths2 cs).
      unfold s_MMultiscripts. destruct (Nat.ltb (length ks) 3) eqn:L3; [apply P_fail|].
      assert (G : forall pre post, P pre (s_prescript_latex ks) -> P post (s_postscript_latex ks) -> nth 0 cs 0 + pre + post <= list_sum cs ->
        P (list_sum cs) (base_content <- s_convert_nth ks 0 ;;; p <- s_prescript_latex ks ;;; q <- s_postscript_latex ks ;;;
          give (p ++ wrap_in_parenthesis_if_there_is_space base_content ++ q))).
      { intros pre post H1 H2 L. eapply P_le; [apply P_then; [apply P_nth; exact K|intro; apply P_then; [exact H1|intro; apply P_then; [exact H2|intro; apply (P_give 0)]]]|lia]. }
      assert (Two : forall i j o c, P (nth i cs 0 + nth j cs 0) (a <- s_convert_nth ks i ;;; b <- s_convert_nth ks j ;;; give (o ++ a ++ lit "}^{" ++ b ++ c))).
      { intros i j o c. eapply P_le; [apply P_then; [apply P_nth; exact K|intro; apply P_then; [apply P_nth; exact K|intro; apply (P_give 0)]]|lia]. }
      unfold s_prescript_latex in *. unfold s_postscript_latex in *. rewrite L3 in *. cbn [orb] in *. apply Nat.ltb_ge in L3.
      assert (L1 : Nat.leb 1 (length ks) = true) by (apply Nat.leb_le; lia). rewrite L1 in *. cbn [andb] in *.
      destruct (s_is_prescripts_nth ks 1) eqn:Q1.
      - apply (G (nth 2 cs 0 + nth 3 cs 0) 0); [|apply P_give|lia]. rewrite andb_true_r in *.
        destruct (Nat.leb 4 (length ks)) eqn:L4; [apply Two|].
        destruct (Nat.leb 6 (length ks)) eqn:L6; [|apply P_give]. apply Nat.leb_le in L6. apply Nat.leb_gt in L4. lia.
      - rewrite andb_false_r in *. apply (G (nth 4 cs 0 + nth 5 cs 0) (nth 1 cs 0 + nth 2 cs 0)); [|apply Two|lia].
        destruct (_ && _); [apply Two|apply P_give].
    Qed.
  End Runs.
End Closed.

Lemma tag_fenced n : tag_of n = TagFenced -> n = lit "mfenced".
Proof.
  intro H. destruct (str_eqb n (lit "mfenced")) eqn:Q; [apply str_eqb_eq; exact Q|]. exfalso. revert H Q.
  unfold tag_of, known_tags. cbn [tag_lookup].
  repeat match goal with
  | |- context [str_eqb n (lit ?s)] => let H := fresh in destruct (str_eqb n (lit s)) eqn:H; [discriminate|]
  end. discriminate.
Qed.

(** Making a converter, counted by [P], that then runs, counted by [Q]. *)
Section Making.
  Variables (w : weights) (P Q : forall A, nat -> prog A -> Prop).
  Hypothesis (CP : closed (w None) (w (Some Searching)) (w (Some Flagging)) P) (CQ : closed (w None) (w (Some Searching)) (w (Some Flagging)) Q).
  Arguments P {_} _ _.
  Arguments Q {_} _ _.
  Definition makes_in (a b : nat) (p : prog s_converter) : Prop :=
    forall B (f : res s_converter -> prog B) c, (forall cv, Q b cv -> P c (f (Ok cv))) -> P (a + c) (catch p f).
  Definition makes_for (t : nat) (p : prog s_converter) : Prop := exists a b, a + b <= t /\ makes_in a b p.
  Lemma makes_for_give t c : Q t c -> makes_for t (give c).
  Proof. intro H. exists 0, t. split; auto. intros B f c0 F. cbn [give catch]. apply F. exact H. Qed.
  Lemma makes_in_get_or a b l k d (g : str -> prog s_converter) : (forall x, makes_in a b (g x)) -> makes_in (w None + a) b (then_ (get_or l k d) g).
  Proof.
    intros H B f c F. unfold then_, get_or. cbn. eapply (P_le _ _ _ _ CP); [apply (P_look _ _ _ _ CP) with (n := a + c)|lia].
    intro x. apply H. exact F.
  Qed.
  Lemma makes_in_give b c : Q b c -> makes_in 0 b (give c).
  Proof. intros H B f c0 F. cbn [give catch]. apply F. exact H. Qed.

  Lemma makes_class n v ks cs al : kids_take (@Q) ks cs ->
    makes_for (list_sum cs + w None * (3 + length v) + overhead w n (list_sum (map places (map s_elem ks)))) (s_class_for n n v ks al).
  Proof.
    intro K. pose proof (s_class_for_ok n) as C.
    remember (tag_of n) as tg eqn:Tg. symmetry in Tg. remember (s_class_for n) as cl eqn:Cl.
    assert (All : forall m (f : list str -> str), Q (list_sum cs + m) (then_ (s_convert_all ks) (fun l => give (f l)))).
    { intros m f. apply (P_all_then _ _ _ _ CQ); auto. intro. apply (P_give _ _ _ _ CQ). }
    destruct C.
    7: { apply tag_fenced in Tg. subst n. change (overhead w (lit "mfenced") ?b) with (w (Some Searching) * b).
      exists (3 * w None), (list_sum cs + w (Some Searching) * list_sum (map places (map s_elem ks))). split; [lia|].
      unfold s_MFenced. replace (3 * w None) with (w None + (w None + (w None + 0))) by lia.
      do 3 (apply makes_in_get_or; intro). apply makes_in_give. apply (P_all_then _ _ _ _ CQ); auto. intro ss.
      eapply (P_le _ _ _ _ CQ); [apply (P_there _ _ _ _ CQ) with (n := 0); intros [|]; apply (P_give _ _ _ _ CQ)|lia]. }
    10: { exists (w None), (list_sum cs). split; [lia|]. unfold s_MEnclose. replace (w None) with (w None + 0) by lia.
      apply makes_in_get_or; intro. apply makes_in_give. eapply (P_le _ _ _ _ CQ); [apply (All 0)|lia]. }
    17: { subst n. change (overhead w mtable_name ?b) with ((w (Some Flagging) + w None) * b).
      exists ((w (Some Flagging) + w None) * list_sum (map places (map s_elem ks))), (list_sum cs + w None). split; [lia|].
      intros B f c F. unfold s_MTable, then_, s_add_flag_to_all. rewrite !catch_add_flags. cbn [catch give].
      apply (P_add_flags _ _ _ _ CP). apply F. apply (P_all_then _ _ _ _ CQ); auto. intro ss.
      eapply (P_le _ _ _ _ CQ); [apply (P_get_or _ _ _ _ CQ) with (n := 0); intro x; apply (P_give _ _ _ _ CQ)|lia]. }
    all: apply makes_for_give.
    all: try (eapply (P_le _ _ _ _ CQ); [apply (All 0)|lia]).
    all: try apply (P_give _ _ _ _ CQ).
    - eapply (P_le _ _ _ _ CQ); [apply (P_MI _ _ _ _ CQ)|lia].
    - eapply (P_le _ _ _ _ CQ); [apply (P_MText _ _ _ _ CQ)|lia].
    - eapply (P_le _ _ _ _ CQ); [apply (P_two_plain _ _ _ _ CQ _ _ _ K)|lia]. intros k1 k2 c1 c2 K1 K2.
      eapply (P_le _ _ _ _ CQ); [apply (P_then _ _ _ _ CQ); [exact K1|intro; apply (P_then _ _ _ _ CQ); [exact K2|intro; apply (P_get_or _ _ _ _ CQ) with (n := 0); intro; apply (P_give _ _ _ _ CQ)]]|lia].
    - eapply (P_le _ _ _ _ CQ); [apply (P_two_plain _ _ _ _ CQ _ _ _ K)|lia]. intros k1 k2 c1 c2 K1 K2.
      eapply (P_le _ _ _ _ CQ); [apply (P_then _ _ _ _ CQ); [exact K1|intro; apply (P_then _ _ _ _ CQ); [exact K2|intro; apply (P_give _ _ _ _ CQ 0)]]|lia].
    - eapply (P_le _ _ _ _ CQ); [apply (P_Action _ _ _ _ CQ); exact K|lia].
    - eapply (P_le _ _ _ _ CQ); [apply (P_two_plain _ _ _ _ CQ _ _ _ K)|lia]. intros k1 k2 c1 c2 K1 K2.
      eapply (P_le _ _ _ _ CQ); [apply (P_then _ _ _ _ CQ); [apply (P_base _ _ _ _ CQ); exact K1|intro; apply (P_then _ _ _ _ CQ); [apply (P_script _ _ _ _ CQ); exact K2|intro; apply (P_give _ _ _ _ CQ 0)]]|lia].
    - eapply (P_le _ _ _ _ CQ); [apply (P_two_plain _ _ _ _ CQ _ _ _ K)|lia]. intros k1 k2 c1 c2 K1 K2.
      eapply (P_le _ _ _ _ CQ); [apply (P_then _ _ _ _ CQ); [apply (P_base _ _ _ _ CQ); exact K1|intro; apply (P_then _ _ _ _ CQ); [apply (P_script _ _ _ _ CQ); exact K2|intro; apply (P_give _ _ _ _ CQ 0)]]|lia].
    - eapply (P_le _ _ _ _ CQ); [apply (P_three_plain _ _ _ _ CQ _ _ _ K)|lia]. intros k1 k2 k3 c1 c2 c3 K1 K2 K3.
      eapply (P_le _ _ _ _ CQ); [apply (P_then _ _ _ _ CQ); [apply (P_base _ _ _ _ CQ); exact K1|intro; apply (P_then _ _ _ _ CQ); [apply (P_script _ _ _ _ CQ); exact K2|
        intro; apply (P_then _ _ _ _ CQ); [apply (P_script _ _ _ _ CQ); exact K3|intro; apply (P_give _ _ _ _ CQ 0)]]]|lia].
    - eapply (P_le _ _ _ _ CQ); [apply (P_Multi _ _ _ _ CQ); exact K|lia].
    - eapply (P_le _ _ _ _ CQ); [apply (P_three_plain _ _ _ _ CQ _ _ _ K)|lia]. intros k1 k2 k3 c1 c2 c3 K1 K2 K3.
      eapply (P_le _ _ _ _ CQ); [apply (P_then _ _ _ _ CQ); [exact K1|intro; apply (P_then _ _ _ _ CQ); [exact K2|
        intro; apply (P_then _ _ _ _ CQ); [exact K3|intro; apply (P_give _ _ _ _ CQ 0)]]]|lia].
    - eapply (P_le _ _ _ _ CQ); [apply (P_two_plain _ _ _ _ CQ _ _ _ K)|lia]. intros k1 k2 c1 c2 K1 K2.
      eapply (P_le _ _ _ _ CQ); [apply (P_then _ _ _ _ CQ); [exact K1|intro; apply (P_then _ _ _ _ CQ); [exact K2|intro; apply (P_give _ _ _ _ CQ 0)]]|lia].
    - eapply (P_le _ _ _ _ CQ); [apply (P_two_plain _ _ _ _ CQ _ _ _ K)|lia]. intros k1 k2 c1 c2 K1 K2.
      eapply (P_le _ _ _ _ CQ); [apply (P_then _ _ _ _ CQ); [exact K1|intro; apply (P_then _ _ _ _ CQ); [exact K2|intro; apply (P_give _ _ _ _ CQ 0)]]|lia].
  Qed.
End Making.

(** At most [n], whatever is seen. *)
Fixpoint within {A} (w : weights) (n : nat) (p : prog A) {struct p} : Prop :=
  match p with
  | Done _ => True
  | Look _ k => w None <= n /\ forall d, within w (n - w None) (k d)
  | Put _ _ _ k => w None <= n /\ within w (n - w None) k
  | Alloc _ k => w None <= n /\ forall d, within w (n - w None) (k d)
  | GetXml _ k => w None <= n /\ forall d, within w (n - w None) (k d)
  | SetXml _ _ k => w None <= n /\ within w (n - w None) k
  | NewAdapter k => w None <= n /\ forall d, within w (n - w None) (k d)
  | Mark v k => w (Some v) <= n /\ within w (n - w (Some v)) k
  end.
Lemma within_mono {A} w (p : prog A) : forall a b, a <= b -> within w a p -> within w b p.
Proof.
  induction p; cbn [within]; intros a b L W; auto; destruct W as [W1 W2]; (split; [lia|]); intros;
    match goal with IH : _ |- _ => eapply IH end; try apply W2; try exact W2; lia.
Qed.
Lemma within_catch {A B} w (p : prog A) (f : res A -> prog B) : forall a b, within w a p -> (forall r, within w b (f r)) -> within w (a + b) (catch p f).
Proof.
  induction p; cbn [within catch]; intros a b W F; [eapply within_mono; [|apply F]; lia|..];
    destruct W as [W1 W2]; (split; [lia|]); intros;
    match goal with |- within _ ?n _ => match type of W1 with ?x <= _ => replace n with (a - x + b) by lia end end; auto.
Qed.
Lemma within_mark {A} w v n (p : prog A) : within w n p -> within w (w (Some v) + n) (Mark v p).
Proof. intro H. cbn [within]. split; [lia|]. replace (w (Some v) + n - w (Some v)) with n by lia. exact H. Qed.
Lemma within_closed w : closed (w None) (w (Some Searching)) (w (Some Flagging)) (fun A n p => @within A w n p).
Proof.
  split; intros; try exact I; try (apply within_mark; assumption).
  - eapply within_mono; eauto.
  - apply within_catch; auto.
  - cbn [within]. split; [lia|]. intro d. replace (w None + n - w None) with n by lia. auto.
  - cbn [within]. split; [lia|]. replace (w None + n - w None) with n by lia. auto.
Qed.
Lemma within_tally {A} w (p : prog A) : forall n st, within w n p -> tally w p st <= n.
Proof.
  induction p; cbn [within tally]; intros n st W; [lia|..]; destruct W as [W1 W2];
    match goal with IH : _ |- ?x + tally _ _ _ <= _ => enough (tally w _ _ <= n - x) by (etransitivity; [apply Nat.add_le_mono_l; eassumption|lia]) end;
    match goal with IH : _ |- _ => apply IH end; try apply W2; exact W2.
Qed.

(** From [d] calls under way to [d'], never more than [m]. *)
Fixpoint level {A} (m d d' : nat) (p : prog A) {struct p} : Prop :=
  match p with
  | Done _ => d = d'
  | Look _ k => forall x, level m d d' (k x)
  | Put _ _ _ k => level m d d' k
  | Alloc _ k => forall x, level m d d' (k x)
  | GetXml _ k => forall x, level m d d' (k x)
  | SetXml _ _ k => level m d d' k
  | NewAdapter k => forall x, level m d d' (k x)
  | Mark Entering k => S d <= m /\ level m (S d) d' k
  | Mark Leaving k => level m (pred d) d' k
  | Mark _ k => level m d d' k
  end.
Lemma level_catch {A B} m (p : prog A) (f : res A -> prog B) : forall d d1 d2, level m d d1 p -> (forall r, level m d1 d2 (f r)) -> level m d d2 (catch p f).
Proof.
  induction p; cbn [level catch]; intros d0 d1 d2 L F; [subst; auto|..]; try (intros; eauto); eauto.
  destruct v; eauto. destruct L. split; eauto.
Qed.
Lemma level_closed m d : closed 0 0 0 (fun A (_ : nat) p => @level A m d d p).
Proof. split; intros; cbn [level]; auto. eapply level_catch; eauto. Qed.
Lemma level_deepest {A} m (p : prog A) : forall d d' st, d <= m -> level m d d' p -> deepest p st d <= m.
Proof.
  induction p; cbn [level deepest]; intros d0 d' st L Lv; eauto.
  destruct v; eauto.
  - destruct Lv as [L1 L2]. apply Nat.max_lub; auto. eauto.
  - eapply IHp; eauto. lia.
Qed.

(** Elements. *)
Lemma within_made w e : makes_for (fun A n p => @within A w n p) (fun A n p => @within A w n p)
  (effort w e - w (Some Entering) - w (Some Leaving)) (s_to_latex_converter e) /\ within w (effort w e) (s_convert_elem e).
Proof.
  induction e as [n v ch l IH] using elem_ind'.
  set (ks := map (fun c => SKid c (s_to_latex_converter c)) ch).
  assert (K : kids_take (fun A n p => @within A w n p) ks (map (effort w) ch)).
  { unfold ks, kids_take. clear ks. induction IH as [|c cs [_ Hc] F IHs]; constructor; auto. }
  destruct (makes_class w _ _ (within_closed w) (within_closed w) n v ks _ l K) as (a & b & L & Mk).
  assert (E : map s_elem ks = ch) by (unfold ks; rewrite map_map; apply map_id). rewrite E in L.
  assert (M2 : makes_in (fun A n p => @within A w n p) (fun A n p => @within A w n p) (w (Some Making) + a) b (s_to_latex_converter (Elem n v ch l))).
  { intros B f c F. cbn [s_to_latex_converter]. fold ks. unfold s_make_converter. cbv zeta. fold (s_class_for n). cbn [catch].
    rewrite <- Nat.add_assoc. apply within_mark. apply Mk. exact F. }
  split.
  - exists (w (Some Making) + a), b. split; [cbn [effort]; lia|exact M2].
  - unfold s_convert_elem, then_. eapply within_mono; [|apply M2 with (c := w (Some Entering) + (b + (w (Some Leaving) + 0)))].
    + cbn [effort]. lia.
    + intros cv Hc. unfold s_run. apply within_mark. apply within_catch; auto. intro r. apply within_mark. exact I.
Qed.
Lemma within_convert w e : within w (effort w e) (s_convert_elem e).
Proof. apply within_made. Qed.
Definition no_weight : weights := fun _ => 0.
Lemma le_list_max c ch : In c ch -> levels c <= list_max (map levels ch).
Proof.
  intro I. pose proof (proj1 (list_max_le (map levels ch) (list_max (map levels ch))) (le_n _)) as F.
  rewrite Forall_forall in F. apply F. apply in_map. exact I.
Qed.
Lemma level_made e : forall m d, d + levels e <= m ->
  (exists a b, makes_in (fun A (_ : nat) p => @level A m d d p) (fun A (_ : nat) p => @level A m (S d) (S d) p) a b (s_to_latex_converter e))
  /\ level m d d (s_convert_elem e).
Proof.
  induction e as [n v ch l IH] using elem_ind'. intros m d L. cbn [levels] in L.
  set (ks := map (fun c => SKid c (s_to_latex_converter c)) ch).
  assert (K : kids_take (fun A (_ : nat) p => @level A m (S d) (S d) p) ks (map (fun _ => 0) ch)).
  { unfold ks, kids_take. clear ks. rewrite Forall_forall in IH.
    assert (X : forall c, In c ch -> level m (S d) (S d) (s_convert_elem c)).
    { intros c I. apply IH; auto. pose proof (le_list_max c ch I). lia. }
    clear IH L. induction ch as [|c cs IHs]; constructor; [apply X; cbn; auto|apply IHs; intros; apply X; cbn; auto]. }
  destruct (makes_class no_weight _ _ (level_closed m d) (level_closed m (S d)) n v ks _ l K) as (a & b & _ & Mk).
  assert (M2 : makes_in (fun A (_ : nat) p => @level A m d d p) (fun A (_ : nat) p => @level A m (S d) (S d) p) a b (s_to_latex_converter (Elem n v ch l))).
  { intros B f c F. cbn [s_to_latex_converter]. fold ks. unfold s_make_converter. cbv zeta. fold (s_class_for n). cbn [catch level].
    apply (Mk B f c). exact F. }
  split; [eauto|].
  unfold s_convert_elem, then_. apply (M2 _ _ 0). intros cv Hc. unfold s_run. cbn [level]. split; [lia|].
  eapply level_catch; [exact Hc|]. intro r. cbn [level]. reflexivity.
Qed.

(** Several elements: first all are made, then all run. *)
Section Several.
  Variables (wa ws wf : nat) (P Q : forall A, nat -> prog A -> Prop).
  Arguments P {_} _ _.
  Arguments Q {_} _ _.
  Hypothesis CP : closed wa ws wf (@P).
  Hypothesis P_assoc : forall A B D n (p : prog A) (k : res A -> prog B) (f : res B -> prog D),
    P n (catch p (fun x => catch (k x) f)) -> P n (catch (catch p k) f).
  Lemma makes_all es ab : Forall2 (fun e x => makes_in (@P) (@Q) (fst x) (snd x) (s_to_latex_converter e)) es ab ->
    forall B (f : res (list s_converter) -> prog B) c,
    (forall cvs, Forall2 (fun x cv => Q (snd x) cv) ab cvs -> P c (f (Ok cvs))) ->
    P (list_sum (map fst ab) + c) (catch (s_make_all es) f).
  Proof.
    induction 1 as [|e x es ab M F IH]; intros B f c H; cbn [s_make_all map].
    - apply H. constructor.
    - change (list_sum (fst x :: map fst ab)) with (fst x + list_sum (map fst ab)). rewrite <- Nat.add_assoc.
      unfold then_. apply P_assoc. apply M. intros cv Hc. apply P_assoc. apply IH. intros cvs Hs. cbn [give catch].
      apply H. constructor; auto.
  Qed.
  Variables (entering leaving : nat).
  Hypothesis P_run : forall b cv, Q b cv -> P (entering + b + leaving) (s_run cv).
  Lemma runs_all bs cvs : Forall2 (fun b cv => Q b cv) bs cvs -> P (list_sum (map (fun b => entering + b + leaving) bs)) (s_run_all cvs).
  Proof.
    induction 1 as [|b cv bs cvs H F IH]; cbn [s_run_all map]; [apply (P_give _ _ _ _ CP)|].
    change (list_sum (?x :: ?l)) with (x + list_sum l). apply (P_then _ _ _ _ CP); auto.
    intro s. eapply (P_le _ _ _ _ CP); [apply (P_then _ _ _ _ CP); [exact IH|intro; apply (P_give _ _ _ _ CP 0)]|lia].
  Qed.
  Lemma makes_and_runs es ab (g : list str -> str) : Forall2 (fun e x => makes_in (@P) (@Q) (fst x) (snd x) (s_to_latex_converter e)) es ab ->
    P (list_sum (map (fun x => fst x + (entering + snd x + leaving)) ab)) (cs <- s_make_all es ;;; latex <- s_run_all cs ;;; give (g latex)).
  Proof.
    intro F. eapply (P_le _ _ _ _ CP).
    - unfold then_ at 1. apply makes_all with (c := list_sum (map (fun b => entering + b + leaving) (map snd ab))); [exact F|].
      intros cvs H. eapply (P_le _ _ _ _ CP); [apply (P_then _ _ _ _ CP); [apply runs_all with (bs := map snd ab)|intro; apply (P_give _ _ _ _ CP 0)]|lia].
      clear F. induction H; constructor; auto.
    - clear F. induction ab as [|x ab IH]; cbn [map]; [cbn; lia|]. repeat change (list_sum (?x :: ?l)) with (x + list_sum l). lia.
  Qed.
End Several.

Lemma within_assoc {A B D} w (p : prog A) (k : res A -> prog B) (f : res B -> prog D) : forall n,
  within w n (catch p (fun x => catch (k x) f)) -> within w n (catch (catch p k) f).
Proof. induction p; cbn [catch within]; intros n W; auto; destruct W as [W1 W2]; split; auto. Qed.
Lemma within_all w es (g : list str -> str) : within w (list_sum (map (effort w) es)) (cs <- s_make_all es ;;; latex <- s_run_all cs ;;; give (g latex)).
Proof.
  assert (X : exists ab, Forall2 (fun e x => makes_in (fun A n p => @within A w n p) (fun A n p => @within A w n p) (fst x) (snd x) (s_to_latex_converter e)) es ab
    /\ list_sum (map (fun x => fst x + (w (Some Entering) + snd x + w (Some Leaving))) ab) <= list_sum (map (effort w) es)).
  { induction es as [|e es IH]; [exists []; split; [constructor|cbn; lia]|].
    destruct IH as (ab & F & L). destruct (proj1 (within_made w e)) as (a & b & Le & M). exists ((a, b) :: ab). split; [constructor; auto|].
    cbn [map]. repeat change (list_sum (?x :: ?l)) with (x + list_sum l). cbn [fst snd].
    assert (w (Some Entering) + w (Some Leaving) <= effort w e) by (destruct e; cbn [effort]; lia). lia. }
  destruct X as (ab & F & L). eapply within_mono; [exact L|].
  apply (makes_and_runs _ _ _ _ (fun A n p => @within A w n p) (within_closed w)); auto.
  - intros. apply within_assoc. assumption.
  - intros b cv H. unfold s_run. rewrite <- Nat.add_assoc. apply within_mark. apply within_catch; auto. intro r.
    rewrite <- (Nat.add_0_r (w (Some Leaving))). apply within_mark. exact I.
Qed.
Lemma level_assoc {A B D} m (p : prog A) (k : res A -> prog B) (f : res B -> prog D) : forall d d',
  level m d d' (catch p (fun x => catch (k x) f)) -> level m d d' (catch (catch p k) f).
Proof. induction p; cbn [catch level]; intros d0 d' W; auto. destruct v; auto. destruct W; split; auto. Qed.
Lemma level_all m es (g : list str -> str) : (forall e, In e es -> levels e <= m) -> level m 0 0 (cs <- s_make_all es ;;; latex <- s_run_all cs ;;; give (g latex)).
Proof.
  intro Le. set (P := fun (A : Type) (_ : nat) p => @level A m 0 0 p). set (Q := fun (A : Type) (_ : nat) p => @level A m 1 1 p).
  assert (X : exists ab, Forall2 (fun e x => makes_in P Q (fst x) (snd x) (s_to_latex_converter e)) es ab).
  { induction es as [|e es IH]; [exists []; constructor|]. destruct IH as (ab & F); [intros; apply Le; cbn; auto|].
    destruct (proj1 (level_made e m 0 (Le e (or_introl eq_refl)))) as (a & b & M). exists ((a, b) :: ab). constructor; auto. }
  destruct X as (ab & F). destruct es as [|e0 es0]; [cbn; auto|].
  assert (1 <= m). { transitivity (levels e0); [destruct e0; cbn [levels]; lia|apply Le; cbn; auto]. }
  refine (makes_and_runs _ _ _ P Q (level_closed m 0) _ 0 0 _ _ ab g F).
  - intros. apply level_assoc. assumption.
  - intros b cv H0. unfold P, s_run. cbn [level]. split; [lia|]. eapply level_catch; [exact H0|]. intro r. reflexivity.
Qed.

(** Reading a text. *)
Lemma tally_catch {A B} w (p : prog A) (f : res A -> prog B) : forall st,
  tally w (catch p f) st = tally w p st + tally w (f (snd (alone p st))) (fst (alone p st)).
Proof. induction p; intro st; cbn [catch tally alone]; auto; rewrite ?H, ?IHp; lia. Qed.
Lemma tally_elements_gen w ns : Forall (fun n => forall st, exists st' els, alone (s_convert_element n) st = (st', Ok els) /\ tally w (s_convert_element n) st = w None * list_sum (map places els)) ns ->
  forall st, exists st' els, alone (s_convert_elements ns) st = (st', Ok els) /\ tally w (s_convert_elements ns) st = w None * list_sum (map places els).
Proof.
  induction 1 as [|n ns Hn F IH]; intro st; cbn [s_convert_elements].
  - exists st, []. split; [reflexivity|]. cbn. lia.
  - destruct (Hn st) as (s1 & e1 & A1 & T1). destruct (IH s1) as (s2 & e2 & A2 & T2). exists s2, (e1 ++ e2). split.
    + rewrite alone_then, A1. rewrite alone_then, A2. reflexivity.
    + unfold then_. rewrite tally_catch, A1, T1. cbn [fst snd]. rewrite tally_catch, A2, T2. cbn [fst snd give tally].
      rewrite map_app, list_sum_app. lia.
Qed.
Lemma tally_element w n : forall st, exists st' els, alone (s_convert_element n) st = (st', Ok els) /\ tally w (s_convert_element n) st = w None * list_sum (map places els).
Proof.
  induction n as [tag a ch IH|n H] using dnode_ind'; [|destruct n; try discriminate; intro st; exists st, []; split; cbn; auto; lia].
  intro st. rewrite s_convert_element_eq. cbn [alone tally].
  match goal with |- context [State ?h ?x] => destruct (tally_elements_gen w ch IH (State h x)) as (s1 & els & A & T) end.
  eexists s1, [_]. split.
  - rewrite alone_then, A. reflexivity.
  - unfold then_. rewrite tally_catch, A, T. cbn [fst snd give tally map places list_sum fold_right]. fold (list_sum (map places els)). lia.
Qed.
Lemma tally_elements w ns st : exists st' els, alone (s_convert_elements ns) st = (st', Ok els) /\ tally w (s_convert_elements ns) st = w None * list_sum (map places els).
Proof. apply tally_elements_gen. apply Forall_forall. intros. apply tally_element. Qed.
Lemma tally_parse_loop w wc ps fuel : forall i last st, tally w (s_parse_loop wc ps fuel i last) st <= w None * (3 * fuel).
Proof.
  induction fuel as [|fuel IH]; intros i last st; cbn [s_parse_loop].
  - destruct last; cbn; lia.
  - cbn [tally]. destruct (ps _) as [dom|e]; [cbn [give tally]; lia|]. cbn [tally].
    destruct (fix_error wc _ e) as [x|e']; [|cbn [fail tally]; lia]. cbn [tally].
    match goal with |- context [tally w (s_parse_loop wc ps fuel i ?l) ?s] => specialize (IH i l s) end. lia.
Qed.
Lemma tally_reading w wc ps mathml st :
  tally w (reading wc ps mathml) st <= w None * (19 + match snd (alone (reading wc ps mathml) st) with Ok els => list_sum (map places els) | Raise _ => 0 end).
Proof.
  unfold reading, s_adapter_convert. cbn [tally alone dicts xmls]. unfold then_. rewrite tally_catch, alone_catch.
  match goal with |- context [tally w (s_parse_loop wc ps 5 ?i ?l) ?s] => pose proof (tally_parse_loop w wc ps 5 i l s) as L; set (st0 := s) in * end.
  destruct (alone (s_parse_loop wc ps 5 _ None) st0) as [s1 [ns|e]]; cbn [fst snd alone tally]; [|lia].
  destruct (tally_elements w ns s1) as (s2 & els & A & T). rewrite A, T. cbn [snd]. lia.
Qed.
Lemma call_reading {A} w wc ps mathml st (f : res (list elem) -> prog A) :
  tally w (NewAdapter (fun i => catch (s_adapter_convert wc ps i mathml) f)) st
  = tally w (reading wc ps mathml) st + tally w (f (snd (alone (reading wc ps mathml) st))) (fst (alone (reading wc ps mathml) st)).
Proof. unfold reading. cbn [tally alone]. rewrite tally_catch. lia. Qed.
Lemma tally_call w wc ps mathml st :
  tally w (s_mathml_to_latex wc ps mathml) st
  <= match snd (alone (reading wc ps mathml) st) with
     | Ok els => w None * (19 + list_sum (map places els)) + list_sum (map (effort w) els)
     | Raise _ => w None * 19
     end.
Proof.
  unfold s_mathml_to_latex, s_convert_with, then_ at 1. rewrite call_reading. pose proof (tally_reading w wc ps mathml st) as L.
  destruct (alone (reading wc ps mathml) st) as [s1 [els|e]]; cbn [fst snd] in *; [|cbn [tally]; lia].
  pose proof (within_tally w _ _ s1 (within_all w els (fun latex => strip (concat latex)))). lia.
Qed.

(** Depth: reading converts nothing. *)
Fixpoint unmarked {A} (p : prog A) : Prop :=
  match p with
  | Done _ => True
  | Look _ k => forall x, unmarked (k x)
  | Put _ _ _ k => unmarked k
  | Alloc _ k => forall x, unmarked (k x)
  | GetXml _ k => forall x, unmarked (k x)
  | SetXml _ _ k => unmarked k
  | NewAdapter k => forall x, unmarked (k x)
  | Mark _ _ => False
  end.
Lemma unmarked_catch {A B} (p : prog A) (f : res A -> prog B) : unmarked p -> (forall r, unmarked (f r)) -> unmarked (catch p f).
Proof. induction p; cbn [unmarked catch]; intros; auto. Qed.
Lemma deepest_catch {A B} (p : prog A) (f : res A -> prog B) d : unmarked p -> forall st,
  deepest (catch p f) st d = deepest (f (snd (alone p st))) (fst (alone p st)) d.
Proof. induction p; intros U st; cbn [catch deepest alone unmarked] in *; auto. destruct U. Qed.
Lemma unmarked_element n : unmarked (s_convert_element n).
Proof.
  induction n as [tag a ch IH|n H] using dnode_ind'; [|destruct n; try discriminate; exact I].
  rewrite s_convert_element_eq. cbn [unmarked]. intro l. unfold then_. apply unmarked_catch; [|intros [|]; exact I].
  induction IH as [|c cs Hc F IHs]; cbn [s_convert_elements]; [exact I|].
  unfold then_. apply unmarked_catch; auto. intros [x|e]; [|exact I]. apply unmarked_catch; auto. intros [y|e]; exact I.
Qed.
Lemma unmarked_elements ns : unmarked (s_convert_elements ns).
Proof.
  induction ns as [|c cs IHs]; cbn [s_convert_elements]; [exact I|].
  unfold then_. apply unmarked_catch; [apply unmarked_element|]. intros [x|e]; [|exact I]. apply unmarked_catch; auto. intros [y|e]; exact I.
Qed.
Lemma unmarked_parse_loop wc ps fuel : forall i last, unmarked (s_parse_loop wc ps fuel i last).
Proof.
  induction fuel as [|fuel IH]; intros i last; cbn [s_parse_loop]; [destruct last; exact I|]. cbn [unmarked]. intro x.
  destruct (ps x); [exact I|]. cbn [unmarked]. intro y. destruct (fix_error _ _ _); [|exact I]. cbn [unmarked]. apply IH.
Qed.
Lemma unmarked_adapter wc ps i mathml : unmarked (s_adapter_convert wc ps i mathml).
Proof.
  unfold s_adapter_convert. cbn [unmarked]. intro x. unfold then_. apply unmarked_catch; [apply unmarked_parse_loop|].
  intros [ns|e]; [apply unmarked_elements|exact I].
Qed.
Lemma deepest_call wc ps mathml st :
  deepest (s_mathml_to_latex wc ps mathml) st 0
  <= match snd (alone (reading wc ps mathml) st) with Ok els => list_max (map levels els) | Raise _ => 0 end.
Proof.
  unfold s_mathml_to_latex, s_convert_with, then_ at 1. cbn [deepest]. rewrite deepest_catch by apply unmarked_adapter.
  unfold reading. cbn [alone].
  destruct (alone (s_adapter_convert _ _ _ _) _) as [s1 [els|e]]; cbn [fst snd]; [|cbn [deepest]; lia].
  eapply level_deepest; [lia|]. apply (level_all _ els (fun latex => strip (concat latex))). intros e I. apply le_list_max. exact I.
Qed.

(** Threads. *)
Lemma within_thread wc ps es : within all_steps (list_sum (map (effort all_steps) es)) (thread_prog wc ps (map Convert es)).
Proof.
  induction es as [|e es IH]; cbn [map thread_prog]; [exact I|]. change (list_sum (?x :: ?l)) with (x + list_sum l).
  apply within_catch; [apply within_convert|]. intro r. unfold then_. rewrite <- (Nat.add_0_r (list_sum _)). apply within_catch; auto.
  intros [x|x]; exact I.
Qed.
Lemma within_step {A} (p : prog A) n st : within all_steps (S n) p -> within all_steps n (fst (step p st)).
Proof.
  assert (E : S n - all_steps None = n) by (cbn; lia). assert (Em : forall v, S n - all_steps (Some v) = n) by (intro; cbn; lia).
  destruct p; cbn [within step fst]; auto; intros [_ W]; rewrite ?E, ?Em in W; auto.
  all: intros; specialize (W x); rewrite E in W; exact W.
Qed.
Lemma within_zero {A} (p : prog A) : within all_steps 0 p -> exists r, p = Done r.
Proof. destruct p; cbn [within]; eauto; intros [W _]; unfold all_steps in W; lia. Qed.
Lemma turns_done {A} i schedule : forall (ts : list (prog A)) st p n, nth_error ts i = Some p -> within all_steps n p -> n <= turns i schedule ->
  exists r, nth_error (fst (exec schedule ts st)) i = Some (Done r).
Proof.
  induction schedule as [|j schedule IH]; intros ts st p n E W L; cbn [exec].
  - unfold turns in L. cbn in L. assert (n = 0) by lia. subst n. destruct (within_zero p W) as (r & ->). eauto.
  - destruct (tick j ts st) as [ts' st'] eqn:T. unfold turns in L. cbn [filter] in L. destruct (Nat.eqb i j) eqn:Q.
    + apply Nat.eqb_eq in Q. subst j. cbn [length] in L. unfold tick in T. rewrite E in T. destruct (step p st) as [p' s'] eqn:S. inversion T; subst ts' st'.
      apply IH with (p := p') (n := pred n).
      * clear - E. revert ts E. induction i as [|i IHi]; intros [|x ts] E; cbn in *; try discriminate; auto.
      * replace p' with (fst (step p st)) by (rewrite S; reflexivity). destruct n as [|n].
        -- destruct (within_zero p W) as (r & ->). exact I.
        -- apply within_step. exact W.
      * unfold turns. lia.
    + apply IH with (p := p) (n := n); auto. unfold tick in T. destruct (nth_error ts j) as [q|] eqn:Ej; [|inversion T; subst; exact E].
      destruct (step q st) as [q' s'] eqn:S. inversion T; subst ts' st'. apply Nat.eqb_neq in Q.
      clear - E Q. revert i ts Q E. induction j as [|j IHj]; intros [|i] [|x ts] Q E; cbn in *; try discriminate; auto; lia.
Qed.

(** The sums. *)
Lemma sum_le {A} (f g : A -> nat) l : Forall (fun x => f x <= g x) l -> list_sum (map f l) <= list_sum (map g l).
Proof. induction 1; cbn [map]; [lia|]. repeat change (list_sum (?x :: ?l)) with (x + list_sum l). lia. Qed.
Lemma effort_places w e : (forall o, o <> Some Making -> w o = 0) -> effort w e = w (Some Making) * places e.
Proof.
  intro Z. induction e as [n v ch l IH] using elem_ind'. cbn [effort places]. unfold overhead.
  rewrite ?(Z None), ?(Z (Some Entering)), ?(Z (Some Leaving)), ?(Z (Some Flagging)), ?(Z (Some Searching)) by discriminate. replace (list_sum (map (effort w) ch)) with (w (Some Making) * list_sum (map places ch)).
  - destruct (str_eqb n _); [|destruct (str_eqb n _)]; lia.
  - induction IH; cbn [map]; [cbn; lia|]. repeat change (list_sum (?x :: ?l)) with (x + list_sum l). lia.
Qed.
Lemma effort_places_entering w e : (forall o, o <> Some Entering -> w o = 0) -> effort w e = w (Some Entering) * places e.
Proof.
  intro Z. induction e as [n v ch l IH] using elem_ind'. cbn [effort places]. unfold overhead.
  rewrite ?(Z None), ?(Z (Some Making)), ?(Z (Some Leaving)), ?(Z (Some Flagging)), ?(Z (Some Searching)) by discriminate. replace (list_sum (map (effort w) ch)) with (w (Some Entering) * list_sum (map places ch)).
  - destruct (str_eqb n _); [|destruct (str_eqb n _)]; lia.
  - induction IH; cbn [map]; [cbn; lia|]. repeat change (list_sum (?x :: ?l)) with (x + list_sum l). lia.
Qed.
Lemma effort_any w z e : w (Some Flagging) + w None <= z -> w (Some Searching) <= z ->
  effort w e <= (w (Some Making) + w (Some Entering) + w (Some Leaving) + 3 * w None) * places e + w None * text_length e + z * (places e * nesting e).
Proof.
  intros Z1 Z2. induction e as [n v ch l IH] using elem_ind'. cbn [effort places text_length nesting].
  set (N := list_max (map nesting ch)). set (c := w (Some Making) + w (Some Entering) + w (Some Leaving) + 3 * w None).
  assert (X : list_sum (map (effort w) ch) <= c * list_sum (map places ch) + w None * list_sum (map text_length ch) + z * (list_sum (map places ch) * N)).
  { assert (NF : Forall (fun c => nesting c <= N) ch).
    { pose proof (proj1 (list_max_le (map nesting ch) N) (le_n _)) as F. rewrite Forall_map in F. exact F. }
    fold c in IH. clearbody N c. induction IH as [|x cs Hc F IHs]; cbn [map]; [cbn; lia|]. inversion NF; subst.
    repeat change (list_sum (?x :: ?l)) with (x + list_sum l). specialize (IHs H2).
    assert (z * (places x * nesting x) <= z * (places x * N)) by (apply Nat.mul_le_mono_l, Nat.mul_le_mono_l; auto). lia. }
  unfold overhead. set (S0 := list_sum (map places ch)) in *. 
  assert ((w (Some Flagging) + w None) * S0 <= z * S0) by (apply Nat.mul_le_mono_r; auto).
  assert (w (Some Searching) * S0 <= z * S0) by (apply Nat.mul_le_mono_r; auto).
  assert (z * (S S0 * (0 + N)) = z * (S0 * N) + z * N) by lia.
  assert (z * (S S0 * (1 + N)) = z * (S0 * N) + z * N + z * S0 + z) by lia.
  subst c. destruct (str_eqb n (lit "mtable")); [|destruct (str_eqb n (lit "mfenced"))]; cbn [orb]; lia.
Qed.
Lemma effort_bound e : effort all_steps e <= 6 * places e + text_length e + 2 * (places e * nesting e).
Proof. pose proof (effort_any all_steps 2 e) as H. repeat change (all_steps _) with 1 in H. lia. Qed.

(** A chain of mfenceds. *)
Lemma fences_alone k : forall st, exists s, alone (s_convert_elem (fences k)) st = (st, Ok s).
Proof.
  induction k as [|k IH]; intros st; [eexists; reflexivity|].
  unfold s_convert_elem. rewrite alone_then. cbn [fences s_to_latex_converter].
  change (s_make_converter (lit "mfenced")) with (fun (_ : str) ks a => s_MFenced ks a). cbv beta. cbn [map alone].
  unfold s_MFenced. rewrite !alone_then. cbn [get_or alone give]. rewrite !alone_then. cbn [get_or alone give].
  rewrite !alone_then. cbn [get_or alone give]. rewrite alone_run. rewrite alone_then. cbn [s_convert_all]. rewrite alone_then.
  unfold s_kid_convert. cbn [s_make]. destruct (IH st) as (s & E). unfold s_convert_elem in E. rewrite E. rewrite alone_then. cbn [alone give].
  rewrite alone_there. destruct (is_there_relative_of_name _ _); cbn [alone give]; eauto.
Qed.
Lemma tally_then {A B} w (p : prog A) (f : A -> prog B) st :
  tally w (then_ p f) st = tally w p st + match snd (alone p st) with Ok a => tally w (f a) (fst (alone p st)) | Raise _ => 0 end.
Proof. unfold then_. rewrite tally_catch. destruct (snd (alone p st)); reflexivity. Qed.
Lemma fences_search {A} k : forall (f : bool -> prog A) st,
  tally (calls_of Searching) (s_relative (lit "mtable") (fences k) f) st = S k + tally (calls_of Searching) (f false) st.
Proof.
  induction k as [|k IH]; intros f st; [reflexivity|]. cbn [fences s_relative].
  change (str_eqb (lit "mfenced") (lit "mtable")) with false. cbn [fold_right tally calls_of]. rewrite IH. cbn [orb]. lia.
Qed.
Lemma fences_tally k : forall st, 2 * tally (calls_of Searching) (s_convert_elem (fences k)) st = k * (k + 1).
Proof.
  induction k as [|k IH]; intros st; [reflexivity|]. specialize (IH st). destruct (fences_alone k st) as (s & E).
  unfold s_convert_elem. rewrite tally_then. cbn [fences s_to_latex_converter].
  change (s_make_converter (lit "mfenced")) with (fun (_ : str) ks a => s_MFenced ks a). cbv beta. cbn [map alone tally].
  unfold s_MFenced. repeat (rewrite ?tally_then, ?alone_then; cbn [get_or alone tally give fst snd]).
  unfold s_run. cbn [tally]. rewrite tally_catch. cbn [tally]. rewrite tally_then. cbn [s_convert_all]. 
  repeat rewrite tally_then. repeat rewrite alone_then.
  unfold s_kid_convert. cbn [s_make]. fold (s_convert_elem (fences k)). rewrite E. cbn [fst snd alone tally give].
  rewrite alone_then. cbn [alone give fst snd]. unfold s_there. cbn [map s_elem fold_right]. rewrite fences_search. cbn [orb tally give calls_of]. rewrite tally_then. cbn [tally give alone fst snd]. nia.
Qed.
