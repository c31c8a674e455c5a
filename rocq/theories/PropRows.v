(** C47 and the second half of C35: fractions, roots, errors and rows, for all children. *)
From Coq Require Import String.
From Verif Require Import SpecExamples LemEquiv LemDoc2.
Local Open Scope string_scope.
Local Open Scope list_scope.

(** C47 *)
Theorem C47_fraction : forall v x y a sx sy, latex_of x = Ok sx -> latex_of y = Ok sy -> attr a "bevelled" = [] ->
  latex_of (T (lit "mfrac") v [x; y] a) = Ok (lit "\frac{" ++ sx ++ lit "}{" ++ sy ++ lit "}").
Proof. intros v x y a sx sy X Y B. node_of TagFrac. rewrite X, Y, B. cbn [rbind truthy]. unfold braced. rewrite <- !app_assoc. reflexivity. Qed.
Print Assumptions C47_fraction.
(** Bevelled: each part of more than one character in parentheses. *)
Theorem C47_bevelled : forall v x y a sx sy px py, latex_of x = Ok sx -> latex_of y = Ok sy -> attr a "bevelled" <> [] ->
  (length sx <= 1 /\ px = sx \/ 1 < length sx /\ px = lit "\left(" ++ sx ++ lit "\right)") ->
  (length sy <= 1 /\ py = sy \/ 1 < length sy /\ py = lit "\left(" ++ sy ++ lit "\right)") ->
  latex_of (T (lit "mfrac") v [x; y] a) = Ok (px ++ lit "/" ++ py).
Proof.
  intros v x y a sx sy px py X Y B PX PY. node_of TagFrac. rewrite X, Y.
  destruct (attr a "bevelled"); [destruct (B eq_refl)|]. cbn [truthy].
  assert (P : forall s p, length s <= 1 /\ p = s \/ 1 < length s /\ p = lit "\left(" ++ s ++ lit "\right)" -> paren_if_long s = p).
  { intros s0 p [[L ->]|[L ->]]; unfold paren_if_long.
    - destruct (Nat.ltb_spec 1 (length s0)); [lia|auto].
    - destruct (Nat.ltb_spec 1 (length s0)); [auto|lia]. }
  cbn [rbind]. rewrite (P _ _ PX), (P _ _ PY). reflexivity.
Qed.
Print Assumptions C47_bevelled.
Theorem C47_root : forall v x y a sx sy, latex_of x = Ok sx -> latex_of y = Ok sy ->
  latex_of (T (lit "mroot") v [x; y] a) = Ok (lit "\sqrt[" ++ sy ++ lit "]{" ++ sx ++ lit "}").
Proof. intros v x y a sx sy X Y. node_of TagRoot. rewrite X, Y. cbn [rbind]. unfold braced. rewrite <- ?app_assoc. reflexivity. Qed.
Print Assumptions C47_root.
Theorem C47_square_root : forall v ch a ss, converts ch ss ->
  latex_of (T (lit "msqrt") v ch a) = Ok (lit "\sqrt{" ++ with_gaps (fun _ => lit " ") ss ++ lit "}").
Proof. intros v ch a ss C. node_of TagSqrt. rewrite (rseq_kids ch ss C). cbn [rbind]. rewrite join_gaps. reflexivity. Qed.
Print Assumptions C47_square_root.
Theorem C47_error : forall v ch a ss, converts ch ss ->
  latex_of (T (lit "merror") v ch a) = Ok (lit "\color{red}{" ++ with_gaps (fun _ => lit " ") ss ++ lit "}").
Proof. intros v ch a ss C. node_of TagError. rewrite (rseq_kids ch ss C). cbn [rbind]. rewrite join_gaps. reflexivity. Qed.
Print Assumptions C47_error.
(** mrow, mpadded, mstyle, mtd, ... : every tag without a converter of its own. *)
Theorem C47_row : forall n v ch a ss, row_tag n -> converts ch ss ->
  latex_of (T n v ch a) = Ok (with_gaps (fun _ => lit " ") ss).
Proof.
  intros n v ch a ss N C. rewrite row_latex by auto.
  replace (rseq (map latex_of ch)) with (Ok ss) by (symmetry; apply rseq_Forall2, Forall2_map_l; exact C).
  cbn [rbind]. rewrite join_gaps. reflexivity.
Qed.
Print Assumptions C47_row.
Theorem C47_math : forall v ch a ss, converts ch ss ->
  latex_of (T (lit "math") v ch a) = Ok (squeeze (with_gaps (fun _ => lit " ") ss)).
Proof. intros v ch a ss C. node_of TagMath. rewrite (rseq_kids ch ss C). cbn [rbind]. rewrite join_gaps. reflexivity. Qed.
Print Assumptions C47_math.
(** What squeeze is: the words of the text, with one space between. *)
Theorem C47_squeeze : forall s, squeeze s = with_gaps (fun _ => lit " ") (words s)
  /\ (forall w, In w (words s) -> w <> [] /\ forall c, In c w -> is_space c = false)
  /\ concat (words s) = filter (fun c => negb (is_space c)) s.
Proof.
  intro s. split; [apply join_gaps|]. split.
  - intros w I. pose proof (words_word s) as F. rewrite Forall_forall in F. destruct (F w I) as [N H]. split; auto.
  - unfold words. induction s as [|c s IH]; [reflexivity|]. cbn [fields filter]. destruct (is_space c) eqn:E; cbn [negb]; auto.
    destruct (fields_cons s) as (f & fs & F). rewrite F in *. cbn [filter truthy]. cbn [filter] in IH.
    rewrite <- IH. destruct f; reflexivity.
Qed.
Print Assumptions C47_squeeze.
Example C47_example :
  latex_of (el "mfrac" [mi "ab"; mn "2"]) = Ok (lit "\frac{ab}{2}")
  /\ latex_of (ela "mfrac" [("bevelled", "true")] [mi "ab"; mn "2"]) = Ok (lit "\left(ab\right)/2")
  /\ latex_of (el "mroot" [el "msqrt" [mi "x"; mi "y"]; mn "3"]) = Ok (lit "\sqrt[3]{\sqrt{x y}}")
  /\ latex_of (el "merror" [mi "x"; el "mstyle" [mi "y"; mi "z"]]) = Ok (lit "\color{red}{x y z}")
  /\ latex_of (el "math" [mi "x"; el "mphantom" []; mi "y"]) = Ok (lit "x y").
Proof. vm_compute. repeat split. Qed.

(** C35, second half: bevelled on a fraction in a document.  The value bevelled (or none) is a plain fraction; every other value,
    also false, is like true. *)
Theorem C35_bevelled : forall value nx ny x y, tree_of_node nx = [x] -> tree_of_node ny = [y] ->
  exists t, tree_of_node (DElem (lit "mfrac") [(lit "bevelled", value)] [nx; ny]) = [t]
  /\ (value = lit "bevelled" \/ value = [] -> latex_of t = latex_of (T (lit "mfrac") [] [x; y] []))
  /\ (value <> lit "bevelled" -> value <> [] ->
      latex_of t = latex_of (T (lit "mfrac") [] [x; y] [(lit "bevelled", lit "true")])).
Proof.
  intros value nx ny x y X Y. cbn [tree_of_node flat_map]. rewrite X, Y. eexists. split; [reflexivity|].
  cbn [attributes_of distinct map fst filter last_value]. unfold attributes_of. cbn [distinct map fst filter last_value].
  rewrite str_eqb_refl. cbn [app].
  split.
  - intros [->| ->]; rewrite !latex_node' by reflexivity; reflexivity.
  - intros N1 N2. rewrite !latex_node' by reflexivity. unfold node. change (tag_of (lit "mfrac")) with TagFrac. cbn iota.
    cbn [map snd fst]. rewrite (proj2 (str_eqb_neq _ _) N1). destruct value; [destruct (N2 eq_refl)|]. reflexivity.
Qed.
Print Assumptions C35_bevelled.
