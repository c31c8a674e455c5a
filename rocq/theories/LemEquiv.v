(** Trees that convert alike. *)
From Coq Require Import String.
From Verif Require Export LemShape LemHeap SpecEquiv.
Local Open Scope string_scope.
Local Open Scope list_scope.

Lemma Forall2_Forall_l {A B} (P : A -> Prop) (R : A -> B -> Prop) l l' :
  Forall P l -> Forall2 R l l' -> Forall2 (fun x y => P x /\ R x y) l l'.
Proof. intros F G. revert F. induction G; intro F; inversion F; subst; constructor; auto. Qed.
Lemma Forall2_mono {A B} (R S : A -> B -> Prop) l l' : (forall x y, R x y -> S x y) -> Forall2 R l l' -> Forall2 S l l'.
Proof. intros H F. induction F; constructor; auto. Qed.
Lemma Forall2_map_both {A B C D} (R : C -> D -> Prop) (f : A -> C) (g : B -> D) l l' :
  Forall2 (fun x y => R (f x) (g y)) l l' -> Forall2 R (map f l) (map g l').
Proof. intro F. induction F; cbn; constructor; auto. Qed.

Lemma row_tag_of n : row_tag n -> tag_of n = TagRow.
Proof.
  intro H. unfold tag_of. destruct (tag_lookup_spec known_tags n) as [(s & I & E)|[E _]]; auto.
  exfalso. apply H. subst n. apply (in_map fst) in I. cbn [fst] in I.
  change library_tags with (map fst known_tags). apply in_map. exact I.
Qed.
Lemma row_not n s : row_tag n -> In s library_tags -> str_eqb n (lit s) = false.
Proof. intros H I. apply str_eqb_neq. intros ->. apply H. apply in_map. auto. Qed.
Lemma row_not_table n : row_tag n -> is_table n = false.
Proof. intro H. apply row_not; auto. cbn. tauto. Qed.

(** What a parent sees of a child with outcome [r]. *)
Definition weak_look (fenced : bool) (p q : tree * res str) : Prop :=
  snd p = snd q /\ named_mprescripts (fst p) = named_mprescripts (fst q)
  /\ (Nat.ltb 1 (length (t_children (fst p))) = Nat.ltb 1 (length (t_children (fst q))) \/ snd p = Ok [])
  /\ (fenced = true -> has_table (fst p) = has_table (fst q)).
Lemma weak_snd f ps qs : Forall2 (weak_look f) ps qs -> map snd ps = map snd qs.
Proof. induction 1 as [|p q ps qs (H & _) F IH]; cbn; congruence. Qed.
Lemma weak_table ps qs : Forall2 (weak_look true) ps qs -> existsb has_table (map fst ps) = existsb has_table (map fst qs).
Proof. induction 1 as [|p q ps qs (_ & _ & _ & H) F IH]; cbn; auto. rewrite IH, H; auto. Qed.
Lemma weak_base f b b' s : weak_look f (b, Ok s) (b', Ok s) -> base_latex b s = base_latex b' s.
Proof. intros (_ & _ & [H|H] & _); unfold base_latex; cbn in *; [rewrite H; auto|]. injection H as ->. cbn. rewrite !andb_false_r. auto. Qed.
Lemma weak_nth f ps qs i : Forall2 (weak_look f) ps qs ->
  match nth_error ps i with Some (t, _) => str_eqb (t_name t) (lit "mprescripts") | None => false end =
  match nth_error qs i with Some (t, _) => str_eqb (t_name t) (lit "mprescripts") | None => false end.
Proof.
  intro F. revert i. induction F as [|[t r] [u s] ps qs (_ & H & _) F IH]; intros [|i]; cbn [nth_error]; auto.
Qed.
Lemma node_weak inside n v ps qs a :
  Forall2 (weak_look (str_eqb n (lit "mfenced"))) ps qs -> node inside n v ps a = node inside n v qs a.
Proof.
  intro F. pose proof (weak_snd _ _ _ F) as E1. pose proof (Forall2_len _ _ _ F) as E3.
  assert (E2 : tag_of n = TagFenced -> existsb has_table (map fst ps) = existsb has_table (map fst qs)).
  { intro Tg. apply weak_table. destruct (str_eqb n (lit "mfenced")) eqn:E; auto. exfalso.
    revert Tg. unfold tag_of, known_tags. cbn [tag_lookup]. rewrite E.
    repeat match goal with |- (if ?b then _ else _) = _ -> _ => destruct b; [discriminate|] end. discriminate. }
  unfold node. rewrite E1, E3. destruct (tag_of n) eqn:Tg; auto.
  - rewrite E2 by auto. auto.
  - destruct F as [|[t r] [u s] ps qs H1 F]; auto. destruct F as [|[t2 r2] [u2 s2] ps qs H3 F]; auto.
    destruct F; auto. pose proof (proj1 H1) as X. pose proof (proj1 H3) as Y. cbn in X, Y. subst. destruct s as [x|]; auto. cbn. destruct s2 as [y|]; auto. cbn.
    rewrite (weak_base _ _ _ _ H1). auto.
  - destruct F as [|[t r] [u s] ps qs H1 F]; auto. destruct F as [|[t2 r2] [u2 s2] ps qs H3 F]; auto.
    destruct F; auto. pose proof (proj1 H1) as X. pose proof (proj1 H3) as Y. cbn in X, Y. subst. destruct s as [x|]; auto. cbn. destruct s2 as [y|]; auto. cbn.
    rewrite (weak_base _ _ _ _ H1). auto.
  - destruct F as [|[t r] [u s] ps qs H1 F]; auto. destruct F as [|[t2 r2] [u2 s2] ps qs H3 F]; auto.
    destruct F as [|[t3 r3] [u3 s3] ps qs H5 F]; auto.
    destruct F; auto. pose proof (proj1 H1) as X. pose proof (proj1 H3) as Y. pose proof (proj1 H5) as Z. cbn in X, Y, Z. subst.
    destruct s as [x|]; auto. cbn. destruct s2 as [y|]; auto. cbn.
    destruct s3 as [z|]; auto. cbn. rewrite (weak_base _ _ _ _ H1). auto.
  - rewrite (weak_nth _ _ _ 1 F), (weak_nth _ _ _ 3 F). reflexivity.
Qed.
(** Rows are rendered alike whatever their name, text and attributes. *)
Lemma node_row inside inside' n n' v v' kids a a' : row_tag n -> row_tag n' -> node inside n v kids a = node inside' n' v' kids a'.
Proof. intros H H'. unfold node. rewrite (row_tag_of _ H), (row_tag_of _ H'). auto. Qed.

(** ** C16 *)
Lemma renamed_facts t u : renamed t u ->
  named_mprescripts t = named_mprescripts u /\ length (t_children t) = length (t_children u) /\ has_table t = has_table u.
Proof.
  revert u. induction t as [n v ch a IH] using tree_ind'. intros u R. inversion R as [? n' ? ? ch' ? N F]; subst. cbn [t_children has_table].
  split; [|split].
  - unfold named_mprescripts. cbn [t_name]. destruct N as [->|(_ & _ & N1 & N2)]; auto.
    apply str_eqb_neq in N1, N2. congruence.
  - eapply Forall2_len; eauto.
  - f_equal.
    + destruct N as [->|(R1 & R2 & _)]; auto. rewrite (row_not n "mtable"), (row_not n' "mtable"); auto; cbn; tauto.
    + clear N R. revert ch' F. induction IH as [|c ch Hc _ IHl]; intros ch' F; inversion F; subst; auto. cbn [existsb].
      f_equal; auto. apply Hc; auto.
Qed.
Lemma renamed_render t : forall u inside, renamed t u -> render inside t = render inside u.
Proof.
  induction t as [n v ch a IH] using tree_ind'. intros u inside R. inversion R as [? n' ? ? ch' ? N F]; subst. cbn [render].
  assert (B : is_table n = is_table n') by (destruct N as [->|(R1 & R2 & _)]; auto; rewrite !row_not_table; auto).
  rewrite <- B. transitivity (node inside n v (map (fun c => (c, render (inside || is_table n) c)) ch') a).
  - apply node_weak. apply Forall2_map_both. eapply Forall2_mono; [|exact (Forall2_Forall_l _ _ _ _ IH F)].
    cbn beta. intros x y [H Rxy]. destruct (renamed_facts x y Rxy) as (F1 & F2 & F3). unfold weak_look. cbn [fst snd].
    rewrite F2. auto.
  - destruct N as [->|(R1 & R2 & _)]; auto. apply node_row; auto.
Qed.

(** ** C17 *)
Lemma same_facts t u : same_looked_at t u ->
  named_mprescripts t = named_mprescripts u /\ length (t_children t) = length (t_children u) /\ has_table t = has_table u.
Proof.
  revert u. induction t as [n v ch a IH] using tree_ind'. intros u R. inversion R as [? ? ? ch' ? a' N F]; subst. cbn [t_children has_table].
  split; [reflexivity|split].
  - eapply Forall2_len; eauto.
  - f_equal. clear N R. revert ch' F. induction IH as [|c ch Hc _ IHl]; intros ch' F; inversion F; subst; auto. cbn [existsb].
    f_equal; auto. apply Hc; auto.
Qed.
Lemma node_attributes inside n v kids a a' :
  (forall s ks k, In (s, ks) looked_at -> n = lit s -> In k ks -> dget a (lit k) = dget a' (lit k)) ->
  node inside n v kids a = node inside n v kids a'.
Proof.
  intro H.
  assert (X : forall s ks k, In (s, ks) looked_at -> n = lit s -> In k ks -> attr a k = attr a' k).
  { intros. unfold attr, dget_or. erewrite H by eauto. auto. }
  destruct (tag_lookup_spec known_tags n) as [(s & I & E)|[E _]].
  - subst n. revert I. change (tag_lookup known_tags (lit s)) with (tag_of (lit s)). unfold node. intro I.
    repeat (destruct I as [I|I];
      [injection I as <- _;
       match goal with |- context [tag_of ?x] => let r := eval vm_compute in (tag_of x) in change (tag_of x) with r end; cbn iota;
       try reflexivity|]); try destruct I.
    + unfold mi_latex. erewrite (X "mi" ["mathvariant"] "mathvariant") by (cbn; auto 9). auto.
    + unfold mtext_latex. erewrite (X "mtext" ["mathvariant"] "mathvariant") by (cbn; auto 9). auto.
    + erewrite (X "mfenced" ["open"; "close"; "separators"] "open"), (X "mfenced" ["open"; "close"; "separators"] "close"),
        (X "mfenced" ["open"; "close"; "separators"] "separators") by (cbn; auto 9). auto.
    + erewrite (X "mfrac" ["bevelled"] "bevelled") by (cbn; auto 9). auto.
    + erewrite (X "maction" ["actiontype"] "actiontype") by (cbn; auto 9). auto.
    + unfold dget_or. erewrite (H "menclose" ["notation"] "notation") by (cbn; auto 9). auto.
    + erewrite (X "mtable" ["innerTable"] "innerTable") by (cbn; auto 9). auto.
  - change (tag_lookup known_tags n) with (tag_of n) in E. unfold node. rewrite E. auto.
Qed.
Lemma same_render t : forall u inside, same_looked_at t u -> render inside t = render inside u.
Proof.
  induction t as [n v ch a IH] using tree_ind'. intros u inside R. inversion R as [? ? ? ch' ? a' N F]; subst. cbn [render].
  transitivity (node inside n v (map (fun c => (c, render (inside || is_table n) c)) ch') a).
  - apply node_weak. apply Forall2_map_both. eapply Forall2_mono; [|exact (Forall2_Forall_l _ _ _ _ IH F)].
    cbn beta. intros x y [H Rxy]. destruct (same_facts x y Rxy) as (F1 & F2 & F3). unfold weak_look. cbn [fst snd].
    rewrite F2. auto.
  - apply node_attributes. auto.
Qed.

(** ** C10 *)
Lemma phantom_node inside v kids a : node inside (lit "mphantom") v kids a = Ok [].
Proof. reflexivity. Qed.
Lemma sbp_facts t : forall fenced u, same_but_phantoms fenced t u ->
  named_mprescripts t = named_mprescripts u /\ (fenced = true -> has_table t = has_table u)
  /\ (length (t_children t) = length (t_children u) \/ forall b, render b t = Ok []).
Proof.
  induction t as [n v ch a IH] using tree_ind'. intros fenced u R.
  inversion R as [? ? v' ? ch' ? a' E|? ? ? ? ch' ? F]; subst.
  - split; [reflexivity|]. split; [|right; auto]. intro X. cbn [has_table]. f_equal. auto.
  - split; [reflexivity|]. split; [|left; cbn [t_children]; eapply Forall2_len; eauto].
    intros ->. cbn [has_table orb] in *. f_equal. clear R. revert ch' F.
    induction IH as [|c ch Hc _ IHl]; intros ch' F; inversion F; subst; auto. cbn [existsb].
    f_equal; auto. eapply Hc; eauto.
Qed.
Lemma sbp_render t : forall fenced u inside, same_but_phantoms fenced t u -> render inside t = render inside u.
Proof.
  induction t as [n v ch a IH] using tree_ind'. intros fenced u inside R.
  inversion R as [? ? v' ? ch' ? a' E|? ? ? ? ch' ? F]; subst; [reflexivity|]. cbn [render].
  apply node_weak. apply Forall2_map_both. eapply Forall2_mono; [|exact (Forall2_Forall_l _ _ _ _ IH F)].
  cbn beta. intros x y [H Rxy]. destruct (sbp_facts x _ y Rxy) as (F1 & F2 & F3). unfold weak_look. cbn [fst snd].
  split; [eapply H; eauto|]. split; auto. split.
  - destruct F3 as [->|Z]; auto.
  - intro X. apply F2. rewrite X. apply orb_true_r.
Qed.

(** ** C18 *)
Lemma rseq_app {A} (l l' : list (res A)) : rseq (l ++ l') = (xs <~ rseq l ;; ys <~ rseq l' ;; Ok (xs ++ ys)).
Proof.
  induction l as [|r l IH]; cbn.
  - destruct (rseq l'); auto.
  - destruct r; cbn; auto. rewrite IH. destruct (rseq l); cbn; auto. destruct (rseq l'); auto.
Qed.
Definition line_words (l : list tree) : res (list str) := ss <~ rseq (map latex_of l) ;; Ok (flat_map words ss).
Lemma row_latex n v ch a : row_tag n -> latex_of (T n v ch a) = (ss <~ rseq (map latex_of ch) ;; Ok (join (lit " ") ss)).
Proof.
  intro H. rewrite latex_node' by (apply row_not_table; auto). unfold node. rewrite (row_tag_of _ H). cbn iota. rewrite kids_snd. auto.
Qed.
Lemma ungrouped_words l l' : ungrouped l l' -> line_words l = line_words l'.
Proof.
  unfold line_words. induction 1 as [|t l l' U IH|n v ch a l l' Rt U IH]; auto.
  - cbn [map rseq]. destruct (latex_of t); cbn; auto.
    destruct (rseq (map latex_of l)), (rseq (map latex_of l')); cbn in *; congruence.
  - rewrite <- IH. cbn [map rseq]. rewrite (row_latex _ _ _ _ Rt), map_app, rseq_app.
    destruct (rseq (map latex_of ch)) as [ss|e]; cbn; auto. destruct (rseq (map latex_of l)) as [ss'|e]; cbn; auto.
    rewrite words_join_any, LemBase.flat_map_app. auto.
Qed.
Lemma math_words v ch a : latex_of (T (lit "math") v ch a) = (ws <~ line_words ch ;; Ok (join (lit " ") ws)).
Proof.
  rewrite latex_node' by reflexivity. unfold node. change (tag_of (lit "math")) with TagMath. cbn iota. rewrite kids_snd. unfold line_words.
  destruct (rseq (map latex_of ch)) as [ss|]; cbn; auto. unfold squeeze. rewrite words_join_any. auto.
Qed.
Lemma ungrouped_math v v' l l' a a' : ungrouped l l' -> latex_of (T (lit "math") v l a) = latex_of (T (lit "math") v' l' a').
Proof. intro U. rewrite !math_words, (ungrouped_words _ _ U). auto. Qed.

(** ** Documents *)
Lemma documents_alike wc ps xml xml' d d' h : read_as ps xml d -> read_as ps xml' d' ->
  Forall2 (fun t u => latex_of t = latex_of u) (math_trees d) (math_trees d') ->
  snd (mathml_to_latex wc ps xml h) = snd (mathml_to_latex wc ps xml' h).
Proof.
  intros R R' F. rewrite (convert_read_snd wc ps xml d h R), (convert_read_snd wc ps xml' d' h R').
  unfold document_latex. replace (map latex_of (math_trees d)) with (map latex_of (math_trees d')); auto.
  induction F; cbn; congruence.
Qed.
Lemma math_tree_name d t : In t (math_trees d) -> t_name t = lit "math".
Proof.
  unfold math_trees. intro I. apply filter_In in I as [_ I]. apply str_eqb_eq. exact I.
Qed.
Lemma documents_ungrouped wc ps xml xml' d d' h : read_as ps xml d -> read_as ps xml' d' ->
  Forall2 (fun t u => t_name t = t_name u /\ ungrouped (t_children t) (t_children u)) (math_trees d) (math_trees d') ->
  snd (mathml_to_latex wc ps xml h) = snd (mathml_to_latex wc ps xml' h).
Proof.
  intros R R' F. eapply documents_alike; eauto.
  assert (A : Forall (fun t => t_name t = lit "math") (math_trees d)) by (apply Forall_forall; apply math_tree_name).
  pose proof (Forall2_Forall_l _ _ _ _ A F) as G. eapply Forall2_mono; [|exact G].
  cbn beta. intros [n v ch a] [n' v' ch' a'] (E & E' & U). cbn [t_name t_children] in *. subst n n'. apply ungrouped_math. auto.
Qed.
Lemma looked_at_needed s ks k : In (s, ks) looked_at -> In k ks ->
  exists v ch a, latex_of (T (lit s) v ch a) <> latex_of (T (lit s) v ch (filter (fun kv => negb (str_eqb (fst kv) (lit k))) a)).
Proof.
  intros I K.
  exists (lit "x"), [T (lit "mi") (lit "ab") [] []; T (lit "mi") (lit "c") [] []],
    [(lit "mathvariant", lit "bold"); (lit "open", lit "["); (lit "close", lit "]"); (lit "separators", lit ";");
     (lit "bevelled", lit "true"); (lit "actiontype", lit "x"); (lit "notation", lit "box"); (lit "innerTable", lit "innerTable")].
  repeat (destruct I as [I|I]; [injection I as <- <-; repeat (destruct K as [<-|K]; [vm_compute; discriminate|]); destruct K|]). destruct I.
Qed.
