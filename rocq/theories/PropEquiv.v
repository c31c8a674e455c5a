(** C10, C16 - C18: edits that do not matter. *)
From Coq Require Import String.
From Verif Require Import SpecExamples LemEquiv.
Local Open Scope string_scope.
Local Open Scope list_scope.

(** C10 *)
Theorem C10_empty : forall v ch a, latex_of (T (lit "mphantom") v ch a) = Ok [].
Proof. exact (fun v ch a => latex_of_render (T (lit "mphantom") v ch a)). Qed.
Print Assumptions C10_empty.
Theorem C10_invisible : forall t u, same_but_phantoms false t u -> latex_of t = latex_of u.
Proof. exact (fun t u R => eq_trans (latex_of_render t) (eq_trans (sbp_render t false u false R) (eq_sym (latex_of_render u)))). Qed.
Print Assumptions C10_invisible.
Example C10_example :
  let t ph := el "math" [mi "x"; el "msup" [el "mphantom" ph; mn "2"]; el "mfenced" [mi "y"]] in
  same_but_phantoms false (t [mi "a"]) (t [el "mfrac" []; inner_tab]) /\ latex_of (t [mi "a"]) = Ok (lit "x ^{2} \left(y\right)").
Proof.
  split; [|vm_compute; reflexivity].
  repeat first [apply sbp_phantom; discriminate | apply sbp_other | constructor].
Qed.
(** Why mfenced is an exception: a table inside the phantom is seen. *)
Theorem C10_fenced_refuted : exists ch ch',
  latex_of (el "mfenced" [el "mphantom" ch]) <> latex_of (el "mfenced" [el "mphantom" ch']).
Proof. exists [], [inner_tab]. vm_compute. discriminate. Qed.
Print Assumptions C10_fenced_refuted.

(** C16 *)
Theorem C16_unknown_tags : forall t u, renamed t u -> latex_of t = latex_of u.
Proof. exact (fun t u R => eq_trans (latex_of_render t) (eq_trans (renamed_render t u false R) (eq_sym (latex_of_render u)))). Qed.
Print Assumptions C16_unknown_tags.
Theorem C16_documents : forall word_char parse_string xml xml' d d' h,
  read_as parse_string xml d -> read_as parse_string xml' d' -> Forall2 renamed (math_trees d) (math_trees d') ->
  snd (mathml_to_latex word_char parse_string xml h) = snd (mathml_to_latex word_char parse_string xml' h).
Proof. exact (fun wc ps xml xml' d d' h R R' F => documents_alike wc ps xml xml' d d' h R R' (Forall2_mono _ _ _ _ C16_unknown_tags F)). Qed.
Print Assumptions C16_documents.
Example C16_example :
  renamed (el "math" [el "mstyle" [mi "x"; el "semantics" [mi "y"]]]) (el "math" [el "mrow" [mi "x"; el "mrow" [mi "y"]]])
  /\ ~ row_tag (lit "mfrac").
Proof.
  assert (R : forall s, existsb (str_eqb (lit s)) (map lit library_tags) = false -> row_tag (lit s)).
  { intros s H I. rewrite (proj2 (existsb_exists _ _)) in H; [discriminate|]. exists (lit s). split; auto. apply str_eqb_refl. }
  split.
  - repeat first [apply renamed_T; [first [left; reflexivity | right; repeat split; [apply R; vm_compute; reflexivity|apply R; vm_compute; reflexivity|discriminate|discriminate]]|] | constructor].
  - intro H. apply H. vm_compute. auto 25.
Qed.

(** C17 *)
Theorem C17_attributes : forall t u, same_looked_at t u -> latex_of t = latex_of u.
Proof. exact (fun t u R => eq_trans (latex_of_render t) (eq_trans (same_render t u false R) (eq_sym (latex_of_render u)))). Qed.
Print Assumptions C17_attributes.
(** Every listed attribute does matter. *)
Theorem C17_needed : forall s ks k, In (s, ks) looked_at -> In k ks ->
  exists v ch a, latex_of (T (lit s) v ch a)
                 <> latex_of (T (lit s) v ch (filter (fun kv => negb (str_eqb (fst kv) (lit k))) a)).
Proof. exact looked_at_needed. Qed.
Print Assumptions C17_needed.
Example C17_example :
  same_looked_at (ela "mfenced" [("id", "7"); ("open", "["); ("class", "c")] [ela "mo" [("stretchy", "false")] [] ])
                 (ela "mfenced" [("open", "[")] [el "mo" []]).
Proof.
  assert (S : forall s ks k, In (s, ks) looked_at -> lit "mo" = lit s -> In k ks -> False).
  { intros s ks k H E _. repeat (destruct H as [H|H]; [injection H as <- <-; discriminate E|]). destruct H. }
  constructor.
  - intros s ks k H E K. repeat (destruct H as [H|H]; [injection H as <- <-; try discriminate E|]); [|destruct H].
    repeat (destruct K as [<-|K]; [reflexivity|]). destruct K.
  - constructor; [|constructor]. constructor; [|constructor]. intros s ks k H E K. destruct (S s ks k H E K).
Qed.

(** C18 *)
Theorem C18_ungrouped : forall v l l' a, ungrouped l l' ->
  latex_of (T (lit "math") v l a) = latex_of (T (lit "math") v l' a).
Proof. exact (fun v l l' a => ungrouped_math v v l l' a a). Qed.
Print Assumptions C18_ungrouped.
Theorem C18_documents : forall word_char parse_string xml xml' d d' h,
  read_as parse_string xml d -> read_as parse_string xml' d' ->
  Forall2 (fun t u => t_name t = t_name u /\ ungrouped (t_children t) (t_children u)) (math_trees d) (math_trees d') ->
  snd (mathml_to_latex word_char parse_string xml h) = snd (mathml_to_latex word_char parse_string xml' h).
Proof. exact documents_ungrouped. Qed.
Print Assumptions C18_documents.
Example C18_example : let l := [mi "a"; el "mrow" [mi "b"; el "mstyle" [mi "c"; el "mrow" []]]; mo "+"] in
  ungrouped l [mi "a"; mi "b"; mi "c"; mo "+"] /\ latex_of (el "math" l) = Ok (lit "a b c +").
Proof.
  assert (R : forall s, existsb (str_eqb (lit s)) (map lit library_tags) = false -> row_tag (lit s)).
  { intros s H I. rewrite (proj2 (existsb_exists _ _)) in H; [discriminate|]. exists (lit s). split; auto. apply str_eqb_refl. }
  split; [|vm_compute; reflexivity].
  constructor. apply ungrouped_open; [apply R; vm_compute; reflexivity|]. constructor.
  apply ungrouped_open; [apply R; vm_compute; reflexivity|]. constructor.
  apply ungrouped_open; [apply R; vm_compute; reflexivity|]. repeat constructor.
Qed.
