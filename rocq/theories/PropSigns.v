(** C73: arrows point where they should, opposite signs differ, struck signs are struck; which signs vanish. *)
From Coq Require Import String.
From Verif Require Import SpecExamples SpecSigns LemSigns.
Local Open Scope string_scope.
Local Open Scope list_scope.

(** An arrow points where it should, and nowhere else ... *)
Theorem C73_direction : forall d cs c v ch a, In (d, cs) pointing -> In c cs -> shows v c ->
  exists s, latex_of (T (lit "mo") v ch a) = Ok s /\ forall e, points e s <-> e = d.
Proof.
  intros d cs c v ch a I J S. pose proof (proj1 (forallb_forall _ _) pointing_sweep _ I) as H. cbv beta in H.
  pose proof (proj1 (forallb_forall _ _) H _ J) as K. cbv beta in K. apply andb_prop in K as [V K].
  exists (symbol mo_tables [c]). split; [exact (mo_shows v c ch a _ S (visible_spec _ V) eq_refl)|]. apply only_points_spec. exact K.
Qed.
Print Assumptions C73_direction.
(** ... but for some, such as the white arrow from a wall, which points right and comes out pointing left. *)
Theorem C73_direction_refuted : forall d c s v ch a, In (d, c, s) turned -> shows v c ->
  latex_of (T (lit "mo") v ch a) = Ok (lit s) /\ ~ (forall e, points e (lit s) <-> e = d).
Proof.
  intros d c s v ch a I S. pose proof (proj1 (forallb_forall _ _) turned_sweep _ I) as H. cbv beta in H. cbn [fst snd] in H.
  apply andb_prop in H as [H K]. split; [eapply mo_sym; eauto|]. rewrite <- only_points_spec. intro X. rewrite X in K. discriminate K.
Qed.
Print Assumptions C73_direction_refuted.

(** Opposite signs never give the same LaTeX ... *)
Theorem C73_opposites : forall c d v w ch a ch' a', In (c, d) opposites -> shows v c -> shows w d ->
  latex_of (T (lit "mo") v ch a) <> latex_of (T (lit "mo") w ch' a')
  /\ (attr a "mathvariant" = [] -> attr a' "mathvariant" = [] ->
      latex_of (T (lit "mi") v ch a) <> latex_of (T (lit "mi") w ch' a')).
Proof.
  intros c d v w ch a ch' a' I S S'. pose proof (proj1 (forallb_forall _ _) opposites_sweep _ I) as H.
  split; [exact (differ_mo (c, d) v w ch a ch' a' H S S')|exact (differ_mi (c, d) v w ch a ch' a' H S S')].
Qed.
Print Assumptions C73_opposites.
(** ... but for these. *)
Theorem C73_opposites_refuted : forall c d v w ch a ch' a', In (c, d) confused -> shows v c -> shows w d ->
  c <> d /\ latex_of (T (lit "mo") v ch a) = latex_of (T (lit "mo") w ch' a').
Proof.
  intros c d v w ch a ch' a' I S S'. pose proof (proj1 (forallb_forall _ _) confused_sweep _ I) as H. cbv beta in H. cbn [fst snd] in H.
  repeat rewrite andb_true_iff in H. destruct H as [[[X V] W] H]. apply str_eqb_eq in H. split.
  - intro E. subst d. rewrite N.eqb_refl in X. discriminate X.
  - rewrite (mo_shows v _ ch a _ S (visible_spec _ V) eq_refl), (mo_shows w _ ch' a' _ S' (visible_spec _ W) eq_refl), H. reflexivity.
Qed.
Print Assumptions C73_opposites_refuted.

(** A struck sign never gives the LaTeX of the sign that is struck; as an operator it is copied or its LaTeX strikes something, but for
    "does not precede". *)
Theorem C73_struck : forall c b v w ch a ch' a', In (c, b) struck -> shows v c -> shows w b ->
  latex_of (T (lit "mo") v ch a) <> latex_of (T (lit "mo") w ch' a')
  /\ (attr a "mathvariant" = [] -> attr a' "mathvariant" = [] ->
      latex_of (T (lit "mi") v ch a) <> latex_of (T (lit "mi") w ch' a'))
  /\ (c <> 8832%N -> exists s, latex_of (T (lit "mo") v ch a) = Ok s /\ (s = [c] \/ strikes s)).
Proof.
  intros c b v w ch a ch' a' I S S'. pose proof (proj1 (forallb_forall _ _) struck_sweep _ I) as H.
  split; [exact (differ_mo (c, b) v w ch a ch' a' H S S')|]. split; [exact (differ_mi (c, b) v w ch a ch' a' H S S')|].
  intro N. exists (symbol mo_tables [c]). split.
  - unfold differ in H. repeat rewrite andb_true_iff in H. destruct H as [[[V _] _] _]. exact (mo_shows v c ch a _ S (visible_spec _ V) eq_refl).
  - pose proof (proj1 (forallb_forall _ _) strikes_sweep _ I) as K. cbv beta iota in K. rewrite !orb_true_iff in K.
    destruct K as [[K|K]|K]; [apply N.eqb_eq in K; contradiction|left; apply str_eqb_eq; exact K|right; apply strikesb_spec; exact K].
Qed.
Print Assumptions C73_struck.
Theorem C73_struck_refuted : In (8832, 8826)%N struck
  /\ latex_of (T (lit "mo") [8832%N] [] []) = Ok (lit "\preceq") /\ ~ strikes (lit "\preceq").
Proof.
  split; [vm_compute; auto 60|]. split; [vm_compute; reflexivity|]. rewrite <- strikesb_spec. vm_compute. discriminate.
Qed.
Print Assumptions C73_struck_refuted.

(** A single character that is not white leaves something, but for the listed ones, of which only white space is left ... *)
Theorem C73_vanishing : forall c v ch a, ~ In c white_codes -> shows v c ->
  (exists s, latex_of (T (lit "mo") v ch a) = Ok s /\ (white s <-> In c vanishing_operators))
  /\ (attr a "mathvariant" = [] -> exists s, latex_of (T (lit "mi") v ch a) = Ok s /\ (white s <-> In c vanishing_identifiers)).
Proof.
  intros c v ch a W S. split.
  - exists (symbol mo_tables [c]). split; [exact (mo_shows v c ch a _ S W eq_refl)|].
    exact (vanishing_symbol mo_tables _ c vanishing_mo vanishing_known_mo W).
  - intro A. exists (symbol mi_tables [c]). split; [exact (mi_shows v c ch a _ S W A eq_refl)|].
    exact (vanishing_symbol mi_tables _ c vanishing_mi vanishing_known_mi W).
Qed.
Print Assumptions C73_vanishing.
(** ... and in a math they leave no trace: the LaTeX is the same without them. *)
Theorem C73_no_trace : forall c v ch a u l r b, shows v c ->
  (In c vanishing_operators ->
    latex_of (T (lit "math") u (l ++ T (lit "mo") v ch a :: r) b) = latex_of (T (lit "math") u (l ++ r) b))
  /\ (In c vanishing_identifiers -> attr a "mathvariant" = [] ->
    latex_of (T (lit "math") u (l ++ T (lit "mi") v ch a :: r) b) = latex_of (T (lit "math") u (l ++ r) b)).
Proof.
  intros c v ch a u l r b S. split.
  - intro I. assert (V : ~ In c white_codes) by (apply visible_spec; exact (proj1 (forallb_forall _ _) vanishing_visible_mo _ I)).
    destruct (proj1 (C73_vanishing c v ch a V S)) as (s & E & W). eapply no_trace; [exact E|]. apply W. exact I.
  - intros I A. assert (V : ~ In c white_codes) by (apply visible_spec; exact (proj1 (forallb_forall _ _) vanishing_visible_mi _ I)).
    destruct (proj2 (C73_vanishing c v ch a V S) A) as (s & E & W). eapply no_trace; [exact E|]. apply W. exact I.
Qed.
Print Assumptions C73_no_trace.

Example C73_example :
  (exists cs, In (Rightwards, cs) pointing /\ In 8658%N cs) /\ In (Rightwards, 8688%N, "\Leftarrow") turned
  /\ In (8804, 8805)%N opposites /\ In (8754, 8755)%N confused /\ In (8713, 8712)%N struck /\ In 10531%N vanishing_operators
  /\ map latex_of [T (lit "mo") [8658%N] [] []; T (lit "mo") [8688%N] [] []; T (lit "mo") [8804%N] [] []; T (lit "mo") [8805%N] [] [];
       T (lit "mo") [8713%N] [] []; el "math" [mi "a"; T (lit "mo") [10531%N] [] []; mi "b"]]
     = [Ok (lit "\Rightarrow"); Ok (lit "\Leftarrow"); Ok (lit "\leq"); Ok (lit "\geq"); Ok (lit "\notin"); Ok (lit "a b")].
Proof.
  split; [eexists; split; [right; left; reflexivity|vm_compute; auto 60]|].
  split; [vm_compute; auto 60|]. split; [vm_compute; auto 300|]. split; [vm_compute; auto 60|]. split; [vm_compute; auto 60|].
  split; [vm_compute; auto 60|]. vm_compute. reflexivity.
Qed.
