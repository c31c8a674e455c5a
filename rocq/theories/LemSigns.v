(** Arrows, opposite signs, struck signs, signs that vanish (C73). *)
From Coq Require Import String.
From Verif Require Export LemOther LemOperators SpecSigns.
Local Open Scope string_scope.
Local Open Scope list_scope.

(** A word in a text. *)
Fixpoint starts (w s : str) : bool :=
  match w, s with [], _ => true | x :: w', y :: s' => N.eqb x y && starts w' s' | _ :: _, [] => false end.
Lemma starts_spec w : forall s, starts w s = true <-> exists s', s = w ++ s'.
Proof.
  induction w as [|x w IH]; intros s; cbn [starts app].
  - split; [intros _; exists s; reflexivity|reflexivity].
  - destruct s as [|y s]; [split; [discriminate|intros (s' & E); discriminate E]|]. rewrite andb_true_iff, IH, N.eqb_eq. split.
    + intros [<- (s' & ->)]. exists s'. reflexivity.
    + intros (s' & E). injection E as -> ->. split; [reflexivity|]. exists s'. reflexivity.
Qed.
Fixpoint occursb (w s : str) : bool := starts w s || match s with [] => false | _ :: s' => occursb w s' end.
Lemma occursb_spec w s : occursb w s = true <-> occurs w s.
Proof.
  induction s as [|c s IH]; cbn [occursb]; rewrite orb_true_iff, starts_spec.
  - split.
    + intros [(s' & E)|E]; [exists [], s'; exact E|discriminate].
    + intros (p & q & E). left. exists q. destruct p; [exact E|discriminate E].
  - rewrite IH. split.
    + intros [(s' & E)|(p & q & E)]; [exists [], s'; exact E|exists (c :: p), q; cbn; rewrite E; reflexivity].
    + intros (p & q & E). destruct p as [|x p]; [left; exists q; exact E|]. right. injection E as _ E. exists p, q. exact E.
Qed.
Definition pointsb (d : direction) (s : str) : bool := existsb (fun w => occursb (lit w) s) (direction_words d).
Lemma pointsb_spec d s : pointsb d s = true <-> points d s.
Proof.
  unfold pointsb, points. rewrite existsb_exists. split; intros (w & I & O); exists w; split; auto; apply occursb_spec; exact O.
Qed.
Definition all_directions : list direction := [Leftwards; Rightwards; Upwards; Downwards].
Definition directionb (d e : direction) : bool :=
  match d, e with Leftwards, Leftwards | Rightwards, Rightwards | Upwards, Upwards | Downwards, Downwards => true | _, _ => false end.
(** It points there, and nowhere else. *)
Definition only_points (d : direction) (s : str) : bool := forallb (fun e => Bool.eqb (pointsb e s) (directionb e d)) all_directions.
Lemma only_points_spec d s : only_points d s = true <-> (forall e, points e s <-> e = d).
Proof.
  unfold only_points. rewrite forallb_forall. split.
  - intros H e. rewrite <- pointsb_spec. specialize (H e). rewrite Bool.eqb_true_iff in H. rewrite H by (destruct e; cbn; auto).
    destruct e, d; cbn; split; congruence.
  - intros H e _. rewrite Bool.eqb_true_iff. specialize (H e). rewrite <- pointsb_spec in H. destruct (pointsb e s) eqn:P.
    + rewrite (proj1 H eq_refl). destruct d; reflexivity.
    + destruct (directionb e d) eqn:Q; auto. apply H. destruct e, d; cbn in Q; congruence.
Qed.
Definition visible (c : N) : bool := negb (is_space c).
Lemma visible_spec c : visible c = true -> ~ In c white_codes.
Proof. intro H. apply not_white. unfold visible in H. destruct (is_space c); [discriminate|reflexivity]. Qed.

Lemma pointing_sweep : forallb (fun e : direction * list N =>
  forallb (fun c => visible c && only_points (fst e) (symbol mo_tables [c])) (snd e)) pointing = true.
Proof. vm_compute. reflexivity. Qed.
Lemma turned_sweep : forallb (fun e : direction * N * string =>
  sym mo_tables (snd (fst e)) (lit (snd e)) && negb (only_points (fst (fst e)) (lit (snd e)))) turned = true.
Proof. vm_compute. reflexivity. Qed.
(** Two signs whose LaTeX differs, as operators and as identifiers. *)
Definition differ (e : N * N) : bool :=
  visible (fst e) && visible (snd e) && negb (str_eqb (symbol mo_tables [fst e]) (symbol mo_tables [snd e]))
  && negb (str_eqb (symbol mi_tables [fst e]) (symbol mi_tables [snd e])).
Lemma opposites_sweep : forallb differ opposites = true.
Proof. vm_compute. reflexivity. Qed.
Lemma struck_sweep : forallb differ struck = true.
Proof. vm_compute. reflexivity. Qed.
Lemma confused_sweep : forallb (fun e : N * N => negb (fst e =? snd e)%N && visible (fst e) && visible (snd e)
  && str_eqb (symbol mo_tables [fst e]) (symbol mo_tables [snd e])) confused = true.
Proof. vm_compute. reflexivity. Qed.
Definition strikesb (s : str) : bool := starts (lit "\n") s || occursb (lit "cancel{") s || occursb (lit "/") s.
Lemma strikesb_spec s : strikesb s = true <-> strikes s.
Proof. unfold strikesb, strikes. rewrite !orb_true_iff, starts_spec, !occursb_spec. tauto. Qed.
Lemma strikes_sweep : forallb (fun e : N * N => let (c, b) := e in (c =? 8832)%N
  || str_eqb (symbol mo_tables [c]) [c] || strikesb (symbol mo_tables [c])) struck = true.
Proof. vm_compute. reflexivity. Qed.

Lemma differ_mo e v w ch a ch' a' : differ e = true -> shows v (fst e) -> shows w (snd e) ->
  latex_of (T (lit "mo") v ch a) <> latex_of (T (lit "mo") w ch' a').
Proof.
  intros D S S'. unfold differ in D. repeat rewrite andb_true_iff in D. destruct D as [[[V W] D] _].
  rewrite (mo_shows v _ ch a _ S (visible_spec _ V) eq_refl), (mo_shows w _ ch' a' _ S' (visible_spec _ W) eq_refl).
  intro E. injection E as E. rewrite E, str_eqb_refl in D. discriminate D.
Qed.
Lemma differ_mi e v w ch a ch' a' : differ e = true -> shows v (fst e) -> shows w (snd e) ->
  attr a "mathvariant" = [] -> attr a' "mathvariant" = [] ->
  latex_of (T (lit "mi") v ch a) <> latex_of (T (lit "mi") w ch' a').
Proof.
  intros D S S' A A'. unfold differ in D. repeat rewrite andb_true_iff in D. destruct D as [[[V W] _] D].
  rewrite (mi_shows v _ ch a _ S (visible_spec _ V) A eq_refl), (mi_shows w _ ch' a' _ S' (visible_spec _ W) A' eq_refl).
  intro E. injection E as E. rewrite E, str_eqb_refl in D. discriminate D.
Qed.

(** Nothing is left. *)
Definition whiteb (s : str) : bool := forallb is_space s.
Lemma whiteb_spec s : whiteb s = true <-> white s.
Proof.
  unfold whiteb, white. rewrite forallb_forall, Forall_forall. split; intros H c I; apply white_is_space; auto.
Qed.
Definition vanishes (tables : list (dict str)) (l : list N) (k : str) : bool :=
  match k with [c] => is_space c || Bool.eqb (whiteb (symbol tables [c])) (existsb (N.eqb c) l) | _ => true end.
Lemma vanishing_mo : forallb (vanishes mo_tables vanishing_operators) (table_keys mo_tables) = true.
Proof. vm_compute. reflexivity. Qed.
Lemma vanishing_mi : forallb (vanishes mi_tables vanishing_identifiers) (table_keys mi_tables) = true.
Proof. vm_compute. reflexivity. Qed.
Lemma vanishing_known_mo : forallb (fun c => str_in [c] (table_keys mo_tables)) vanishing_operators = true.
Proof. vm_compute. reflexivity. Qed.
Lemma vanishing_known_mi : forallb (fun c => str_in [c] (table_keys mi_tables)) vanishing_identifiers = true.
Proof. vm_compute. reflexivity. Qed.
Lemma vanishing_visible_mo : forallb visible vanishing_operators = true.
Proof. reflexivity. Qed.
Lemma vanishing_visible_mi : forallb visible vanishing_identifiers = true.
Proof. reflexivity. Qed.
Lemma vanishing_symbol tables l c : forallb (vanishes tables l) (table_keys tables) = true ->
  forallb (fun c => str_in [c] (table_keys tables)) l = true -> ~ In c white_codes ->
  (white (symbol tables [c]) <-> In c l).
Proof.
  intros H K W. assert (M : existsb (N.eqb c) l = true <-> In c l).
  { rewrite existsb_exists. split; [intros (x & I & E); apply N.eqb_eq in E; subst x; exact I|intro I; exists c; split; [exact I|apply N.eqb_refl]]. }
  rewrite <- M, <- whiteb_spec. destruct (str_eqb (symbol tables [c]) [c]) eqn:E.
  - apply str_eqb_eq in E. destruct (in_dec (list_eq_dec N.eq_dec) [c] (table_keys tables)) as [I|I].
    + pose proof (proj1 (forallb_forall _ _) H _ I) as X. cbn [vanishes] in X. rewrite (proj1 (not_white c) W) in X. cbn [orb] in X.
      apply Bool.eqb_prop in X. rewrite X. tauto.
    + rewrite E. split.
      * intro X. unfold whiteb in X. cbn in X. rewrite (proj1 (not_white c) W) in X. discriminate X.
      * intro X. apply M in X. pose proof (proj1 (forallb_forall _ _) K _ X) as Y. cbv beta in Y. apply str_in_spec in Y. contradiction.
  - assert (I : In [c] (table_keys tables)) by (apply symbol_key; intro X; rewrite X, str_eqb_refl in E; discriminate E).
    pose proof (proj1 (forallb_forall _ _) H _ I) as X. cbn [vanishes] in X. rewrite (proj1 (not_white c) W) in X. cbn [orb] in X.
    apply Bool.eqb_prop in X. rewrite X. tauto.
Qed.

Lemma math_latex v ch a : latex_of (T (lit "math") v ch a) = (ss <~ rseq (map latex_of ch) ;; Ok (squeeze (join (lit " ") ss))).
Proof.
  rewrite latex_of_render. cbn [render]. change (false || is_table (lit "math")) with false.
  change (node false (lit "math") v (map (fun c => (c, render false c)) ch) a)
    with (ss <~ rseq (map snd (map (fun c => (c, render false c)) ch)) ;; Ok (squeeze (join (lit " ") ss))).
  rewrite map_map. cbn [snd]. rewrite (map_ext latex_of (render false)) by (intro; apply latex_of_render). reflexivity.
Qed.
Lemma no_trace v l m r a w : latex_of m = Ok w -> white w ->
  latex_of (T (lit "math") v (l ++ m :: r) a) = latex_of (T (lit "math") v (l ++ r) a).
Proof.
  intros M W. rewrite !math_latex, !map_app. cbn [map]. rewrite M.
  assert (X : forall rl rr, (ss <~ rseq (rl ++ Ok w :: rr) ;; Ok (squeeze (join (lit " ") ss)))
    = (ss <~ rseq (rl ++ rr) ;; Ok (squeeze (join (lit " ") ss)))).
  { intros rl rr.
    assert (Y : forall pre, (ss <~ rseq (rl ++ Ok w :: rr) ;; Ok (flat_map words (pre ++ ss))) = (ss <~ rseq (rl ++ rr) ;; Ok (flat_map words (pre ++ ss)))).
    { induction rl as [|x rl IH]; intro pre; cbn [app rseq].
      - destruct (rseq rr); cbn; auto. f_equal. rewrite !flat_map_app. cbn. rewrite (words_white w W). reflexivity.
      - destruct x as [s|e]; cbn; auto. specialize (IH (pre ++ [s])).
        destruct (rseq (rl ++ Ok w :: rr)), (rseq (rl ++ rr)); cbn in *; try discriminate IH; try exact IH.
        rewrite <- !app_assoc in IH. exact IH. }
    specialize (Y []). destruct (rseq (rl ++ Ok w :: rr)), (rseq (rl ++ rr)); cbn in *; try discriminate Y; injection Y as Y.
    - unfold squeeze. rewrite !words_join_any, Y. reflexivity.
    - rewrite Y. reflexivity. }
  apply X.
Qed.
