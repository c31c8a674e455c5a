(** Characters that are escaped twice (C76). *)
From Coq Require Import String.
From Verif Require Export LemOther SpecEscaped.
Local Open Scope string_scope.
Local Open Scope list_scope.

Definition escaped_mo (k : str) : bool :=
  existsb (fun c => str_eqb k (escape c)) (members escaped_operators) || existsb (fun cs => str_eqb k (flat_map escape cs)) escaped_pairs
  || existsb (fun e : str * str => str_eqb k (flat_map escape (fst e))) escaped_otherwise
  || existsb (fun e : string * string => str_eqb k (lit (fst e))) named_operators.
Definition escaped_mi (k : str) : bool :=
  existsb (fun c => str_eqb k (escape c)) (members escaped_identifiers) || existsb (fun e : N * string => str_eqb k (escape (fst e))) identifiers_otherwise.
Definition amp (k : str) : bool := Nat.ltb 1 (length k) && str_eqb (firstn 1 k) (lit "&").

Lemma escaped_mo_sweep : forallb (fun k => str_eqb (symbol mo_tables k) k || (negb (amp k) || escaped_mo k)) (table_keys mo_tables) = true.
Proof. vm_compute. reflexivity. Qed.
Lemma escaped_mi_sweep : forallb (fun k => str_eqb (symbol mi_tables k) k || (negb (amp k) || escaped_mi k)) (table_keys mi_tables) = true.
Proof. vm_compute. reflexivity. Qed.
Lemma escaped_same : forallb (fun c => str_eqb (symbol mo_tables (escape c)) (symbol mo_tables [c]) && negb (is_space c)) (members escaped_operators) = true.
Proof. vm_compute. reflexivity. Qed.
Lemma pairs_same : forallb (fun cs => str_eqb (symbol mo_tables (flat_map escape cs)) (symbol mo_tables cs)) escaped_pairs = true.
Proof. vm_compute. reflexivity. Qed.
Lemma otherwise_sweep : forallb (fun e : str * str => str_eqb (symbol mo_tables (flat_map escape (fst e))) (snd e)
  && negb (str_eqb (symbol mo_tables (fst e)) (snd e))) escaped_otherwise = true.
Proof. vm_compute. reflexivity. Qed.
Lemma named_sweep : forallb (fun e : string * string => str_eqb (symbol mo_tables (lit (fst e))) (lit (snd e))) named_operators = true.
Proof. vm_compute. reflexivity. Qed.
Lemma mi_escaped_same : forallb (fun c => str_eqb (symbol mi_tables (escape c)) (symbol mi_tables [c]) && negb (is_space c)) (members escaped_identifiers) = true.
Proof. vm_compute. reflexivity. Qed.
Lemma mi_otherwise_sweep : forallb (fun e : N * string => str_eqb (symbol mi_tables (escape (fst e))) (lit (snd e))
  && negb (str_eqb (symbol mi_tables [fst e]) (lit (snd e)))) identifiers_otherwise = true.
Proof. vm_compute. reflexivity. Qed.

Lemma proper_ranges rs : In rs [escaped_operators; escaped_identifiers] -> forallb (fun r => (fst r <=? snd r)%N) rs = true.
Proof. intros [<-|[<-|[]]]; vm_compute; reflexivity. Qed.
Lemma members_among rs c : forallb (fun r => (fst r <=? snd r)%N) rs = true -> In c (members rs) -> among rs c.
Proof.
  intros P I. unfold members in I. apply in_flat_map in I as ((lo, hi) & J & I). apply in_map_iff in I as (i & <- & I). apply in_seq in I.
  pose proof (proj1 (forallb_forall _ _) P _ J) as Q. cbn [fst snd] in *. apply N.leb_le in Q. exists lo, hi. split; [exact J|]. lia.
Qed.
Lemma white_free c : negb (is_space c) = true -> ~ In c white_codes.
Proof. intro H. apply not_white. destruct (is_space c); [discriminate H|reflexivity]. Qed.
Lemma escaped_operator c v w ch a ch' a' : among escaped_operators c -> squeeze v = escape c -> shows w c ->
  latex_of (T (lit "mo") v ch a) = latex_of (T (lit "mo") w ch' a').
Proof.
  intros A E S. apply members_spec in A. pose proof (proj1 (forallb_forall _ _) escaped_same c A) as X. cbv beta in X.
  apply andb_prop in X as [X W]. apply str_eqb_eq in X. rewrite (mo_shows w c ch' a' _ S (white_free _ W) eq_refl), mo_latex_of.
  unfold mo_latex. rewrite E, X. reflexivity.
Qed.
Lemma escaped_pair cs v w ch a ch' a' : In cs escaped_pairs -> squeeze v = flat_map escape cs -> squeeze w = cs ->
  latex_of (T (lit "mo") v ch a) = latex_of (T (lit "mo") w ch' a').
Proof.
  intros I E S. pose proof (proj1 (forallb_forall _ _) pairs_same cs I) as X. cbv beta in X. apply str_eqb_eq in X.
  rewrite !mo_latex_of. unfold mo_latex. rewrite E, S, X. reflexivity.
Qed.
Lemma escaped_other cs s v w ch a ch' a' : In (cs, s) escaped_otherwise -> squeeze v = flat_map escape cs -> squeeze w = cs ->
  latex_of (T (lit "mo") v ch a) = Ok s /\ latex_of (T (lit "mo") w ch' a') <> Ok s.
Proof.
  intros I E S. pose proof (proj1 (forallb_forall _ _) otherwise_sweep _ I) as X. cbv beta in X. cbn [fst snd] in X. apply andb_prop in X as [X Y].
  apply str_eqb_eq in X. rewrite !mo_latex_of. unfold mo_latex. rewrite E, S, X. split; [reflexivity|].
  intro Q. injection Q as Q. rewrite Q, str_eqb_refl in Y. discriminate Y.
Qed.
Lemma named_operator k s v ch a : In (k, s) named_operators -> squeeze v = lit k -> latex_of (T (lit "mo") v ch a) = Ok (lit s).
Proof.
  intros I E. pose proof (proj1 (forallb_forall _ _) named_sweep _ I) as X. cbv beta in X. cbn [fst snd] in X. apply str_eqb_eq in X.
  rewrite mo_latex_of. unfold mo_latex. rewrite E, X. reflexivity.
Qed.
Lemma existsb_no {A} (f : A -> str) k l : ~ In k (map f l) -> existsb (fun x => str_eqb k (f x)) l = false.
Proof.
  intro N. destruct (existsb _ l) eqn:E; [|reflexivity]. apply existsb_exists in E as (x & I & E). apply str_eqb_eq in E. destruct N.
  rewrite E. apply in_map. exact I.
Qed.
Lemma amp_spec s : s <> [] -> amp (lit "&" ++ s) = true.
Proof. destruct s; [contradiction|reflexivity]. Qed.
Lemma operator_copied s : s <> [] ->
  (forall c, among escaped_operators c -> lit "&" ++ s <> escape c) ->
  (forall cs, In cs (escaped_pairs ++ map fst escaped_otherwise) -> lit "&" ++ s <> flat_map escape cs) ->
  ~ In (lit "&" ++ s) (map (fun e => lit (fst e)) named_operators) -> symbol mo_tables (lit "&" ++ s) = lit "&" ++ s.
Proof.
  intros L A B C. apply (symbol_sweep _ _ escaped_mo_sweep). rewrite (amp_spec s L). cbn [negb orb]. unfold escaped_mo.
  rewrite (existsb_no (fun e : string * string => lit (fst e)) _ _ C), orb_false_r.
  rewrite !orb_false_iff. split; [split|].
  - apply existsb_no. intro I. apply in_map_iff in I as (c & E & I). exact (A c (members_among _ c (proper_ranges _ (or_introl eq_refl)) I) (eq_sym E)).
  - apply existsb_no. intro I. apply in_map_iff in I as (cs & E & I). apply (B cs); [apply in_app_iff; left; exact I|symmetry; exact E].
  - apply (existsb_no (fun e : str * str => flat_map escape (fst e))). intro I. apply in_map_iff in I as (e & E & I).
    apply (B (fst e)); [apply in_app_iff; right; apply in_map; exact I|symmetry; exact E].
Qed.
Lemma escaped_identifier c v w ch a ch' a' : among escaped_identifiers c -> squeeze v = escape c -> shows w c ->
  attr a "mathvariant" = attr a' "mathvariant" ->
  latex_of (T (lit "mi") v ch a) = latex_of (T (lit "mi") w ch' a').
Proof.
  intros A E S M. apply members_spec in A. pose proof (proj1 (forallb_forall _ _) mi_escaped_same c A) as X. cbv beta in X.
  apply andb_prop in X as [X W]. apply str_eqb_eq in X. rewrite !mi_latex_of. unfold mi_latex.
  rewrite E, X, M, (squeeze_shows w c S (white_free _ W)). reflexivity.
Qed.
Lemma identifier_other c s v ch a : In (c, s) identifiers_otherwise -> squeeze v = escape c -> attr a "mathvariant" = [] ->
  latex_of (T (lit "mi") v ch a) = Ok (lit s) /\ (forall w ch' a', shows w c -> ~ In c white_codes -> attr a' "mathvariant" = [] -> latex_of (T (lit "mi") w ch' a') <> Ok (lit s)).
Proof.
  intros I E M. pose proof (proj1 (forallb_forall _ _) mi_otherwise_sweep _ I) as X. cbv beta in X. cbn [fst snd] in X. apply andb_prop in X as [X Y].
  apply str_eqb_eq in X. split.
  - rewrite mi_latex_of. unfold mi_latex. rewrite E, M, X. reflexivity.
  - intros w ch' a' S W M'. rewrite (mi_shows w c ch' a' _ S W M' eq_refl). intro Q. injection Q as Q. rewrite Q, str_eqb_refl in Y. discriminate Y.
Qed.
Lemma identifier_copied s : s <> [] ->
  (forall c, among escaped_identifiers c \/ In c (map fst identifiers_otherwise) -> lit "&" ++ s <> escape c) ->
  symbol mi_tables (lit "&" ++ s) = lit "&" ++ s.
Proof.
  intros L A. apply (symbol_sweep _ _ escaped_mi_sweep). rewrite (amp_spec s L). cbn [negb orb]. unfold escaped_mi.
  rewrite orb_false_iff. split.
  - apply existsb_no. intro I. apply in_map_iff in I as (c & E & I). exact (A c (or_introl (members_among _ c (proper_ranges _ (or_intror (or_introl eq_refl))) I)) (eq_sym E)).
  - apply (existsb_no (fun e : N * string => escape (fst e))). intro I. apply in_map_iff in I as (e & E & I).
    apply (A (fst e)); [right; apply in_map; exact I|symmetry; exact E].
Qed.
