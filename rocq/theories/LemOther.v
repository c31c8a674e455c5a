(** What the library leaves alone (C70). *)
From Coq Require Import String.
From Verif Require Export SpecOther LemDoc2 LemGlyphs.
Local Open Scope string_scope.
Local Open Scope list_scope.

(** The texts a list of tables knows. *)
Definition table_keys (tables : list (dict str)) : list str :=
  flat_map (map fst) tables ++ map fst vowels_with_accents ++ map fst special_font_chars.
Lemma dget_key {A} (d : dict A) k v : dget d k = Some v -> In k (map fst d).
Proof.
  induction d as [|[k' v'] d IH]; cbn; [discriminate|]. destruct (str_eqb k k') eqn:E; auto. apply str_eqb_eq in E. auto.
Qed.
Lemma symbol_key tables w : symbol tables w <> w -> In w (table_keys tables).
Proof.
  unfold symbol, table_keys. intro H. apply in_app_iff. destruct (first_entry tables w) as [s|] eqn:E.
  - left. apply first_entry_some in E as (d & I & G & _). apply in_flat_map. exists d. split; auto. eapply dget_key; eauto.
  - right. apply in_app_iff. unfold accent_or_font in H.
    destruct (dget vowels_with_accents w) eqn:V; [left; eapply dget_key; eauto|].
    destruct (dget special_font_chars w) eqn:F; [right; eapply dget_key; eauto|congruence].
Qed.
Lemma symbol_sweep tables (P : str -> bool) :
  forallb (fun k => str_eqb (symbol tables k) k || P k) (table_keys tables) = true ->
  forall w, P w = false -> symbol tables w = w.
Proof.
  intros H w Q. destruct (str_eqb (symbol tables w) w) eqn:E; [apply str_eqb_eq; exact E|].
  assert (I : In w (table_keys tables)) by (apply symbol_key; intro X; rewrite X, str_eqb_refl in E; discriminate E).
  pose proof (proj1 (forallb_forall _ _) H w I) as X. cbv beta in X. rewrite E, Q in X. discriminate X.
Qed.

Definition amongb (rs : list (N * N)) (c : N) : bool := existsb (fun r => (fst r <=? c)%N && (c <=? snd r)%N) rs.
Lemma among_spec rs c : amongb rs c = true <-> among rs c.
Proof.
  unfold amongb, among. rewrite existsb_exists. split.
  - intros ([lo hi] & I & H). cbn in H. exists lo, hi. split; auto. apply andb_prop in H as [A B]. apply N.leb_le in A, B. auto.
  - intros (lo & hi & I & H). exists (lo, hi). split; auto. cbn. apply andb_true_intro. split; apply N.leb_le; apply H.
Qed.
(** All the characters of the ranges. *)
Definition members (rs : list (N * N)) : list N :=
  flat_map (fun r => map (fun i => (fst r + N.of_nat i)%N) (seq 0 (S (N.to_nat (snd r - fst r))))) rs.
Lemma members_spec rs c : among rs c -> In c (members rs).
Proof.
  intros (lo & hi & I & H). apply in_flat_map. exists (lo, hi). split; auto. cbn [fst snd]. apply in_map_iff.
  exists (N.to_nat (c - lo)). split; [lia|]. apply in_seq. lia.
Qed.

(** Single characters: white, in the ranges, or another text. *)
Definition single (rs : list (N * N)) (k : str) : bool :=
  match k with [c] => is_space c || amongb rs c | _ => false end.
Definition several_mi (k : str) : bool := Nat.ltb 1 (length k) && (str_eqb (firstn 1 k) (lit "&") || str_eqb k [8603; 39]%N).
Definition several_mo (k : str) : bool :=
  Nat.ltb 1 (length k) && (str_eqb (firstn 1 k) (lit "&") || str_in k (map fst joined_operators)).

Lemma mi_sweep : forallb (fun k => str_eqb (symbol mi_tables k) k || (single mi_converted k || several_mi k)) (table_keys mi_tables) = true.
Proof. vm_compute. reflexivity. Qed.
Lemma mo_sweep : forallb (fun k => str_eqb (symbol mo_tables k) k || (single mo_converted k || several_mo k)) (table_keys mo_tables) = true.
Proof. vm_compute. reflexivity. Qed.
Lemma mi_members : forallb (fun c => negb (str_eqb (symbol mi_tables [c]) [c])) (members mi_converted) = true.
Proof. vm_compute. reflexivity. Qed.
Lemma mo_members : forallb (fun c => negb (str_eqb (symbol mo_tables [c]) [c])) (members mo_converted) = true.
Proof. vm_compute. reflexivity. Qed.
Lemma joined_sweep : forallb (fun e : str * string => str_eqb (symbol mo_tables (fst e)) (lit (snd e)) && negb (str_eqb (fst e) (lit (snd e)))) joined_operators = true.
Proof. vm_compute. reflexivity. Qed.
Definition mn_symbol (w : str) : str := match first_entry [math_number_by_glyph] w with Some s => s | None => w end.
Lemma mn_sweep : forallb (fun k => single mn_converted k) (map fst math_number_by_glyph) = true.
Proof. vm_compute. reflexivity. Qed.
Lemma mn_members : forallb (fun c => negb (str_eqb (mn_symbol [c]) [c])) (members mn_converted) = true.
Proof. vm_compute. reflexivity. Qed.

Lemma single_symbol tables rs (P : str -> bool) c :
  forallb (fun k => str_eqb (symbol tables k) k || (single rs k || P k)) (table_keys tables) = true -> P [c] = false ->
  forallb (fun c => negb (str_eqb (symbol tables [c]) [c])) (members rs) = true ->
  ~ In c white_codes -> (symbol tables [c] = [c] <-> ~ among rs c).
Proof.
  intros S P1 M W. split.
  - intros E A. apply members_spec in A. pose proof (proj1 (forallb_forall _ _) M c A) as X. cbv beta in X. rewrite E, str_eqb_refl in X. discriminate X.
  - intro A. apply (symbol_sweep tables _ S). rewrite P1, orb_false_r. cbn. apply not_white in W. rewrite W. cbn [orb].
    destruct (amongb rs c) eqn:Q; auto. apply among_spec in Q. contradiction.
Qed.
Lemma mi_character c v ch a : shows v c -> ~ In c white_codes -> attr a "mathvariant" = [] ->
  (latex_of (T (lit "mi") v ch a) = Ok [c] <-> ~ among mi_converted c).
Proof.
  intros S W A. rewrite (mi_shows v c ch a _ S W A eq_refl).
  rewrite <- (single_symbol mi_tables mi_converted several_mi c mi_sweep eq_refl mi_members W).
  split; [intro E; injection E as E; exact E|intro E; rewrite E; reflexivity].
Qed.
Lemma mo_character c v ch a : shows v c -> ~ In c white_codes ->
  (latex_of (T (lit "mo") v ch a) = Ok [c] <-> ~ among mo_converted c).
Proof.
  intros S W. rewrite (mo_shows v c ch a _ S W eq_refl).
  rewrite <- (single_symbol mo_tables mo_converted several_mo c mo_sweep eq_refl mo_members W).
  split; [intro E; injection E as E; exact E|intro E; rewrite E; reflexivity].
Qed.
Lemma mn_symbol_other w : ~ In w (map fst math_number_by_glyph) -> mn_symbol w = w.
Proof.
  intro N. unfold mn_symbol. destruct (first_entry _ w) eqn:E; auto. apply first_entry_some in E as (d & [<-|[]] & G & _).
  apply dget_key in G. contradiction.
Qed.
Lemma mn_character c v ch a : shows v c -> ~ In c white_codes ->
  (latex_of (T (lit "mn") v ch a) = Ok [c] <-> ~ among mn_converted c).
Proof.
  intros S W. assert (E : latex_of (T (lit "mn") v ch a) = Ok (mn_symbol [c])).
  { rewrite mn_latex_of. unfold mn_latex. rewrite (squeeze_shows v c S W). reflexivity. }
  rewrite E. clear E. split.
  - intros E A. injection E as E. apply members_spec in A. pose proof (proj1 (forallb_forall _ _) mn_members c A) as X. cbv beta in X.
    rewrite E, str_eqb_refl in X. discriminate X.
  - intro A. rewrite mn_symbol_other; auto. intro I. pose proof (proj1 (forallb_forall _ _) mn_sweep _ I) as X. unfold single in X.
    apply not_white in W. rewrite W in X. cbn [orb] in X. apply among_spec in X. contradiction.
Qed.

(** Texts of several characters. *)
Lemma several w rs : 1 < length w -> single rs w = false.
Proof. destruct w as [|c [|d w]]; cbn; intros; auto; lia. Qed.
Lemma not_amp w : (forall s, w <> lit "&" ++ s) -> str_eqb (firstn 1 w) (lit "&") = false.
Proof.
  intro N. destruct w as [|c w]; [reflexivity|]. destruct (str_eqb (firstn 1 (c :: w)) (lit "&")) eqn:E; auto.
  apply str_eqb_eq in E. cbn [firstn] in E. injection E as ->. exfalso. apply (N w). reflexivity.
Qed.
Lemma mi_several w : 1 < length w -> (forall s, w <> lit "&" ++ s) -> w <> [8603; 39]%N -> symbol mi_tables w = w.
Proof.
  intros L A N. apply (symbol_sweep _ _ mi_sweep). rewrite (several w _ L). unfold several_mi. rewrite (not_amp w A).
  destruct (str_eqb w [8603; 39]%N) eqn:E; [apply str_eqb_eq in E; contradiction|]. cbn [orb]. apply andb_false_r.
Qed.
Lemma mo_several w : 1 < length w -> (forall s, w <> lit "&" ++ s) -> ~ In w (map fst joined_operators) -> symbol mo_tables w = w.
Proof.
  intros L A N. apply (symbol_sweep _ _ mo_sweep). rewrite (several w _ L). unfold several_mo. rewrite (not_amp w A).
  destruct (str_in w (map fst joined_operators)) eqn:E; [apply str_in_spec in E; contradiction|]. cbn [orb]. apply andb_false_r.
Qed.
Lemma mn_several w : 1 < length w -> mn_symbol w = w.
Proof.
  intro L. apply mn_symbol_other. intro I. pose proof (proj1 (forallb_forall _ _) mn_sweep _ I) as X. cbv beta in X. rewrite (several w _ L) in X. discriminate X.
Qed.
