(** Each character against the tables (C77). *)
From Coq Require Import String.
From Verif Require Export SpecEach LemOther.
Local Open Scope string_scope.
Local Open Scope list_scope.

Definition listed_codes (l : list (string * list N)) : list N := flat_map snd l.
Lemma catalogued_other l c : ~ In c (listed_codes l) -> catalogued l c = [c].
Proof.
  induction l as [|[s cs] l IH]; cbn; auto. rewrite in_app_iff. intro H. destruct (existsb (N.eqb c) cs) eqn:E.
  - exfalso. apply H. left. apply existsb_exists in E as (x & I & E). apply N.eqb_eq in E. subst. exact I.
  - apply IH. intro I. apply H. right. exact I.
Qed.

(** A function of texts, of its keys and other texts, and a function of characters. *)
Definition agrees (f : str -> str) (g : N -> str) (c : N) : bool := is_space c || str_eqb (f [c]) (g c).
Definition agrees_key (f : str -> str) (g : N -> str) (k : str) : bool := match k with [c] => agrees f g c | _ => true end.
Lemma each_character (f : str -> str) (g : N -> str) keys codes :
  (forall w, ~ In w keys -> f w = w) -> (forall c, ~ In c codes -> g c = [c]) ->
  forallb (agrees_key f g) keys = true -> forallb (agrees f g) codes = true ->
  forall c, ~ In c white_codes -> f [c] = g c.
Proof.
  intros F G K C c W. apply not_white in W.
  assert (A : agrees f g c = true -> f [c] = g c) by (unfold agrees; rewrite W; apply str_eqb_eq).
  destruct (in_dec (list_eq_dec N.eq_dec) [c] keys) as [I|I].
  - apply A. exact (proj1 (forallb_forall _ _) K _ I).
  - destruct (in_dec N.eq_dec c codes) as [J|J].
    + apply A. exact (proj1 (forallb_forall _ _) C _ J).
    + rewrite (F _ I), (G _ J). reflexivity.
Qed.
Lemma symbol_other tables w : ~ In w (table_keys tables) -> symbol tables w = w.
Proof.
  intro N. destruct (str_eqb (symbol tables w) w) eqn:E; [apply str_eqb_eq; exact E|]. exfalso. apply N. apply symbol_key.
  intro X. rewrite X, str_eqb_refl in E. discriminate E.
Qed.

Definition operator_codes := 10743%N :: listed_codes (operator_characters ++ shared_characters).
Lemma operator_gives_other c : ~ In c operator_codes -> operator_gives c = [c].
Proof.
  intro H. unfold operator_gives. destruct (N.eqb_spec c 10743) as [->|_].
  - exfalso. apply H. left. reflexivity.
  - apply catalogued_other. intro I. apply H. right. exact I.
Qed.
Lemma operator_each : forall c, ~ In c white_codes -> symbol mo_tables [c] = operator_gives c.
Proof.
  apply (each_character _ _ (table_keys mo_tables) operator_codes (symbol_other _) operator_gives_other); vm_compute; reflexivity.
Qed.
Lemma identifier_each : forall c, ~ In c white_codes -> symbol mi_tables [c] = identifier_gives c.
Proof.
  apply (each_character _ _ (table_keys mi_tables) (listed_codes (identifier_characters ++ shared_characters)) (symbol_other _) (catalogued_other _));
    vm_compute; reflexivity.
Qed.
Lemma number_each : forall c, ~ In c white_codes -> mn_symbol [c] = number_gives c.
Proof.
  apply (each_character _ _ (map fst math_number_by_glyph) (listed_codes number_characters) mn_symbol_other (catalogued_other _));
    vm_compute; reflexivity.
Qed.

(** Where the two differ. *)
Definition differing : list N := 10743%N :: listed_codes (operator_characters ++ identifier_characters).
Lemma catalogued_app l l' c : ~ In c (listed_codes l) -> catalogued (l ++ l') c = catalogued l' c.
Proof.
  induction l as [|[s cs] l IH]; cbn; auto. rewrite in_app_iff. intro H. destruct (existsb (N.eqb c) cs) eqn:E.
  - exfalso. apply H. left. apply existsb_exists in E as (x & I & E). apply N.eqb_eq in E. subst. exact I.
  - apply IH. intro I. apply H. right. exact I.
Qed.
Lemma differing_sweep : forallb (fun c => negb (str_eqb (operator_gives c) (identifier_gives c))) differing = true.
Proof. vm_compute. reflexivity. Qed.
Lemma gives_same c : operator_gives c = identifier_gives c <-> ~ In c differing.
Proof.
  split.
  - intros E I. pose proof (proj1 (forallb_forall _ _) differing_sweep c I) as X. cbv beta in X. rewrite E, str_eqb_refl in X. discriminate X.
  - intro H. unfold operator_gives, identifier_gives. destruct (N.eqb_spec c 10743) as [->|_].
    + exfalso. apply H. left. reflexivity.
    + rewrite !catalogued_app; auto; intro I; apply H; right; unfold listed_codes; rewrite flat_map_app; apply in_app_iff; [right|left]; exact I.
Qed.
Lemma two_ways_sweep : forallb (fun e : N * string * string => str_eqb (operator_gives (fst (fst e))) (lit (snd (fst e)))
    && str_eqb (identifier_gives (fst (fst e))) (lit (snd e)) && negb (is_space (fst (fst e)))
    && negb (str_eqb (lit (snd e)) (lit (snd (fst e))))) two_ways = true.
Proof. vm_compute. reflexivity. Qed.
Lemma two_ways_all : forallb (fun c => existsb (N.eqb c) (map (fun e : N * string * string => fst (fst e)) two_ways)
    || str_eqb (operator_gives c) [c] || str_eqb (identifier_gives c) [c]) differing = true.
Proof. vm_compute. reflexivity. Qed.
Lemma two_ways_copied : forallb (fun e : N * string * string => negb (str_eqb (lit (snd (fst e))) [fst (fst e)])
    && negb (str_eqb (lit (snd e)) [fst (fst e)])) two_ways = true.
Proof. vm_compute. reflexivity. Qed.
