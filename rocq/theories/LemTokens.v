(** The token converters agree with their specification; facts about words. *)
From Coq Require Import String.
From Verif Require Export LemBase.
Local Open Scope string_scope.
Local Open Scope list_scope.

(** ** Words *)
Lemma fields_cons s : exists f fs, fields s = f :: fs.
Proof. destruct s as [|c s]; cbn; eauto. destruct (is_space c); eauto. destruct (fields s); eauto. Qed.

Lemma split_acc_fields s : forall cur,
  split_acc cur s = filter truthy (match fields s with f :: fs => (rev cur ++ f) :: fs | [] => [rev cur] end).
Proof.
  induction s as [|c s IH]; intro cur; cbn [split_acc fields].
  - rewrite app_nil_r. destruct cur as [|x cur]; auto. cbn [filter]. destruct (rev (x :: cur)) eqn:E; auto.
    apply (f_equal (@rev _)) in E. rewrite rev_involutive in E. discriminate.
  - destruct (is_space c).
    + rewrite app_nil_r. rewrite IH. destruct (fields_cons s) as (f & fs & ->). cbn [rev app].
      destruct cur as [|x cur]; auto. cbn [filter]. destruct (rev (x :: cur)) eqn:E; auto.
      apply (f_equal (@rev _)) in E. rewrite rev_involutive in E. discriminate.
    + rewrite IH. destruct (fields_cons s) as (f & fs & ->). cbn [rev]. rewrite <- app_assoc. reflexivity.
Qed.
Lemma split_words s : split s = words s.
Proof.
  unfold split, words. rewrite split_acc_fields. destruct (fields_cons s) as (f & fs & ->). reflexivity.
Qed.
Lemma normalize_squeeze s : normalize s = squeeze s.
Proof. unfold normalize, squeeze. rewrite split_words. auto. Qed.

Definition no_space (w : str) : Prop := forall c, In c w -> is_space c = false.
Definition word (w : str) : Prop := w <> [] /\ no_space w.

Lemma fields_no_space s : Forall no_space (fields s).
Proof.
  induction s as [|c s IH]; cbn.
  - constructor; auto. intros x [].
  - destruct (is_space c) eqn:E.
    + constructor; auto. intros x [].
    + destruct (fields s) as [|f fs].
      * constructor; auto. intros x [<-|[]]; auto.
      * inversion IH; subst. constructor; auto. intros x [<-|I]; auto.
Qed.
Lemma words_word s : Forall word (words s).
Proof.
  unfold words. apply Forall_forall. intros w I. apply filter_In in I as [I T].
  pose proof (fields_no_space s) as F. rewrite Forall_forall in F. split; auto.
  intro; subst; discriminate.
Qed.

(** Words of concatenations. *)
Lemma fields_app_space a c b : is_space c = true -> fields (a ++ c :: b) = fields a ++ fields b.
Proof.
  intro E. induction a as [|x a IH]; cbn.
  - rewrite E. reflexivity.
  - destruct (is_space x); [rewrite IH; auto|]. rewrite IH. destruct (fields_cons a) as (f & fs & ->). reflexivity.
Qed.
Lemma words_app_space a c b : is_space c = true -> words (a ++ c :: b) = words a ++ words b.
Proof. intro E. unfold words. rewrite fields_app_space by auto. apply filter_app. Qed.
Lemma fields_no_space_id w : no_space w -> fields w = [w].
Proof.
  induction w as [|c w IH]; intro H; cbn; auto.
  rewrite H by (cbn; auto). rewrite IH; auto. intros x I. apply H. cbn; auto.
Qed.
Lemma words_word_id w : word w -> words w = [w].
Proof. intros [N H]. unfold words. rewrite fields_no_space_id by auto. destruct w; [congruence|auto]. Qed.
Lemma words_nil : words [] = [].
Proof. reflexivity. Qed.
Lemma words_join l : Forall word l -> words (join (lit " ") l) = l.
Proof.
  induction 1 as [|w l W F IH]; auto. destruct l as [|w' l].
  - cbn. apply words_word_id; auto.
  - change (join (lit " ") (w :: w' :: l)) with (w ++ 32%N :: join (lit " ") (w' :: l)).
    rewrite words_app_space by auto. rewrite IH, words_word_id by auto. reflexivity.
Qed.
Lemma words_squeeze s : words (squeeze s) = words s.
Proof. apply words_join. apply words_word. Qed.
Lemma squeeze_idem s : squeeze (squeeze s) = squeeze s.
Proof. unfold squeeze at 1. rewrite words_squeeze. reflexivity. Qed.
Lemma words_join_any l : words (join (lit " ") l) = flat_map words l.
Proof.
  induction l as [|w l IH]; auto. destruct l as [|w' l].
  - cbn. rewrite app_nil_r. auto.
  - change (join (lit " ") (w :: w' :: l)) with (w ++ 32%N :: join (lit " ") (w' :: l)).
    rewrite words_app_space by auto. rewrite IH. reflexivity.
Qed.

(** ** Canonical whitespace *)
Fixpoint no_double (s : str) : Prop :=
  match s with
  | a :: ((b :: _) as s') => ~ (a = 32%N /\ b = 32%N) /\ no_double s'
  | _ => True
  end.
Definition edges_ok (s : str) : Prop :=
  (forall c s', s = c :: s' -> is_space c = false) /\ (forall s' c, s = s' ++ [c] -> is_space c = false).
Definition canonical (s : str) : Prop :=
  edges_ok s /\ (forall c, In c s -> is_space c = true -> c = 32%N) /\ no_double s.

Lemma lstrip_id s : (forall c s', s = c :: s' -> is_space c = false) -> lstrip s = s.
Proof. intro H. destruct s as [|c s]; auto. cbn. rewrite (H c s); auto. Qed.
Lemma strip_id s : edges_ok s -> strip s = s.
Proof.
  intros [H1 H2]. unfold strip. rewrite lstrip_id by auto. unfold rstrip. rewrite lstrip_id.
  - apply rev_involutive.
  - intros c s' E. apply (H2 (rev s')). rewrite <- (rev_involutive s), E. reflexivity.
Qed.

Lemma no_double_app a b :
  no_double a -> no_double b -> (forall x y, a = x ++ [32%N] -> b = 32%N :: y -> False) -> no_double (a ++ b).
Proof.
  induction a as [|c a IH]; intros A B H; auto. destruct a as [|d a].
  - destruct b as [|e b]; cbn; auto. split; auto. intros [-> ->]. apply (H [] b); auto.
  - cbn in A. destruct A as [A1 A2]. cbn. split; auto. apply IH; auto.
    intros x y E1 E2. apply (H (c :: x) y); auto. cbn. congruence.
Qed.
Lemma no_space_no_double w : no_space w -> no_double w.
Proof.
  induction w as [|c w IH]; intro H; cbn; auto. destruct w as [|d w]; auto. split.
  - intros [-> _]. specialize (H 32%N (or_introl eq_refl)). discriminate.
  - apply IH. intros x I. apply H. cbn; auto.
Qed.

Lemma word_edges w : no_space w -> edges_ok w.
Proof.
  intro H. split.
  - intros c s' ->. apply H. cbn; auto.
  - intros s' c ->. apply H. apply in_app_iff. cbn; auto.
Qed.
Lemma app_last_nonempty {A} (x y : list A) s c : y <> [] -> x ++ y = s ++ [c] -> exists y', y = y' ++ [c].
Proof.
  intros N E. destruct (@exists_last _ y N) as [y' [z ->]]. rewrite app_assoc in E.
  apply app_inj_tail in E as [_ ->]. eauto.
Qed.
Lemma canonical_cons_space w s : word w -> canonical s -> s <> [] -> canonical (w ++ lit " " ++ s).
Proof.
  intros [N W] ((E1 & E2) & S & D) NS. repeat split.
  - intros c s' E. destruct w as [|x w]; [congruence|]. inversion E; subst. apply W. cbn; auto.
  - intros s' c E. rewrite app_assoc in E. apply app_last_nonempty in E as (y' & ->); auto. eapply E2; eauto.
  - intros c I Sp. rewrite !in_app_iff in I. destruct I as [I|[I|I]]; auto.
    + rewrite W in Sp by auto. discriminate.
    + cbn in I. destruct I as [<-|[]]. auto.
  - apply no_double_app; auto using no_space_no_double.
    + cbn [lit map app list_ascii_of_string]. destruct s as [|y s]; [congruence|]. split; auto.
      intros [_ ->]. specialize (E1 _ _ eq_refl). discriminate.
    + intros x y -> _. specialize (W 32%N). rewrite in_app_iff in W. cbn in W. specialize (W (or_intror (or_introl eq_refl))). discriminate.
Qed.
Lemma canonical_nil : canonical [].
Proof. repeat split; cbn; try discriminate; try tauto. intros s' c E. destruct s'; discriminate. Qed.
Lemma canonical_join l : Forall word l -> canonical (join (lit " ") l) /\ (l <> [] -> join (lit " ") l <> []).
Proof.
  induction 1 as [|w l W F [IH1 IH2]].
  - split; [apply canonical_nil|congruence].
  - destruct l as [|w' l].
    + cbn. destruct W as [N W]. split; [|auto]. split; [apply word_edges; auto|]. split; [|apply no_space_no_double; auto].
      intros c I S. rewrite W in S by auto. discriminate.
    + change (join (lit " ") (w :: w' :: l)) with (w ++ lit " " ++ join (lit " ") (w' :: l)). split.
      * apply canonical_cons_space; auto. apply IH2; discriminate.
      * intros _ E. destruct W as [N _]. destruct w; [congruence|discriminate].
Qed.
Lemma canonical_squeeze s : canonical (squeeze s).
Proof. apply canonical_join. apply words_word. Qed.
Lemma strip_squeeze s : strip (squeeze s) = squeeze s.
Proof. apply strip_id. apply canonical_squeeze. Qed.

Lemma canonical_app a b : canonical a -> canonical b -> canonical (a ++ b).
Proof.
  intros ((A1 & A2) & A3 & A4) ((B1 & B2) & B3 & B4).
  destruct a as [|x a]; auto.
  { repeat split; auto. }
  destruct b as [|y b].
  { rewrite app_nil_r. repeat split; auto. }
  repeat split.
  - intros c s' E. inversion E; subst. eapply A1; eauto.
  - intros s' c E. apply app_last_nonempty in E as (y' & E); [|discriminate]. eapply B2; eauto.
  - intros c I. apply in_app_iff in I as [I|I]; auto.
  - apply no_double_app; auto. intros p q E1 E2. apply A2 in E1. discriminate.
Qed.
Lemma canonical_concat l : Forall canonical l -> canonical (concat l).
Proof. induction 1; cbn; auto using canonical_nil, canonical_app. Qed.

(** A canonical text is its own squeeze. *)
Lemma squeeze_word w : word w -> squeeze w = w.
Proof. intro W. unfold squeeze. rewrite words_word_id; auto. Qed.

(** ** Table sweeps *)
Lemma dget_keys {A} (d : dict A) (p : str -> A -> bool) :
  forallb (fun kv => p (fst kv) (snd kv)) d = true -> forall k v, dget d k = Some v -> p k v = true.
Proof. intros H k v G. apply dget_In in G. rewrite forallb_forall in H. apply (H (k, v)); auto. Qed.

(** Keys of the accent and font tables: one character which is not an ASCII letter or digit. *)
Definition single_special (k : str) : bool :=
  match k with [c] => negb (alnum_ignorecase c) | _ => false end.
Lemma vowels_keys : forall k v, dget vowels_with_accents k = Some v ->
  single_special k = true /\ exists cmd, dget accent_to_ltx_cmd (ac_accent v) = Some cmd /\ truthy cmd = true.
Proof.
  intros k v G.
  assert (X : forall k v, dget vowels_with_accents k = Some v ->
     (single_special k && match dget accent_to_ltx_cmd (ac_accent v) with Some cmd => truthy cmd | None => false end = true)).
  { apply (dget_keys _ (fun k v => single_special k && match dget accent_to_ltx_cmd (ac_accent v) with Some cmd => truthy cmd | None => false end)).
    vm_compute. reflexivity. }
  apply X in G. apply andb_true_iff in G as [G1 G2]. split; auto.
  destruct (dget accent_to_ltx_cmd (ac_accent v)); [eauto|discriminate].
Qed.
Lemma special_keys : forall k v, dget special_font_chars k = Some v -> single_special k = true.
Proof.
  apply (dget_keys _ (fun k v => single_special k)). vm_compute. reflexivity.
Qed.

Lemma utf8_convert_spec w : utf8_convert w = accent_or_font w.
Proof.
  unfold utf8_convert, accent_or_font, convert_accent_char_to_ltx, convert_special_char_to_ltx.
  destruct (re_match (RChar alnum_ignorecase) w) as [r|] eqn:E.
  - assert (S : single_special w = false).
    { destruct w as [|c [|c' w]]; auto. cbn in *. unfold re_match, attempt in E. cbn in E.
      destruct (alnum_ignorecase c); auto. discriminate. }
    destruct (dget vowels_with_accents w) eqn:V.
    { apply vowels_keys in V as [V _]. congruence. }
    destruct (dget special_font_chars w) eqn:F; auto.
    apply special_keys in F. congruence.
  - destruct (dget vowels_with_accents w) as [a|] eqn:V.
    + apply vowels_keys in V as (_ & cmd & V & Tc). rewrite V, Tc. reflexivity.
    + destruct (dget special_font_chars w) as [f|]; reflexivity.
Qed.

(** No value of a symbol table and no converted character is itself converted further. *)
Definition settled (s : str) : bool :=
  match dget vowels_with_accents s, dget special_font_chars s with None, None => true | _, _ => false end.
Lemma settled_id s : settled s = true -> accent_or_font s = s.
Proof.
  unfold settled, accent_or_font. destruct (dget vowels_with_accents s); try discriminate.
  destruct (dget special_font_chars s); auto; discriminate.
Qed.
Lemma settled_backslash s : settled (lit "\" ++ s) = true.
Proof.
  destruct s as [|c s]; [vm_compute; reflexivity|]. unfold settled.
  destruct (dget vowels_with_accents _) eqn:V.
  { apply vowels_keys in V as [V _]. discriminate. }
  destruct (dget special_font_chars _) eqn:F; auto.
  apply special_keys in F. discriminate.
Qed.
Lemma accent_or_font_idem w : accent_or_font (accent_or_font w) = accent_or_font w.
Proof.
  unfold accent_or_font at 2 3. destruct (dget vowels_with_accents w) as [a|] eqn:V.
  - apply vowels_keys in V as (_ & cmd & V & Tc). rewrite V. apply settled_id, settled_backslash.
  - destruct (dget special_font_chars w) as [f|] eqn:F.
    + apply settled_id, settled_backslash.
    + apply settled_id. unfold settled. rewrite V, F. auto.
Qed.

Definition all_tables := mi_tables ++ [all_math_operators_by_char; all_math_operators_by_glyph].
Lemma table_values_settled :
  forall d k v, In d all_tables -> dget d k = Some v -> settled v = true.
Proof.
  assert (X : forallb (forallb (fun kv : str * str => settled (snd kv))) all_tables = true) by (vm_compute; reflexivity).
  intros d k v I G. rewrite forallb_forall in X. specialize (X d I).
  apply (dget_keys d (fun k v => settled v) X k v G).
Qed.

Lemma first_entry_some ds w s : first_entry ds w = Some s -> exists d, In d ds /\ dget d w = Some s /\ truthy s = true.
Proof.
  induction ds as [|d ds IH]; cbn; intro H; [discriminate|].
  destruct (dget d w) as [[|c cs]|] eqn:G.
  - apply IH in H as (d' & I & G' & T). eauto.
  - inversion H; subst. exists d. auto.
  - apply IH in H as (d' & I & G' & T). eauto.
Qed.
Lemma symbol_settled ds w : incl ds all_tables -> accent_or_font (symbol ds w) = symbol ds w.
Proof.
  intro I. unfold symbol. destruct (first_entry ds w) as [s|] eqn:F.
  - apply first_entry_some in F as (d & Id & G & T). apply settled_id. eapply table_values_settled; eauto.
  - apply accent_or_font_idem.
Qed.

Lemma character_apply_spec w : character_apply w = symbol mi_tables w.
Proof.
  unfold character_apply, symbol, mi_tables, dget_or. rewrite utf8_convert_spec. cbn [first_entry].
  destruct (dget all_math_symbols_by_char w) as [[|]|]; cbn [py_or truthy]; auto;
  destruct (dget all_math_symbols_by_glyph w) as [[|]|]; cbn [py_or truthy]; auto;
  destruct (dget math_number_by_glyph w) as [[|]|]; cbn [py_or truthy]; auto.
Qed.
Lemma operator_operate_spec w : operator_operate w = symbol mo_tables w.
Proof.
  unfold operator_operate, symbol, mo_tables. rewrite utf8_convert_spec. cbn [first_entry].
  destruct (dget all_math_operators_by_char w) as [[|]|]; auto;
  destruct (dget all_math_operators_by_glyph w) as [[|]|]; auto;
  destruct (dget math_number_by_glyph w) as [[|]|]; auto.
Qed.

Lemma variant_spec s v : wrap_in_math_variant s v = in_commands (variant_lookup mi_variants [] v) s.
Proof.
  unfold wrap_in_math_variant, mi_variants. cbn [variant_lookup].
  repeat match goal with |- context [str_eqb v (lit ?x)] => destruct (str_eqb v (lit x)) end; reflexivity.
Qed.

Lemma squeeze_not_space s : squeeze s <> lit " ".
Proof.
  intro E. pose proof (canonical_squeeze s) as ((E1 & _) & _). specialize (E1 _ _ E). discriminate.
Qed.

Lemma mi_convert_spec v a : mi_convert v a = mi_latex v a.
Proof.
  unfold mi_convert. rewrite normalize_squeeze.
  rewrite (proj2 (str_eqb_neq _ _) (squeeze_not_space v)). rewrite strip_squeeze, utf8_convert_spec, character_apply_spec.
  rewrite symbol_settled, str_eqb_refl.
  - cbn [negb]. rewrite variant_spec. unfold mi_latex, get_math_variant, attr, dget_or.
    destruct (dget a (lit "mathvariant")); reflexivity.
  - unfold all_tables. intros x I. apply in_app_iff. auto.
Qed.
Lemma mo_convert_spec v : mo_convert v = mo_latex v.
Proof. unfold mo_convert. rewrite normalize_squeeze, strip_squeeze. apply operator_operate_spec. Qed.
Lemma mn_convert_spec v : mn_convert v = mn_latex v.
Proof.
  unfold mn_convert, mn_latex, dget_or. rewrite normalize_squeeze, strip_squeeze. cbn [first_entry].
  destruct (dget math_number_by_glyph (squeeze v)) as [[|]|]; reflexivity.
Qed.

(** ** mtext *)
Lemma alnum_char c : mtext_is_alphanumeric [c] = plain_text_char c.
Proof.
  unfold mtext_is_alphanumeric, re_match, attempt, plain_text_char. cbn [m_regex length Nat.eqb].
  change (ascii_alnum c) with ((97 <=? c) && (c <=? 122) || (65 <=? c) && (c <=? 90) || (48 <=? c) && (c <=? 57))%N.
  destruct ((97 <=? c) && (c <=? 122) || (65 <=? c) && (c <=? 90) || (48 <=? c) && (c <=? 57))%N; cbn; auto.
  apply andb_true_r.
Qed.

Definition of_run (r : bool * str) : char_rec := Char (snd r) (fst r).
(** Continuing a merge whose last group is [(true, w)]. *)
Definition glue (m : list char_rec) (rs : list (bool * str)) : list char_rec :=
  match m, rs with
  | Char w true :: m', (true, w') :: rs' => rev m' ++ Char (w ++ w') true :: map of_run rs'
  | _, _ => rev m ++ map of_run rs
  end.
Lemma merge_loop_spec s : forall m, mtext_merge_loop (mtext_chars s) m = glue m (text_runs s).
Proof.
  induction s as [|c s IH]; intro m; cbn [mtext_chars map mtext_merge_loop text_runs].
  - destruct m as [|[w []] m]; cbn; rewrite ?app_nil_r; auto.
  - cbn [ch_alnum ch_value]. rewrite alnum_char. fold (mtext_chars s).
    destruct (plain_text_char c).
    + destruct m as [|[w []] m]; cbn [ch_alnum ch_value]; rewrite IH;
      destruct (text_runs s) as [|[[] w'] rs]; cbn; rewrite <- ?app_assoc; reflexivity.
    + rewrite IH. destruct m as [|[w []] m]; destruct (text_runs s) as [|[[] w'] rs]; cbn; rewrite <- ?app_assoc; reflexivity.
Qed.
Lemma merge_spec s : mtext_merge (mtext_chars s) = map of_run (text_runs s).
Proof. unfold mtext_merge. rewrite merge_loop_spec. reflexivity. Qed.

Lemma text_command_spec mv s :
  text_command_apply mv s =
  in_commands (variant_lookup mtext_variants ["\text"] (match mv with Some v => v | None => [] end)) s.
Proof.
  unfold text_command_apply, text_commands, text_variant, mtext_variants. cbn [variant_lookup].
  destruct mv as [[|x xs]|]; try reflexivity.
  unfold str_in. cbn [existsb].
  repeat match goal with |- context [str_eqb (x :: xs) (lit ?y)] => destruct (str_eqb (x :: xs) (lit y)) end; reflexivity.
Qed.
Lemma mtext_convert_spec v a : mtext_convert v a = mtext_latex v a.
Proof.
  unfold mtext_convert, mtext_latex. rewrite merge_spec, map_map. f_equal. apply map_ext. intros [[] w]; cbn.
  - apply text_command_spec.
  - apply mi_convert_spec.
Qed.

(** ** menclose *)
Lemma enclose_spec n s : enclose n s = enclosed n s.
Proof.
  unfold enclose, enclosed, notations. cbn [notation_lookup]. unfold str_in. cbn [existsb].
  repeat match goal with
  | |- context [str_eqb n (lit ?y)] => destruct (str_eqb n (lit y)); [cbn; rewrite ?app_nil_r; reflexivity|cbn iota; cbn [orb]]
  end. reflexivity.
Qed.
