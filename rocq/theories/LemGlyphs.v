(** Proofs for C48 - C51: finite sweeps over the characters, lifted by forallb_forall. *)
From Coq Require Import String.
From Verif Require Export SpecGlyphs LemText.
Local Open Scope string_scope.
Local Open Scope list_scope.

Lemma white_is_space c : In c white_codes <-> is_space c = true.
Proof.
  split.
  - assert (A : forallb is_space white_codes = true) by reflexivity.
    intro I. apply (proj1 (forallb_forall _ _) A c I).
  - unfold is_space. intro H. cbn [white_codes In].
    repeat (apply orb_prop in H; destruct H as [H|H]);
      try (apply andb_prop in H as [H1 H2]; apply N.leb_le in H1, H2; lia);
      apply N.eqb_eq in H; lia.
Qed.
Lemma not_white c : ~ In c white_codes <-> is_space c = false.
Proof. rewrite white_is_space. destruct (is_space c); split; congruence. Qed.
Lemma words_white p : white p -> words p = [].
Proof.
  induction 1 as [|c p C F IH]; [reflexivity|]. apply white_is_space in C.
  change (c :: p) with ([] ++ c :: p). rewrite words_app_space by exact C. rewrite IH. reflexivity.
Qed.
Lemma words_before p v : white p -> words (p ++ v) = words v.
Proof.
  induction 1 as [|c p C F IH]; [reflexivity|]. apply white_is_space in C.
  cbn [app]. change (c :: p ++ v) with ([] ++ c :: (p ++ v)). rewrite words_app_space by exact C. rewrite IH. reflexivity.
Qed.
Lemma words_behind v q : white q -> words (v ++ q) = words v.
Proof.
  intro Q. destruct Q as [|c q C F]; [rewrite app_nil_r; reflexivity|]. apply white_is_space in C.
  rewrite words_app_space by exact C. rewrite (words_white q F). apply app_nil_r.
Qed.
Lemma words_around p v q : white p -> white q -> words (p ++ v ++ q) = words v.
Proof. intros P Q. rewrite words_before by exact P. apply words_behind, Q. Qed.
Lemma squeeze_shows v c : shows v c -> ~ In c white_codes -> squeeze v = [c].
Proof.
  intros (p & q & -> & P & Q) N. apply not_white in N. unfold squeeze. rewrite words_before by exact P.
  change (c :: q) with ([c] ++ q). rewrite words_behind by exact Q.
  rewrite words_word_id; [reflexivity|]. split; [discriminate|]. intros x [<-|[]]. exact N.
Qed.
Lemma around tag p v q ch a : In tag ["mi"; "mo"; "mn"] -> white p -> white q ->
  latex_of (T (lit tag) (p ++ v ++ q) ch a) = latex_of (T (lit tag) v ch a).
Proof. intros I P Q. apply token_words; [exact I|apply words_around; assumption]. Qed.
Lemma white_alone tag c ch : In tag ["mi"; "mo"; "mn"] -> (latex_of (T (lit tag) [c] ch []) = Ok [] <-> In c white_codes).
Proof.
  intro I. split.
  - intro E. destruct (is_space c) eqn:S; [apply white_is_space; exact S|]. exfalso.
    assert (SQ : squeeze [c] = [c]) by (apply squeeze_shows; [exists [], []; repeat constructor|apply not_white; exact S]).
    destruct I as [<-|[<-|[<-|[]]]].
    + rewrite mi_latex_of in E. unfold mi_latex in E. rewrite SQ in E. cbn [variant_lookup] in E.
      assert (X : symbol mi_tables [c] = []) by (injection E; auto). exact (symbol_nonempty _ [c] ltac:(discriminate) X).
    + rewrite mo_latex_of in E. unfold mo_latex in E. rewrite SQ in E.
      assert (X : symbol mo_tables [c] = []) by (injection E; auto). exact (symbol_nonempty _ [c] ltac:(discriminate) X).
    + rewrite mn_latex_of in E. unfold mn_latex in E. rewrite SQ in E. cbn [first_entry] in E.
      destruct (dget math_number_by_glyph [c]) as [[|]|]; discriminate.
  - intro W. rewrite (token_words tag [c] [] ch [] I); [|rewrite (words_white [c]); [reflexivity|constructor; [exact W|constructor]]].
    destruct I as [<-|[<-|[<-|[]]]]; [rewrite mi_latex_of|rewrite mo_latex_of|rewrite mn_latex_of]; vm_compute; reflexivity.
Qed.

Lemma lstrip_cut s : exists p, s = p ++ lstrip s /\ white p /\ forall c s', lstrip s = c :: s' -> ~ In c white_codes.
Proof.
  induction s as [|c s (p & E & P & N)].
  - exists []. repeat split; [constructor|discriminate].
  - cbn [lstrip]. destruct (is_space c) eqn:S.
    + exists (c :: p). rewrite E at 1. split; [reflexivity|]. split; [constructor; [apply white_is_space, S|exact P]|exact N].
    + exists []. split; [reflexivity|]. split; [constructor|]. intros x s' [= <- <-]. apply not_white, S.
Qed.
Lemma strip_cut s : exists p q, s = p ++ strip s ++ q /\ white p /\ white q
  /\ (forall c s', strip s = c :: s' -> ~ In c white_codes) /\ (forall c s', strip s = s' ++ [c] -> ~ In c white_codes).
Proof.
  destruct (lstrip_cut s) as (p & E & P & N). destruct (lstrip_cut (rev (lstrip s))) as (q & E2 & Q & N2).
  assert (X : lstrip s = strip s ++ rev q).
  { unfold strip, rstrip. rewrite <- (rev_involutive (lstrip s)) at 1. rewrite E2 at 1. rewrite rev_app_distr. reflexivity. }
  exists p, (rev q). split; [rewrite E at 1; rewrite X; reflexivity|]. split; [exact P|]. split; [apply Forall_rev; exact Q|]. split.
  - intros c s' H. apply (N c (s' ++ rev q)). rewrite X, H. reflexivity.
  - intros c s' H. apply (N2 c (rev s')). unfold strip, rstrip in H.
    rewrite <- (rev_involutive (lstrip (rev (lstrip s)))), H, rev_app_distr. reflexivity.
Qed.

(** Sweeps. *)
Lemma mi_shows v c ch a s : shows v c -> ~ In c white_codes -> attr a "mathvariant" = [] -> symbol mi_tables [c] = s ->
  latex_of (T (lit "mi") v ch a) = Ok s.
Proof. intros S W A E. rewrite mi_latex_of. unfold mi_latex. rewrite A, (squeeze_shows v c S W), E. reflexivity. Qed.
Lemma mo_shows v c ch a s : shows v c -> ~ In c white_codes -> symbol mo_tables [c] = s ->
  latex_of (T (lit "mo") v ch a) = Ok s.
Proof. intros S W E. rewrite mo_latex_of. unfold mo_latex. rewrite (squeeze_shows v c S W), E. reflexivity. Qed.
Lemma mn_shows v c ch a s : shows v c -> ~ In c white_codes -> first_entry [math_number_by_glyph] [c] = Some s ->
  latex_of (T (lit "mn") v ch a) = Ok s.
Proof. intros S W E. rewrite mn_latex_of. unfold mn_latex. rewrite (squeeze_shows v c S W), E. reflexivity. Qed.

Definition sym (tables : list (dict str)) (c : N) (s : str) : bool := negb (is_space c) && str_eqb (symbol tables [c]) s.
Definition num (c : N) (s : str) : bool :=
  negb (is_space c) && match first_entry [math_number_by_glyph] [c] with Some x => str_eqb x s | None => false end.
Lemma sym_true tables c s : sym tables c s = true -> ~ In c white_codes /\ symbol tables [c] = s.
Proof.
  intro H. apply andb_prop in H as [H1 H2]. split; [apply not_white; destruct (is_space c); [discriminate|reflexivity]|].
  apply str_eqb_eq; exact H2.
Qed.
Lemma num_true c s : num c s = true -> ~ In c white_codes /\ first_entry [math_number_by_glyph] [c] = Some s.
Proof.
  intro H. apply andb_prop in H as [H1 H2]. split; [apply not_white; destruct (is_space c); [discriminate|reflexivity]|].
  destruct (first_entry _ _); [|discriminate]. f_equal. apply str_eqb_eq; exact H2.
Qed.
Lemma mi_sym v c ch a s : sym mi_tables c s = true -> shows v c -> attr a "mathvariant" = [] -> latex_of (T (lit "mi") v ch a) = Ok s.
Proof. intros H S A. apply sym_true in H as [W E]. eapply mi_shows; eauto. Qed.
Lemma mo_sym v c ch a s : sym mo_tables c s = true -> shows v c -> latex_of (T (lit "mo") v ch a) = Ok s.
Proof. intros H S. apply sym_true in H as [W E]. eapply mo_shows; eauto. Qed.
Lemma mn_num v c ch a s : num c s = true -> shows v c -> latex_of (T (lit "mn") v ch a) = Ok s.
Proof. intros H S. apply num_true in H as [W E]. eapply mn_shows; eauto. Qed.
Lemma below k (P : nat -> bool) : forallb P (seq 0 k) = true -> forall i, i < k -> P i = true.
Proof. intros A i L. apply (proj1 (forallb_forall _ _) A). apply in_seq. lia. Qed.

Definition capital_latex (cmd : string) (i : nat) : str := lit cmd ++ lit "{" ++ [(65 + N.of_nat i)%N] ++ lit "}".
Lemma capitals_sweep : forallb (fun f : string * N * list (nat * N) => let '(cmd, first, other) := f in
  forallb (fun i => sym mi_tables (capital first other i) (capital_latex cmd i) && sym mo_tables (capital first other i) (capital_latex cmd i))
    (seq 0 26)) fonts = true.
Proof. vm_compute. reflexivity. Qed.
Lemma capitals tag cmd first other i v ch a : In tag ["mi"; "mo"] -> In (cmd, first, other) fonts -> i < 26 ->
  shows v (capital first other i) -> attr a "mathvariant" = [] -> latex_of (T (lit tag) v ch a) = Ok (capital_latex cmd i).
Proof.
  intros I F L S A. pose proof (proj1 (forallb_forall _ _) capitals_sweep _ F) as H. cbv beta iota in H.
  pose proof (below _ _ H i L) as K. cbv beta in K. apply andb_prop in K as [K1 K2].
  destruct I as [<-|[<-|[]]]; [eapply mi_sym|eapply mo_sym]; eauto.
Qed.
Lemma italic_sweep : forallb (fun i => Nat.eqb i 7 || sym mi_tables (119886 + N.of_nat i)%N [(97 + N.of_nat i)%N]) (seq 0 26) = true.
Proof. vm_compute. reflexivity. Qed.
Lemma italic i v ch a : i < 26 -> i <> 7 -> shows v (119886 + N.of_nat i)%N -> attr a "mathvariant" = [] ->
  latex_of (T (lit "mi") v ch a) = Ok [(97 + N.of_nat i)%N].
Proof.
  intros L N S A. pose proof (below _ _ italic_sweep i L) as H. cbv beta in H.
  destruct (Nat.eqb_spec i 7) as [X|_]; [contradiction|]. eapply mi_sym; eauto.
Qed.

Definition all_three (c : N) (s : str) : bool := sym mi_tables c s && sym mo_tables c s && num c s.
Lemma all_three_latex tag c s v ch a : all_three c s = true -> In tag ["mi"; "mo"; "mn"] -> shows v c -> attr a "mathvariant" = [] ->
  latex_of (T (lit tag) v ch a) = Ok s.
Proof.
  intros H I S A. apply andb_prop in H as [H H3]. apply andb_prop in H as [H1 H2].
  destruct I as [<-|[<-|[<-|[]]]]; [eapply mi_sym|eapply mo_sym|eapply mn_num]; eauto.
Qed.
Lemma subscripts_sweep : forallb (fun i => all_three (subscript i) (lit "_{" ++ [digit i] ++ lit "}")) (seq 0 10) = true.
Proof. vm_compute. reflexivity. Qed.
Lemma superscripts_sweep : forallb (fun i => let s := lit "^{" ++ [digit i] ++ lit "}" in
  sym mi_tables (superscript i) s && num (superscript i) s && sym mo_tables (superscript i) (if existsb (Nat.eqb i) [1; 2; 3] then [digit i] else s)) (seq 0 10) = true.
Proof. vm_compute. reflexivity. Qed.
Lemma circled_sweep : forallb (fun i => all_three (circled i) (lit "\textcircled{" ++ numeral2 i ++ lit "}")) (seq 0 51) = true.
Proof. vm_compute. reflexivity. Qed.
Lemma fractions_sweep : forallb (fun f : N * nat * nat => let '(c, x, y) := f in
  all_three c (lit "\dfrac{" ++ numeral2 x ++ lit "}{" ++ numeral2 y ++ lit "}")) fractions = true.
Proof. vm_compute. reflexivity. Qed.
Lemma greek_sweep : forallb (fun e : N * string => sym mi_tables (fst e) (lit (snd e))
  && sym mo_tables (fst e) (if existsb (N.eqb (fst e)) [949; 958; 923; 926]%N then [fst e] else lit (snd e))) greek = true.
Proof. vm_compute. reflexivity. Qed.
Lemma accents_sweep : forallb (fun e : string * list (N * string) => forallb (fun p : N * string =>
  let s := lit (fst e) ++ lit "{" ++ lit (snd p) ++ lit "}" in sym mi_tables (fst p) s && sym mo_tables (fst p) s) (snd e)) accented = true.
Proof. vm_compute. reflexivity. Qed.
Fixpoint code_lookup (l : list (N * string)) (c : N) : str :=
  match l with [] => [c] | (x, s) :: l' => if (c =? x)%N then lit s else code_lookup l' c end.
Lemma ascii_sweep : forallb (fun i => let c := N.of_nat i in is_space c || sym mi_tables c (code_lookup mi_ascii c) && sym mo_tables c (code_lookup mo_ascii c)) (seq 0 128) = true.
Proof. vm_compute. reflexivity. Qed.
Lemma code_lookup_spec l c : NoDup (map fst l) ->
  (forall s, In (c, s) l -> Ok (A := str) (code_lookup l c) = Ok (lit s)) /\ (~ In c (map fst l) -> Ok (A := str) (code_lookup l c) = Ok [c]).
Proof.
  intro N. induction l as [|[x t] l IH]; [split; [intros s []|reflexivity]|]. inversion N as [|? ? N1 N2]; subst.
  destruct (IH N2) as [IH1 IH2]. cbn [code_lookup]. destruct (N.eqb_spec c x) as [->|D]; split.
  - intros s [E|I]; [injection E as <-; reflexivity|]. destruct N1. apply (in_map fst) in I. exact I.
  - intro X. destruct X. left. reflexivity.
  - intros s [E|I]; [injection E as <- <-; destruct (D eq_refl)|]. apply IH1, I.
  - intro X. apply IH2. intro Y. apply X. right. exact Y.
Qed.
Lemma white_check s : forallb is_space s = true -> white s.
Proof. intro H. apply Forall_forall. intros c I. apply white_is_space. apply (proj1 (forallb_forall _ _) H c I). Qed.
