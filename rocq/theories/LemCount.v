(** How often the patterns compare characters (C74). *)
From Coq Require Import String.
From Verif Require Export ModelCount SpecCount LemRecovery.
Local Open Scope string_scope.
Local Open Scope list_scope.

(** ** Counting does not change the outcome *)
Definition c_star {R} (total : nat) (a : regex) (k : str -> caps -> nat * option R) :=
  fix star (fuel : nat) (s0 : str) (g0 : caps) {struct fuel} : nat * option R :=
  match fuel with
  | O => k s0 g0
  | S f => or_else (c_regex total a s0 g0
                     (fun s1 g1 => if Nat.ltb (length s1) (length s0) then star f s1 g1 else (0, None)))
             (k s0 g0)
  end.
Lemma c_star_S {R} total a (k : str -> caps -> nat * option R) f s0 g0 :
  c_star total a k (S f) s0 g0 = or_else (c_regex total a s0 g0
    (fun s1 g1 => if Nat.ltb (length s1) (length s0) then c_star total a k f s1 g1 else (0, None))) (k s0 g0).
Proof. reflexivity. Qed.
Lemma c_star_eq {R} total a s g (k : str -> caps -> nat * option R) :
  c_regex total (RStar a) s g k = c_star total a k (length s) s g.
Proof. reflexivity. Qed.
Lemma snd_or_else {R} (x y : nat * option R) : snd (or_else x y) = match snd x with Some r => Some r | None => snd y end.
Proof. unfold or_else. destruct (snd x) eqn:E; [exact E|reflexivity]. Qed.
Lemma c_regex_same total r : forall R s g (k : str -> caps -> nat * option R) k',
  (forall s1 g1, snd (k s1 g1) = k' s1 g1) -> snd (c_regex total r s g k) = m_regex total r s g k'.
Proof.
  induction r; intros R s g k k' K.
  - apply K.
  - cbn [c_regex m_regex]. destruct s as [|c s]; [reflexivity|]. destruct (p c); [apply K|reflexivity].
  - cbn [c_regex m_regex]. apply IHr1. intros s1 g1. apply IHr2. exact K.
  - cbn [c_regex m_regex]. rewrite snd_or_else, (IHr1 _ _ _ _ _ K), (IHr2 _ _ _ _ _ K). reflexivity.
  - rewrite c_star_eq, m_star. generalize (length s) as f. intro f. revert s g.
    induction f as [|f IHf]; intros s g; [apply K|]. rewrite c_star_S, star_loop_S, snd_or_else, K.
    rewrite (IHr _ s g _ (fun s1 g1 => if Nat.ltb (length s1) (length s) then star_loop total r k' f s1 g1 else None)); [reflexivity|].
    intros s1 g1. destruct (Nat.ltb _ _); [apply IHf|reflexivity].
  - cbn [c_regex m_regex]. rewrite snd_or_else, (IHr _ _ _ _ _ K), K. reflexivity.
  - cbn [c_regex m_regex]. apply IHr. intros. apply K.
  - cbn [c_regex m_regex]. rewrite (IHr _ s g _ (fun _ _ => Some tt)) by reflexivity.
    destruct (m_regex total r s g _); [reflexivity|apply K].
  - cbn [c_regex m_regex]. destruct (Nat.eqb _ _); [apply K|reflexivity].
  - cbn [c_regex m_regex]. destruct s as [|c [|d s]]; [apply K| |reflexivity]. destruct (N.eqb c 10); [apply K|reflexivity].
Qed.
Lemma c_attempt_same total must r s : snd (c_attempt total must r s) = attempt total must r s.
Proof. apply c_regex_same. reflexivity. Qed.
Lemma c_search_same total r : forall s must, snd (c_search_from total must r s) = search_from total must r s.
Proof.
  induction s as [|c s IH]; intros must; cbn [c_search_from search_from]; rewrite c_attempt_same;
    destruct (attempt _ _ _ _) as [[? ?]|]; cbn [fst snd]; auto. rewrite IH. reflexivity.
Qed.
Lemma c_re_search_same r s : snd (c_re_search r s) = re_search r s.
Proof. unfold c_re_search, re_search. cbn [snd]. rewrite c_search_same. reflexivity. Qed.
Lemma c_sub_same total r repl : forall f must s, snd (c_sub_from f total must r repl s) = sub_from f total must r repl s.
Proof.
  induction f as [|f IH]; intros must s; [reflexivity|]. cbn [c_sub_from sub_from]. rewrite c_search_same.
  destruct (search_from total must r s) as [[[sk s1] g]|]; [|reflexivity]. cbn [snd]. rewrite IH. reflexivity.
Qed.
Lemma c_re_sub_same r repl s : snd (c_re_sub r repl s) = re_sub r repl s.
Proof. apply c_sub_same. Qed.
Lemma c_fix_value_same code l o xml :
  snd (c_fix_missing_attribute_value code l o xml) = fix_missing_attribute_value code l o xml.
Proof.
  unfold c_fix_missing_attribute_value, fix_missing_attribute_value. destruct (negb _); [reflexivity|].
  destruct (py_index _ _); [|reflexivity]. destruct (get_word_at_str_pos _ _); [|reflexivity]. cbn [snd]. rewrite c_re_sub_same. reflexivity.
Qed.
Lemma c_generic_same wc : forall f xml result, snd (c_generic_loop wc f xml result) = generic_loop wc f xml result.
Proof.
  induction f as [|f IH]; intros xml result; [reflexivity|]. cbn [c_generic_loop generic_loop]. rewrite c_re_search_same.
  destruct (re_search _ _); [|reflexivity]. unfold count. cbn [snd]. rewrite IH, c_re_sub_same. reflexivity.
Qed.
Lemma c_fix_error_same wc xml e : snd (c_fix_error wc xml e) = fix_error wc xml e.
Proof.
  destruct e; try reflexivity. cbn [c_fix_error fix_error]. unfold c_fix_missing_attribute, fix_missing_attribute.
  rewrite c_fix_value_same. destruct (fix_missing_attribute_value _ _ _ _); [|reflexivity]. destruct (negb _); [reflexivity|].
  cbn [snd]. rewrite c_generic_same. reflexivity.
Qed.
Lemma c_parse_same wc ps : forall f xml last, snd (c_parse_loop wc ps f xml last) = parse_loop wc ps f xml last.
Proof.
  induction f as [|f IH]; intros xml last; [reflexivity|]. cbn [c_parse_loop parse_loop]. destruct (ps xml) as [d|e]; [reflexivity|].
  rewrite c_fix_error_same. destruct (fix_error wc xml e); [|reflexivity]. apply IH.
Qed.
Lemma c_reading_same wc ps xml :
  snd (c_reading wc ps xml) = parse_loop wc ps 5 (remove_ms_word_prefixes (remove_line_breaks xml)) None.
Proof. unfold c_reading, count. cbn [snd]. rewrite c_parse_same, !c_re_sub_same. reflexivity. Qed.

(** ** Upper bounds *)
Lemma fst_or_else {R} (x y : nat * option R) : fst x <= fst (or_else x y) <= fst x + fst y.
Proof. unfold or_else. destruct (snd x); cbn; lia. Qed.
Fixpoint again (n : nat) (f : nat -> nat) (x : nat) : nat := match n with O => x | S m => f (again m f x) end.
(** Comparisons of a pattern in a text of at most [n] characters if what comes next makes at most [K]. *)
Fixpoint worst (r : regex) (n K : nat) : nat :=
  match r with
  | REmpty => K
  | RChar _ | RBol | REol => S K
  | RSeq a b => worst a n (worst b n K)
  | RAlt a b => worst a n K + worst b n K
  | RStar a => again n (fun u => worst a n u + K) K
  | ROpt a => worst a n K + K
  | RGroup _ a => worst a n K
  | RNotAhead a => worst a n 0 + K
  end.
Lemma worst_mono r : forall n K L, K <= L -> worst r n K <= worst r n L.
Proof.
  induction r as [|p|r1 IHr1 r2 IHr2|r1 IHr1 r2 IHr2|r IHr|r IHr|i r IHr|r IHr| |]; intros n K L H; cbn [worst]; try lia.
  - apply IHr1, IHr2, H.
  - specialize (IHr1 n K L H). specialize (IHr2 n K L H). lia.
  - generalize n at 1 3 as m. induction m as [|m IHm]; [exact H|]. cbn [again]. pose proof (IHr n _ _ IHm). lia.
  - specialize (IHr n K L H). lia.
  - apply IHr, H.
Qed.
Lemma c_worst total r : forall R n K s g (k : str -> caps -> nat * option R), length s <= n ->
  (forall s1 g1, suffix s1 s -> fst (k s1 g1) <= K) -> fst (c_regex total r s g k) <= worst r n K.
Proof.
  induction r as [|p|r1 IHr1 r2 IHr2|r1 IHr1 r2 IHr2|r IHr|r IHr|i r IHr|r IHr| |]; intros R n K s g k L H.
  - apply H, suffix_refl.
  - cbn [c_regex worst]. destruct s as [|c s]; [cbn; lia|]. destruct (p c); [|cbn; lia]. cbn [count fst].
    pose proof (H s g (suffix_cons c s)). lia.
  - cbn [c_regex worst]. apply IHr1; [exact L|]. intros s1 g1 S1. apply IHr2; [pose proof (suffix_len _ _ S1); lia|].
    intros s2 g2 S2. apply H. eapply suffix_trans; eauto.
  - cbn [c_regex worst]. pose proof (IHr1 R n K s g k L H). pose proof (IHr2 R n K s g k L H).
    pose proof (fst_or_else (c_regex total r1 s g k) (c_regex total r2 s g k)). lia.
  - rewrite c_star_eq. cbn [worst].
    assert (X : forall f s0 g0, suffix s0 s -> fst (c_star total r k f s0 g0) <= again f (fun u => worst r n u + K) K).
    { induction f as [|f IHf]; intros s0 g0 S0; [apply H, S0|]. rewrite c_star_S. cbn [again].
      etransitivity; [apply fst_or_else|]. apply Nat.add_le_mono; [|apply H, S0].
      apply IHr; [pose proof (suffix_len _ _ S0); lia|]. intros s1 g1 S1. destruct (Nat.ltb _ _); [|cbn; lia].
      apply IHf. eapply suffix_trans; eauto. }
    etransitivity; [apply X, suffix_refl|].
    assert (M : forall a b, a <= b -> again a (fun u => worst r n u + K) K <= again b (fun u => worst r n u + K) K).
    { intros a b AB. induction AB as [|b AB IHab]; [lia|]. cbn [again]. 
      assert (Z : again b (fun u => worst r n u + K) K <= worst r n (again b (fun u => worst r n u + K) K) + K).
      { clear. induction b as [|b IHb]; [cbn; lia|]. cbn [again] in *. pose proof (worst_mono r n _ _ IHb). lia. }
      lia. }
    apply M, L.
  - cbn [c_regex worst]. pose proof (IHr R n K s g k L H). pose proof (H s g (suffix_refl s)).
    pose proof (fst_or_else (c_regex total r s g k) (k s g)). lia.
  - cbn [c_regex worst]. apply IHr; [exact L|]. intros s1 g1 S1. apply H, S1.
  - cbn [c_regex worst]. pose proof (IHr unit n 0 s g (fun _ _ => (0, Some tt)) L ltac:(intros; cbn; lia)) as X.
    destruct (snd _); cbn [count fst]; [lia|]. pose proof (H s g (suffix_refl s)). lia.
  - cbn [c_regex worst]. pose proof (H s g (suffix_refl s)). destruct (Nat.eqb _ _); cbn; lia.
  - cbn [c_regex worst]. pose proof (H s g (suffix_refl s)). destruct s as [|c [|d s]]; cbn; try lia. destruct (N.eqb c 10); cbn in *; lia.
Qed.

(** Attempts, searches, substitutions. *)
Lemma c_attempt_worst total must r s n : length s <= n -> fst (c_attempt total must r s) <= worst r n 0.
Proof. intro L. apply c_worst; [exact L|]. intros. cbn. lia. Qed.
Definition each (total : nat) (r : regex) (W : nat) (s : str) : Prop :=
  forall s1 must, suffix s1 s -> fst (c_attempt total must r s1) <= W.
Lemma each_suffix total r W s s1 : each total r W s -> suffix s1 s -> each total r W s1.
Proof. intros E S s2 must S2. apply E. eapply suffix_trans; eauto. Qed.
Lemma c_search_le total r W : forall s must, each total r W s ->
  fst (c_search_from total must r s) <= W * S (length s)
  /\ forall sk s1 g, snd (c_search_from total must r s) = Some (sk, s1, g) -> fst (c_search_from total must r s) <= W * S (length sk).
Proof.
  induction s as [|c s IH]; intros must E; cbn [c_search_from]; pose proof (E _ must (suffix_refl _)) as A.
  - destruct (snd (c_attempt total must r [])) as [[s1 g]|]; cbn [fst snd length].
    + split; [lia|]. intros sk s2 g2 X. injection X as <- <- <-. cbn. lia.
    + split; [lia|]. discriminate.
  - destruct (snd (c_attempt total must r (c :: s))) as [[s1 g]|]; cbn [fst snd length].
    + split; [nia|]. intros sk s2 g2 X. injection X as <- <- <-. cbn. lia.
    + destruct (IH false (each_suffix _ _ _ _ _ E (suffix_cons c s))) as [I J]. split; [nia|].
      intros sk s2 g2 X. destruct (snd (c_search_from total false r s)) as [[[sk' s1'] g']|] eqn:Y; [|discriminate].
      injection X as <- <- <-. specialize (J _ _ _ eq_refl). cbn [length]. nia.
Qed.
Lemma c_sub_le total r repl W : forall f must s, each total r W s ->
  fst (c_sub_from f total must r repl s) <= W * (2 * length s + if must : bool then 1 else 2).
Proof.
  induction f as [|f IH]; intros must s E; [cbn; lia|]. cbn [c_sub_from].
  destruct (c_search_le total r W s must E) as [I J]. destruct (snd (c_search_from total must r s)) as [[[sk s1] g]|] eqn:X.
  - specialize (J _ _ _ eq_refl). rewrite c_search_same in X. apply search_split in X as (m & -> & S1 & T).
    assert (Es : each total r W s1).
    { eapply each_suffix; [exact E|]. eapply suffix_trans; [exact S1|]. exists sk. reflexivity. }
    specialize (IH (Nat.eqb (length sk + length s1) (length (sk ++ m))) s1 Es). cbn [fst].
    pose proof (suffix_len _ _ S1) as L. rewrite app_length in *.
    assert (Q : 2 * length s1 + (if Nat.eqb (length sk + length s1) (length sk + length m) then 1 else 2) + S (length sk)
                <= 2 * (length sk + length m) + if must then 1 else 2).
    { destruct (Nat.eqb_spec (length sk + length s1) (length sk + length m)) as [Z|Z]; destruct must; try lia.
      destruct sk as [|c sk]; [specialize (T eq_refl eq_refl); cbn in *; lia|cbn [length] in *; lia]. }
    nia.
  - cbn [fst]. destruct must; nia.
Qed.
Lemma c_re_search_le r W s : each (length s) r W s -> fst (c_re_search r s) <= W * S (length s).
Proof. intro E. unfold c_re_search. cbn [fst]. apply c_search_le, E. Qed.
Lemma c_re_sub_le r repl W s : each (length s) r W s -> fst (c_re_sub r repl s) <= 2 * W * S (length s).
Proof. intro E. unfold c_re_sub. pose proof (c_sub_le (length s) r repl W (S (2 * length s + 1)) false s E) as H. cbn beta iota in H. nia. Qed.
Lemma each_worst total r s : each total r (worst r (length s) 0) s.
Proof. intros s1 must S1. apply c_attempt_worst, suffix_len, S1. Qed.
Lemma worst_lit w n : forall K, worst (RLit w) n K = length w + K.
Proof. induction w as [|c w IH]; intro K; cbn [RLit worst length]; [reflexivity|]. rewrite IH. reflexivity. Qed.

(** A run of characters of one class. *)
Lemma c_star_char {R} total p s g (k : str -> caps -> nat * option R) :
  c_regex total (RStar (RChar p)) s g k =
  match s with
  | [] => k [] g
  | c :: s' => or_else (if p c then count 1 (c_regex total (RStar (RChar p)) s' g k) else (1, None)) (k s g)
  end.
Proof.
  destruct s as [|c s]; [reflexivity|]. rewrite (c_star_eq total (RChar p) (c :: s)). cbn [length]. rewrite c_star_S. cbn [c_regex].
  destruct (p c); [|reflexivity]. cbn [length]. replace (Nat.ltb (length s) (S (length s))) with true by (symmetry; apply Nat.ltb_lt; lia).
  rewrite <- c_star_eq. reflexivity.
Qed.
(** Word characters and then an equals sign: what follows is tried once only. *)
Lemma c_word_equals {R} total p (k : str -> caps -> nat * option R) K g : p 61%N = false ->
  forall s, (forall s1, suffix s1 s -> fst (k s1 g) <= K) ->
  fst (c_regex total (RStar (RChar p)) s g (fun s1 g1 => c_regex total (RChar (N.eqb 61)) s1 g1 k)) <= 2 * length s + 1 + K.
Proof.
  intro P. induction s as [|c s IH]; intro H; rewrite c_star_char; [cbn; lia|]. cbn [length].
  destruct (p c) eqn:E.
  - assert (c <> 61%N) by (intro X; subst c; congruence).
    assert (Z : c_regex total (RChar (N.eqb 61)) (c :: s) g k = (1, None)).
    { cbn [c_regex]. destruct (N.eqb_spec 61 c); [congruence|reflexivity]. }
    rewrite Z. etransitivity; [apply fst_or_else|]. cbn [count fst].
    assert (fst (c_regex total (RStar (RChar p)) s g (fun s1 g1 => c_regex total (RChar (N.eqb 61)) s1 g1 k)) <= 2 * length s + 1 + K).
    { apply IH. intros s1 S1. apply H. eapply suffix_trans; [exact S1|apply suffix_cons]. }
    lia.
  - etransitivity; [apply fst_or_else|]. cbn [c_regex fst]. pose proof (H s (suffix_cons c s)).
    destruct (N.eqb 61 c); cbn [count fst]; lia.
Qed.

Section Generic.
Variable wc : N -> bool.
Hypothesis equals : wc 61%N = false.

Lemma again_linear a : forall n, again n (fun u => S u + a) a = n * S a + a.
Proof. induction n as [|n IH]; cbn [again]; [reflexivity|]. rewrite IH. nia. Qed.
Definition last_part : regex := RGroup 4 (RSeq (RStar RDot) (RChar (N.eqb 62))).
Definition value_part : regex :=
  RGroup 2 (RSeq (RPlus (RChar wc)) (RSeq (RChar (N.eqb 61)) (RNotAhead (RGroup 3 (RChar is_quote))))).
Definition first_part : regex := RGroup 1 (RSeq (RChar (N.eqb 60)) (RSeq (RStar RDot) (RChar (N.eqb 32)))).
Lemma generic_parts : generic_missing_pattern wc = RSeq first_part (RSeq (ROpt value_part) last_part).
Proof. reflexivity. Qed.
Lemma c_seq {R} total a b s g (k : str -> caps -> nat * option R) :
  c_regex total (RSeq a b) s g k = c_regex total a s g (fun s1 g1 => c_regex total b s1 g1 k).
Proof. reflexivity. Qed.
Lemma c_group {R} total i a s g (k : str -> caps -> nat * option R) :
  c_regex total (RGroup i a) s g k = c_regex total a s g (fun s1 g1 => k s1 ((i, consumed s s1) :: g1)).
Proof. reflexivity. Qed.
Lemma c_char {R} total p c s g (k : str -> caps -> nat * option R) :
  c_regex total (RChar p) (c :: s) g k = if p c then count 1 (k s g) else (1, None).
Proof. reflexivity. Qed.

Lemma c_last {R} total s n g (k : str -> caps -> nat * option R) : length s <= n -> (forall s1 g1, fst (k s1 g1) = 0) ->
  fst (c_regex total last_part s g k) <= 2 * n + 1.
Proof.
  intros L K. etransitivity; [apply (c_worst total last_part R n 0); [exact L|intros; rewrite K; lia]|].
  unfold last_part, RDot. cbn [worst]. rewrite again_linear. lia.
Qed.
Lemma c_value {R} total s n g (k : str -> caps -> nat * option R) K : length s <= n -> (forall s1 g1, suffix s1 s -> fst (k s1 g1) <= K) ->
  fst (c_regex total value_part s g k) <= 2 * n + 3 + K.
Proof.
  intros L H. unfold value_part, RPlus. rewrite c_group, !c_seq.
  destruct s as [|c s]; [cbn; lia|]. rewrite c_char. destruct (wc c); [|cbn; lia]. cbn [length] in L. unfold count at 1. cbn [fst].
  match goal with |- 1 + fst ?x <= _ => enough (fst x <= 2 * length s + 1 + (1 + K)) by lia end.
  refine (c_word_equals total wc _ (1 + K) g equals s _). intros s1 S1. cbn beta.
  assert (Q : forall g1, fst (k s1 g1) <= K) by (intro g1; apply H; eapply suffix_trans; [exact S1|apply suffix_cons]).
  destruct s1 as [|d s1]; cbn [c_regex snd fst]; [unfold count; cbn [fst]; match goal with |- context [k [] ?g1] => pose proof (Q g1) end; lia|].
  destruct (is_quote d); cbn [snd fst count]; [lia|]. match goal with |- context [k (d :: s1) ?g1] => pose proof (Q g1) end. lia.
Qed.
Lemma c_generic_attempt total must s n : length s <= n ->
  fst (c_attempt total must (generic_missing_pattern wc) s) <= 8 * (S n * S n).
Proof.
  intro L. unfold c_attempt. rewrite generic_parts, c_seq.
  etransitivity; [apply (c_worst total first_part _ n (6 * n + 5) s); [exact L|]|].
  - intros s1 g1 S1. assert (L1 : length s1 <= n) by (pose proof (suffix_len _ _ S1); lia). rewrite c_seq. cbn [c_regex].
    etransitivity; [apply fst_or_else|].
    assert (Z : forall s2 g2, suffix s2 s1 -> fst (c_regex total last_part s2 g2
       (fun s3 g => (0, if must && Nat.eqb (length s3) (length s) then None else Some (s3, g)))) <= 2 * n + 1).
    { intros s2 g2 S2. apply c_last; [pose proof (suffix_len _ _ S2); lia|reflexivity]. }
    pose proof (c_value total s1 n g1 _ (2 * n + 1) L1 Z) as V. pose proof (Z s1 g1 (suffix_refl s1)) as W. lia.
  - unfold first_part, RDot. cbn [worst]. rewrite again_linear. nia.
Qed.
Lemma each_generic total s : each total (generic_missing_pattern wc) (8 * (S (length s) * S (length s))) s.
Proof. intros s1 must S1. apply c_generic_attempt, suffix_len, S1. Qed.
End Generic.

(** Recovery. *)
Lemma split_length c s l : In l (split_on c s) -> length l <= length s.
Proof.
  intro I. assert (J : length l <= length (join [c] (split_on c s))).
  { revert I. generalize (split_on c s) as ls. induction ls as [|x ls IH]; [intros []|]. intros [<-|I].
    - destruct ls as [|y ls]; cbn [join]; [lia|]. rewrite app_length. lia.
    - specialize (IH I). destruct ls as [|y ls]; [destruct I|]. cbn [join] in *. rewrite !app_length. lia. }
  rewrite (join_split_on c (length s) s (le_n _)) in J. exact J.
Qed.
Lemma py_index_in {A} (l : list A) i x : py_index l i = Some x -> In x l.
Proof.
  unfold py_index. repeat match goal with |- context [if ?b then _ else _] => destruct b end; try discriminate; apply nth_error_In.
Qed.
Lemma word_length line pos w : get_word_at_str_pos line pos = Some w -> length w <= length line.
Proof.
  unfold get_word_at_str_pos. destruct (word_start line pos) as [st|]; [|discriminate]. intro E. injection E as <-.
  rewrite firstn_length, skipn_length. lia.
Qed.
Lemma worst_missing w n : worst (missing_value_pattern w) n 0 = 2 * length w + 3.
Proof. unfold missing_value_pattern. cbn [worst]. rewrite !worst_lit. lia. Qed.
Lemma c_fix_value_le code l o xml : fst (c_fix_missing_attribute_value code l o xml) <= 2 * (2 * length xml + 3) * S (length xml).
Proof.
  unfold c_fix_missing_attribute_value. destruct (negb _); [cbn; lia|]. destruct (py_index _ _) as [line|] eqn:P; [|cbn; lia].
  destruct (get_word_at_str_pos line o) as [w|] eqn:G; [|cbn; lia]. cbn [fst].
  apply py_index_in, split_length in P. apply word_length in G.
  etransitivity; [apply c_re_sub_le, each_worst|]. rewrite worst_missing. nia.
Qed.
Lemma c_generic_le wc xml : wc 61%N = false -> forall f result,
  fst (c_generic_loop wc f xml result) <= (f * 24 + 8) * (S (length xml) * S (length xml) * S (length xml)).
Proof.
  intro E. set (n := S (length xml)).
  pose proof (c_re_search_le _ _ _ (each_generic wc E (length xml) xml)) as A. fold n in A.
  pose proof (c_re_sub_le _ expand_1_3 _ _ (each_generic wc E (length xml) xml)) as B. fold n in B.
  assert (X : fst (c_re_search (generic_missing_pattern wc) xml) <= 8 * (n * n * n)) by lia.
  assert (Y : fst (c_re_sub (generic_missing_pattern wc) expand_1_3 xml) <= 16 * (n * n * n)) by lia.
  clear A B. generalize dependent (n * n * n). intros q X Y.
  induction f as [|f IH]; intro result; cbn [c_generic_loop]; [cbn [fst]; lia|].
  destruct (snd (c_re_search _ xml)); cbn [count fst]; [|lia]. specialize (IH (snd (c_re_sub (generic_missing_pattern wc) expand_1_3 xml))). lia.
Qed.
Lemma c_fix_error_le wc xml e : wc 61%N = false -> fst (c_fix_error wc xml e) <= 134 * (S (length xml) * S (length xml) * S (length xml)).
Proof.
  intro E. destruct e as [| |code line col|]; cbn [c_fix_error fst]; try lia. unfold c_fix_missing_attribute.
  pose proof (c_fix_value_le code line col xml) as V. destruct (snd (c_fix_missing_attribute_value _ _ _ _)) as [r|e].
  - destruct (negb _); cbn [fst]; [nia|]. pose proof (c_generic_le wc xml E 5 r) as G. nia.
  - cbn [fst]. nia.
Qed.
Lemma fix_length wc xml e y : ~ In 10%N xml -> fix_error wc xml e = Ok y -> length y <= length xml /\ ~ In 10%N y.
Proof.
  intros N F. apply (fix_recovers wc xml (or_intror N)) in F. split; [|eapply recovers_one_line; eauto].
  apply recovers_subseq in F. apply subseq_length in F. lia.
Qed.
Lemma c_parse_le wc ps : wc 61%N = false -> forall f xml last, ~ In 10%N xml ->
  fst (c_parse_loop wc ps f xml last) <= f * (134 * (S (length xml) * S (length xml) * S (length xml))).
Proof.
  intro E. induction f as [|f IH]; intros xml last N; [cbn; lia|]. cbn [c_parse_loop]. destruct (ps xml) as [d|e]; [cbn; lia|].
  pose proof (c_fix_error_le wc xml e E) as A. rewrite c_fix_error_same. destruct (fix_error wc xml e) as [y|e'] eqn:F; cbn [count fst]; [|lia].
  destruct (fix_length wc xml e y N F) as [L M]. specialize (IH y (Some e) M).
  assert (S (length y) * S (length y) * S (length y) <= S (length xml) * S (length xml) * S (length xml)) by (repeat apply Nat.mul_le_mono; lia).
  nia.
Qed.
Lemma filter_shorter {A} (f : A -> bool) l : length (filter f l) <= length l.
Proof. induction l as [|x l IH]; cbn; [lia|]. destruct (f x); cbn; lia. Qed.
Lemma c_clean_le xml : fst (c_re_sub line_break_pattern (fun _ => []) xml) <= 8 * S (length xml)
  /\ length (re_sub line_break_pattern (fun _ => []) xml) <= length xml
  /\ fst (c_re_sub (RLit (lit "mml:")) (fun _ => []) xml) <= 8 * S (length xml).
Proof.
  split; [|split].
  - etransitivity; [apply c_re_sub_le, each_worst|]. cbn. lia.
  - change (length (remove_line_breaks xml) <= length xml). rewrite remove_line_breaks_spec. apply filter_shorter.
  - etransitivity; [apply c_re_sub_le, each_worst|]. rewrite worst_lit. change (length (lit "mml:")) with 4. lia.
Qed.
Lemma c_reading_le wc ps xml : wc 61%N = false ->
  fst (c_reading wc ps xml) <= 686 * (S (length xml) * S (length xml) * S (length xml)).
Proof.
  intro E. unfold c_reading. cbn [count fst]. rewrite !c_re_sub_same.
  destruct (c_clean_le xml) as (A & B & _). destruct (c_clean_le (re_sub line_break_pattern (fun _ => []) xml)) as (_ & _ & C).
  assert (D : length (remove_ms_word_prefixes (remove_line_breaks xml)) <= length xml /\ ~ In 10%N (remove_ms_word_prefixes (remove_line_breaks xml))).
  { rewrite clean_spec. split; [|apply clean_one_line]. unfold clean.
    pose proof (proj1 (subseq_length _ _ (deleting_subseq (fun s0 => match after (lit "mml:") s0 with Some _ => length (lit "mml:") | None => 0 end) (no_line_breaks xml) 0))) as Q.
    pose proof (filter_shorter (fun c => negb (line_break c)) xml) as Q'. unfold without. unfold no_line_breaks in *. lia. }
  destruct D as [D N]. pose proof (c_parse_le wc ps E 5 _ None N) as P. unfold remove_ms_word_prefixes, remove_line_breaks in *.
  set (y := re_sub (RLit (lit "mml:")) (fun _ => []) (re_sub line_break_pattern (fun _ => []) xml)) in *.
  assert (S (length y) * S (length y) * S (length y) <= S (length xml) * S (length xml) * S (length xml)) by (repeat apply Nat.mul_le_mono; lia).
  nia.
Qed.
Lemma reading_accepted wc ps xml dom : ps (remove_ms_word_prefixes (remove_line_breaks xml)) = Ok dom ->
  fst (c_reading wc ps xml) <= 16 * S (length xml).
Proof.
  intro P. unfold c_reading. cbn [count fst c_parse_loop]. rewrite !c_re_sub_same.
  change (re_sub (RLit (lit "mml:")) (fun _ => []) (re_sub line_break_pattern (fun _ => []) xml))
    with (remove_ms_word_prefixes (remove_line_breaks xml)). rewrite P. cbn [fst].
  destruct (c_clean_le xml) as (A & B & _). destruct (c_clean_le (re_sub line_break_pattern (fun _ => []) xml)) as (_ & _ & C). lia.
Qed.

(** ** A lower bound *)
Lemma c_fails {R} total r s g (k : str -> caps -> nat * option R) :
  (forall s1 g1, suffix s1 s -> snd (k s1 g1) = None) -> snd (c_regex total r s g k) = None.
Proof.
  intro H. rewrite (c_regex_same total r R s g k (fun s1 g1 => snd (k s1 g1))) by reflexivity.
  destruct (m_regex _ _ _ _ _) as [x|] eqn:E; [|reflexivity]. apply m_some in E as (s1 & g1 & S1 & E). rewrite (H s1 g1 S1) in E. discriminate E.
Qed.
Lemma fst_fails {R} (x y : nat * option R) : snd x = None -> fst (or_else x y) = fst x + fst y.
Proof. intro E. unfold or_else. rewrite E. reflexivity. Qed.
Definition calm_text (s : str) : Prop := ~ In 62%N s /\ ~ In 10%N s.
Lemma calm_suffix s s1 : calm_text s -> suffix s1 s -> calm_text s1.
Proof. intros [A B] [p ->]. split; intro I; [apply A|apply B]; apply in_or_app; auto. Qed.

Section Lower.
Variable wc : N -> bool.
Variable R : Type.
Variable total : nat.

Lemma last_fails s g (k : str -> caps -> nat * option R) : calm_text s -> snd (c_regex total last_part s g k) = None.
Proof.
  intros C. unfold last_part. rewrite c_group, c_seq. apply c_fails. intros s1 g1 S1.
  destruct s1 as [|c s1]; [reflexivity|]. rewrite c_char. destruct (N.eqb_spec 62 c) as [<-|]; [|reflexivity].
  destruct (proj1 (calm_suffix _ _ C S1)). left. reflexivity.
Qed.
Lemma last_cost s : forall g (k : str -> caps -> nat * option R), calm_text s -> fst (c_regex total last_part s g k) = 2 * length s + 1.
Proof.
  intros g k C. unfold last_part. rewrite c_group, c_seq. match goal with |- context [c_regex total (RChar (N.eqb 62)) _ _ ?kk] => generalize kk end. clear k. intro k.
  induction s as [|c s IH]; [reflexivity|]. unfold RDot. rewrite c_star_char.
  assert (D : negb (c =? 10)%N = true) by (destruct (N.eqb_spec c 10) as [->|]; [destruct (proj2 C); left; reflexivity|reflexivity]).
  rewrite D. assert (E : (62 =? c)%N = false) by (destruct (N.eqb_spec 62 c) as [<-|]; [destruct (proj1 C); left; reflexivity|reflexivity]).
  rewrite c_char, E. pose proof (calm_suffix _ _ C (suffix_cons c s)) as C'.
  rewrite fst_fails.
  - unfold count. cbn [fst length]. unfold RDot in IH. rewrite (IH C'). lia.
  - cbn [count snd]. apply c_fails. intros s1 g1 S1. destruct s1 as [|d s1]; [reflexivity|]. rewrite c_char.
    destruct (N.eqb_spec 62 d) as [<-|]; [|reflexivity]. destruct (proj1 (calm_suffix _ _ C' S1)). left. reflexivity.
Qed.
(** The part behind the space, which fails. *)
Definition rest_part : regex := RSeq (ROpt (value_part wc)) last_part.
Lemma rest_fails s g (k : str -> caps -> nat * option R) : calm_text s -> snd (c_regex total rest_part s g k) = None.
Proof.
  intro C. unfold rest_part. rewrite c_seq. apply c_fails. intros s1 g1 S1. apply last_fails. eapply calm_suffix; eauto.
Qed.
Lemma rest_cost s g (k : str -> caps -> nat * option R) : calm_text s -> 2 * length s + 1 <= fst (c_regex total rest_part s g k).
Proof.
  intro C. unfold rest_part. rewrite c_seq. cbn [c_regex]. rewrite fst_fails.
  - rewrite last_cost by exact C. lia.
  - apply c_fails. intros s1 g1 S1. apply last_fails. eapply calm_suffix; eauto.
Qed.
(** Dots and a space. *)
Definition dots (s : str) (g : caps) (k : str -> caps -> nat * option R) : nat * option R :=
  c_regex total (RStar RDot) s g (fun s1 g1 => c_regex total (RChar (N.eqb 32)) s1 g1 k).
Definition slow (k : str -> caps -> nat * option R) : Prop :=
  forall s g, calm_text s -> snd (k s g) = None /\ 2 * length s + 1 <= fst (k s g).
Lemma dots_fails s g k : calm_text s -> slow k -> snd (dots s g k) = None.
Proof.
  intros C K. apply c_fails. intros s1 g1 S1. destruct s1 as [|c s1]; [reflexivity|]. rewrite c_char. destruct (N.eqb 32 c); [|reflexivity].
  apply K. eapply calm_suffix; [exact C|]. eapply suffix_trans; [apply suffix_cons|exact S1].
Qed.
Lemma dots_cost c s g k : calm_text (c :: s) -> slow k ->
  (if (c =? 32)%N then 2 * length s + 1 else 0) + fst (dots s g k) <= fst (dots (c :: s) g k).
Proof.
  intros C K. pose proof (calm_suffix _ _ C (suffix_cons c s)) as C'. unfold dots at 2. unfold RDot. rewrite c_star_char.
  assert (D : negb (c =? 10)%N = true) by (destruct (N.eqb_spec c 10) as [->|]; [destruct (proj2 C); left; reflexivity|reflexivity]).
  rewrite D, fst_fails; [|exact (dots_fails s g k C' K)]. cbn [count fst]. fold RDot. fold (dots s g k). rewrite c_char.
  rewrite (N.eqb_sym 32 c). destruct (c =? 32)%N; cbn [count fst]; [|lia]. pose proof (proj2 (K s g C')). lia.
Qed.
Lemma signs_length k : length (signs k) = 2 * k.
Proof. induction k as [|k IH]; [reflexivity|]. change (length (signs (S k))) with (2 + length (signs k)). lia. Qed.
Lemma signs_calm k : calm_text (signs k).
Proof.
  induction k as [|k IH]; [split; intros []|]. destruct IH as [A B]. split; (intros [E|[E|I]]; [discriminate E|discriminate E|contradiction]).
Qed.
Lemma signs_tail k : calm_text (32%N :: signs k).
Proof. apply (calm_suffix (signs (S k))); [apply signs_calm|]. exists [60%N]. reflexivity. Qed.
Lemma dots_signs k g kk : slow kk -> 2 * k * k <= fst (dots (signs k) g kk) + 2 * k.
Proof.
  intro K. induction k as [|k IH]; [cbn; lia|].
  pose proof (dots_cost 60 (32%N :: signs k) g kk (signs_calm (S k)) K) as A.
  pose proof (dots_cost 32 (signs k) g kk (signs_tail k) K) as B. cbn [N.eqb Pos.eqb] in A, B. rewrite signs_length in B.
  change (signs (S k)) with (60%N :: 32%N :: signs k). nia.
Qed.
End Lower.

Lemma rest_slow wc total (k : str -> caps -> nat * option (str * caps)) :
  forall f, slow (str * caps) (fun s g => c_regex total (rest_part wc) s (f s g) k).
Proof. intros f s g C. split; [apply rest_fails, C|apply rest_cost, C]. Qed.
Lemma attempt_fails wc total must s : calm_text s -> snd (c_attempt total must (generic_missing_pattern wc) s) = None.
Proof.
  intro C. unfold c_attempt. rewrite generic_parts. change (RSeq (ROpt (value_part wc)) last_part) with (rest_part wc).
  rewrite c_seq. apply c_fails. intros s1 g1 S1. apply rest_fails. eapply calm_suffix; eauto.
Qed.
Lemma attempt_cost wc total must k :
  2 * k * (k + 1) <= fst (c_attempt total must (generic_missing_pattern wc) (signs (S k))).
Proof.
  unfold c_attempt. rewrite generic_parts. change (RSeq (ROpt (value_part wc)) last_part) with (rest_part wc).
  rewrite c_seq. unfold first_part. rewrite c_group, c_seq. change (signs (S k)) with (60%N :: 32%N :: signs k). rewrite c_char.
  cbn [N.eqb Pos.eqb]. cbn [count fst]. rewrite c_seq.
  match goal with |- context [c_regex total (RStar RDot) ?s ?g (fun s1 g1 => c_regex total (RChar (N.eqb 32)) s1 g1 ?kk)] =>
    change (c_regex total (RStar RDot) s g (fun s1 g1 => c_regex total (RChar (N.eqb 32)) s1 g1 kk)) with (dots (str * caps) total s g kk);
    set (K := kk) end.
  assert (SL : slow (str * caps) K).
  { intros s g C. unfold K. split; [apply rest_fails, C|apply rest_cost, C]. }
  pose proof (dots_cost (str * caps) total 32 (signs k) [] K (signs_tail k) SL) as A. cbn [N.eqb Pos.eqb] in A. rewrite signs_length in A.
  pose proof (dots_signs (str * caps) total k [] K SL) as B. nia.
Qed.
Lemma search_fails wc total : forall s must, calm_text s -> snd (c_search_from total must (generic_missing_pattern wc) s) = None.
Proof.
  induction s as [|c s IH]; intros must C; cbn [c_search_from]; rewrite (attempt_fails wc total must _ C); [reflexivity|].
  cbn [snd]. rewrite (IH false (calm_suffix _ _ C (suffix_cons c s))). reflexivity.
Qed.
Lemma search_step wc total must c s : calm_text (c :: s) ->
  fst (c_search_from total must (generic_missing_pattern wc) (c :: s))
  = fst (c_attempt total must (generic_missing_pattern wc) (c :: s)) + fst (c_search_from total false (generic_missing_pattern wc) s).
Proof. intro C. cbn [c_search_from]. rewrite (attempt_fails wc total must _ C). reflexivity. Qed.
Lemma search_cost wc total k : forall must,
  2 * (k * k * k) <= 3 * fst (c_search_from total must (generic_missing_pattern wc) (signs k)) + 2 * k.
Proof.
  induction k as [|k IH]; intro must; [cbn; lia|].
  pose proof (attempt_cost wc total must k) as A. pose proof (signs_calm (S k)) as C. specialize (IH false).
  change (signs (S k)) with (60%N :: 32%N :: signs k) in *. rewrite (search_step wc total must _ _ C), (search_step wc total false _ _ (signs_tail k)). nia.
Qed.
Lemma open_comment_calm k : calm_text (open_comment k).
Proof.
  destruct (signs_calm k) as [A B]. unfold open_comment. split; (intro I; apply in_app_iff in I as [I|I]; [vm_compute in I; repeat destruct I as [I|I]; try discriminate I; destruct I|contradiction]).
Qed.
Lemma open_comment_cost wc k : 2 * (k * k * k) <= 3 * fst (c_re_search (generic_missing_pattern wc) (open_comment k)) + 2 * k
  /\ snd (c_re_search (generic_missing_pattern wc) (open_comment k)) = false.
Proof.
  pose proof (open_comment_calm k) as C. unfold c_re_search. cbn [fst snd]. rewrite (search_fails wc _ _ _ C). split; [|reflexivity].
  generalize (length (open_comment k)) as total. intro total. unfold open_comment in *.
  change (lit "<!--" ++ signs k) with (60%N :: 33%N :: 45%N :: 45%N :: signs k) in *.
  pose proof (calm_suffix _ _ C (suffix_cons _ _)) as C1. pose proof (calm_suffix _ _ C1 (suffix_cons _ _)) as C2.
  pose proof (calm_suffix _ _ C2 (suffix_cons _ _)) as C3.
  rewrite (search_step wc total _ _ _ C), (search_step wc total _ _ _ C1), (search_step wc total _ _ _ C2), (search_step wc total _ _ _ C3).
  pose proof (search_cost wc total k false). lia.
Qed.

Lemma open_comment_clean k : clean (open_comment k) = open_comment k.
Proof.
  unfold clean. assert (E : no_line_breaks (open_comment k) = open_comment k).
  { unfold open_comment, no_line_breaks. rewrite filter_app. f_equal. induction k as [|k IH]; [reflexivity|].
    change (signs (S k)) with (60%N :: 32%N :: signs k). cbn. rewrite IH. reflexivity. }
  rewrite E. unfold without. 
  assert (Z : forall s, ~ In 109%N s -> deleting (fun s0 => match after (lit "mml:") s0 with Some _ => length (lit "mml:") | None => 0 end) 0 s = s).
  { induction s as [|c s IH]; intro N; [reflexivity|]. cbn [deleting]. change (lit "mml:") with (109%N :: lit "ml:"). cbn [after].
    destruct (N.eqb_spec 109 c) as [<-|]; [destruct N; left; reflexivity|]. f_equal. apply IH. intro I. apply N. right. exact I. }
  apply Z. intro I. unfold open_comment in I. apply in_app_iff in I as [I|I].
  - vm_compute in I. repeat destruct I as [I|I]; try discriminate I; destruct I.
  - induction k as [|k IH]; [destruct I|]. destruct I as [I|[I|I]]; [discriminate I|discriminate I|apply IH; [|exact I]].
    clear -E. unfold open_comment, no_line_breaks in *. rewrite filter_app in *. apply app_inv_head in E. f_equal.
    change (signs (S k)) with (60%N :: 32%N :: signs k) in E. cbn in E. injection E as E. exact E.
Qed.
(** Every attempt makes the search once more. *)
Lemma reading_cost wc ps k code l o : ps (open_comment k) = Raise (EExpat code l o) -> code <> 4 ->
  10 * (k * k * k) <= 3 * fst (c_reading wc ps (open_comment k)) + 10 * k
  /\ snd (c_reading wc ps (open_comment k)) = (open_comment k, Raise (EExpat code l o)).
Proof.
  intros P N. destruct (open_comment_cost wc k) as [A B].
  assert (F : c_fix_error wc (open_comment k) (EExpat code l o)
              = (fst (c_re_search (generic_missing_pattern wc) (open_comment k)), Ok (open_comment k))).
  { cbn [c_fix_error]. unfold c_fix_missing_attribute, c_fix_missing_attribute_value. destruct (Nat.eqb_spec code 4); [contradiction|].
    cbn [negb snd fst]. rewrite str_eqb_refl. cbn [negb c_generic_loop]. rewrite B. reflexivity. }
  assert (L : forall f last, c_parse_loop wc ps f (open_comment k) (Some last)
      = (f * fst (c_re_search (generic_missing_pattern wc) (open_comment k)),
         (open_comment k, Raise (match f with O => last | S _ => EExpat code l o end)))).
  { induction f as [|f IH]; intro last; [reflexivity|]. cbn [c_parse_loop]. rewrite P, F. cbn [snd fst]. rewrite IH. unfold count. cbn [fst snd].
    destruct f; reflexivity. }
  assert (C : snd (c_re_sub (RLit (lit "mml:")) (fun _ => []) (snd (c_re_sub line_break_pattern (fun _ => []) (open_comment k)))) = open_comment k).
  { rewrite !c_re_sub_same. change (remove_ms_word_prefixes (remove_line_breaks (open_comment k)) = open_comment k).
    rewrite clean_spec. apply open_comment_clean. }
  unfold c_reading. rewrite C. change (c_parse_loop wc ps 5 (open_comment k) None) with
    (match ps (open_comment k) with
     | Ok dom => (0, (open_comment k, Ok (get_elements_by_tag_name dom (lit "math"))))
     | Raise e => let x := c_fix_error wc (open_comment k) e in
         match snd x with Raise e' => (fst x, (open_comment k, Raise e')) | Ok xml' => count (fst x) (c_parse_loop wc ps 4 xml' (Some e)) end
     end). rewrite P, F. cbn [snd fst]. rewrite (L 4). unfold count. cbn [fst snd]. split; [lia|reflexivity].
Qed.
