(** Facts about the regex engine: continuations, suffixes, the star equation, the fuel of [re_sub]. *)
From Coq Require Import String.
From Verif Require Export Regex SpecRecovery.
Local Open Scope list_scope.

Definition suffix (s1 s : str) : Prop := exists p, s = p ++ s1.
Lemma suffix_refl s : suffix s s.
Proof. exists []; auto. Qed.
Lemma suffix_trans a b c : suffix a b -> suffix b c -> suffix a c.
Proof. intros [p ->] [q ->]. exists (q ++ p). rewrite app_assoc; auto. Qed.
Lemma suffix_cons c s : suffix s (c :: s).
Proof. exists [c]; auto. Qed.
Lemma suffix_len a b : suffix a b -> length a <= length b.
Proof. intros [p ->]. rewrite app_length. lia. Qed.
Global Hint Resolve suffix_refl suffix_cons : core.

(** The inner loop of a star, named. *)
Definition star_loop {R} (total : nat) (a : regex) (k : str -> caps -> option R) :=
  fix star (fuel : nat) (s0 : str) (g0 : caps) {struct fuel} : option R :=
  match fuel with
  | O => k s0 g0
  | S f =>
      match m_regex total a s0 g0
              (fun s1 g1 => if Nat.ltb (length s1) (length s0) then star f s1 g1 else None) with
      | Some x => Some x
      | None => k s0 g0
      end
  end.
Lemma star_loop_S {R} total a (k : str -> caps -> option R) f s0 g0 :
  star_loop total a k (S f) s0 g0 =
  match m_regex total a s0 g0
          (fun s1 g1 => if Nat.ltb (length s1) (length s0) then star_loop total a k f s1 g1 else None) with
  | Some x => Some x
  | None => k s0 g0
  end.
Proof. reflexivity. Qed.
Lemma m_star {R} total a s g (k : str -> caps -> option R) :
  m_regex total (RStar a) s g k = star_loop total a k (length s) s g.
Proof. reflexivity. Qed.

(** Continuations matter only pointwise. *)
Lemma m_ext {R} total r : forall s g (k k' : str -> caps -> option R),
  (forall s1 g1, suffix s1 s -> k s1 g1 = k' s1 g1) -> m_regex total r s g k = m_regex total r s g k'.
Proof.
  induction r; intros s g k k' E.
  - cbn. auto.
  - cbn. destruct s as [|c s]; auto. destruct (p c); auto.
  - cbn. apply IHr1. intros s1 g1 S1. apply IHr2. intros s2 g2 S2. apply E. eapply suffix_trans; eauto.
  - cbn. rewrite (IHr1 s g k k') by auto. rewrite (IHr2 s g k k') by auto. auto.
  - rewrite !m_star. generalize (length s) as n. intro n. revert s g E.
    induction n as [|n IHn]; intros s g E; [apply E; auto|]. rewrite !star_loop_S. rewrite (E s g) by auto.
    rewrite (IHr s g _ (fun s1 g1 => if Nat.ltb (length s1) (length s) then star_loop total r k' n s1 g1 else None)).
    + destruct (m_regex _ _ _ _ _); auto.
    + intros s1 g1 S1. destruct (Nat.ltb _ _); auto. apply IHn. intros. apply E. eapply suffix_trans; eauto.
  - cbn. rewrite (IHr s g k k') by auto. rewrite E by auto. auto.
  - cbn. apply IHr. intros. apply E; auto.
  - cbn. rewrite E by auto. auto.
  - cbn. rewrite E by auto. auto.
  - cbn. rewrite !E by auto. destruct s as [|c [|]]; auto.
Qed.

(** A success comes from the continuation at some suffix. *)
Lemma m_some {R} total r : forall s g (k : str -> caps -> option R) x,
  m_regex total r s g k = Some x -> exists s1 g1, suffix s1 s /\ k s1 g1 = Some x.
Proof.
  induction r; intros s g k x H.
  - cbn in H. eauto.
  - cbn in H. destruct s as [|c s]; try discriminate. destruct (p c); try discriminate. eauto.
  - cbn in H. apply IHr1 in H as (s1 & g1 & S1 & H). apply IHr2 in H as (s2 & g2 & S2 & H).
    exists s2, g2. split; auto. eapply suffix_trans; eauto.
  - cbn in H. destruct (m_regex total r1 s g k) eqn:E.
    + inversion H; subst. eapply IHr1; eauto.
    + eapply IHr2; eauto.
  - rewrite m_star in H. revert H. generalize (length s) as n. intro n. revert s g.
    induction n as [|n IHn]; intros s g H; [cbn in H; eauto|]. rewrite star_loop_S in H.
    destruct (m_regex total r s g _) eqn:E; eauto.
    inversion H; subst. apply IHr in E as (s1 & g1 & S1 & E). destruct (Nat.ltb _ _); try discriminate.
    apply IHn in E as (s2 & g2 & S2 & E). exists s2, g2. split; auto. eapply suffix_trans; eauto.
  - cbn in H. destruct (m_regex total r s g k) eqn:E; eauto. inversion H; subst. eapply IHr; eauto.
  - cbn in H. apply IHr in H as (s1 & g1 & S1 & H). eauto.
  - cbn in H. destruct (m_regex total r s g _); try discriminate. eauto.
  - cbn in H. destruct (Nat.eqb _ _); try discriminate. eauto.
  - cbn in H. destruct s as [|c [|]]; try discriminate; eauto. destruct (N.eqb c 10); try discriminate. eauto.
Qed.

(** The fuel of a star is never the reason to stop. *)
Lemma star_fuel {R} total a (k : str -> caps -> option R) : forall n m s g,
  length s <= n -> length s <= m -> star_loop total a k n s g = star_loop total a k m s g.
Proof.
  assert (Z : forall s g n, length s = 0 -> star_loop total a k n s g = k s g).
  { intros s g [|n] L; auto. rewrite star_loop_S. destruct (m_regex _ _ _ _ _) eqn:E; auto.
    apply m_some in E as (s1 & g1 & S1 & E). rewrite L in E. cbn in E. discriminate. }
  induction n as [|n IH]; intros m s g Ln Lm.
  - rewrite !Z by lia. auto.
  - destruct m as [|m]; [rewrite !Z by lia; auto|]. rewrite !star_loop_S.
    rewrite (m_ext total a s g _ (fun s1 g1 => if Nat.ltb (length s1) (length s) then star_loop total a k m s1 g1 else None)); auto.
    intros s1 g1 _. destruct (Nat.ltb_spec (length s1) (length s)); auto. apply IH; lia.
Qed.
Lemma star_eq {R} total a s g (k : str -> caps -> option R) :
  m_regex total (RStar a) s g k =
  match m_regex total a s g (fun s1 g1 => if Nat.ltb (length s1) (length s) then m_regex total (RStar a) s1 g1 k else None) with
  | Some x => Some x
  | None => k s g
  end.
Proof.
  rewrite m_star. destruct (length s) as [|n] eqn:L.
  - cbn [star_loop]. destruct (m_regex _ _ _ _ _) eqn:E; auto.
    apply m_some in E as (s1 & g1 & S1 & E). cbn in E. discriminate.
  - rewrite star_loop_S, L.
    rewrite (m_ext total a s g _ (fun s1 g1 => if Nat.ltb (length s1) (S n) then m_regex total (RStar a) s1 g1 k else None)); auto.
    intros s1 g1 _. destruct (Nat.ltb_spec (length s1) (S n)); auto. rewrite m_star. apply star_fuel; lia.
Qed.

Lemma attempt_suffix total must r s s1 g : attempt total must r s = Some (s1, g) ->
  suffix s1 s /\ (must = true -> length s1 < length s).
Proof.
  unfold attempt. intro H. apply m_some in H as (s2 & g2 & S2 & H).
  destruct must; cbn in H.
  - destruct (Nat.eqb_spec (length s2) (length s)); try discriminate. inversion H; subst. split; auto. intros _.
    apply suffix_len in S2. lia.
  - inversion H; subst. split; auto. discriminate.
Qed.
Lemma search_split total r : forall s must sk s1 g, search_from total must r s = Some (sk, s1, g) ->
  exists m, s = sk ++ m /\ suffix s1 m /\ (must = true -> sk = [] -> length s1 < length s).
Proof.
  assert (A : forall s must s1 g, attempt total must r s = Some (s1, g) ->
     exists m, s = [] ++ m /\ suffix s1 m /\ (must = true -> @nil N = @nil N -> length s1 < length s)).
  { intros s must s1 g E. apply attempt_suffix in E as [S L]. exists s. repeat split; auto. }
  induction s as [|c s IH]; intros must sk s1 g H; cbn in H.
  - destruct (attempt total must r []) as [[? ?]|] eqn:E; try discriminate. inversion H; subst. eapply A; eauto.
  - destruct (attempt total must r (c :: s)) as [[? ?]|] eqn:E.
    + inversion H; subst. eapply A; eauto.
    + destruct (search_from total false r s) as [[[sk' ?] ?]|] eqn:E2; try discriminate. inversion H; subst.
      destruct (IH _ _ _ _ E2) as (m & -> & S & _). exists m. repeat split; auto. discriminate.
Qed.

(** The fuel of [re_sub] never runs out: more fuel gives the same result. *)
Lemma sub_fuel total r repl : forall n m (must : bool) (s : str),
  2 * length s + (if must then 0 else 1) < n -> 2 * length s + (if must then 0 else 1) < m ->
  sub_from n total must r repl s = sub_from m total must r repl s.
Proof.
  induction n as [|n IH]; intros m must s Ln Lm; [lia|]. destruct m as [|m]; [lia|]. cbn [sub_from].
  destruct (search_from total must r s) as [[[sk s1] g]|] eqn:E; auto.
  f_equal. f_equal. apply search_split in E as (mm & -> & S & P). apply suffix_len in S.
  rewrite app_length in *.
  destruct (Nat.eqb_spec (length sk + length s1) (length sk + length mm)) as [Q|Q].
  - destruct sk as [|c sk].
    + cbn in *. destruct must; [specialize (P eq_refl eq_refl); lia|]. apply IH; lia.
    + cbn in *. apply IH; lia.
  - apply IH; destruct must; lia.
Qed.
Lemma re_sub_fuel r repl s n : 2 * length s + 1 < n -> sub_from n (length s) false r repl s = re_sub r repl s.
Proof. intro L. unfold re_sub. apply sub_fuel; cbn; lia. Qed.

(** One step of a substitution. *)
Lemma sub_step total r repl s must n : 2 * length s + (if must : bool then 0 else 1) < n ->
  sub_from n total must r repl s =
  match attempt total must r s with
  | Some (s1, g) => repl g ++ sub_from (2 * length s1 + 2) total (Nat.eqb (length s1) (length s)) r repl s1
  | None => match s with
            | [] => []
            | c :: s' => c :: sub_from (2 * length s' + 2) total false r repl s'
            end
  end.
Proof.
  intro L. destruct n as [|n]; [lia|]. cbn [sub_from].
  assert (A : forall s1 g, attempt total must r s = Some (s1, g) ->
     sub_from n total (Nat.eqb (length s1) (length s)) r repl s1
     = sub_from (2 * length s1 + 2) total (Nat.eqb (length s1) (length s)) r repl s1).
  { intros s1 g E. apply attempt_suffix in E as [Sf P]. apply suffix_len in Sf.
    apply sub_fuel; destruct (Nat.eqb_spec (length s1) (length s)); destruct must; try lia; specialize (P eq_refl); lia. }
  destruct s as [|c s]; cbn [search_from].
  - destruct (attempt total must r []) as [[s1 g]|] eqn:E; auto. rewrite <- (A _ _ eq_refl). reflexivity.
  - destruct (attempt total must r (c :: s)) as [[s1 g]|] eqn:E.
    + rewrite <- (A _ _ eq_refl). reflexivity.
    + replace (2 * length s + 2) with (S (2 * length s + 1)) by lia. cbn [sub_from].
      destruct (search_from total false r s) as [[[sk s1] g]|] eqn:E2; auto.
      cbn [app]. f_equal. f_equal. f_equal.
      change (Nat.eqb (length (c :: sk) + length s1) (length (c :: s))) with (Nat.eqb (length sk + length s1) (length s)).
      apply search_split in E2 as (m & -> & Sf & _). apply suffix_len in Sf. rewrite app_length in *.
      cbn in L. rewrite app_length in L.
      destruct (Nat.eqb_spec (length sk + length s1) (length sk + length m)); apply sub_fuel; destruct must; lia.
Qed.

(** ** Substitution by the empty text *)
Section Deleting.
Variable r : regex.
Variable total : nat.
Variable here : str -> nat.
Hypothesis H1 : forall s, 0 < here s -> here s <= length s /\ exists g, attempt total false r s = Some (skipn (here s) s, g).
Hypothesis H2 : forall s, here s = 0 ->
  attempt total false r s = None \/ (exists g, attempt total false r s = Some (s, g) /\ attempt total true r s = None).

Lemma deleting_skip p s : deleting here (length p) (p ++ s) = deleting here 0 s.
Proof. induction p; auto. Qed.
Lemma sub_deleting_len n : forall s, length s <= n -> 
  sub_from (2 * length s + 2) total false r (fun _ => []) s = deleting here 0 s.
Proof.
  induction n as [|n IH]; intros s L; rewrite sub_step by lia.
  - destruct s; [|cbn in L; lia]. destruct (attempt total false r []) as [[s1 g]|] eqn:E; auto.
    destruct (here []) as [|k] eqn:K.
    + destruct (H2 [] K) as [X|(g2 & X & Y)]; [congruence|]. assert (s1 = []) by congruence. subst.
      cbn [app]. rewrite sub_step by (cbn; lia). cbn [length Nat.eqb]. rewrite Y. auto.
    + destruct (H1 []) as [X _]; [lia|]. cbn in X. lia.
  - destruct (here s) as [|k] eqn:K.
    + assert (X : match s with [] => [] | c :: s' => c :: sub_from (2 * length s' + 2) total false r (fun _ => []) s' end = deleting here 0 s).
      { destruct s as [|c s]; auto. cbn [deleting]. rewrite K. f_equal. apply IH. cbn in L; lia. }
      destruct (H2 s K) as [->|(g & -> & Y)]; auto.
      cbn [app]. rewrite sub_step by (rewrite Nat.eqb_refl; lia). rewrite Nat.eqb_refl, Y. auto.
    + destruct (H1 s) as [X [g ->]]; [lia|]. rewrite K in *. cbn [app]. rewrite skipn_length.
      replace (Nat.eqb (length s - S k) (length s)) with false by (symmetry; apply Nat.eqb_neq; lia).
      destruct s as [|c s]; [cbn in X; lia|]. cbn [deleting]. rewrite K. cbn [skipn].
      replace (length (c :: s) - S k) with (length (skipn k s)) by (rewrite skipn_length; reflexivity).
      rewrite IH by (rewrite skipn_length; cbn in L; lia).
      rewrite <- (firstn_skipn k s) at 2. rewrite <- (deleting_skip (firstn k s)).
      rewrite firstn_length_le by (cbn in X; lia). auto.
Qed.
End Deleting.
Lemma re_sub_deleting r here :
  (forall total s, 0 < here s -> here s <= length s /\ exists g, attempt total false r s = Some (skipn (here s) s, g)) ->
  (forall total s, here s = 0 ->
     attempt total false r s = None \/ (exists g, attempt total false r s = Some (s, g) /\ attempt total true r s = None)) ->
  forall s, re_sub r (fun _ => []) s = deleting here 0 s.
Proof.
  intros H1 H2 s. unfold re_sub. replace (S (2 * length s + 1)) with (2 * length s + 2) by lia.
  eapply sub_deleting_len; eauto.
Qed.

(** ** Literals *)
Lemma m_lit {R} total t : forall s g (k : str -> caps -> option R),
  m_regex total (RLit t) s g k = match after t s with Some s1 => k s1 g | None => None end.
Proof.
  induction t as [|c t IH]; intros s g k; cbn; auto.
  destruct s as [|d s]; auto. destruct (N.eqb c d); auto.
Qed.
Lemma after_some t : forall s s1, after t s = Some s1 <-> s = t ++ s1.
Proof.
  induction t as [|c t IH]; intros s s1; cbn.
  - split; congruence.
  - destruct s as [|d s]; [split; discriminate|]. destruct (N.eqb_spec c d) as [->|N].
    + rewrite IH. split; congruence.
    + split; [discriminate|congruence].
Qed.
Lemma after_app t s : after t (t ++ s) = Some s.
Proof. apply after_some; auto. Qed.

(** ** What a match can consume and capture *)
(** Some class of the pattern (outside lookaheads) accepts the character. *)
Fixpoint may (r : regex) (c : N) : bool :=
  match r with
  | RChar p => p c
  | RSeq a b | RAlt a b => may a c || may b c
  | RStar a | ROpt a | RGroup _ a => may a c
  | _ => false
  end.
(** The groups a match can set. *)
Fixpoint groups (r : regex) : list nat :=
  match r with
  | RSeq a b | RAlt a b => groups a ++ groups b
  | RStar a | ROpt a => groups a
  | RGroup n a => n :: groups a
  | _ => []
  end.
Definition step_of (r : regex) (s : str) (g : caps) (s1 : str) (g1 : caps) : Prop :=
  exists p new, s = p ++ s1 /\ g1 = new ++ g
    /\ (forall c, In c p -> may r c = true) /\ (forall n t, In (n, t) new -> In n (groups r)).
Lemma step_refl r s g : step_of r s g s g.
Proof. exists [], []. repeat split; auto; contradiction. Qed.
Lemma step_trans r s g s1 g1 s2 g2 : step_of r s g s1 g1 -> step_of r s1 g1 s2 g2 -> step_of r s g s2 g2.
Proof.
  intros (p & n & -> & -> & C & G) (p' & n' & -> & -> & C' & G'). exists (p ++ p'), (n' ++ n).
  rewrite !app_assoc. repeat split; auto; intros; apply in_app_iff in H as [H|H]; eauto.
Qed.
Lemma step_weak r r' s g s1 g1 :
  (forall c, may r c = true -> may r' c = true) -> incl (groups r) (groups r') ->
  step_of r s g s1 g1 -> step_of r' s g s1 g1.
Proof. intros M I (p & n & E1 & E2 & C & G). exists p, n. repeat split; auto. intros. apply I. eauto. Qed.

Lemma m_some_step {R} total r : forall s g (k : str -> caps -> option R) x,
  m_regex total r s g k = Some x -> exists s1 g1, step_of r s g s1 g1 /\ k s1 g1 = Some x.
Proof.
  assert (W1 : forall a b s g s1 g1, step_of a s g s1 g1 -> step_of (RSeq a b) s g s1 g1).
  { intros. apply (step_weak a); auto; cbn [may groups]; [intros c ->; auto|apply incl_appl, incl_refl]. }
  assert (W2 : forall a b s g s1 g1, step_of b s g s1 g1 -> step_of (RSeq a b) s g s1 g1).
  { intros. apply (step_weak b); auto; cbn [may groups]; [intros c ->; apply orb_true_r|apply incl_appr, incl_refl]. }
  induction r; intros s g k x H.
  - cbn in H. eauto using step_refl.
  - cbn in H. destruct s as [|c s]; try discriminate. destruct (p c) eqn:P; try discriminate.
    exists s, g. split; auto. exists [c], []. repeat split; try contradiction. intros d [<-|[]]; auto.
  - cbn in H. apply IHr1 in H as (s1 & g1 & S1 & H). apply IHr2 in H as (s2 & g2 & S2 & H).
    exists s2, g2. split; auto. eapply step_trans; [apply W1|apply W2]; eauto.
  - cbn in H. destruct (m_regex total r1 s g k) eqn:E.
    + inversion H; subst. apply IHr1 in E as (s1 & g1 & S1 & E). exists s1, g1. split; auto. apply (W1 _ r2) in S1. auto.
    + apply IHr2 in H as (s1 & g1 & S1 & H). exists s1, g1. split; auto. apply (W2 r1) in S1. auto.
  - rewrite m_star in H. revert H. generalize (length s) as n. intro n. revert s g.
    induction n as [|n IHn]; intros s g H; [cbn in H; eauto using step_refl|]. rewrite star_loop_S in H.
    destruct (m_regex total r s g _) eqn:E; eauto using step_refl.
    inversion H; subst. apply IHr in E as (s1 & g1 & S1 & E). destruct (Nat.ltb _ _); try discriminate.
    apply IHn in E as (s2 & g2 & S2 & E). exists s2, g2. split; auto.
    eapply step_trans; [|exact S2]. exact S1.
  - cbn in H. destruct (m_regex total r s g k) eqn:E; eauto using step_refl. inversion H; subst. eapply IHr; eauto.
  - cbn in H. apply IHr in H as (s1 & g1 & (p & new & -> & -> & C & G) & H).
    eexists _, _. split; [|exact H]. exists p, ((n, consumed (p ++ s1) s1) :: new). repeat split; auto.
    intros m t [E|I]; cbn; [inversion E; auto|right; eauto].
  - cbn in H. destruct (m_regex total r s g _); try discriminate. eauto using step_refl.
  - cbn in H. destruct (Nat.eqb _ _); try discriminate. eauto using step_refl.
  - cbn in H. destruct s as [|c [|]]; try discriminate; eauto using step_refl. destruct (N.eqb c 10); try discriminate. eauto using step_refl.
Qed.

(** ** Greedy [.*] on a line *)
Fixpoint latest {R} (k : str -> option R) (l rest : str) : option R :=
  match l with
  | [] => k rest
  | _ :: l' => match latest k l' rest with Some x => Some x | None => k (l ++ rest) end
  end.
Definition line_end (rest : str) : Prop := rest = [] \/ exists more, rest = 10%N :: more.
Lemma m_char_cons {R} total p c s g (k : str -> caps -> option R) :
  m_regex total (RChar p) (c :: s) g k = if p c then k s g else None.
Proof. reflexivity. Qed.
Lemma m_dots {R} total l rest g (k : str -> caps -> option R) :
  ~ In 10%N l -> line_end rest ->
  m_regex total (RStar RDot) (l ++ rest) g k = latest (fun s => k s g) l rest.
Proof.
  intros N E. revert N. induction l as [|c l IH]; intro N; rewrite star_eq.
  - destruct E as [->|[more ->]]; reflexivity.
  - cbn [app]. unfold RDot at 1. rewrite m_char_cons. cbn [latest]. destruct (N.eqb_spec c 10) as [->|D]; [destruct N; cbn; auto|]. cbn [negb].
    replace (Nat.ltb (length (l ++ rest)) (length (c :: l ++ rest))) with true by (symmetry; apply Nat.ltb_lt; cbn; lia).
    rewrite IH by (intro; apply N; cbn; auto). reflexivity.
Qed.
