(** Several threads that run the source: each does what it does alone. *)
From Coq Require Import String.
From Verif Require Export SpecRun LemPyPar LemPyMain.
Local Open Scope string_scope.
Local Open Scope list_scope.

(** ** The memory of a thread alone, and where it is in the memory that is shared *)
Record inv (p : places) (M S : memory) : Prop := Inv {
  i_len_d : length (rd p) = length (dicts M);
  i_len_o : length (ro p) = length (objects M);
  i_nodup_d : NoDup (rd p);
  i_nodup_o : NoDup (ro p);
  i_dict : forall r i, nth_error (rd p) r = Some i -> nth_error (dicts S) i = nth_error (dicts M) r;
  i_object : forall r i, nth_error (ro p) r = Some i ->
    exists c fs fs', nth_error (objects M) r = Some (c, fs) /\ nth_error (objects S) i = Some (c, fs') /\ nsrel p fs fs' }.
(** What a turn leaves as it is, and which places it adds *)
Record others (p q : places) (S S' : memory) : Prop := Others {
  o_len_d : length (dicts S) <= length (dicts S');
  o_len_o : length (objects S) <= length (objects S');
  o_dict : forall i, i < length (dicts S) -> ~ In i (rd p) -> nth_error (dicts S') i = nth_error (dicts S) i;
  o_object : forall i, i < length (objects S) -> ~ In i (ro p) -> nth_error (objects S') i = nth_error (objects S) i;
  o_new_d : forall i, In i (rd q) -> In i (rd p) \/ length (dicts S) <= i;
  o_new_o : forall i, In i (ro q) -> In i (ro p) \/ length (objects S) <= i }.

Lemma inv_dict_below p M S i : inv p M S -> In i (rd p) -> i < length (dicts S).
Proof.
  intros I H. apply In_nth_error in H. destruct H as (r & H). apply nth_error_Some. rewrite (i_dict _ _ _ I _ _ H). apply nth_error_Some.
  rewrite <- (i_len_d _ _ _ I). apply nth_error_Some. congruence.
Qed.
Lemma inv_object_below p M S i : inv p M S -> In i (ro p) -> i < length (objects S).
Proof.
  intros I H. apply In_nth_error in H. destruct H as (r & H). destruct (i_object _ _ _ I _ _ H) as (c & fs & fs' & _ & E & _). apply nth_error_Some. congruence.
Qed.
Lemma others_refl p S : others p p S S.
Proof. constructor; auto. Qed.
Lemma put_length {A} (l : list A) i a : length (put l i a) = length l.
Proof. revert i. induction l; intros [|i]; cbn; auto. Qed.
Lemma put_same {A} (l : list A) i a b : nth_error l i = Some b -> nth_error (put l i a) i = Some a.
Proof. revert i. induction l; intros [|i]; cbn; intros H; try discriminate; auto. Qed.
Lemma put_other {A} (l : list A) i j a : i <> j -> nth_error (put l i a) j = nth_error l j.
Proof. revert i j. induction l; intros [|i] [|j] H; cbn; auto; try congruence. Qed.
Lemma nodup_nth {A} (l : list A) i j a : NoDup l -> nth_error l i = Some a -> nth_error l j = Some a -> i = j.
Proof. intros N H1 H2. apply (proj1 (NoDup_nth_error l) N); [apply nth_error_Some; congruence | congruence]. Qed.
Lemma nth_last {A} (l : list A) a i b : nth_error (l ++ [a]) i = Some b -> nth_error l i = Some b \/ i = length l /\ a = b.
Proof.
  intros H. destruct (Nat.lt_ge_cases i (length l)) as [L|L]; [rewrite nth_error_app1 in H by exact L; auto|]. rewrite nth_error_app2 in H by exact L.
  destruct (i - length l) as [|k] eqn:E; cbn in H; [right; split; [lia | congruence] | destruct k; discriminate].
Qed.
Lemma nodup_last (l : list nat) a : NoDup l -> ~ In a l -> NoDup (l ++ [a]).
Proof. intros N H. apply NoDup_rev in N. rewrite <- (rev_involutive (l ++ [a])). apply NoDup_rev. rewrite rev_unit. constructor; [rewrite <- in_rev; exact H | exact N]. Qed.

Section Step.
Context {A : Type} (P : places -> A -> A -> Prop).
Lemma step_rel p m m' M S : crel P p m m' -> inv p M S -> snd (PySem.run m M) <> Stuck ->
  exists q, wider p q /\ inv q (snd (turn m M)) (snd (turn m' S)) /\ crel P q (fst (turn m M)) (fst (turn m' S)) /\ others p q S (snd (turn m' S)).
Proof.
  intros C I NS. destruct C as [p a b H | p v w H | p | p k k' H | p r i f k k' E H | p r i x s k k' E H | p c k k' H | p r i a k k' E H1 H2 | p r i a v w k k' E V H]; cbn [turn fst snd].
  - exists p. split; [apply wider_refl|]. split; [exact I|]. split; [constructor; exact H | apply others_refl].
  - exists p. split; [apply wider_refl|]. split; [exact I|]. split; [constructor; exact H | apply others_refl].
  - exists p. split; [apply wider_refl|]. split; [exact I|]. split; [constructor | apply others_refl].
  - set (q := Places (rd p ++ [length (dicts S)]) (ro p)). assert (L : wider p q) by (exists [length (dicts S)], []; cbn; rewrite app_nil_r; auto).
    assert (X : nth_error (rd q) (length (dicts M)) = Some (length (dicts S))) by (cbn; rewrite <- (i_len_d _ _ _ I), nth_error_app2, Nat.sub_diag by lia; reflexivity).
    exists q. split; [exact L|]. unfold new_dict; cbn [fst snd]. split; [|split; [apply H; assumption|]].
    + destruct I as [I1 I2 I3 I4 I5 I6]. pose proof (Inv _ _ _ I1 I2 I3 I4 I5 I6) as I. constructor; cbn [rd ro dicts objects q].
      * rewrite !app_length, I1. reflexivity.
      * exact I2.
      * apply nodup_last; [exact I3|]. intros J. pose proof (inv_dict_below _ _ _ _ I J). lia.
      * exact I4.
      * intros r i J. apply nth_last in J. destruct J as [J|[-> <-]].
        -- assert (r < length (dicts M)) by (rewrite <- I1; apply nth_error_Some; congruence).
           assert (i < length (dicts S)) by (apply (inv_dict_below _ _ _ _ I); eapply nth_error_In; eassumption). rewrite !nth_error_app1 by assumption. apply I5, J.
        -- rewrite I1, !nth_error_app2, !Nat.sub_diag by lia. reflexivity.
      * intros r i J. destruct (I6 r i J) as (c & fs & fs' & A1 & A2 & A3). exists c, fs, fs'. split; [exact A1|]. split; [exact A2 | eapply nsrel_mono; eassumption].
    + constructor; cbn; try (rewrite app_length; lia); auto.
      * intros i Hi _. apply nth_error_app1, Hi.
      * intros i J. apply in_app_or in J. destruct J as [J|[<-|[]]]; auto.
  - unfold with_dict. rewrite (i_dict _ _ _ I _ _ E). destruct (nth_error (dicts M) r) as [d|] eqn:D; cbn [option_map fst snd].
    + exists p. split; [apply wider_refl|]. split; [exact I|]. split; [apply H, wider_refl | apply others_refl].
    + exfalso. apply NS. cbn. unfold with_dict. rewrite D. reflexivity.
  - unfold set_item. rewrite (i_dict _ _ _ I _ _ E). destruct (nth_error (dicts M) r) as [d|] eqn:D; cbn [option_map fst snd].
    2: { exfalso. apply NS. cbn. unfold set_item. rewrite D. reflexivity. }
    exists p. split; [apply wider_refl|]. split; [|split; [apply H, wider_refl|]].
    + destruct I as [I1 I2 I3 I4 I5 I6]. constructor; cbn [rd ro dicts objects]; auto.
      * rewrite put_length. exact I1.
      * intros r1 i1 J. destruct (Nat.eq_dec r r1) as [<-|Nr].
        -- replace i1 with i by congruence. rewrite (put_same _ _ _ d D). rewrite (put_same _ _ _ d); [reflexivity|]. rewrite (I5 _ _ E). exact D.
        -- rewrite !put_other; [apply I5, J | exact Nr|]. intros ->. apply Nr. exact (nodup_nth _ _ _ _ I3 E J).
    + constructor; cbn; try (rewrite put_length; lia); auto. intros j Hj Nj. apply put_other. intros ->. apply Nj. eapply nth_error_In; eassumption.
  - set (q := Places (rd p) (ro p ++ [length (objects S)])). assert (L : wider p q) by (exists [], [length (objects S)]; cbn; rewrite app_nil_r; auto).
    assert (X : nth_error (ro q) (length (objects M)) = Some (length (objects S))) by (cbn; rewrite <- (i_len_o _ _ _ I), nth_error_app2, Nat.sub_diag by lia; reflexivity).
    exists q. split; [exact L|]. unfold new_object; cbn [fst snd]. split; [|split; [apply H; assumption|]].
    + destruct I as [I1 I2 I3 I4 I5 I6]. pose proof (Inv _ _ _ I1 I2 I3 I4 I5 I6) as I. constructor; cbn [rd ro dicts objects q].
      * exact I1.
      * rewrite !app_length, I2. reflexivity.
      * exact I3.
      * apply nodup_last; [exact I4|]. intros J. pose proof (inv_object_below _ _ _ _ I J). lia.
      * exact I5.
      * intros r i J. apply nth_last in J. destruct J as [J|[-> <-]].
        -- destruct (I6 r i J) as (c1 & fs & fs' & A1 & A2 & A3). exists c1, fs, fs'.
           rewrite !nth_error_app1 by (apply nth_error_Some; congruence). split; [exact A1|]. split; [exact A2 | eapply nsrel_mono; eassumption].
        -- exists c, [], []. rewrite I2, !nth_error_app2, !Nat.sub_diag by lia. split; [reflexivity|]. split; [reflexivity | constructor].
    + constructor; cbn; try (rewrite app_length; lia); auto.
      * intros i Hi _. apply nth_error_app1, Hi.
      * intros i J. apply in_app_or in J. destruct J as [J|[<-|[]]]; auto.
  - destruct (i_object _ _ _ I _ _ E) as (c & fs & fs' & A1 & A2 & A3). unfold with_object. rewrite A1, A2. cbn [option_map fst snd].
    exists p. split; [apply wider_refl|]. split; [exact I|]. split; [|apply others_refl].
    pose proof (lookup_rel p fs fs' a A3) as X. destruct (lookup fs a), (lookup fs' a); try contradiction; [apply H1; [apply wider_refl | exact X] | apply H2, wider_refl].
  - destruct (i_object _ _ _ I _ _ E) as (c & fs & fs' & A1 & A2 & A3). unfold set_field. rewrite A1, A2. cbn [option_map fst snd].
    exists p. split; [apply wider_refl|]. split; [|split; [apply H, wider_refl|]].
    + destruct I as [I1 I2 I3 I4 I5 I6]. constructor; cbn [rd ro dicts objects]; auto.
      * rewrite put_length. exact I2.
      * intros r1 i1 J. destruct (Nat.eq_dec r r1) as [<-|Nr].
        -- replace i1 with i by congruence. exists c, (assign fs a v), (assign fs' a w). rewrite (put_same _ _ _ _ A1), (put_same _ _ _ _ A2).
           split; [reflexivity|]. split; [reflexivity | apply assign_rel; assumption].
        -- destruct (I6 r1 i1 J) as (c1 & gs & gs' & B1 & B2 & B3). exists c1, gs, gs'.
           rewrite !put_other; [auto | | exact Nr]. intros ->. apply Nr. exact (nodup_nth _ _ _ _ I4 E J).
    + constructor; cbn; try (rewrite put_length; lia); auto. intros j Hj Nj. apply put_other. intros ->. apply Nj. eapply nth_error_In; eassumption.
Qed.
Definition apart (p q : places) : Prop := (forall i, In i (rd p) -> ~ In i (rd q)) /\ (forall i, In i (ro p) -> ~ In i (ro q)).
(** The other threads *)
Lemma others_inv p q o M S S' : inv o M S -> apart o p -> others p q S S' -> inv o M S' /\ apart o q.
Proof.
  intros I [D1 D2] O. split.
  - constructor; try apply I.
    + intros r i E. rewrite <- (i_dict _ _ _ I _ _ E). apply (o_dict _ _ _ _ O); [|apply D1]; [apply (inv_dict_below _ _ _ _ I)|]; eapply nth_error_In; eassumption.
    + intros r i E. destruct (i_object _ _ _ I _ _ E) as (c & fs & fs' & A1 & A2 & A3). exists c, fs, fs'. split; [exact A1|]. split; [|exact A3]. rewrite <- A2.
      apply (o_object _ _ _ _ O); [|apply D2]; [apply (inv_object_below _ _ _ _ I)|]; eapply nth_error_In; eassumption.
  - split; intros i H J.
    + apply (o_new_d _ _ _ _ O) in J. destruct J as [J|J]; [apply (D1 _ H J)|]. pose proof (inv_dict_below _ _ _ _ I H). lia.
    + apply (o_new_o _ _ _ _ O) in J. destruct J as [J|J]; [apply (D2 _ H J)|]. pose proof (inv_object_below _ _ _ _ I H). lia.
Qed.
Lemma apart_sym p q : apart p q -> apart q p.
Proof. intros [H1 H2]. split; intros i H J; [apply (H1 i J H) | apply (H2 i J H)]. Qed.
Lemma turn_run (m : MM A) M : PySem.run (fst (turn m M)) (snd (turn m M)) = PySem.run m M.
Proof. destruct m as [a|v| |f k]; cbn; try reflexivity. destruct (f M) as [[M' v]|]; reflexivity. Qed.
End Step.

(** ** Schedules *)
Section Schedule.
Context {A : Type} (P : places -> A -> A -> Prop).
Variable S0 : memory.
Notation alone := (places * (MM A * memory))%type.
Definition goes (S : memory) (t : alone) (m : MM A) : Prop :=
  crel P (fst t) (fst (snd t)) m /\ inv (fst t) (snd (snd t)) S /\ snd (PySem.run (fst (snd t)) (snd (snd t))) <> Stuck
  /\ (forall i, In i (rd (fst t)) -> length (dicts S0) <= i) /\ (forall i, In i (ro (fst t)) -> length (objects S0) <= i).
Definition kept (S : memory) : Prop :=
  length (dicts S0) <= length (dicts S) /\ length (objects S0) <= length (objects S)
  /\ (forall i, i < length (dicts S0) -> nth_error (dicts S) i = nth_error (dicts S0) i)
  /\ (forall i, i < length (objects S0) -> nth_error (objects S) i = nth_error (objects S0) i).
Definition separate (ts : list alone) : Prop := forall i j t u, i <> j -> nth_error ts i = Some t -> nth_error ts j = Some u -> apart (fst t) (fst u).
Definition go (t : MM A * memory) : MM A * memory := turn (fst t) (snd t).
Lemma Forall2_nth {B C} (R : B -> C -> Prop) l l' i b : Forall2 R l l' -> nth_error l' i = Some b -> exists a, nth_error l i = Some a /\ R a b.
Proof. intros F. revert i. induction F; intros [|i]; cbn; intros E; try discriminate; [injection E as <-; eauto | auto]. Qed.
Lemma Forall2_nth' {B C} (R : B -> C -> Prop) l l' i a : Forall2 R l l' -> nth_error l i = Some a -> exists b, nth_error l' i = Some b /\ R a b.
Proof. intros F. revert i. induction F; intros [|i]; cbn; intros E; try discriminate; [injection E as <-; eauto | auto]. Qed.
Lemma Forall2_put {B C} (R Q : B -> C -> Prop) l l' i a b : Forall2 R l l' -> Q a b -> (forall j x y, i <> j -> nth_error l j = Some x -> R x y -> Q x y) -> Forall2 Q (put l i a) (put l' i b).
Proof.
  intros F. revert i. induction F as [|x y l l' H F IH]; intros i Hab K; [constructor|]. destruct i as [|i]; cbn.
  - constructor; [exact Hab|]. clear IH H. assert (K' : forall j x y, nth_error l j = Some x -> R x y -> Q x y) by (intros j x1 y1; apply (K (Datatypes.S j) x1 y1 (O_S j))). clear K Hab.
    induction F as [|x1 y1 l l' H F IH]; constructor; [exact (K' 0 x1 y1 eq_refl H)|]. apply IH. intros j x2 y2. apply (K' (Datatypes.S j) x2 y2).
  - constructor; [exact (K 0 x y (not_eq_sym (O_S i)) eq_refl H)|]. apply IH; [exact Hab|]. intros j x1 y1 N. apply (K (Datatypes.S j) x1 y1). congruence.
Qed.
Lemma one_turn i ts ms S m : nth_error ms i = Some m -> Forall2 (goes S) ts ms -> separate ts -> kept S ->
  exists t q, nth_error ts i = Some t /\ Forall2 (goes (snd (turn m S))) (put ts i (q, go (snd t))) (put ms i (fst (turn m S))) /\ separate (put ts i (q, go (snd t))) /\ kept (snd (turn m S)).
Proof.
  intros E F D K. destruct (Forall2_nth _ _ _ _ _ F E) as ([p [m1 M]] & Et & C & I & NS & B1 & B2). cbn [fst snd] in *.
  destruct (step_rel P p m1 m M S C I NS) as (q & L & I' & C' & O). exists (p, (m1, M)), q. split; [exact Et|]. cbn [fst snd go].
  destruct K as (K1 & K2 & K3 & K4).
  assert (Q1 : forall i, In i (rd q) -> length (dicts S0) <= i) by (intros j J; destruct (o_new_d _ _ _ _ O _ J) as [X|X]; [apply B1, X | lia]).
  assert (Q2 : forall i, In i (ro q) -> length (objects S0) <= i) by (intros j J; destruct (o_new_o _ _ _ _ O _ J) as [X|X]; [apply B2, X | lia]).
  split; [|split].
  - apply Forall2_put with (R := goes S); [exact F | |].
    + split; [exact C'|]. split; [exact I'|]. split; [cbn [fst snd]; unfold go; cbn [fst snd]; rewrite turn_run; exact NS|]. split; [exact Q1 | exact Q2].
    + intros j t y N Ej (G1 & G2 & G3). split; [exact G1|]. split; [|exact G3]. eapply others_inv; [exact G2 | | exact O]. exact (D j i _ _ (not_eq_sym N) Ej Et).
  - assert (Z : forall j u, i <> j -> nth_error ts j = Some u -> apart (fst u) q).
    { intros j u N Ej. destruct (Forall2_nth' _ _ _ _ _ F Ej) as (y & _ & _ & G2 & _). eapply others_inv; [exact G2 | | exact O]. exact (D j i _ _ (not_eq_sym N) Ej Et). }
    intros j k t u N Ej Ek. destruct (Nat.eq_dec i j) as [<-|Nj].
    + rewrite (put_same _ _ _ _ Et) in Ej. injection Ej as <-. rewrite put_other in Ek by exact N. apply apart_sym. apply (Z k u N Ek).
    + rewrite put_other in Ej by exact Nj. destruct (Nat.eq_dec i k) as [<-|Nk].
      * rewrite (put_same _ _ _ _ Et) in Ek. injection Ek as <-. exact (Z j t Nj Ej).
      * rewrite put_other in Ek by exact Nk. exact (D j k _ _ N Ej Ek).
  - pose proof (o_len_d _ _ _ _ O). pose proof (o_len_o _ _ _ _ O). split; [lia|]. split; [lia|]. split.
    + intros j Hj. rewrite (o_dict _ _ _ _ O); [apply K3, Hj | lia|]. intros J. specialize (B1 _ J). lia.
    + intros j Hj. rewrite (o_object _ _ _ _ O); [apply K4, Hj | lia|]. intros J. specialize (B2 _ J). lia.
Qed.
Fixpoint count (i : nat) (schedule : list nat) : nat :=
  match schedule with [] => 0 | j :: rest => if Nat.eqb i j then Datatypes.S (count i rest) else count i rest end.
Fixpoint goes_on (n : nat) (t : MM A * memory) : MM A * memory := match n with O => t | Datatypes.S n' => goes_on n' (go t) end.
Lemma all_turns schedule : forall ts ms S, Forall2 (goes S) ts ms -> separate ts -> kept S ->
  exists ts', Forall2 (goes (snd (interleave schedule ms S))) ts' (fst (interleave schedule ms S)) /\ kept (snd (interleave schedule ms S))
    /\ forall i t, nth_error ts i = Some t -> exists q, nth_error ts' i = Some (q, goes_on (count i schedule) (snd t)).
Proof.
  induction schedule as [|i rest IH]; intros ts ms S F D K; cbn [interleave].
  - exists ts. split; [exact F|]. split; [exact K|]. intros i [p t] E. exists p. exact E.
  - destruct (nth_error ms i) as [m|] eqn:E.
    + destruct (one_turn i ts ms S m E F D K) as (t & q & Et & F' & D' & K'). destruct (turn m S) as [m' S'] eqn:ET. cbn [fst snd] in *.
      destruct (IH _ _ _ F' D' K') as (ts' & F2 & K2 & X). exists ts'. split; [exact F2|]. split; [exact K2|].
      intros j u Ej. cbn [count]. destruct (Nat.eqb_spec j i) as [->|N].
      * assert (u = t) by congruence. subst u. destruct (X i (q, go (snd t)) (put_same _ _ _ _ Et)) as (q2 & Y). exists q2. exact Y.
      * apply X. rewrite put_other by congruence. exact Ej.
    + destruct (IH _ _ _ F D K) as (ts' & F2 & K2 & X). exists ts'. split; [exact F2|]. split; [exact K2|].
      intros j u Ej. cbn [count]. destruct (Nat.eqb_spec j i) as [->|N]; [|apply X, Ej].
      destruct (Forall2_nth' _ _ _ _ _ F Ej) as (b & Eb & _). congruence.
Qed.
(** A thread alone ends. *)
Lemma goes_on_done n a M : goes_on n (Ret a, M) = (Ret a, M).
Proof. induction n; cbn; auto. Qed.
Lemma goes_on_ends (m : MM A) : forall M M' a, PySem.run m M = (M', Done a) -> exists N, forall n, N <= n -> goes_on n (m, M) = (Ret a, M').
Proof.
  induction m as [b|v| |f k IH]; intros M M' a E; cbn [PySem.run] in E; try discriminate.
  - injection E as <- <-. exists 0. intros n _. apply goes_on_done.
  - destruct (f M) as [[M1 v]|] eqn:Ef; [|discriminate]. destruct (IH v M1 M' a E) as (N & H). exists (Datatypes.S N). intros n Hn. destruct n as [|n]; [lia|].
    cbn [goes_on]. unfold go at 1. cbn [turn fst snd]. rewrite Ef. apply H. lia.
Qed.
End Schedule.

(** ** Threads of calls *)
Section Threads.
Variable word_char : N -> bool.
Variable parse_string : str -> res document.
Definition orel (p : places) (a b : out value) : Prop :=
  match a, b with Done v, Done w | Raised v, Raised w => vrel p v w | Stuck, Stuck => True | _, _ => False end.
Lemma orel_mono q r a b : wider q r -> orel q a b -> orel r a b.
Proof. intros L. destruct a, b; cbn; eauto using vrel_mono. Qed.
Lemma attempt_rel p m m' : crel vrel p m m' -> crel orel p (one_call m) (one_call m').
Proof.
  intros C. unfold one_call. apply crel_catch; [|intros; apply c_ret; assumption].
  eapply crel_bnd; [exact C|]. intros. apply c_ret. assumption.
Qed.
Lemma thread_rel n p xs : crel (fun q => Forall2 (orel q)) p (thread word_char parse_string n xs) (thread word_char parse_string n xs).
Proof.
  unfold thread. apply crel_each; [exact orel_mono|]. apply Forall_forall. intros x _ q _. apply attempt_rel. apply call_rel.
  - apply r_method, r_flat. reflexivity.
  - constructor; [apply r_flat; reflexivity | constructor].
  - constructor.
Qed.
Definition results (xs : list str) : list (out value) := map (fun x => as_source (snd (mathml_to_latex word_char parse_string x []))) xs.
Lemma run_catch {A} (h : value -> MM A) m S :
  PySem.run (catch h m) S = match PySem.run m S with (S', Raised e) => PySem.run (h e) S' | o => o end.
Proof.
  revert S. induction m as [a|v| |f k IH]; intros S; try reflexivity.
  change (PySem.run (Act f (fun v => catch h (k v))) S = match PySem.run (Act f k) S with (S', Raised e) => PySem.run (h e) S' | o => o end). cbn [PySem.run].
  destruct (f S) as [[S' v]|]; [apply IH | reflexivity].
Qed.
Lemma thread_alone xs : forall S, exists S' n0, forall n, n0 <= n -> PySem.run (thread word_char parse_string n xs) S = (S', Done (results xs)).
Proof.
  induction xs as [|x xs IH]; intros S; unfold thread, results; cbn [mapM map].
  - exists S, 0. reflexivity.
  - destruct (source_ok word_char parse_string x [] S) as (S1 & n1 & E1). destruct (IH S1) as (S2 & n2 & E2).
    exists S2, (max n1 n2). intros n Hn. rewrite run_bnd. unfold one_call at 1. rewrite run_catch, run_bnd.
    change (forall n, n1 <= n -> PySem.run (source_convert word_char parse_string x n) S = (S1, outcome VStr (snd (mathml_to_latex word_char parse_string x [])))) in E1.
    rewrite E1 by lia. unfold thread in E2.
    destruct (snd (mathml_to_latex word_char parse_string x [])) as [s|e]; cbn [outcome as_source PySem.run]; rewrite run_bnd, E2 by lia; reflexivity.
Qed.
Lemma results_closed xs p b : Forall2 (orel p) (results xs) b -> b = results xs.
Proof.
  revert b. induction xs as [|x xs IH]; intros b F; cbn in F; inversion F as [|o o' l l' O F']; subst; [reflexivity|]. cbn. f_equal; [|apply IH, F'].
  destruct (snd (mathml_to_latex word_char parse_string x [])) as [s|e]; cbn in O |- *; destruct o'; try contradiction; f_equal; eapply closed_same; eauto.
  apply parser_error_closed.
Qed.
Lemma start_goes n (texts : list (list str)) S0 S : (forall xs, In xs texts -> snd (PySem.run (thread word_char parse_string n xs) (Memory [] [])) <> Stuck) ->
  Forall2 (goes (fun q => Forall2 (orel q)) S0 S) (map (fun xs => (Places [] [], (thread word_char parse_string n xs, Memory [] []))) texts) (map (thread word_char parse_string n) texts).
Proof.
  induction texts as [|xs texts IH]; intros H; cbn [map]; constructor; [|apply IH; intros; apply H; right; assumption].
  split; [apply thread_rel|]. split; [|split; [apply H; left; reflexivity | split; intros i []]].
  constructor; cbn; try reflexivity; try constructor; intros r i E; destruct r; discriminate.
Qed.
Theorem threads_ok texts : exists n0, forall n, n0 <= n -> forall S, exists N, forall schedule i xs,
  nth_error texts i = Some xs -> N <= count i schedule ->
  nth_error (fst (interleave schedule (map (thread word_char parse_string n) texts) S)) i = Some (Ret (results xs)).
Proof.
  assert (X : exists n0, forall n, n0 <= n -> forall xs, In xs texts -> exists M, PySem.run (thread word_char parse_string n xs) (Memory [] []) = (M, Done (results xs))).
  { induction texts as [|xs texts IH]; [exists 0; intros n _ xs []|]. destruct IH as (n1 & IH). destruct (thread_alone xs (Memory [] [])) as (M & n2 & E).
    exists (max n1 n2). intros n Hn ys [<-|H]; [exists M; apply E; lia | apply IH; [lia | exact H]]. }
  destruct X as (n0 & X). exists n0. intros n Hn S. specialize (X n Hn).
  assert (Y : exists N, forall k, N <= k -> forall xs, In xs texts -> exists M, goes_on k (thread word_char parse_string n xs, Memory [] []) = (Ret (results xs), M)).
  { clear - X. induction texts as [|xs texts IH]; [exists 0; intros k _ xs []|]. destruct IH as (N1 & IH); [intros; apply X; right; assumption|].
    destruct (X xs (or_introl eq_refl)) as (M & E). destruct (goes_on_ends _ _ _ _ E) as (N2 & E2).
    exists (max N1 N2). intros k Hk ys [<-|H]; [exists M; apply E2; lia | apply IH; [lia | exact H]]. }
  destruct Y as (N & Y). exists N. intros schedule i xs Ei Hc.
  destruct (all_turns (fun q => Forall2 (orel q)) S schedule (map (fun xs => (Places [] [], (thread word_char parse_string n xs, Memory [] []))) texts) (map (thread word_char parse_string n) texts) S) as (ts' & F & K & Z).
  - apply start_goes. intros ys H. destruct (X ys H) as (M & ->). discriminate.
  - intros a b t u Nab Ea Eb. apply nth_error_In, in_map_iff in Ea. destruct Ea as (ya & <- & _). split; intros j [].
  - repeat split; lia || reflexivity.
  - destruct (Z i _ (map_nth_error _ _ _ Ei)) as (q & Eq). cbn [snd] in Eq. destruct (Y _ Hc xs (nth_error_In _ _ Ei)) as (M & EM). rewrite EM in Eq.
    destruct (Forall2_nth' _ _ _ _ _ F Eq) as (m & Em & C & _). cbn [fst snd] in C. rewrite Em. inversion C as [p a b R| | | | | | | |]; subst. f_equal. f_equal.
    eapply results_closed. exact R.
Qed.
Theorem threads_memory texts : exists n0, forall n, n0 <= n -> forall S schedule,
  let S' := snd (interleave schedule (map (thread word_char parse_string n) texts) S) in
  firstn (length (dicts S)) (dicts S') = dicts S /\ firstn (length (objects S)) (objects S') = objects S.
Proof.
  assert (X : exists n0, forall n, n0 <= n -> forall xs, In xs texts -> exists M, PySem.run (thread word_char parse_string n xs) (Memory [] []) = (M, Done (results xs))).
  { induction texts as [|xs texts IH]; [exists 0; intros n _ xs []|]. destruct IH as (n1 & IH). destruct (thread_alone xs (Memory [] [])) as (M & n2 & E).
    exists (max n1 n2). intros n Hn ys [<-|H]; [exists M; apply E; lia | apply IH; [lia | exact H]]. }
  destruct X as (n0 & X). exists n0. intros n Hn S schedule. specialize (X n Hn).
  destruct (all_turns (fun q => Forall2 (orel q)) S schedule (map (fun xs => (Places [] [], (thread word_char parse_string n xs, Memory [] []))) texts) (map (thread word_char parse_string n) texts) S) as (ts' & F & K & Z).
  - apply start_goes. intros ys H. destruct (X ys H) as (M & ->). discriminate.
  - intros a b t u Nab Ea Eb. apply nth_error_In, in_map_iff in Ea. destruct Ea as (ya & <- & _). split; intros j [].
  - repeat split; lia || reflexivity.
  - cbv zeta. destruct K as (K1 & K2 & K3 & K4).
    assert (G : forall (T : Type) (l l' : list T), length l <= length l' -> (forall i, i < length l -> nth_error l' i = nth_error l i) -> firstn (length l) l' = l).
    { clear. intros T l. induction l as [|a l IH]; intros [|b l'] L H; cbn in *; try reflexivity; try lia. f_equal; [specialize (H 0); cbn in H; assert (Some b = Some a) by (apply H; lia); congruence|].
      apply IH; [lia|]. intros i Hi. apply (H (Datatypes.S i)). lia. }
    split; apply G; assumption.
Qed.
End Threads.
