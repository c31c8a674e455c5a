(** Running the interpreter of PySem.v: rules. *)
From Coq Require Import String.
From Verif Require Export PySem LemPyRegex.
Local Open Scope string_scope.
Local Open Scope list_scope.

(** ** Computations that depend on the bound [n], for every [n] from [K] on *)
Definition evs (K : nat) {A} (m : nat -> MM A) (S S' : memory) (o : out A) : Prop :=
  forall n, K <= n -> run (m n) S = (S', o).

Lemma run_bnd {A B} (m : MM A) (k : A -> MM B) : forall S,
  run (bnd m k) S = match run m S with
                    | (S', Done a) => run (k a) S'
                    | (S', Raised e) => (S', Raised e)
                    | (S', Stuck) => (S', Stuck)
                    end.
Proof.
  induction m as [a|e| |f k0 IH]; intros S; cbn; try reflexivity.
  destruct (f S) as [[S' v]|]; [apply IH | reflexivity].
Qed.

Lemma evs_ret {K} {A} (a : A) S : evs K (fun _ => Ret a) S S (Done a).
Proof. intros n _. reflexivity. Qed.
Lemma evs_throw {K} {A} e S : evs K (fun _ => @Throw A e) S S (Raised e).
Proof. intros n _. reflexivity. Qed.
Lemma evs_bnd {K} {A B} m (k : nat -> A -> MM B) S S1 a S2 o :
  evs K m S S1 (Done a) -> evs K (fun n => k n a) S1 S2 o -> evs K (fun n => bnd (m n) (k n)) S S2 o.
Proof.
  intros H1 H2 n Hn. rewrite run_bnd, H1 by exact Hn. apply H2. exact Hn.
Qed.
Lemma evs_bnd_raised {K} {A B} m (k : nat -> A -> MM B) S S1 e :
  evs K m S S1 (Raised e) -> evs K (fun n => bnd (m n) (k n)) S S1 (Raised e).
Proof. intros H1 n Hn. rewrite run_bnd, H1 by exact Hn. reflexivity. Qed.
Lemma evs_act {K} {A} (f : memory -> option (memory * value)) (k : nat -> value -> MM A) S S1 v S2 o :
  f S = Some (S1, v) -> evs K (fun n => k n v) S1 S2 o -> evs K (fun n => Act f (k n)) S S2 o.
Proof. intros H H0 n Hn. cbn. rewrite H. apply H0. exact Hn. Qed.
Lemma evs_eq {K} {A} (m m' : nat -> MM A) S S' o : (forall n, run (m n) S = run (m' n) S) -> evs K m' S S' o -> evs K m S S' o.
Proof. intros H H0 n Hn. rewrite H. apply H0. exact Hn. Qed.
Lemma evs_assoc {K} {A B C} (m : nat -> MM A) (k1 : nat -> A -> MM B) (k2 : nat -> B -> MM C) S S' o :
  evs K (fun n => bnd (m n) (fun a => bnd (k1 n a) (k2 n))) S S' o -> evs K (fun n => bnd (bnd (m n) (k1 n)) (k2 n)) S S' o.
Proof.
  apply evs_eq. intros n. rewrite !run_bnd. destruct (run (m n) S) as [S1 [a|e|]]; try reflexivity. rewrite run_bnd. reflexivity.
Qed.

(** ** Memory that only grows *)
Definition grown (S S' : memory) : Prop :=
  exists ds os, dicts S' = dicts S ++ ds /\ objects S' = objects S ++ os.
Lemma grown_refl S : grown S S.
Proof. exists [], []. rewrite !app_nil_r. auto. Qed.
Lemma grown_trans S1 S2 S3 : grown S1 S2 -> grown S2 S3 -> grown S1 S3.
Proof.
  intros (d1 & o1 & E1 & F1) (d2 & o2 & E2 & F2). exists (d1 ++ d2), (o1 ++ o2). rewrite E2, F2, E1, F1, !app_assoc. auto.
Qed.

(** The computation, started in a memory grown from [S0], gives [v]; the memory grows. *)
Definition calc (K : nat) (S0 : memory) {A} (m : nat -> MM A) (v : A) : Prop :=
  forall S, grown S0 S -> exists S', grown S S' /\ evs K m S S' (Done v).
Lemma calc_ret {K} S0 {A} (a : A) : calc K S0 (fun _ => Ret a) a.
Proof. intros S _. exists S. split; [apply grown_refl | apply evs_ret]. Qed.
Lemma calc_eq {K} S0 {A} (a b : A) : a = b -> calc K S0 (fun _ => Ret a) b.
Proof. intros <-. apply calc_ret. Qed.
Lemma calc_value {K} S0 {A} (m : nat -> MM A) a b : calc K S0 m a -> a = b -> calc K S0 m b.
Proof. intros H <-. exact H. Qed.
Lemma calc_bnd {K} S0 {A B} (m : nat -> MM A) (k : nat -> A -> MM B) a b :
  calc K S0 m a -> calc K S0 (fun n => k n a) b -> calc K S0 (fun n => bnd (m n) (k n)) b.
Proof.
  intros H1 H2 S G. destruct (H1 S G) as (S1 & G1 & E1). destruct (H2 S1 (grown_trans _ _ _ G G1)) as (S2 & G2 & E2).
  exists S2. split; [eapply grown_trans; eauto | eapply evs_bnd; eauto].
Qed.
Lemma calc_assoc {K} S0 {A B C} (m : nat -> MM A) (k1 : nat -> A -> MM B) (k2 : nat -> B -> MM C) c :
  calc K S0 (fun n => bnd (m n) (fun a => bnd (k1 n a) (k2 n))) c -> calc K S0 (fun n => bnd (bnd (m n) (k1 n)) (k2 n)) c.
Proof. intros H S G0. destruct (H S G0) as (S' & G & E). exists S'. split; [exact G | apply evs_assoc; exact E]. Qed.
Lemma calc_act {K} S0 {A} (f : memory -> option (memory * value)) (k : nat -> value -> MM A) v b :
  (forall S, grown S0 S -> f S = Some (S, v)) -> calc K S0 (fun n => k n v) b -> calc K S0 (fun n => Act f (k n)) b.
Proof. intros H H2 S G0. destruct (H2 S G0) as (S' & G & E). exists S'. split; [exact G | eapply evs_act; eauto]. Qed.
Lemma calc_last {K} S0 {A} (m : nat -> MM A) v : calc K S0 m v -> calc K S0 (fun n => bnd (m n) (fun a => Ret a)) v.
Proof. intros H. eapply calc_bnd; [exact H | apply calc_ret]. Qed.
Lemma calc_later {K} S0 S1 {A} (m : nat -> MM A) v : grown S0 S1 -> calc K S0 m v -> calc K S1 m v.
Proof. intros G H S G1. apply H. eapply grown_trans; eauto. Qed.
(** A step after which the memory is known better. *)
Lemma calc_step {K} S0 {A B} (m : nat -> MM A) (k : nat -> A -> MM B) b :
  (forall S, grown S0 S -> exists S1 a, grown S S1 /\ evs K m S S1 (Done a) /\ calc K S1 (fun n => k n a) b) -> calc K S0 (fun n => bnd (m n) (k n)) b.
Proof.
  intros H S G. destruct (H S G) as (S1 & a & G1 & E1 & H2). destruct (H2 S1 (grown_refl S1)) as (S2 & G2 & E2).
  exists S2. split; [eapply grown_trans; eauto | eapply evs_bnd; eauto].
Qed.
Lemma calc_start {K} S0 {A} (m : nat -> MM A) v : (forall S, grown S0 S -> exists S', grown S S' /\ evs K m S S' (Done v)) -> calc K S0 m v.
Proof. intros H. exact H. Qed.
Lemma calc_for {K} S0 (body : nat -> names -> MM ending) xs (Inv : list value -> names -> Prop) :
  (forall v l r, Inv (v :: l) r -> exists e r2, calc K S0 (fun n => bnd (targets r xs v) (body n)) e /\ (e = Next r2 \/ e = Continued r2) /\ Inv l r2) ->
  forall l r, Inv l r -> exists r', calc K S0 (fun n => for_loop (body n) xs l r) (Next r') /\ Inv [] r'.
Proof.
  intros H. induction l as [|v l IH]; intros r Hr.
  - exists r. split; [apply calc_ret | exact Hr].
  - destruct (H v l r Hr) as (e & r2 & E & He & H2). destruct (IH r2 H2) as (r' & E' & H').
    exists r'. split; [|exact H']. cbn [for_loop].
    intros S G. destruct (E S G) as (S1 & G1 & E1). destruct (E' S1 (grown_trans _ _ _ G G1)) as (S2 & G2 & E2). exists S2. split; [eapply grown_trans; eauto|].
    apply (evs_eq _ (fun n => bnd (bnd (targets r xs v) (body n)) (fun e => match e with Next r2 | Continued r2 => for_loop (body n) xs l r2 | Returned _ => Ret e end))).
    { intros n. rewrite !run_bnd. destruct (run (targets r xs v) S) as [S' [a|x|]]; try reflexivity. rewrite !run_bnd. reflexivity. }
    eapply evs_bnd; [exact E1|]. destruct He as [-> | ->]; exact E2.
Qed.
Lemma grown_dict S r d : forall S', grown S S' -> nth_error (dicts S) r = Some d -> nth_error (dicts S') r = Some d.
Proof.
  intros S' (ds & os & E & _) H. rewrite E, nth_error_app1; [exact H|]. apply nth_error_Some. congruence.
Qed.

Lemma grown_object S r c fs : forall S', grown S S' -> nth_error (objects S) r = Some (c, fs) -> nth_error (objects S') r = Some (c, fs).
Proof.
  intros S' (ds & os & _ & E) H. rewrite E, nth_error_app1; [exact H|]. apply nth_error_Some. congruence.
Qed.
Lemma calc_dict {K} S0 {A} r d f (k : nat -> value -> MM A) b :
  nth_error (dicts S0) r = Some d -> calc K S0 (fun n => k n (f d)) b -> calc K S0 (fun n => Act (with_dict r f) (k n)) b.
Proof.
  intros H. apply calc_act. intros S G. unfold with_dict. rewrite (grown_dict _ _ _ _ G H). reflexivity.
Qed.
Lemma calc_object {K} S0 {A} r c fs f v (k : nat -> value -> MM A) b :
  nth_error (objects S0) r = Some (c, fs) -> f c fs = Some v -> calc K S0 (fun n => k n v) b -> calc K S0 (fun n => Act (with_object r f) (k n)) b.
Proof.
  intros H E. apply calc_act. intros S G. unfold with_object. rewrite (grown_object _ _ _ _ _ G H), E. reflexivity.
Qed.
Lemma calc_new_dict {K} S0 {A} (k : nat -> value -> MM A) b :
  (forall S1 r, grown S0 S1 -> nth_error (dicts S1) r = Some [] -> calc K S1 (fun n => k n (VDict r)) b) -> calc K S0 (fun n => Act new_dict (k n)) b.
Proof.
  intros H S G. pose (S1 := Memory (dicts S ++ [[]]) (objects S)).
  assert (G1 : grown S S1) by (exists [[]], []; rewrite app_nil_r; split; reflexivity).
  destruct (H S1 (length (dicts S)) (grown_trans _ _ _ G G1)) with (S := S1) as (S2 & G2 & E2).
  - cbn. rewrite nth_error_app2, Nat.sub_diag by lia. reflexivity.
  - apply grown_refl.
  - exists S2. split; [eapply grown_trans; eauto|]. eapply evs_act; [reflexivity | exact E2].
Qed.

Section Sem.
Variable word_char : N -> bool.
Variable parse_string : str -> res document.
Notation C := (call word_char parse_string).

Lemma evs_call {K} f args kws S S' o :
  0 < K -> evs (pred K) (fun n => call_value word_char parse_string (C n) n f args kws) S S' o -> evs K (fun n => C n f args kws) S S' o.
Proof. intros HK H [|n] Hn; [lia|]. cbn [call]. apply H. lia. Qed.
Lemma calc_call {K} S0 f args kws v :
  0 < K -> calc (pred K) S0 (fun n => call_value word_char parse_string (C n) n f args kws) v -> calc K S0 (fun n => C n f args kws) v.
Proof. intros HK H S G0. destruct (H S G0) as (S' & G & E). exists S'. split; [exact G | apply evs_call; [exact HK | exact E]]. Qed.
End Sem.

(** ** Tactics *)
Global Arguments lit : simpl never.
Global Arguments find_method : simpl never.
Global Arguments call : simpl never.
Global Arguments call_value : simpl never.
Global Arguments class_member : simpl never.
Global Arguments global : simpl never.
Global Arguments changes : simpl never.
Global Arguments base_of : simpl never.
Global Arguments str_eqb : simpl never.
Global Arguments str_in : simpl never.
Global Arguments dget : simpl never.
Global Arguments dget_or : simpl never.
Global Arguments table_get : simpl never.
Global Arguments attribute : simpl nomatch.
Global Arguments truth : simpl nomatch.
Global Arguments items : simpl nomatch.
Global Arguments index : simpl nomatch.
Global Arguments text_of : simpl nomatch.
Global Arguments truthy : simpl nomatch.
Global Arguments join : simpl never.
Global Arguments split : simpl never.
Global Arguments strip : simpl never.
Global Arguments or_none : simpl nomatch.
Global Arguments option_map : simpl nomatch.
Global Arguments nat_str : simpl never.
Global Arguments py_index : simpl never.
Global Arguments re_match : simpl never.
Global Arguments re_search : simpl never.
Global Arguments re_sub : simpl never.
Global Arguments parse_regex : simpl never.
Global Arguments Z.eqb : simpl never.
Global Arguments Z.leb : simpl never.
Global Arguments Z.ltb : simpl never.
Global Arguments Z.of_nat : simpl never.
Global Arguments Pos.to_nat : simpl never.
Global Arguments Z.to_nat : simpl never.
Global Arguments Nat.eqb : simpl never.
Global Arguments Nat.leb : simpl never.
Global Arguments Nat.ltb : simpl never.
Global Arguments Nat.sub : simpl never.
Global Arguments Z.add : simpl never.
Global Arguments Z.sub : simpl never.
Global Arguments with_dict : simpl never.
Global Arguments with_object : simpl never.
Global Arguments new_dict : simpl never.
Global Arguments new_object : simpl never.
Global Arguments set_field : simpl never.
Global Arguments set_item : simpl never.

(** Rewriting with a hypothesis about exactly this term. *)
Ltac known_term b := match goal with H : ?c = _ |- _ => constr_eq b c; rewrite H end.
(** What is found in the source. *)
Ltac known := repeat match goal with
  | |- context [lit ""] => change (lit "") with (@nil N)
  | |- context [find_method ?c ?m] => let r := eval hnf in (find_method c m) in change (find_method c m) with r
  | |- context [lookup ?r ?x] => known_term (lookup r x)
  | |- context [dget ?r ?x] => known_term (dget r x)
  | |- context [table_get ?c ?m] => let r := eval hnf in (table_get c m) in change (table_get c m) with r
  | |- context [Pos.to_nat ?p] => let r := eval vm_compute in (Pos.to_nat p) in change (Pos.to_nat p) with r
  | |- context [class_member ?c ?m] => let r := eval hnf in (class_member c m) in change (class_member c m) with r
  | |- context [global ?c] => let r := eval hnf in (global c) in change (global c) with r
  | |- context [changes ?c] => let r := eval hnf in (changes c) in change (changes c) with r
  | |- context [base_of ?c] => let r := eval hnf in (base_of c) in change (base_of c) with r
  end.
Lemma strings_map l : strings (map VStr l) = Some l.
Proof. induction l as [|s l IH]; cbn; [reflexivity | rewrite IH; reflexivity]. Qed.
Lemma leb_nat a p : (Z.of_nat a <=? Z.pos p)%Z = Nat.leb a (Pos.to_nat p).
Proof.
  destruct (Nat.leb_spec a (Pos.to_nat p)); [apply Z.leb_le | apply Z.leb_gt]; rewrite <- positive_nat_Z; lia.
Qed.
Lemma eqb_nat a p : (Z.of_nat a =? Z.pos p)%Z = Nat.eqb a (Pos.to_nat p).
Proof.
  destruct (Nat.eqb_spec a (Pos.to_nat p)); [apply Z.eqb_eq | apply Z.eqb_neq]; rewrite <- positive_nat_Z; lia.
Qed.
Lemma ltb_nat a p : (Z.of_nat a <? Z.pos p)%Z = Nat.ltb a (Pos.to_nat p).
Proof.
  destruct (Nat.ltb_spec a (Pos.to_nat p)); [apply Z.ltb_lt | apply Z.ltb_ge]; rewrite <- positive_nat_Z; lia.
Qed.
Lemma geb_nat a p : (Z.pos p <=? Z.of_nat a)%Z = Nat.leb (Pos.to_nat p) a.
Proof.
  destruct (Nat.leb_spec (Pos.to_nat p) a); [apply Z.leb_le | apply Z.leb_gt]; rewrite <- positive_nat_Z; lia.
Qed.
Lemma ltb_nats a b : (Z.of_nat a <? Z.of_nat b)%Z = Nat.ltb a b.
Proof. destruct (Nat.ltb_spec a b); [apply Z.ltb_lt | apply Z.ltb_ge]; lia. Qed.
Lemma pos_nat a : (0 <? Z.of_nat a)%Z = Nat.ltb 0 a.
Proof. change 0%Z with (Z.of_nat 0). apply ltb_nats. Qed.
Lemma index_map {A B} (f : A -> B) l i : py_index (map f l) i = option_map f (py_index l i).
Proof. unfold py_index. rewrite map_length. destruct (_ <=? _)%Z; [|destruct (_ <? _)%Z; [reflexivity|]]; apply nth_error_map. Qed.
Lemma index_nth {A} (l : list A) i d : i < length l -> py_index l (Z.of_nat i) = Some (nth i l d).
Proof.
  intros H. unfold py_index. destruct (Z.leb_spec 0 (Z.of_nat i)); [|lia]. rewrite Nat2Z.id. apply nth_error_nth'. exact H.
Qed.
Lemma index_last {A} (l : list A) d : 0 < length l -> py_index l (-1) = Some (last l d).
Proof.
  intros H. unfold py_index. change (0 <=? -1)%Z with false. cbv iota. destruct (Z.ltb_spec (Z.of_nat (length l) + -1) 0); [lia|].
  destruct l as [|a l] using rev_ind; [cbn in H; lia|]. rewrite last_last, app_length. cbn [length].
  replace (Z.to_nat _) with (length l) by lia. rewrite nth_error_app2, Nat.sub_diag by lia. reflexivity.
Qed.
Lemma lookup_assign {A} (r : list (string * A)) x v y : lookup (assign r x v) y = if String.eqb y x then Some v else lookup r y.
Proof.
  induction r as [|[z w] r IH]; cbn; [reflexivity|].
  destruct (String.eqb_spec x z) as [->|Hx]; cbn; [destruct (String.eqb y z); reflexivity|].
  rewrite IH. destruct (String.eqb_spec y z) as [->|Hz]; [|reflexivity].
  destruct (String.eqb_spec z x) as [->|]; [contradiction | reflexivity].
Qed.
Lemma truth_found b : truth (found b) = Ret b.
Proof. destruct b; reflexivity. Qed.
Global Arguments found : simpl never.
Definition has_text (o : option str) : bool := match o with Some s => truthy s | None => false end.
Lemma truth_maybe o : truth (or_none (option_map VStr o)) = Ret (has_text o).
Proof. destruct o; reflexivity. Qed.
Create HintDb py.
#[global] Hint Extern 0 (_ <= _) => lia : py.
Lemma get_or (d : dict str) k x : match option_map VStr (dget d k) with Some v => v | None => VStr x end = VStr (dget_or d k x).
Proof. unfold dget_or. destruct (dget d k); reflexivity. Qed.
Ltac more_rewrites := fail.
Ltac rewrites := repeat first [more_rewrites | match goal with
  | |- context [match option_map VStr (dget ?d ?k) with Some _ => _ | None => _ end] => rewrite (get_or d k)
  | |- context [truth (found ?b)] => rewrite (truth_found b)
  | |- context [truth (or_none (option_map VStr ?o))] => rewrite (truth_maybe o)
  | |- context [lookup (assign ?r ?x ?v) ?y] => rewrite (lookup_assign r x v y)
  | |- context [length (map ?f ?l)] => rewrite (map_length f l)
  | |- context [py_index (map ?f ?l) ?i] => rewrite (index_map f l i)
  | |- context [(Z.of_nat ?a <=? Zpos ?p)%Z] => rewrite (leb_nat a p)
  | |- context [(Z.of_nat ?a =? Zpos ?p)%Z] => rewrite (eqb_nat a p)
  | |- context [(Z.of_nat ?a <? Zpos ?p)%Z] => rewrite (ltb_nat a p)
  | |- context [(Zpos ?p <=? Z.of_nat ?a)%Z] => rewrite (geb_nat a p)
  | |- context [(Z.of_nat ?a <? Z.of_nat ?b)%Z] => rewrite (ltb_nats a b)
  | |- context [(0 <? Z.of_nat ?a)%Z] => rewrite (pos_nat a)
  | |- context [strings (map VStr ?l)] => rewrite (strings_map l)
  end].
Ltac simplify := repeat (progress (cbn; unfold construct, class_attribute, super_attribute, dict_value; known; rewrites; known)).
Ltac enter := intros; first [apply calc_call; [lia|] | apply evs_call; [lia|]]; unfold call_value; simplify.
