(** MTable: its constructor writes into the attributes of the tables below it. *)
From Coq Require Import String.
From Verif Require Export LemPyMore SpecHeap.
Local Open Scope string_scope.
Local Open Scope list_scope.
Section Table.
Variable pi : loc -> nat.
Variable L : loc -> Prop.
Hypothesis apart : forall l l', L l -> L l' -> pi l = pi l' -> l = l'.
Variable word_char : N -> bool.
Variable parse_string : str -> res document.
Notation C := (call word_char parse_string).
Notation el := (elem_value pi).
Variable D : nat.                                   (* a bound that is enough for the children *)
Hypothesis HD : 14 <= D.
Notation kid_ok := (kid_ok pi L word_char parse_string D).
Notation "'does' k f args m" := (forall K (HK : D + k <= K) h S, R pi L h S -> sims pi L K (fun n => C n f args []) S (m h) VStr) (at level 10, k at level 9, f at level 9, args at level 9, m at level 9).

Definition inside (e : elem) : Prop := forall l, In l (locs e) -> L l.
Lemma inside_parts n v ch a : inside (Elem n v ch a) -> L a /\ Forall inside ch.
Proof.
  intros H. split; [apply H; left; reflexivity|]. apply Forall_forall. intros e He l Hl. apply H. right. apply in_flat_map. exists e. auto.
Qed.
Lemma R_set h S a k v : R pi L h S -> L a ->
  R pi L (hset h a (dset (hget h a) k v)) (Memory (put (dicts S) (pi a) (dset (hget h a) k v)) (objects S)).
Proof.
  intros H La l Ll. destruct (H l Ll) as (H1 & H2). rewrite hset_length. split; [exact H1|]. cbn [dicts].
  destruct (Nat.eq_dec l a) as [->|Hn].
  - rewrite hget_hset_same by exact H1. eapply put_here. exact H2.
  - rewrite hget_hset_other by exact Hn. rewrite put_other; [exact H2|]. intros E. apply Hn. symmetry. apply apart; assumption.
Qed.
Lemma sims_set {K} {A B} a k v (p : nat -> value -> MM B) h S (o : heap * res A) g : R pi L h S -> L a ->
  (forall S', R pi L (hset h a (dset (hget h a) k v)) S' -> sims pi L K (fun n => p n VNone) S' o g) ->
  sims pi L K (fun n => Act (set_item (pi a) k v) (p n)) S o g.
Proof.
  intros H La W. destruct (W _ (R_set h S a k v H La)) as (S' & H' & E). exists S'. split; [exact H'|].
  eapply evs_act; [|exact E]. unfold set_item. rewrite (R_read pi L h S a H La). reflexivity.
Qed.
Lemma sims_then {K} {A A' B B'} (p : nat -> MM B) (k : nat -> B -> MM B') S h1 (x : A) g1 (o : heap * res A') g :
  sims pi L K p S (h1, Ok x) g1 -> (forall S', R pi L h1 S' -> sims pi L K (fun n => k n (g1 x)) S' o g) -> sims pi L K (fun n => bnd (p n) (k n)) S o g.
Proof.
  intros (S' & H' & E) W. destruct (W S' H') as (S2 & H2 & E2). exists S2. split; [exact H2 | eapply evs_bnd; [exact E | exact E2]].
Qed.
Lemma sims_done {K} {A B} S h (a : A) (b : B) g : R pi L h S -> b = g a -> sims pi L K (fun _ => Ret b) S (h, Ok a) g.
Proof. exact (sims_ret pi L S h a b g). Qed.

Lemma use_sims {K} {A B} (p : nat -> MM B) S h (x : A) b (Q : memory -> Prop) :
  sims pi L K p S (h, Ok x) (fun _ => b) -> (forall S', R pi L h S' -> Q S') -> exists S', evs K p S S' (Done b) /\ Q S'.
Proof. intros (S' & H & E) W. exists S'. split; [exact E | apply W; exact H]. Qed.
Ltac frun := repeat lazymatch goal with
  | |- sims _ _ _ (fun n => bnd (call _ _ n (VMethod _ _ "_add_flag_recursive_if_name") _ _) _) _ _ _ => fail
  | _ => sstep
  end.
Section Flags.
Variable e0 : elem.
Notation self := (plain_object pi "MTable" e0).
Variables name flag : str.
Definition flags (k : nat) (es : list elem) : Prop := forall K (HK : k <= K) h S, R pi L h S ->
  sims pi L K (fun n => C n (VMethod self "MTable" "_add_flag_recursive_if_name") [VList (map el es); VStr name; VStr flag] []) S
    (add_flag_to_all es name flag h, Ok tt) (fun _ => VNone).
Definition flagging (k : nat) (h' : heap) (l : list value) (r : names) (S : memory) : Prop := exists es h,
  l = map el es /\ Forall inside es /\ Forall (fun e => flags k (e_children e)) es /\ R pi L h S /\ add_flag_to_all es name flag h = h'
  /\ lookup r "self" = Some self /\ lookup r "name" = Some (VStr name) /\ lookup r "flag" = Some (VStr flag).
Lemma flags_below k es : 2 <= k -> Forall inside es -> Forall (fun e => flags k (e_children e)) es -> flags (S k) es.
Proof.
  intros Hk I F K HK h S H. senter.
  match goal with |- sims _ _ ?KK (fun n => bnd (for_loop (@?b n) ?xs ?l ?r0) _) _ (?hh, _) _ =>
    assert (X : exists r' S', evs KK (fun n => for_loop (b n) xs l r0) S S' (Done (Next r')) /\ flagging k hh [] r' S')
  end.
  - eapply evs_for with (Inv := flagging k _).
    + intros u l r S1 (es1 & h1 & El & I1 & F1 & H1 & E1 & L1 & L2 & L3). destruct es1 as [|[n v ch a] es1]; [discriminate|]. cbn [map] in El. injection El as -> ->.
      inversion I1 as [|? ? Ie Is]; inversion F1 as [|? ? Fe Fs]; subst. clear I1 F1.
      destruct (inside_parts _ _ _ _ Ie) as (La & Ich). cbn [e_children] in Fe.
      set (r2 := assign r "mathml_element" (el (Elem n v ch a))).
      set (h2 := if str_eqb n name then hset h1 a (dset (hget h1 a) flag flag) else h1).
      exists (Next r2), r2. eapply use_sims with (h := add_flag_to_all ch name flag h2) (x := tt).
      * simple. subst r2 h2. simple. frun.
        -- eapply sims_set; [eassumption | assumption | intros; simple].
           frun. eapply sims_then; [apply Fe; [lia | eassumption]|]. intros. simple. apply sims_done; auto.
        -- frun. eapply sims_then; [apply Fe; [lia | eassumption]|]. intros. simple. apply sims_done; auto.
      * intros S' H'. split; [left; reflexivity|]. exists es1, (add_flag_to_all ch name flag h2). split; [reflexivity|]. split; [exact Is|]. split; [exact Fs|]. split; [exact H'|]. split; [exact E1|]. subst r2; simplify; auto.
    + exists es, h. split; [reflexivity|]. auto 10.
  - destruct X as (r' & S' & E & es1 & h1 & El & I1 & F1 & H1 & E1 & L1 & L2 & L3). destruct es1; [|discriminate]. cbn in E1. subst h1.
    eapply sims_then with (g1 := fun _ => Next r') (x := tt); [exists S'; split; [exact H1 | exact E]|]. intros. simple. apply sims_done; auto.
Qed.
Lemma flags_ok es : Forall inside es -> flags (list_max (map height es) + 3) es.
Proof.
  assert (B : forall e, inside e -> flags (height e + 2) (e_children e)).
  { induction e as [n v ch a IH] using elem_ind'. intros Ie. apply inside_parts in Ie. destruct Ie as (_ & Ich). cbn [e_children height]. rewrite Nat.add_succ_l.
    apply flags_below; [lia | exact Ich|]. rewrite Forall_forall in *. intros c Hc K HK. apply (IH c Hc (Ich c Hc)). pose proof (height_in _ _ Hc). lia. }
  intros I. rewrite Nat.add_succ_r. apply flags_below; [lia | exact I|]. rewrite Forall_forall in *. intros e He K HK. apply (B e (I e He)). pose proof (height_in _ _ He). lia.
Qed.
End Flags.
Lemma has_flag_ok e flag S0 d K (HK : 3 <= K) : nth_error (dicts S0) (pi (e_attributes e)) = Some d ->
  calc K S0 (fun n => C n (VMethod (plain_object pi "MTable" e) "MTable" "_has_flag") [VStr flag] []) (VBool (has_flag d flag)).
Proof. intros H. unfold has_flag. rewrite <- has_text_or. destruct e; cbn in H. enter. run_all. Qed.
Hint Resolve has_flag_ok : py.
Lemma mtable_ok n v ch a : L a -> Forall kid_ok ch ->
  does 1 (VMethod (plain_object pi "MTable" (Elem n v ch a)) "MTable" "convert") [] (snd (MTable_new (map kid_of ch) a [])).
Proof.
  intros La F K HK h S H. unfold MTable_new, cmd1, newline. cbn [snd]. pose proof (has_flag_ok (Elem n v ch a)) as T. cbn [e_attributes] in T. senter. srun.
Qed.
Lemma mtable_new n v ch a h S K (HK : list_max (map height ch) + 4 <= K) : Forall inside ch -> R pi L h S ->
  sims pi L K (fun k => C k (VClass "MTable") [el (Elem n v ch a); adapter] []) S (add_flag_to_all ch (lit "mtable") (lit "innerTable") h, Ok tt)
    (fun _ => plain_object pi "MTable" (Elem n v ch a)).
Proof.
  intros I H. senter. frun. eapply sims_then; [apply flags_ok; [eassumption | lia | eassumption]|]. intros. simple. apply sims_done; auto.
Qed.
End Table.
