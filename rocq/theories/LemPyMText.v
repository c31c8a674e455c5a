(** The source of MText of usecases.py gives what the model gives. *)
From Coq Require Import String.
From Coq Require Import Permutation.
From Verif Require Export LemPyText.
Local Open Scope string_scope.
Local Open Scope list_scope.

Local Opaque all_math_symbols_by_char all_math_symbols_by_glyph math_number_by_glyph all_math_operators_by_char all_math_operators_by_glyph
  utf8_convert normalize strip dget.

Section Sem.
Variable word_char : N -> bool.
Variable parse_string : str -> res document.
Notation C := (call word_char parse_string).
Notation "'gives' k f args v" := (forall K (HK : k <= K) S0, calc K S0 (fun n => C n f args []) v) (at level 10, k at level 9, f at level 9, args at level 9, v at level 9).

(** ** MText *)
Lemma evs_mapM_new {K} {A B} (f : nat -> value -> MM B) (obj : A -> string * list (string * value)) (val : A -> value) (res : nat -> B) :
  (forall a S, evs K (fun n => f n (val a)) S (Memory (dicts S) (objects S ++ [obj a])) (Done (res (length (objects S))))) ->
  forall l S, evs K (fun n => mapM (f n) (map val l)) S (Memory (dicts S) (objects S ++ map obj l)) (Done (map res (seq (length (objects S)) (length l)))).
Proof.
  intros H. induction l as [|a l IH]; intros S; cbn [map mapM length seq].
  - rewrite app_nil_r. destruct S. apply evs_ret.
  - eapply evs_bnd; [apply H|]. eapply evs_bnd; [apply IH|]. cbn [dicts objects]. rewrite <- app_assoc, app_length.
    cbn [app length]. rewrite Nat.add_1_r. apply evs_ret.
Qed.
Lemma calc_mapM {K} S0 {A B} (f : nat -> A -> MM B) l l' :
  Forall2 (fun a b => calc K S0 (fun n => f n a) b) l l' -> calc K S0 (fun n => mapM (f n) l) l'.
Proof.
  induction 1 as [|a b l l' H F IH]; cbn [mapM]; [apply calc_ret|]. eapply calc_bnd; [exact H|]. eapply calc_bnd; [exact IH|]. apply calc_ret.
Qed.
Lemma Forall2_rev' {A B} (P : A -> B -> Prop) l l' : Forall2 P l l' -> Forall2 P (rev l) (rev l').
Proof. induction 1 as [|a b l l' H F IH]; cbn [rev]; [constructor|]. apply Forall2_app; [exact IH | repeat constructor; exact H]. Qed.
Lemma concat_singles {A} (f : A -> str) l : concat (map (fun a => [VStr (f a)]) l) = map VStr (map f l).
Proof. induction l as [|a l IH]; cbn; [reflexivity | rewrite IH; reflexivity]. Qed.
Lemma join_nothing l : join [] l = concat l.
Proof. induction l as [|s [|t l] IH]; [reflexivity | cbn; rewrite app_nil_r; reflexivity |]. cbn in *. rewrite <- IH. reflexivity. Qed.
Lemma evs_for {K} (body : nat -> names -> MM ending) xs (Inv : list value -> names -> memory -> Prop) :
  (forall v l r S, Inv (v :: l) r S ->
     exists e r2 S2, evs K (fun n => bnd (targets r xs v) (body n)) S S2 (Done e) /\ (e = Next r2 \/ e = Continued r2) /\ Inv l r2 S2) ->
  forall l r S, Inv l r S -> exists r' S', evs K (fun n => for_loop (body n) xs l r) S S' (Done (Next r')) /\ Inv [] r' S'.
Proof.
  intros H. induction l as [|v l IH]; intros r S Hr.
  - exists r, S. split; [apply evs_ret | exact Hr].
  - destruct (H v l r S Hr) as (e & r2 & S2 & E & He & H2). destruct (IH r2 S2 H2) as (r' & S' & E' & H').
    exists r', S'. split; [|exact H']. cbn [for_loop].
    apply (evs_eq _ (fun n => bnd (bnd (targets r xs v) (body n)) (fun e => match e with Next r2 | Continued r2 => for_loop (body n) xs l r2 | Returned _ => Ret e end))).
    { intros n. rewrite !run_bnd. destruct (run (targets r xs v) S) as [S1 [a|x|]]; try reflexivity. rewrite !run_bnd. reflexivity. }
    eapply evs_bnd; [exact E|]. destruct He as [-> | ->]; exact E'.
Qed.
Definition from (K : nat) (S Scur : memory) {A} (m : nat -> MM A) (v : A) : Prop := exists S', grown S S' /\ evs K m Scur S' (Done v).
Lemma from_bnd {K} S Scur S1 {A B} (m : nat -> MM A) (k : nat -> A -> MM B) a b :
  evs K m Scur S1 (Done a) -> from K S S1 (fun n => k n a) b -> from K S Scur (fun n => bnd (m n) (k n)) b.
Proof. intros H1 (S' & G & H2). exists S'. split; [exact G | eapply evs_bnd; eauto]. Qed.
Lemma from_assoc {K} S Scur {A B C} (m : nat -> MM A) (k1 : nat -> A -> MM B) (k2 : nat -> B -> MM C) c :
  from K S Scur (fun n => bnd (m n) (fun a => bnd (k1 n a) (k2 n))) c -> from K S Scur (fun n => bnd (bnd (m n) (k1 n)) (k2 n)) c.
Proof. intros (S' & G & E). exists S'. split; [exact G | apply evs_assoc; exact E]. Qed.
Lemma from_calc {K} S Scur {A} (m : nat -> MM A) v : grown S Scur -> calc K Scur m v -> from K S Scur m v.
Proof. intros G H. destruct (H Scur (grown_refl _)) as (S' & G' & E). exists S'. split; [eapply grown_trans; eauto | exact E]. Qed.
Ltac estep := match goal with
  | |- evs _ (fun n => bnd (if ?b then _ else _) _) _ _ _ => known_term b; simplify
  | |- evs _ (fun n => if ?b then _ else _) _ _ _ => known_term b; simplify
  | H : py_index ?l _ = Some _ |- evs _ (fun n => bnd (or_throw _ (py_index ?l _)) _) _ _ _ => rewrite H; simplify
  | |- evs _ (fun n => Ret _) _ _ _ => apply evs_ret
  | |- evs _ (fun n => bnd (bnd _ _) _) _ _ _ => apply evs_assoc
  | |- evs _ (fun n => bnd (Act _ _) _) _ _ _ => cbn [bnd]
  | H : nth_error (objects _) ?r = Some _ |- evs _ (fun n => Act (with_object ?r _) _) _ _ _ => eapply evs_act; [unfold with_object; rewrite H; reflexivity | simplify]
  | H : nth_error (objects _) ?r = Some _ |- evs _ (fun n => Act (set_field ?r _ _) _) _ _ _ => eapply evs_act; [unfold set_field; rewrite H; reflexivity | simplify]
  | |- evs _ (fun n => bnd (Act _ _) _) _ _ _ => cbn [bnd]
  | |- evs _ (fun n => bnd (call _ _ n _ _ _) _) _ _ _ => eapply evs_bnd; [eauto 3 with py nocore | simplify]
  end.
Ltac erun := repeat estep.

Definition char_obj (c : char_rec) : string * list (string * value) := ("Char", [("value", VStr (ch_value c)); ("is_alphanumeric", VBool (ch_alnum c))]).
Lemma char_new s b S K (HK : 1 <= K) :
  evs K (fun n => C n (VClass "Char") [VStr s; VBool b] []) S (Memory (dicts S) (objects S ++ [char_obj (Char s b)])) (Done (VRef (length (objects S)))).
Proof.
  enter. eapply evs_act; [reflexivity|]. simplify. eapply evs_act.
  { unfold set_field. cbn [objects dicts]. rewrite last_object. reflexivity. }
  simplify. rewrite put_last. eapply evs_act.
  { unfold set_field. cbn [objects dicts]. rewrite last_object. reflexivity. }
  simplify. rewrite put_last. apply evs_ret.
Qed.
Definition char_regex := RSeq RBol (RSeq (RChar ascii_alnum) REol).
Lemma match_char s S K (HK : 1 <= K) :
  evs K (fun n => C n (VBuiltin "re.match") [VStr (lit "^[a-zA-Z0-9]$"); VStr s] []) S S (Done (found (matches char_regex s))).
Proof.
  enter. destruct (char_pattern word_char) as (r & E & H). rewrite E. simplify. rewrite (req_match _ _ s H). apply evs_ret.
Qed.
Hint Resolve char_new match_char : py.

(** What is at a place of the memory *)
Definition at_place (S : memory) (k : nat) (c : char_rec) : Prop := nth_error (objects S) k = Some (char_obj c).
Lemma put_other {A} (a : A) : forall l i j, i <> j -> nth_error (put l i a) j = nth_error l j.
Proof.
  induction l as [|b l IH]; intros i j H; [reflexivity|]. destruct i as [|i], j as [|j]; cbn; try reflexivity; [congruence|]. apply IH. congruence.
Qed.
Lemma put_here {A} (a b : A) : forall l i, nth_error l i = Some b -> nth_error (put l i a) i = Some a.
Proof. induction l as [|c l IH]; intros [|i] H; try discriminate; [reflexivity|]. apply IH. exact H. Qed.
Lemma put_right {A} (a : A) : forall l m i, length l <= i -> put (l ++ m) i a = l ++ put m (i - length l) a.
Proof.
  induction l as [|b l IH]; intros m i H; cbn [app length]; [f_equal; lia|]. destruct i as [|i]; [cbn in H; lia|].
  cbn [put]. rewrite IH by (cbn in H; lia). reflexivity.
Qed.
Lemma put_grown S Sm k o : grown S Sm -> length (objects S) <= k -> grown S (Memory (dicts Sm) (put (objects Sm) k o)).
Proof.
  intros (ds & os & E & F) H. exists ds, (put os (k - length (objects S)) o). cbn. rewrite F, put_right by exact H. auto.
Qed.
Lemma at_other S k o ks cs : ~ In k ks -> Forall2 (at_place S) ks cs -> Forall2 (at_place (Memory (dicts S) (put (objects S) k o))) ks cs.
Proof.
  intros H F. induction F as [|j c ks cs Hj F IH]; [constructor|]. constructor; [|apply IH; intros Hk; apply H; right; exact Hk].
  unfold at_place. cbn [objects]. rewrite put_other; [exact Hj|]. intros ->. apply H. left. reflexivity.
Qed.
Lemma last_place ks k : py_index (map VRef (rev ks ++ [k])) (-1) = Some (VRef k).
Proof. rewrite index_map. rewrite (index_last _ 0) by (rewrite app_length; cbn; lia). rewrite last_last. reflexivity. Qed.
Lemma truth_rev ks : truth (VList (map VRef (rev ks))) = Ret (match ks with [] => false | _ => true end).
Proof. destruct ks as [|k ks]; [reflexivity|]. cbn [rev map]. rewrite map_app. destruct (map VRef (rev ks)); reflexivity. Qed.
Definition merging (S : memory) (v : str) (at' : value) (l : list value) (r : names) (Sm : memory) : Prop :=
  exists ks chars merged mchars,
    l = map VRef ks /\ Forall2 (at_place Sm) ks chars /\ Forall2 (at_place Sm) merged mchars /\ NoDup (merged ++ ks)
    /\ (forall k, In k (merged ++ ks) -> length (objects S) <= k) /\ grown S Sm
    /\ lookup r "merged_chars" = Some (VList (map VRef (rev merged))) /\ lookup r "attributes" = Some at'
    /\ mtext_merge_loop chars mchars = mtext_merge (mtext_chars v).
Lemma merging_add S v at' Sm k c ks chars merged mchars r' :
  at_place Sm k c -> Forall2 (at_place Sm) ks chars -> Forall2 (at_place Sm) merged mchars -> NoDup (merged ++ k :: ks) ->
  (forall i, In i (merged ++ k :: ks) -> length (objects S) <= i) -> grown S Sm ->
  lookup r' "merged_chars" = Some (VList (map VRef (rev merged) ++ [VRef k])) -> lookup r' "attributes" = Some at' ->
  mtext_merge_loop chars (c :: mchars) = mtext_merge (mtext_chars v) -> merging S v at' (map VRef ks) r' Sm.
Proof.
  intros Hk Fk Fm Nd Hb G E1 E2 E3. exists ks, chars, (k :: merged), (c :: mchars).
  split; [reflexivity|]. split; [exact Fk|]. split; [constructor; assumption|].
  split; [eapply Permutation_NoDup; [|exact Nd]; symmetry; apply Permutation_middle|].
  split; [intros i Hi; apply Hb; eapply Permutation_in; [|exact Hi]; apply Permutation_middle|].
  split; [exact G|]. cbn [rev]. rewrite map_app. auto.
Qed.
Lemma merging_join S v at' Sm k ks chars j merged mj mchars c r' :
  Forall2 (at_place Sm) ks chars -> at_place Sm j mj -> Forall2 (at_place Sm) merged mchars -> NoDup (j :: merged ++ k :: ks) ->
  (forall i, In i (j :: merged ++ k :: ks) -> length (objects S) <= i) -> grown S Sm ->
  lookup r' "merged_chars" = Some (VList (map VRef (rev (j :: merged)))) -> lookup r' "attributes" = Some at' ->
  mtext_merge_loop chars (c :: mchars) = mtext_merge (mtext_chars v) ->
  merging S v at' (map VRef ks) r' (Memory (dicts Sm) (put (objects Sm) j (char_obj c))).
Proof.
  intros Fk Hj Fm Nd Hb G E1 E2 E3. exists ks, chars, (j :: merged), (c :: mchars).
  apply NoDup_cons_iff in Nd. destruct Nd as (Nj & Nd).
  split; [reflexivity|]. split; [apply at_other; [|exact Fk]; intros Hi; apply Nj, in_app_iff; right; right; exact Hi|].
  split. { constructor; [eapply put_here; exact Hj|]. apply at_other; [|exact Fm]. intros Hi. apply Nj, in_app_iff. left. exact Hi. }
  split. { cbn [app]. constructor; [|apply NoDup_remove_1 in Nd; exact Nd]. intros Hi. apply Nj. apply in_app_iff in Hi. apply in_app_iff. cbn. tauto. }
  split. { intros i [<-|Hi]; apply Hb; [left; reflexivity|]. right. apply in_app_iff in Hi. apply in_app_iff. cbn. tauto. }
  split; [apply put_grown; [exact G|]; apply Hb; left; reflexivity|]. auto.
Qed.
Lemma concat_refs l : concat (map (fun i => [VRef i]) l) = map VRef l.
Proof. induction l as [|i l IH]; cbn; [reflexivity | rewrite IH; reflexivity]. Qed.
Lemma places_seq S : forall cs os, Forall2 (at_place (Memory (dicts S) (os ++ map char_obj cs))) (seq (length os) (length cs)) cs.
Proof.
  induction cs as [|c cs IH]; intros os; cbn [map seq length]; [constructor|]. constructor.
  - unfold at_place. cbn [objects]. rewrite nth_error_app2, Nat.sub_diag by lia. reflexivity.
  - specialize (IH (os ++ [char_obj c])). rewrite app_length in IH. cbn [length] in IH. rewrite Nat.add_1_r, <- app_assoc in IH. exact IH.
Qed.
Lemma text_new' v : gives 4 (VClass "TextCommand") [or_none (option_map VStr v)] (text_command v).
Proof. destruct v; apply (text_new word_char parse_string (Some _)) || apply (text_new word_char parse_string None). Qed.
Hint Resolve text_new' : py.
Lemma mtext_ok n v ch r d S0 K (HK : 9 <= K) : nth_error (dicts S0) r = Some d ->
  calc K S0 (fun k => C k (VMethod (VObj "MText" [("_math_element", (VObj "GenericMathMLElement" [("_name", n); ("_value", VStr v); ("_children", ch); ("_attributes", VDict r)]))]) "MText" "convert") [] [])
    (VStr (mtext_convert v d)).
Proof.
  intros Hd. enter. run_all.
  intros S G. repeat apply from_assoc.
  eapply from_bnd.
  { apply (evs_mapM_new _ (fun c => char_obj (Char [c] (mtext_is_alphanumeric [c]))) (fun c => VStr [c]) (fun i => [VRef i])).
    intros c S1. simplify. unfold mtext_is_alphanumeric. fold char_regex. pose proof (match_char [c]) as Hm. unfold matches in Hm.
    destruct (re_match char_regex [c]); [erun|].
    destruct (str_eqb [c] (lit " ")) eqn:Ec; erun. }
  rewrite concat_refs. set (S1 := Memory _ _). simplify. repeat apply from_assoc.
  match goal with |- from ?K0 _ _ (fun n => bnd (for_loop (@?b n) ?xs ?l ?r0) _) _ =>
    assert (F : exists r' S', evs K0 (fun n => for_loop (b n) xs l r0) S1 S' (Done (Next r')) /\ merging S v (VDict r) [] r' S');
    [apply (evs_for b xs (merging S v (VDict r)))|]
  end.
  - intros u l rr Sm (ks & chars & merged & mchars & El & Fk & Fm & Nd & Hb & Gm & H1 & H2 & H3).
    destruct Fk as [|k c ks chars Hk Fk]; [discriminate|]. injection El as -> ->. unfold at_place in Hk.
    cbn [mtext_merge_loop] in H3. destruct (ch_alnum c) eqn:Ec.
    + destruct Fm as [|j mj merged mchars Hj Fm].
      * do 3 eexists. split; [|split; [left; reflexivity|eapply merging_add with (1 := Hk) (2 := Fk) (3 := Forall2_nil _) (4 := Nd) (5 := Hb) (6 := Gm); [| |exact H3]]].
        { simplify. erun. }
        all: simplify; auto.
      * assert (HL : exists L, map VRef (rev (j :: merged)) = L /\ (match L with [] => false | _ :: _ => true end) = true /\ py_index L (-1) = Some (VRef j)).
        { exists (map VRef (rev (j :: merged))). split; [reflexivity|]. split; [cbn [rev]; rewrite map_app; destruct (map VRef (rev merged)); reflexivity | apply last_place]. }
        destruct HL as (L & EL & L1 & L2). unfold at_place in Hj.
        destruct (ch_alnum mj) eqn:Ej; cbn [app] in Nd, Hb.
        -- do 3 eexists. split; [|split; [right; reflexivity|eapply merging_join with (1 := Fk) (2 := Hj) (3 := Fm) (4 := Nd) (5 := Hb) (6 := Gm); [| |exact H3]]].
           { rewrite EL in H1. simplify. erun. unfold char_obj. cbn [ch_value ch_alnum]. rewrite Ej. apply evs_ret. }
           all: simplify; auto.
        -- do 3 eexists. split; [|split; [left; reflexivity|eapply merging_add with (1 := Hk) (2 := Fk) (3 := Forall2_cons _ _ Hj Fm) (4 := Nd) (5 := Hb) (6 := Gm); [| |exact H3]]].
           { rewrite EL in H1. simplify. erun. }
           all: rewrite ?EL; simplify; auto.
    + assert (H4 : mtext_merge_loop chars (c :: mchars) = mtext_merge (mtext_chars v)) by exact H3.
      do 3 eexists. split; [|split; [left; reflexivity|eapply merging_add with (1 := Hk) (2 := Fk) (3 := Fm) (4 := Nd) (5 := Hb) (6 := Gm); [| |exact H4]]].
      { set (L := map VRef (rev merged)) in *. simplify. erun. }
      all: simplify; auto.
  - exists (seq (length (objects S)) (length v)), (mtext_chars v), [], []. unfold mtext_chars.
    split; [reflexivity|]. split.
    { subst S1. rewrite <- (map_map (fun c => Char [c] (mtext_is_alphanumeric [c])) char_obj). rewrite <- (map_length (fun c => Char [c] (mtext_is_alphanumeric [c])) v). apply places_seq. }
    split; [constructor|]. split; [apply seq_NoDup|]. split; [intros k Hk; apply in_seq in Hk; lia|].
    split; [eexists [], _; rewrite app_nil_r; split; reflexivity|]. repeat split.
  - destruct F as (rr & S2 & E & ks & chars & merged & mchars & El & Fk & Fm & Nd & Hb & Gm & H1 & H2 & H3).
    destruct Fk; [|discriminate]. cbn [mtext_merge_loop] in H3. unfold mtext_convert. rewrite <- H3.
    eapply from_bnd; [exact E|]. simplify. apply from_calc; [exact Gm|].
    assert (Hd2 : nth_error (dicts S2) r = Some d) by (eapply grown_dict; [exact (grown_trans _ _ _ G Gm) | exact Hd]).
    repeat apply calc_assoc. eapply calc_bnd.
    { apply calc_mapM with (l' := map (fun c => [VStr (if negb (ch_alnum c) then mi_convert (ch_value c) [] else text_command_apply (dget d (lit "mathvariant")) (ch_value c))]) (rev mchars)).
      apply Forall2_rev' in Fm. clear - Fm Hd2 H2 HK. induction Fm as [|k c ks cs Hk F IH]; cbn [map]; constructor; [|exact IH]. unfold at_place in Hk. simplify. run_all. }
    rewrite concat_singles. simplify. run_all. rewrite join_nothing. reflexivity.
Qed.
End Sem.
Global Hint Resolve mtext_ok : py.
