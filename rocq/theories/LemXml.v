(** The parser of ModelExpat.v reads what SpecXml.v writes. *)
From Coq Require Import String Lia ZifyBool ZifyN.
From Verif Require Export SpecXml ModelExpat LemBase.
Local Open Scope string_scope.
Local Open Scope list_scope.

Ltac chars := unfold is_white, name_char, name_start, ascii_letter, ascii_digit, xml_char, other_name, quoted, blank, good_char,
  name_rest, name_first in *.
(** Decide the tests of the goal, one after the other. *)
Ltac test1 :=
  match goal with
  | |- context [if ?b then _ else _] =>
      first [ replace b with true by (chars; lia) | replace b with false by (chars; lia) ]
  end.
Ltac tests := repeat (test1; cbv iota beta).

(** ** Running *)
Section Lenient.
Variable lenient : bool.
Local Notation step := (ModelExpat.step lenient).
Local Notation run := (ModelExpat.run lenient).
Fixpoint steps (pos : nat) (s : state) (x : str) : option state :=
  match x with
  | [] => Some s
  | c :: x' => match step pos s c with Go s' => steps (S pos) s' x' | _ => None end
  end.
Lemma steps_app x : forall pos s y,
  steps pos s (x ++ y) = match steps pos s x with Some s' => steps (pos + length x) s' y | None => None end.
Proof.
  induction x as [|c x IH]; intros pos s y; cbn -[ModelExpat.step]; [rewrite Nat.add_0_r; reflexivity|].
  destruct (step pos s c) as [s'| |]; [|reflexivity|reflexivity].
  rewrite IH. replace (S pos + length x) with (pos + S (length x)) by lia. reflexivity.
Qed.
Lemma steps_seq pos s x y s' s'' :
  steps pos s x = Some s' -> steps (pos + length x) s' y = Some s'' -> steps pos s (x ++ y) = Some s''.
Proof. intros H. rewrite steps_app, H. auto. Qed.
Lemma run_steps x : forall pos s y s', steps pos s x = Some s' -> run pos s (x ++ y) = run (pos + length x) s' y.
Proof.
  induction x as [|c x IH]; intros pos s y s' H; cbn -[ModelExpat.step] in *; [injection H as ->; rewrite Nat.add_0_r; reflexivity|].
  destruct (step pos s c) as [s1| |]; [|discriminate|discriminate].
  rewrite (IH _ _ _ _ H). f_equal. lia.
Qed.

Definition st doc stack seen m : state := State doc stack seen m.

(** ** References *)
Fixpoint ref_steps (r : reference) (x : str) : option reference :=
  match x with
  | [] => Some r
  | c :: x' => match ref_step r c with RGo r' => ref_steps r' x' | _ => None end
  end.
Lemma decimal_steps ds : forall v, Forall (fun d => 48 <= d <= 57)%N ds ->
  ref_steps (RDec v) ds = Some (RDec (fold_left (fun v d => v * 10 + (d - 48))%N ds v)).
Proof.
  induction ds as [|d ds IH]; intros v H; [reflexivity|]. inversion H; subst. cbn [ref_steps ref_step fold_left].
  tests. apply IH. assumption.
Qed.
Lemma hex_value_ok d : (48 <= d <= 57 \/ 65 <= d <= 70 \/ 97 <= d <= 102)%N -> hex_value d = Some (hex_digit_value d).
Proof. intros H. unfold hex_value, hex_digit_value. destruct H as [H|[H|H]]; tests; reflexivity. Qed.
Lemma hex_steps ds : forall v, Forall (fun d => 48 <= d <= 57 \/ 65 <= d <= 70 \/ 97 <= d <= 102)%N ds ->
  ref_steps (RHex v) ds = Some (RHex (fold_left (fun v d => v * 16 + hex_digit_value d)%N ds v)).
Proof.
  induction ds as [|d ds IH]; intros v H; [reflexivity|]. inversion H; subst. cbn [ref_steps ref_step fold_left].
  rewrite hex_value_ok by assumption. apply IH. assumption.
Qed.
Lemma ref_reads c n : refers c n -> good_char c \/ c = 13%N -> exists r, ref_steps RStart n = Some r /\ ref_step r 59 = RDone c.
Proof.
  intros R G. destruct R as [| | | | |ds NE F|ds NE F].
  1-5: eexists; split; [reflexivity|reflexivity].
  - destruct ds as [|d ds]; [congruence|]. inversion F; subst. eexists. cbn [lit app ref_steps].
    change (lit "#") with [35%N]. cbn [app ref_steps]. change (ref_step RStart 35) with (RGo RHash). cbv iota. split.
    + cbn [ref_step]. tests. apply decimal_steps. assumption.
    + unfold decimal_value in *. cbn [fold_left] in *. cbn [ref_step]. change (0 * 10)%N with 0%N in *. rewrite N.add_0_l in *.
      unfold char_number. tests. reflexivity.
  - destruct ds as [|d ds]; [congruence|]. inversion F; subst. eexists.
    change (lit "#x") with [35%N; 120%N]. cbn [app ref_steps].
    change (ref_step RStart 35) with (RGo RHash). cbv iota. change (ref_step RHash 120) with (RGo RHex0). cbv iota. split.
    + cbn [ref_step]. rewrite hex_value_ok by assumption. apply hex_steps. assumption.
    + unfold hex_number in *. cbn [fold_left] in *. cbn [ref_step]. change (0 * 16)%N with 0%N in *. rewrite N.add_0_l in *.
      change (hex_value 59) with (@None N). unfold char_number. tests. reflexivity.
Qed.
Lemma undefined_steps n : undefined n -> exists r, ref_steps RStart n = Some r /\ ref_step r 59 = RFail 11.
Proof.
  intros ((c & s & -> & C & F) & N). exists (RName (c :: s)). split.
  - cbn [ref_steps ref_step]. tests. assert (H : forall acc, ref_steps (RName acc) s = Some (RName (acc ++ s))).
    { clear N. induction F as [|d s D F IH]; intros acc; [rewrite app_nil_r; reflexivity|]. cbn [ref_steps ref_step]. tests.
      rewrite IH, <- app_assoc. reflexivity. }
    apply H.
  - cbn [ref_step]. tests. unfold predefined. cbn [In] in N.
    repeat match goal with |- context [str_eqb ?a ?b] => destruct (str_eqb a b) eqn:?E end;
      try reflexivity; exfalso; apply N;
      match goal with E : str_eqb _ _ = true |- _ => apply str_eqb_eq in E; rewrite E end; tauto.
Qed.
Lemma steps_ref n : forall pos doc stack seen p r r', ref_steps r n = Some r' ->
  steps pos (State doc stack seen (Ref p r)) n = Some (State doc stack seen (Ref p r')).
Proof.
  induction n as [|c n IH]; intros pos doc stack seen p r r' H; cbn [ref_steps steps] in *; [congruence|].
  unfold ModelExpat.step; cbn [s_scan]. destruct (ref_step r c); try discriminate. apply IH. assumption.
Qed.
Lemma steps_attr_ref n : forall pos doc stack seen g k q v p r r', ref_steps r n = Some r' ->
  steps pos (State doc stack seen (AttrRef g k q v p r)) n = Some (State doc stack seen (AttrRef g k q v p r')).
Proof.
  induction n as [|c n IH]; intros pos doc stack seen g k q v p r r' H; cbn [ref_steps steps] in *; [congruence|].
  unfold ModelExpat.step; cbn [s_scan]. destruct (ref_step r c); try discriminate. apply IH. assumption.
Qed.

Ltac one := cbn [steps]; unfold ModelExpat.step; cbn [s_scan s_stack s_doc s_seen]; unfold goto, with_scan; cbn [s_doc s_stack s_seen s_scan].

(** ** Character data *)
Definition push_char (ch : list dnode) (c : N) : list dnode :=
  match ch with DText d :: ch' => DText (d ++ [c]) :: ch' | _ => DText [c] :: ch end.
Lemma add_char_inside doc name l ch stack seen m c :
  add_char (State doc ((name, l, ch) :: stack) seen m) c = State doc ((name, l, push_char ch c) :: stack) seen m.
Proof. unfold add_char; cbn. destruct ch as [|[]]; reflexivity. Qed.
Lemma push_text d : forall e ch, fold_left push_char d (DText e :: ch) = DText (e ++ d) :: ch.
Proof.
  induction d as [|c d IH]; intros e ch; cbn; [rewrite app_nil_r; reflexivity|].
  rewrite IH, <- app_assoc. reflexivity.
Qed.
Lemma push_first d ch : d <> [] -> text_next ch = false -> fold_left push_char d ch = DText d :: ch.
Proof.
  destruct d as [|c d]; [congruence|]. intros _ H. cbn [fold_left].
  replace (push_char ch c) with (DText [c] :: ch) by (destruct ch as [|[]]; try reflexivity; discriminate).
  rewrite push_text. reflexivity.
Qed.
Lemma occurs_shift w a b s : ~ occurs w (a ++ b ++ s) -> ~ occurs w (b ++ s).
Proof. intros N (u & v & E). apply N. exists (a ++ u), v. rewrite E, <- !app_assoc. reflexivity. Qed.
Lemma steps_text d x : written lenient (fun c => ~ In c [60; 38]%N) d x -> forall pos doc name l ch stack seen k,
  k <= 2 -> ~ occurs (lit "]]>") (repeat 93%N k ++ x) ->
  exists k', steps pos (State doc ((name, l, ch) :: stack) seen (Between k)) x
             = Some (State doc ((name, l, fold_left push_char d ch) :: stack) seen (Between k')).
Proof.
  induction 1 as [|c d x G R W IH|c n d x R G W IH|n d x L U W IH]; intros pos doc name l ch stack seen k K N.
  - exists k. reflexivity.
  - assert (N' : ~ occurs (lit "]]>") (repeat 93%N (brackets_after k c) ++ x)).
    { unfold brackets_after. destruct (N.eqb_spec c 93) as [->|].
      - assert (C : k <= 1 \/ k = 2) by lia. destruct C as [C| ->].
        + replace (Nat.min 2 (S k)) with (S k) by lia. cbn [repeat]. rewrite repeat_cons, <- app_assoc. exact N.
        + apply (occurs_shift _ [93%N]). exact N.
      - apply (occurs_shift _ (repeat 93%N k ++ [c]) []). rewrite <- app_assoc. exact N. }
    destruct (IH (S pos) doc name l (push_char ch c) stack seen (brackets_after k c)) as (k' & E).
    { unfold brackets_after. destruct (c =? 93)%N; lia. }
    { exact N'. }
    exists k'. one. cbn [In] in R. tests.
    destruct ((c =? 62)%N && Nat.leb 2 k) eqn:B.
    + exfalso. apply andb_true_iff in B. destruct B as [B1 B2]. apply N.eqb_eq in B1. apply Nat.leb_le in B2. subst c.
      assert (k = 2) by lia. subst k. apply N. exists [], x. reflexivity.
    + rewrite add_char_inside. exact E.
  - destruct (ref_reads c n R G) as (r & R1 & R2).
    destruct (IH (S (S (pos + length n))) doc name l (push_char ch c) stack seen 0) as (k' & E).
    { lia. }
    { apply (occurs_shift _ (repeat 93%N k ++ lit "&" ++ n ++ lit ";") []). rewrite <- !app_assoc. exact N. }
    exists k'. change (lit "&" ++ n ++ lit ";" ++ x) with (38%N :: n ++ 59%N :: x). one.
    cbn [N.eqb Pos.eqb]. rewrite steps_app, (steps_ref n _ _ _ _ _ _ _ R1). one. rewrite R2. rewrite add_char_inside.
    replace (S (S pos + length n)) with (S (S (pos + length n))) by lia. exact E.
  - destruct (undefined_steps n U) as (r & R1 & R2).
    destruct (IH (S (S (pos + length n))) doc name l ch stack seen 0) as (k' & E).
    { lia. }
    { apply (occurs_shift _ (repeat 93%N k ++ lit "&" ++ n ++ lit ";") []). rewrite <- !app_assoc. exact N. }
    exists k'. change (lit "&" ++ n ++ lit ";" ++ x) with (38%N :: n ++ 59%N :: x). one.
    cbn [N.eqb Pos.eqb]. rewrite steps_app, (steps_ref n _ _ _ _ _ _ _ R1). one. rewrite R2, L. cbn [andb Nat.eqb]. cbv iota.
    replace (S (S pos + length n)) with (S (S (pos + length n))) by lia. exact E.
Qed.

(** ** Names *)
Lemma last_app_one (acc : str) c : last (acc ++ [c]) 0%N = c.
Proof. induction acc as [|a acc IH]; [reflexivity|]. cbn [app]. destruct (acc ++ [c]) eqn:E; [destruct acc; discriminate|]. exact IH. Qed.
(** A name so far, to which any name character can be added. *)
Definition open_name (acc : str) : Prop := last acc 0%N <> 58%N.
Lemma next_rest acc c : open_name acc -> name_rest c -> name_next acc c = NGo /\ open_name (acc ++ [c]).
Proof.
  unfold open_name, name_next. intros O C. replace (last acc 0 =? 58)%N with false by lia. replace (name_char c) with true by (chars; lia).
  rewrite last_app_one. split; [reflexivity|chars; lia].
Qed.
Lemma next_end acc c : open_name acc -> ~ name_rest c -> c <> 58%N -> (c < 128)%N -> name_next acc c = NEnd.
Proof. unfold open_name, name_next. intros O C1 C2 C3. tests. replace (other_name c) with false by (chars; lia). reflexivity. Qed.
Lemma next_colon acc : open_name acc -> ~ In 58%N acc -> name_next acc 58 = NGo.
Proof.
  unfold open_name, name_next. intros O N. replace (last acc 0 =? 58)%N with false by lia. cbn [name_char name_start]. tests.
  destruct (existsb (N.eqb 58) acc) eqn:E; [|reflexivity]. exfalso. apply existsb_exists in E. destruct E as (c & I & E). apply N.eqb_eq in E.
  subst c. auto.
Qed.
Lemma next_first acc c : name_first c -> name_next (acc ++ [58%N]) c = NGo /\ open_name ((acc ++ [58%N]) ++ [c]).
Proof.
  unfold open_name, name_next. intros C. rewrite !last_app_one. cbn [N.eqb Pos.eqb]. replace (name_start c) with true by (chars; lia).
  split; [reflexivity|chars; lia].
Qed.
(** The steps of a whole name after its first character. *)
Inductive goes : str -> str -> Prop :=
| goes_nil acc : open_name acc -> goes acc []
| goes_cons acc c s : name_next acc c = NGo -> goes (acc ++ [c]) s -> goes acc (c :: s).
Lemma goes_rest s : forall acc t, open_name acc -> Forall name_rest s -> (open_name (acc ++ s) -> goes (acc ++ s) t) -> goes acc (s ++ t).
Proof.
  induction s as [|c s IH]; intros acc t O F G; [rewrite app_nil_r in G; auto|]. inversion F; subst.
  destruct (next_rest acc c O H1) as (A & B). cbn [app]. constructor; [exact A|]. apply IH; auto. rewrite <- app_assoc. exact G.
Qed.
Lemma qualified_goes n : qualified n -> exists c s, n = c :: s /\ name_first c /\ goes [c] s.
Proof.
  intros [(c & s & -> & C & F)|(p & m & (c & s & -> & C & F) & (c' & s' & -> & C' & F') & ->)].
  - exists c, s. repeat split; auto. rewrite <- (app_nil_r s). apply goes_rest; auto; [unfold open_name; cbn; chars; lia|].
    intros O. constructor. exact O.
  - exists c, (s ++ lit ":" ++ c' :: s'). repeat split; auto. apply goes_rest; auto; [unfold open_name; cbn; chars; lia|].
    intros O. change (lit ":" ++ c' :: s') with (58%N :: c' :: s'). constructor.
    + apply next_colon; [exact O|]. intros [->|I]; [chars; lia|]. rewrite Forall_forall in F. specialize (F _ I). chars. lia.
    + destruct (next_first ([c] ++ s) c' C') as (A & B). constructor; [exact A|]. rewrite <- (app_nil_r s'). apply goes_rest; auto.
      intros O'. constructor. exact O'.
Qed.
Lemma goes_open acc s : goes acc s -> open_name (acc ++ s).
Proof. induction 1; [rewrite app_nil_r; assumption|]. rewrite <- app_assoc in IHgoes. exact IHgoes. Qed.
Lemma steps_name s : forall pos doc stack seen p acc, goes acc s ->
  steps pos (State doc stack seen (Name p acc)) s = Some (State doc stack seen (Name p (acc ++ s))).
Proof.
  induction s as [|c s IH]; intros pos doc stack seen p acc F; [rewrite app_nil_r; reflexivity|].
  inversion F; subst. one. rewrite H2. rewrite IH, <- app_assoc by assumption. reflexivity.
Qed.
Lemma steps_attr_name s : forall pos doc stack seen g q acc, goes acc s ->
  steps pos (State doc stack seen (AttrName g q acc)) s = Some (State doc stack seen (AttrName g q (acc ++ s))).
Proof.
  induction s as [|c s IH]; intros pos doc stack seen g q acc F; [rewrite app_nil_r; reflexivity|].
  inversion F; subst. one. rewrite H2. rewrite IH, <- app_assoc by assumption. reflexivity.
Qed.
Definition end_name_char (c : N) : Prop := name_rest c \/ c = 58%N.
Lemma qualified_chars n : qualified n -> exists c s, n = c :: s /\ name_first c /\ Forall end_name_char s.
Proof.
  assert (W : forall s, Forall name_rest s -> Forall end_name_char s) by (intros s; apply Forall_impl; left; assumption).
  intros [(c & s & -> & C & F)|(p & m & (c & s & -> & C & F) & (c' & s' & -> & C' & F') & ->)].
  - exists c, s. auto.
  - exists c, (s ++ lit ":" ++ c' :: s'). repeat split; auto. apply Forall_app. split; [auto|]. constructor; [right; reflexivity|].
    constructor; [left; left; exact C'|auto].
Qed.
Lemma steps_end_name s : forall pos doc stack seen p acc, acc <> [] -> Forall end_name_char s ->
  steps pos (State doc stack seen (EndTag p acc)) s = Some (State doc stack seen (EndTag p (acc ++ s))).
Proof.
  induction s as [|c s IH]; intros pos doc stack seen p acc NE F; [rewrite app_nil_r; reflexivity|].
  inversion F; subst. unfold end_name_char in *. one. destruct acc as [|a acc]; [congruence|]. tests. rewrite IH by (assumption || discriminate).
  rewrite <- app_assoc. reflexivity.
Qed.
Lemma steps_pi_name s : forall pos doc stack seen p acc, acc <> [] -> Forall name_rest s ->
  steps pos (State doc stack seen (PiName p acc)) s = Some (State doc stack seen (PiName p (acc ++ s))).
Proof.
  induction s as [|c s IH]; intros pos doc stack seen p acc NE F; [rewrite app_nil_r; reflexivity|].
  inversion F; subst. one. destruct acc as [|a acc]; [congruence|]. tests. rewrite IH by (assumption || discriminate).
  rewrite <- app_assoc. reflexivity.
Qed.
Lemma str_eqb_false a b : a <> b -> str_eqb a b = false.
Proof. apply str_eqb_neq. Qed.
(** ** Attributes *)
Lemma steps_value q v x : q = 34%N \/ q = 39%N -> written lenient (fun c => ~ In c [q; 60; 38; 9; 10]%N) v x ->
  forall pos doc stack seen g k acc,
  steps pos (State doc stack seen (AttrValue g k q acc)) x = Some (State doc stack seen (AttrValue g k q (acc ++ v))).
Proof.
  intros Q. induction 1 as [|c d x G R W IH|c n d x R G W IH|n d x L U W IH]; intros pos doc stack seen g k acc.
  - rewrite app_nil_r. reflexivity.
  - one. cbn [In] in R. tests. rewrite IH, <- app_assoc. 
    replace (if is_white c then 32%N else c) with c by (destruct (is_white c) eqn:B; [chars; lia|reflexivity]). reflexivity.
  - destruct (ref_reads c n R G) as (r & R1 & R2).
    change (lit "&" ++ n ++ lit ";" ++ x) with (38%N :: n ++ 59%N :: x). one.
    replace (38 =? q)%N with false by lia. cbn [N.eqb Pos.eqb]. rewrite steps_app, (steps_attr_ref n _ _ _ _ _ _ _ _ _ _ _ R1). one.
    rewrite R2. rewrite IH, <- app_assoc. reflexivity.
  - destruct (undefined_steps n U) as (r & R1 & R2).
    change (lit "&" ++ n ++ lit ";" ++ x) with (38%N :: n ++ 59%N :: x). one.
    replace (38 =? q)%N with false by lia. cbn [N.eqb Pos.eqb]. rewrite steps_app, (steps_attr_ref n _ _ _ _ _ _ _ _ _ _ _ R1). one.
    rewrite R2, L. cbn [andb Nat.eqb]. cbv iota. rewrite IH. reflexivity.
Qed.
Lemma steps_white m w doc stack seen :
  (forall pos c, blank c -> step pos (State doc stack seen m) c = Go (State doc stack seen m)) ->
  Forall blank w -> forall pos, steps pos (State doc stack seen m) w = Some (State doc stack seen m).
Proof.
  intros H F. induction F as [|c w C F IH]; intros pos; [reflexivity|]. cbn [steps]. rewrite H by assumption. apply IH.
Qed.
Lemma stay_attrs pos doc stack seen g c : blank c ->
  step pos (State doc stack seen (Attrs g)) c = Go (State doc stack seen (Attrs g)).
Proof. intros C. one. tests. reflexivity. Qed.
Lemma stay_eq pos doc stack seen g k c : blank c ->
  step pos (State doc stack seen (AttrEq g k)) c = Go (State doc stack seen (AttrEq g k)).
Proof. intros C. one. tests. reflexivity. Qed.
Lemma stay_quote pos doc stack seen g k c : blank c ->
  step pos (State doc stack seen (AttrQuote g k)) c = Go (State doc stack seen (AttrQuote g k)).
Proof. intros C. one. tests. reflexivity. Qed.

(** Inside a tag, behind its name or an attribute. *)
Definition in_tag (m : scan) (g : start_tag) : Prop :=
  (m = Name (g_pos g) (g_name g) /\ open_name (g_name g) /\ g_attrs g = [] /\ g_bad g = None) \/ m = Attrs g \/ m = AfterValue g.
Lemma tag_eta g : g_attrs g = [] -> g_bad g = None -> Tag (g_pos g) (g_name g) [] None = g.
Proof. destruct g; cbn; intros; subst; reflexivity. Qed.
Lemma in_tag_white pos doc stack seen m g c : in_tag m g -> blank c ->
  step pos (State doc stack seen m) c = Go (State doc stack seen (Attrs g)).
Proof.
  intros [(-> & O & A & B)|[-> | ->]] C; one; [|tests; reflexivity|tests; reflexivity].
  rewrite next_end by (assumption || (chars; lia)). rewrite tag_eta by assumption. tests. reflexivity.
Qed.
Lemma in_tag_close pos doc stack seen m g : in_tag m g ->
  step pos (State doc stack seen m) 62 = finish_tag (State doc stack seen m) g false.
Proof.
  intros [(-> & O & A & B)|[-> | ->]]; one; try reflexivity.
  rewrite next_end by (assumption || (chars; lia)). rewrite tag_eta by assumption. reflexivity.
Qed.
Lemma in_tag_slash pos doc stack seen m g : in_tag m g ->
  step pos (State doc stack seen m) 47 = Go (State doc stack seen (Slash g)).
Proof.
  intros [(-> & O & A & B)|[-> | ->]]; one; try reflexivity.
  rewrite next_end by (assumption || (chars; lia)). rewrite tag_eta by assumption. reflexivity.
Qed.
Lemma steps_in_tag_white w doc stack seen m g : in_tag m g -> w <> [] -> Forall blank w -> forall pos,
  steps pos (State doc stack seen m) w = Some (State doc stack seen (Attrs g)).
Proof.
  intros I NE F pos. destruct w as [|c w]; [congruence|]. inversion F; subst. cbn [steps].
  rewrite (in_tag_white _ _ _ _ _ g) by assumption. apply steps_white; [|assumption]. intros; apply stay_attrs; assumption.
Qed.

Lemma steps_whole_name k : qualified k -> forall pos doc stack seen g,
  steps pos (State doc stack seen (Attrs g)) k = Some (State doc stack seen (AttrName g pos k)) /\ open_name k.
Proof.
  intros Q pos doc stack seen g. destruct (qualified_goes k Q) as (c & s & -> & C & G). split; [|exact (goes_open [c] s G)].
  one. tests. apply (steps_attr_name s _ _ _ _ _ _ [c]). exact G.
Qed.
Lemma attribute_name kv : good_attribute kv -> qualified (fst kv).
Proof. intros (H & _). exact H. Qed.

(** From the end of the attribute name to just after the equals sign. *)
Lemma steps_equals k w pos doc stack seen g q : open_name k -> has_attr g k = false -> Forall blank w ->
  steps pos (State doc stack seen (AttrName g q k)) (w ++ [61%N]) = Some (State doc stack seen (AttrQuote g k)).
Proof.
  intros NK NA F. destruct w as [|c w].
  - cbn [app]. one. rewrite next_end by (assumption || (chars; lia)). rewrite NA. reflexivity.
  - inversion F; subst. cbn [app]. one. rewrite next_end by (assumption || (chars; lia)). rewrite NA. tests.
    rewrite steps_app, steps_white; [reflexivity| |assumption]. intros; apply stay_eq; assumption.
Qed.

Definition with_attrs (g : start_tag) (l : list (str * str)) : start_tag := Tag (g_pos g) (g_name g) (g_attrs g ++ l) (g_bad g).
Lemma steps_attributes l y : attributes_text lenient l y -> forall pos doc stack seen m g,
  in_tag m g -> NoDup (map fst (g_attrs g ++ l)) ->
  exists m', steps pos (State doc stack seen m) y = Some (State doc stack seen m') /\ in_tag m' (with_attrs g l).
Proof.
  induction 1 as [|k v l w w1 w2 q x y NE F Q G W A IH]; intros pos doc stack seen m g I ND.
  - exists m. split; [reflexivity|]. unfold with_attrs. rewrite app_nil_r. destruct g; exact I.
  - apply Forall_app in F. destruct F as [F F2]. apply Forall_app in F2. destruct F2 as [F1 F2].
    assert (NA : has_attr g k = false).
    { unfold has_attr. destruct (str_in k (map fst (g_attrs g))) eqn:B; [|reflexivity]. exfalso.
      apply str_in_spec in B. rewrite map_app in ND. cbn [map fst] in ND. apply NoDup_remove_2 in ND. apply ND.
      apply in_app_iff. auto. }
    destruct (IH (S (pos + length (w ++ k ++ (w1 ++ lit "=") ++ w2 ++ q :: x)))
                doc stack seen (AfterValue (with_attrs g [(k, v)])) (with_attrs g [(k, v)])) as (m' & E & I').
    { right. right. reflexivity. }
    { cbn [g_attrs with_attrs]. rewrite <- app_assoc. exact ND. }
    exists m'. split.
    2: { unfold with_attrs in *. cbn [g_pos g_name g_attrs g_bad] in I'. rewrite <- app_assoc in I'. exact I'. }
    replace (w ++ k ++ w1 ++ lit "=" ++ w2 ++ [q] ++ x ++ [q] ++ y) with ((w ++ k ++ (w1 ++ lit "=") ++ w2 ++ q :: x) ++ q :: y)
      by (rewrite <- !app_assoc; reflexivity).
    apply steps_seq with (s' := State doc stack seen (AttrValue g k q v)).
    + destruct (steps_whole_name k (attribute_name (k, v) G) (pos + length w) doc stack seen g) as (E1 & NK).
      eapply steps_seq; [apply steps_in_tag_white; eassumption|].
      eapply steps_seq; [exact E1|]. eapply steps_seq; [apply steps_equals; assumption|].
      eapply steps_seq; [apply steps_white; [intros; apply stay_quote; assumption|assumption]|].
      one. tests. rewrite (steps_value q v x Q W). reflexivity.
    + one. rewrite N.eqb_refl. exact E.
Qed.

(** ** Start tags *)
Lemma first_after p : forall k, str_eqb (firstn (length p) k) p = match after p k with Some _ => true | None => false end.
Proof.
  induction p as [|c p IH]; intros [|d k]; try reflexivity. cbn [length firstn str_eqb after].
  rewrite N.eqb_sym. destruct (c =? d)%N; [apply IH|reflexivity].
Qed.
Lemma declares_spec k : is_declaration k = declares k.
Proof. unfold is_declaration, declares. f_equal. apply (first_after (lit "xmlns:")). Qed.
Lemma order_spec l : declarations_first l = dom_order l.
Proof.
  unfold declarations_first, dom_order. f_equal; apply filter_ext; intros kv; rewrite declares_spec; reflexivity.
Qed.
Lemma name_no_colon n : good_name n -> ~ In 58%N n.
Proof.
  intros (c & s & -> & C & F) [->|I]; [chars; lia|]. rewrite Forall_forall in F. specialize (F _ I). chars. lia.
Qed.
Lemma not_odd kv : good_attribute kv -> odd_declaration kv = false.
Proof.
  intros (N & X & D). unfold odd_declaration. rewrite declares_spec. destruct (declares (fst kv)) eqn:E; [|reflexivity]. cbn [andb].
  destruct (D eq_refl) as (D1 & D2 & D3 & D4). rewrite !orb_false_iff. repeat split.
  - destruct (str_in _ _) eqn:B; [|reflexivity]. exfalso. apply str_in_spec in B. auto.
  - destruct (str_in _ _) eqn:B; [|reflexivity]. exfalso. apply str_in_spec in B.
    destruct B as [B|[B|[B|[]]]]; auto.
  - destruct (existsb _ _) eqn:B; [|reflexivity]. exfalso. apply existsb_exists in B. destruct B as (c & I & B).
    apply N.eqb_eq in B. subst c. auto.
Qed.
Lemma attributes_good l y : attributes_text lenient l y -> existsb odd_declaration l = false /\ Forall good_attribute l.
Proof.
  induction 1 as [|k v l w w1 w2 q x y NE F Q G W A [I1 I2]]; [auto|]. cbn [existsb]. rewrite not_odd by assumption. auto.
Qed.
(** Prefixes. *)
Lemma split_none n : good_name n -> split_colon n = None.
Proof.
  intros G. apply name_no_colon in G. induction n as [|c n IH]; [reflexivity|]. cbn [split_colon].
  replace (c =? 58)%N with false. 2: { symmetry. apply N.eqb_neq. intros ->. apply G. left. reflexivity. }
  rewrite IH; [reflexivity|]. intros I. apply G. right. exact I.
Qed.
Lemma split_some p m : ~ In 58%N p -> split_colon (p ++ lit ":" ++ m) = Some (p, m).
Proof.
  induction p as [|c p IH]; intros N; [reflexivity|]. cbn [app split_colon].
  replace (c =? 58)%N with false. 2: { symmetry. apply N.eqb_neq. intros ->. apply N. left. reflexivity. }
  rewrite IH; [reflexivity|]. intros I. apply N. right. exact I.
Qed.
Lemma split_qualified n p m : qualified n -> split_colon n = Some (p, m) -> good_name p /\ good_name m /\ n = p ++ lit ":" ++ m.
Proof.
  intros [G|(p' & m' & G & G' & ->)] E; [rewrite split_none in E by assumption; discriminate|].
  rewrite split_some in E by (apply name_no_colon; assumption). injection E as <- <-. auto.
Qed.
Lemma after_colon n : qualified n ->
  match split_colon n with Some (p, m) => if str_eqb p (lit "xmlns") then [m] else [] | None => [] end
  = match after (lit "xmlns:") n with Some m => [m] | None => [] end.
Proof.
  intros Q. assert (A : forall p r, good_name p -> after (lit "xmlns:") (p ++ r) <> None -> ~ In 58%N p -> (r = [] \/ exists r', r = 58%N :: r') ->
                        exists r', p = lit "xmlns" /\ r = 58%N :: r').
  { intros p r G NE NC R. destruct (after (lit "xmlns:") (p ++ r)) as [z|] eqn:E; [|congruence]. clear NE.
    assert (X : forall w s z, after w s = Some z -> s = w ++ z).
    { clear. induction w as [|c w IH]; intros s z E; cbn [after] in E; [injection E as ->; reflexivity|]. destruct s as [|x s]; [discriminate|].
      destruct (N.eqb_spec c x) as [->|]; [|discriminate]. cbn [app]. f_equal. auto. }
    apply X in E. change (lit "xmlns:") with (lit "xmlns" ++ [58%N]) in E. rewrite <- app_assoc in E. cbn [app] in E.
    assert (Y : forall a b c d : str, ~ In 58%N a -> ~ In 58%N c -> a ++ 58%N :: b = c ++ 58%N :: d -> a = c /\ b = d).
    { clear. induction a as [|x a IH]; intros b [|y c] d N1 N2 E; cbn [app] in E; injection E.
      - auto.
      - intros _ <-. exfalso. apply N2. left. reflexivity.
      - intros _ ->. exfalso. apply N1. left. reflexivity.
      - intros E' ->. destruct (IH b c d) as (-> & ->); auto; intros I; [apply N1|apply N2]; right; exact I. }
    destruct R as [->|(r' & ->)].
    - exfalso. rewrite app_nil_r in E. apply NC. rewrite E. apply in_app_iff. right. left. reflexivity.
    - apply Y in E; [|exact NC|vm_compute; intuition discriminate]. exists r'. destruct E as [-> _]. auto. }
  destruct Q as [G|(p & m & G & G' & ->)].
  - rewrite split_none by assumption. destruct (after (lit "xmlns:") n) as [z|] eqn:E; [|reflexivity]. exfalso.
    destruct (A n []) as (r' & _ & X); auto; [rewrite app_nil_r, E; discriminate|apply name_no_colon; assumption|discriminate].
  - assert (NC := name_no_colon p G). rewrite split_some by assumption. destruct (str_eqb p (lit "xmlns")) eqn:E.
    + apply str_eqb_eq in E. subst p. reflexivity.
    + destruct (after (lit "xmlns:") (p ++ lit ":" ++ m)) as [z|] eqn:E2; [|reflexivity]. exfalso.
      destruct (A p (lit ":" ++ m)) as (r' & X & _); auto; [rewrite E2; discriminate|right; exists m; reflexivity|].
      subst p. rewrite str_eqb_refl in E. discriminate.
Qed.
Lemma declares_prefix n p m : qualified n -> split_colon n = Some (p, m) -> declares n = str_eqb p (lit "xmlns").
Proof.
  intros Q E. assert (A := after_colon n Q). rewrite E in A. unfold declares.
  destruct (split_qualified n p m Q E) as (G1 & G2 & ->).
  replace (str_eqb (p ++ lit ":" ++ m) (lit "xmlns")) with false.
  - cbn [orb]. destruct (str_eqb p (lit "xmlns")); destruct (after _ _); try reflexivity; discriminate.
  - symmetry. apply str_eqb_neq. intros X. assert (I : In 58%N (lit "xmlns")) by (rewrite <- X, !in_app_iff; right; left; left; reflexivity).
    vm_compute in I. intuition discriminate.
Qed.
Lemma declared_spec l : Forall (fun kv => qualified (fst kv)) l -> prefixes_declared l = declared l.
Proof.
  induction 1 as [|kv l Q F IH]; [reflexivity|]. unfold prefixes_declared, declared in *. cbn [flat_map]. rewrite IH. f_equal. apply after_colon. exact Q.
Qed.
Lemma good_qualified l : Forall good_attribute l -> Forall (fun kv => qualified (fst kv)) l.
Proof. apply Forall_impl. intros kv (Q & _). exact Q. Qed.
Lemma order_In l kv : In kv (dom_order l) <-> In kv l.
Proof.
  unfold dom_order. rewrite in_app_iff, !filter_In. destruct (declares (fst kv)); cbn [negb]; intuition discriminate.
Qed.
Lemma declared_In l p : In p (declared (dom_order l)) <-> In p (declared l).
Proof.
  unfold declared. rewrite !in_flat_map. split; intros (kv & I & J); exists kv; (split; [apply order_In; exact I|exact J]).
Qed.

(** The prefixes declared by the open elements are those of the specification. *)
Definition stack_prefixes (stack : list frame) : list str := flat_map (fun f => prefixes_declared (snd (fst f))) stack.
Definition same_prefixes (stack : list frame) (ps : list str) : Prop := forall p, In p (stack_prefixes stack) <-> In p ps.
Lemma same_deeper stack ps n l ch : Forall (fun kv => qualified (fst kv)) l -> same_prefixes stack ps ->
  same_prefixes ((n, l, ch) :: stack) (declared l ++ ps).
Proof.
  intros F S p. unfold stack_prefixes. cbn [flat_map fst snd]. rewrite declared_spec by assumption. rewrite !in_app_iff. rewrite <- (S p). reflexivity.
Qed.
Lemma same_child n l ch ch' stack ps : same_prefixes ((n, l, ch) :: stack) ps -> same_prefixes ((n, l, ch') :: stack) ps.
Proof. intros S. exact S. Qed.
Lemma repeated_no (l : list str) : NoDup l -> repeated l = false.
Proof.
  induction 1 as [|x l N ND IH]; [reflexivity|]. cbn [repeated]. rewrite IH, orb_false_r. destruct (str_in x l) eqn:E; [|reflexivity].
  apply str_in_spec in E. contradiction.
Qed.
Lemma locals_apart l : Forall good_attribute l -> NoDup (map fst l) ->
  (forall p p' m v v', In (p ++ lit ":" ++ m, v) l -> In (p' ++ lit ":" ++ m, v') l -> p = lit "xmlns" \/ p' = lit "xmlns" \/ p = p') ->
  NoDup (locals l).
Proof.
  induction 1 as [|[k v] l (Q & _) F IH]; intros ND H; [constructor|]. cbn [map fst] in *. inversion ND; subst.
  assert (IH' : NoDup (locals l)). { apply IH; [assumption|]. intros p p' m v0 v' I I'. apply (H p p' m v0 v'); right; assumption. }
  unfold locals. cbn [flat_map fst]. fold (locals l). rewrite declares_spec. destruct (declares k) eqn:D; [exact IH'|].
  destruct (split_colon k) as [[p m]|] eqn:E; [|exact IH']. constructor; [|exact IH'].
  intros I. apply in_flat_map in I. destruct I as ([k' v'] & I & J). cbn [fst] in J. rewrite declares_spec in J.
  destruct (declares k') eqn:D'; [destruct J|]. destruct (split_colon k') as [[p' m']|] eqn:E'; [|destruct J]. destruct J as [->|[]].
  assert (Q' : qualified k'). { rewrite Forall_forall in F. apply (F _ I). }
  rewrite (declares_prefix k p m Q E) in D. rewrite (declares_prefix k' p' m Q' E') in D'.
  destruct (split_qualified _ _ _ Q E) as (_ & _ & ->). destruct (split_qualified _ _ _ Q' E') as (_ & _ & ->).
  destruct (H p p' m v v') as [X|[X|X]]; [left; reflexivity|right; exact I| | |].
  - subst p. rewrite str_eqb_refl in D. discriminate.
  - subst p'. rewrite str_eqb_refl in D'. discriminate.
  - subst p'. apply H2. apply in_map_iff. exists (p ++ lit ":" ++ m, v'). auto.
Qed.
Lemma tag_finishes pos n l0 y ps stack : qualified n -> NoDup (map fst l0) -> names_bound ps n l0 -> attributes_text lenient l0 y ->
  same_prefixes stack ps -> forall doc' seen' m' e,
    finish_tag (State doc' stack seen' m') (Tag pos n l0 None) e
    = if e then Go (add_node (State doc' stack true (Between 0)) (DElem n (dom_order l0) []))
      else Go (State doc' ((n, dom_order l0, []) :: stack) true (Between 0)).
Proof.
  intros Q ND (B1 & B2 & B3) A SP doc' seen' m' e. destruct (attributes_good _ _ A) as (O & G). assert (GQ := good_qualified l0 G).
  unfold finish_tag. cbn [g_attrs g_bad g_name s_doc s_stack].
  rewrite O, (repeated_no _ (locals_apart l0 G ND B3)), order_spec. cbn [orb].
  assert (PX : prefixed_with_xmlns n = false).
  { unfold prefixed_with_xmlns. destruct (split_colon n) as [[p m]|] eqn:E; [|reflexivity].
    destruct (split_qualified n p m Q E) as (_ & _ & ->). apply str_eqb_neq. apply (B1 p m eq_refl). }
  rewrite PX. assert (IN : forall p, In p (lit "xml" :: declared l0 ++ ps) -> str_in p (prefixes stack l0) = true).
  { intros p I. apply str_in_spec. unfold prefixes. rewrite declared_spec by assumption. fold (stack_prefixes stack).
    destruct I as [I|I]; [left; exact I|right]. rewrite in_app_iff in *. rewrite (SP p). exact I. }
  replace (existsb _ _) with false; [reflexivity|]. symmetry. apply not_true_iff_false. intros X. apply existsb_exists in X.
  destruct X as (k & I & U). unfold unbound in U. destruct (split_colon k) as [[p m]|] eqn:E; [|discriminate]. apply negb_true_iff in U.
  destruct I as [<-|I].
  - destruct (split_qualified n p m Q E) as (_ & _ & X). rewrite IN in U; [discriminate|]. apply (B1 p m X).
  - apply in_map_iff in I. destruct I as ([k' v] & <- & I). cbn [fst] in *. apply filter_In in I. destruct I as [I J]. cbn [fst] in J.
    rewrite declares_spec in J. assert (Q' : qualified k'). { rewrite Forall_forall in GQ. apply (GQ _ I). }
    rewrite (declares_prefix k' p m Q' E) in J. apply negb_true_iff, str_eqb_neq in J.
    destruct (split_qualified k' p m Q' E) as (_ & _ & X). subst k'. destruct (B2 p m v I) as [Y|Y]; [contradiction|].
    rewrite IN in U; [discriminate|exact Y].
Qed.
Lemma steps_open n pos doc stack seen k : qualified n -> (stack = [] -> seen = false) ->
  steps pos (State doc stack seen (Between k)) (60%N :: n) = Some (State doc stack seen (Name pos n)) /\ open_name n.
Proof.
  intros Q S. destruct (qualified_goes n Q) as (c & s & -> & C & G). split; [|exact (goes_open [c] s G)]. cbn [steps].
  change (step pos (State doc stack seen (Between k)) 60) with (Go (State doc stack seen (Lt pos))). cbv iota.
  one. replace (c =? 33)%N with false by (chars; lia). replace (c =? 63)%N with false by (chars; lia).
  replace (c =? 47)%N with false by (chars; lia). cbn [andb]. replace (name_start c) with true by (chars; lia).
  replace (negb match stack with [] => false | _ :: _ => true end && seen) with false
    by (destruct stack; [rewrite S by reflexivity|]; reflexivity).
  cbv iota. rewrite (steps_name s _ _ _ _ _ [c]) by assumption. reflexivity.
Qed.
Lemma steps_tag_part n l y w : qualified n -> NoDup (map fst l) -> attributes_text lenient l y -> Forall blank w ->
  forall pos doc stack seen k, (stack = [] -> seen = false) ->
  exists m, steps pos (State doc stack seen (Between k)) (lit "<" ++ n ++ y ++ w) = Some (State doc stack seen m) /\ in_tag m (Tag pos n l None).
Proof.
  intros Q ND A W pos doc stack seen k S. destruct (steps_open n pos doc stack seen k Q S) as (E0 & O).
  destruct (steps_attributes l y A (pos + length (60%N :: n)) doc stack seen (Name pos n) (Tag pos n [] None))
    as (m & E & I); [left; auto|assumption|].
  change (lit "<" ++ n ++ y ++ w) with ((60%N :: n) ++ y ++ w). destruct w as [|c0 w].
  - exists m. split; [|exact I]. rewrite app_nil_r. eapply steps_seq; [exact E0|exact E].
  - exists (Attrs (Tag pos n l None)). split; [|right; left; reflexivity].
    eapply steps_seq; [exact E0|]. eapply steps_seq; [exact E|].
    apply steps_in_tag_white; [exact I|discriminate|exact W].
Qed.
Lemma steps_tag ps n l x : tag_text lenient ps n l x -> forall pos doc stack seen k, (stack = [] -> seen = false) -> same_prefixes stack ps ->
  exists m g, steps pos (State doc stack seen (Between k)) x = Some (State doc stack seen m) /\ in_tag m g
    /\ forall doc' seen' m' e,
       finish_tag (State doc' stack seen' m') g e
       = if e then Go (add_node (State doc' stack true (Between 0)) (DElem n l []))
         else Go (State doc' ((n, l, []) :: stack) true (Between 0)).
Proof.
  intros (l0 & y & w & Q & ND & B & A & W & -> & ->) pos doc stack seen k S SP.
  destruct (steps_tag_part n l0 y w Q ND A W pos doc stack seen k S) as (m & E & I).
  exists m, (Tag pos n l0 None). split; [exact E|]. split; [exact I|]. intros. eapply tag_finishes; eassumption.
Qed.
Lemma tag_qualified ps n l x : tag_text lenient ps n l x -> qualified n /\ Forall (fun kv => qualified (fst kv)) l.
Proof.
  intros (l0 & y & w & Q & _ & _ & A & _ & -> & _). split; [exact Q|]. apply Forall_forall. intros kv I. apply -> order_In in I.
  destruct (attributes_good _ _ A) as (_ & G). rewrite Forall_forall in G. apply (G _ I).
Qed.

(** ** End tags, comments, CDATA, processing instructions *)
Lemma steps_end n w : qualified n -> Forall blank w -> forall pos doc l ch stack seen k,
  steps pos (State doc ((n, l, ch) :: stack) seen (Between k)) (lit "</" ++ n ++ w ++ lit ">")
  = Some (add_node (State doc stack seen (Between 0)) (DElem n l (rev ch))).
Proof.
  intros Q W pos doc l ch stack seen k. destruct (qualified_chars n Q) as (c & s & -> & C & F).
  change (lit "</" ++ (c :: s) ++ w ++ lit ">") with (60%N :: 47%N :: c :: s ++ w ++ [62%N]). cbn [steps].
  change (step pos (State doc ((c :: s, l, ch) :: stack) seen (Between k)) 60) with (Go (State doc ((c :: s, l, ch) :: stack) seen (Lt pos))).
  cbv iota.
  change (step (S pos) (State doc ((c :: s, l, ch) :: stack) seen (Lt pos)) 47)
    with (Go (State doc ((c :: s, l, ch) :: stack) seen (EndTag pos []))).
  cbv iota. one. tests. eapply steps_seq; [apply steps_end_name; [discriminate|assumption]|].
  cbn [app]. destruct w as [|c0 w].
  - cbn [app]. one. unfold close_tag. cbn [s_stack]. rewrite str_eqb_refl. reflexivity.
  - inversion W; subst. cbn [app]. one. tests.
    eapply steps_seq; [apply steps_white; [|assumption]|].
    { intros pos' c' W'. one. tests. reflexivity. }
    one. unfold close_tag. cbn [s_stack]. rewrite str_eqb_refl. reflexivity.
Qed.

Lemma occurs_cons w c s : ~ occurs w (c :: s) -> ~ occurs w s.
Proof. intros N (a & b & ->). apply N. exists (c :: a), b. reflexivity. Qed.
Lemma steps_comment d : Forall good_char d -> ~ occurs (lit "--") (d ++ lit "-") -> forall pos doc stack seen p acc,
  steps pos (State doc stack seen (Comment p acc)) (d ++ lit "-->") = Some (add_node (State doc stack seen (Between 0)) (DComment (acc ++ d)))
  /\ ((forall c d', d = c :: d' -> c <> 45%N) -> d <> [] ->
      steps pos (State doc stack seen (CommentDash p acc)) (d ++ lit "-->")
      = Some (add_node (State doc stack seen (Between 0)) (DComment (acc ++ 45%N :: d)))).
Proof.
  induction d as [|c d IH]; intros F N pos doc stack seen p acc.
  - split; [|congruence]. rewrite app_nil_r. reflexivity.
  - inversion F; subst. assert (N' := occurs_cons _ _ _ N). split.
    + change ((c :: d) ++ lit "-->") with (c :: d ++ lit "-->"). one. destruct (N.eqb_spec c 45) as [->|NC].
      * destruct (IH ltac:(assumption) N' (S pos) doc stack seen p acc) as (_ & B). apply B.
        -- intros c d' -> ->. apply N. exists [], (d' ++ lit "-"). reflexivity.
        -- intros ->. apply N. exists [], []. reflexivity.
      * tests. destruct (IH ltac:(assumption) N' (S pos) doc stack seen p (acc ++ [c])) as (A & _). rewrite A, <- app_assoc. reflexivity.
    + intros NC _. assert (c <> 45%N) by (eapply NC; reflexivity).
      change ((c :: d) ++ lit "-->") with (c :: d ++ lit "-->"). one. tests.
      destruct (IH ltac:(assumption) N' (S pos) doc stack seen p (acc ++ [45%N; c])) as (A & _). rewrite A, <- app_assoc. reflexivity.
Qed.

Lemma steps_cdata x : Forall good_char x -> forall pos doc stack seen acc k, k <= 2 -> ~ occurs (lit "]]>") (repeat 93%N k ++ x) ->
  steps pos (State doc stack seen (CData acc k)) x = Some (State doc stack seen (CData (acc ++ x) (fold_left brackets_after x k))).
Proof.
  induction 1 as [|c x G F IH]; intros pos doc stack seen acc k K N; [rewrite app_nil_r; reflexivity|].
  assert (N' : ~ occurs (lit "]]>") (repeat 93%N (brackets_after k c) ++ x)).
  { unfold brackets_after. destruct (N.eqb_spec c 93) as [->|].
    - assert (C : k <= 1 \/ k = 2) by lia. destruct C as [C| ->].
      + replace (Nat.min 2 (S k)) with (S k) by lia. cbn [repeat]. rewrite repeat_cons, <- app_assoc. exact N.
      + apply (occurs_shift _ [93%N]). exact N.
    - apply (occurs_shift _ (repeat 93%N k ++ [c]) []). rewrite <- app_assoc. exact N. }
  one. destruct ((c =? 62)%N && Nat.leb 2 k) eqn:B.
  - exfalso. apply andb_true_iff in B. destruct B as [B1 B2]. apply N.eqb_eq in B1. apply Nat.leb_le in B2. subst c.
    assert (k = 2) by lia. subst k. apply N. exists [], x. reflexivity.
  - tests. rewrite IH; [|unfold brackets_after; destruct (c =? 93)%N; lia|exact N']. rewrite <- app_assoc. reflexivity.
Qed.
Lemma no_end_after d : ~ occurs (lit "]]>") d -> ~ occurs (lit "]]>") (d ++ lit "]]").
Proof.
  intros N (a & b & E). change (lit "]]>") with [93; 93; 62]%N in *. change (lit "]]") with ([93%N] ++ [93%N]) in E.
  destruct b as [|x b _] using rev_ind.
  - rewrite app_nil_r in E. change ([93; 93; 62]%N) with ([93; 93]%N ++ [62%N]) in E. rewrite !app_assoc in E. apply app_inj_tail in E.
    destruct E; discriminate.
  - rewrite !app_assoc in E. apply app_inj_tail in E. destruct E as [E _].
    destruct b as [|y b _] using rev_ind.
    + rewrite app_nil_r in E. change ([93; 93; 62]%N) with ([93; 93]%N ++ [62%N]) in E. rewrite !app_assoc in E. apply app_inj_tail in E.
      destruct E; discriminate.
    + rewrite !app_assoc in E. apply app_inj_tail in E. destruct E as [E _]. apply N. exists a, b. rewrite E, <- app_assoc. reflexivity.
Qed.
Lemma steps_cdata_node d : d <> [] -> Forall good_char d -> ~ occurs (lit "]]>") d -> forall pos doc stack seen k, stack <> [] ->
  steps pos (State doc stack seen (Between k)) (lit "<![CDATA[" ++ d ++ lit "]]>")
  = Some (add_node (State doc stack seen (Between 0)) (DCData d)).
Proof.
  intros NE F N pos doc stack seen k S. destruct stack as [|f stack]; [congruence|].
  eapply steps_seq with (s' := State doc (f :: stack) seen (CData [] 0)); [reflexivity|].
  change (lit "]]>") with (lit "]]" ++ [62%N]). rewrite app_assoc. eapply steps_seq.
  - apply steps_cdata; [apply Forall_app; split; [assumption|change (lit "]]") with [93; 93]%N; repeat (apply Forall_cons; [chars; lia|]); apply Forall_nil]
      |lia|]. cbn [repeat app]. apply no_end_after. assumption.
  - one. cbn [app]. rewrite fold_left_app.
    replace (fold_left brackets_after (lit "]]") (fold_left brackets_after d 0)) with 2.
    2: { change (lit "]]") with [93; 93]%N. cbn [fold_left]. unfold brackets_after at 1 2. cbn [N.eqb Pos.eqb].
         set (z := fold_left brackets_after d 0). clearbody z. destruct z as [|[|z]]; reflexivity. }
    change ((62 =? 62)%N && Nat.leb 2 2) with true. cbv iota.
    replace (firstn (length (d ++ lit "]]") - 2) (d ++ lit "]]")) with d.
    2: { rewrite app_length. change (length (lit "]]")) with 2. rewrite Nat.add_sub, firstn_app, firstn_all, Nat.sub_diag. cbn. rewrite app_nil_r. reflexivity. }
    destruct d as [|c d]; [congruence|]. reflexivity.
Qed.

Lemma lower_xml t : ~ is_xml t -> str_eqb (map lower t) (lit "xml") = false /\ str_eqb t (lit "xml") = false.
Proof.
  intros N. assert (A : map lower t <> lit "xml").
  { intros E. apply N. change (lit "xml") with [120; 109; 108]%N in E.
    destruct t as [|a [|b [|c [|]]]]; try discriminate. cbn [map] in E. injection E as E1 E2 E3.
    exists a, b, c. unfold lower in *. change (lit "xX") with [120; 88]%N. change (lit "mM") with [109; 77]%N.
    change (lit "lL") with [108; 76]%N. split; [reflexivity|]. cbn [In].
    destruct ((65 <=? a) && (a <=? 90))%N; destruct ((65 <=? b) && (b <=? 90))%N; destruct ((65 <=? c) && (c <=? 90))%N; repeat split; lia. }
  split; apply str_eqb_neq; [exact A|]. intros ->. apply A. reflexivity.
Qed.
Lemma steps_pi_data t d : ~ is_xml t -> Forall good_char d -> ~ occurs (lit "?>") d -> forall pos doc stack seen p acc,
  steps pos (State doc stack seen (PiData p t acc)) (d ++ lit "?>") = Some (add_node (State doc stack seen (Between 0)) (DPI t (acc ++ d)))
  /\ ((forall c d', d = c :: d' -> c <> 62%N) ->
      steps pos (State doc stack seen (PiQuestion p t acc)) (d ++ lit "?>")
      = Some (add_node (State doc stack seen (Between 0)) (DPI t (acc ++ 63%N :: d)))).
Proof.
  intros X. destruct (lower_xml t X) as [_ X1]. induction d as [|c d IH]; intros F N pos doc stack seen p acc.
  - split; [|intros _].
    + rewrite app_nil_r. change ([] ++ lit "?>") with [63%N; 62%N]. one. cbn [N.eqb Pos.eqb]. one. cbn [N.eqb Pos.eqb]. unfold finish_pi. rewrite X1. reflexivity.
    + change ([] ++ lit "?>") with [63%N; 62%N]. one. cbn [N.eqb Pos.eqb]. one. cbn [N.eqb Pos.eqb]. unfold finish_pi. rewrite X1. reflexivity.
  - inversion F; subst. assert (N' := occurs_cons _ _ _ N).
    assert (Q : forall c' d', d = c' :: d' -> c = 63%N -> c' <> 62%N).
    { intros c' d' -> -> ->. apply N. exists [], d'. reflexivity. }
    change ((c :: d) ++ lit "?>") with (c :: d ++ lit "?>"). split.
    + one. destruct (N.eqb_spec c 63) as [->|NC].
      * destruct (IH ltac:(assumption) N' (S pos) doc stack seen p acc) as (_ & B). apply B. intros c' d' E. eapply Q; eauto.
      * tests. destruct (IH ltac:(assumption) N' (S pos) doc stack seen p (acc ++ [c])) as (A & _). rewrite A, <- app_assoc. reflexivity.
    + intros NC. assert (c <> 62%N) by (eapply NC; reflexivity). one. replace (c =? 62)%N with false by lia.
      destruct (N.eqb_spec c 63) as [->|NC'].
      * destruct (IH ltac:(assumption) N' (S pos) doc stack seen p (acc ++ [63%N])) as (_ & B). rewrite B.
        -- rewrite <- app_assoc. reflexivity.
        -- intros c' d' E. eapply Q; eauto.
      * tests. destruct (IH ltac:(assumption) N' (S pos) doc stack seen p (acc ++ [63%N; c])) as (A & _). rewrite A, <- app_assoc. reflexivity.
Qed.
Lemma steps_pi_node t w d : good_name t -> ~ is_xml t -> Forall blank w -> (d <> [] -> w <> []) ->
    Forall good_char d -> (forall c d', d = c :: d' -> ~ blank c) -> ~ occurs (lit "?>") d -> forall pos doc stack seen k,
  steps pos (State doc stack seen (Between k)) (lit "<?" ++ t ++ w ++ d ++ lit "?>")
  = Some (add_node (State doc stack seen (Between 0)) (DPI t d)).
Proof.
  intros (c & s & Et & C & Fs) X W NE F NW N pos doc stack seen k. destruct (lower_xml t X) as [X2 X1].
  assert (H : steps (pos + length (lit "<?")) (State doc stack seen (PiName pos [])) t = Some (State doc stack seen (PiName pos t))).
  { subst t. one. tests. rewrite steps_pi_name by (assumption || discriminate). reflexivity. }
  eapply steps_seq with (s' := State doc stack seen (PiName pos [])); [reflexivity|]. eapply steps_seq; [exact H|].
  subst t. clear H.
  destruct w as [|c0 w].
  - destruct d as [|d0 d]; [|exfalso; apply NE; [discriminate|reflexivity]].
    change ([] ++ [] ++ lit "?>") with [63%N; 62%N]. one. rewrite X2, X1.
    cbn -[finish_pi]. unfold finish_pi. rewrite X1. reflexivity.
  - inversion W; subst. cbn [app]. one. rewrite X2, X1. cbn [andb].
    replace (name_char c0) with false by (chars; lia). replace (other_name c0) with false by (chars; lia).
    replace (is_white c0) with true by (chars; lia). replace (c0 =? 63)%N with false by (chars; lia).
    replace (c0 =? 58)%N with false by (chars; lia). cbn [andb orb]. cbv iota.
    eapply steps_seq; [apply steps_white; [|assumption]|].
    { intros pos' c' W'. one. tests. reflexivity. }
    destruct d as [|d0 d].
    + cbn [app]. change (lit "?>") with [63%N; 62%N]. one. cbn -[finish_pi]. unfold finish_pi. rewrite X1. reflexivity.
    + inversion F; subst. assert (ND := NW _ _ eq_refl). assert (N' := occurs_cons _ _ _ N). cbn [app]. one.
      replace (is_white d0) with false by (chars; lia). destruct (N.eqb_spec d0 63) as [->|].
      * apply steps_pi_data; try assumption. intros c' d' -> ->. apply N. exists [], d'. reflexivity.
      * tests. apply steps_pi_data; assumption.
Qed.

(** ** Nodes *)
Scheme node_text_ind2 := Minimality for node_text Sort Prop
  with nodes_text_ind2 := Minimality for nodes_text Sort Prop.
Combined Scheme text_ind from node_text_ind2, nodes_text_ind2.

Definition room (n : dnode) (stack : list frame) (seen : bool) (k : nat) : Prop :=
  match n with
  | DText _ => k = 0 /\ exists name l ch stack', stack = (name, l, ch) :: stack' /\ text_next ch = false
  | DCData _ => stack <> []
  | DElem _ _ _ => stack = [] -> seen = false
  | _ => True
  end.
Definition node_read (ps : list str) (n : dnode) (x : str) : Prop := forall pos doc stack seen k, room n stack seen k -> same_prefixes stack ps ->
  exists k', (is_text n = false -> k' = 0) /\
    steps pos (State doc stack seen (Between k)) x = Some (add_node (State doc stack (seen || is_elem_node n) (Between k')) n).
Definition nodes_read (ps : list str) (l : list dnode) (x : str) : Prop := forall pos doc name a ch stack k,
  (text_next l = true -> k = 0 /\ text_next ch = false) -> same_prefixes ((name, a, ch) :: stack) ps ->
  exists k', steps pos (State doc ((name, a, ch) :: stack) true (Between k)) x
             = Some (State doc ((name, a, rev l ++ ch) :: stack) true (Between k')).

Lemma steps_skip x : written lenient (fun _ => False) [] x -> forall pos doc f stack seen k,
  exists k', (k = 0 -> k' = 0) /\ steps pos (State doc (f :: stack) seen (Between k)) x = Some (State doc (f :: stack) seen (Between k')).
Proof.
  intros W. remember [] as d eqn:D. induction W as [|c d x G R W IH|c n d x R G W IH|n d x L U W IH]; try discriminate;
    intros pos doc f stack seen k.
  - exists k. auto.
  - destruct (undefined_steps n U) as (r & R1 & R2).
    destruct (IH D (S (S (pos + length n))) doc f stack seen 0) as (k' & K & E).
    exists k'. split; [auto|]. change (lit "&" ++ n ++ lit ";" ++ x) with (38%N :: n ++ 59%N :: x). one.
    cbn [N.eqb Pos.eqb]. rewrite steps_app, (steps_ref n _ _ _ _ _ _ _ R1). one. rewrite R2, L. cbn [andb Nat.eqb]. cbv iota.
    replace (S (S pos + length n)) with (S (S (pos + length n))) by lia. exact E.
Qed.
Lemma nodes_are_read :
  (forall ps n x, node_text lenient ps n x -> node_read ps n x) /\ (forall ps l x, nodes_text lenient ps l x -> nodes_read ps l x).
Proof.
  apply text_ind.
  - intros ps d x NE W N pos doc stack seen k (-> & name & l & ch & stack' & -> & T) _.
    destruct (steps_text d x W pos doc name l ch stack' seen 0) as (k' & E); [lia|exact N|].
    exists k'. split; [discriminate|]. rewrite E, push_first by assumption. cbn [is_elem_node]. rewrite orb_false_r. reflexivity.
  - intros ps d NE F N pos doc stack seen k S _. exists 0. split; [reflexivity|]. cbn [is_elem_node]. rewrite orb_false_r.
    apply steps_cdata_node; assumption.
  - intros ps d F N pos doc stack seen k _ _. exists 0. split; [reflexivity|]. cbn [is_elem_node]. rewrite orb_false_r.
    eapply steps_seq with (s' := State doc stack seen (Comment pos [])).
    + destruct stack; reflexivity.
    + apply (steps_comment d F N).
  - intros ps t w d G X W NE F NW N pos doc stack seen k _ _. exists 0. split; [reflexivity|]. cbn [is_elem_node]. rewrite orb_false_r.
    apply steps_pi_node; assumption.
  - intros ps n l x T pos doc stack seen k R SP. exists 0. split; [reflexivity|]. cbn [is_elem_node]. rewrite orb_true_r.
    destruct (steps_tag ps n l x T pos doc stack seen k R SP) as (m & g & E & I & FT).
    eapply steps_seq; [exact E|]. change (lit "/>") with [47%N; 62%N]. cbn [steps]. rewrite (in_tag_slash _ _ _ _ _ g I).
    change (step (S (pos + length x)) (State doc stack seen (Slash g)) 62) with (finish_tag (State doc stack seen (Slash g)) g true).
    rewrite FT. reflexivity.
  - intros ps n l x ch y w T _ IH W pos doc stack seen k R SP. exists 0. split; [reflexivity|]. cbn [is_elem_node]. rewrite orb_true_r.
    destruct (steps_tag ps n l x T pos doc stack seen k R SP) as (m & g & E & I & FT). destruct (tag_qualified _ _ _ _ T) as (TQ & TA).
    eapply steps_seq; [exact E|]. change (lit ">" ++ y ++ lit "</" ++ n ++ w ++ lit ">") with (62%N :: y ++ lit "</" ++ n ++ w ++ lit ">").
    cbn [steps]. rewrite (in_tag_close _ _ _ _ _ g I), FT.
    destruct (IH (S (pos + length x)) doc n l [] stack 0) as (k' & E2); [auto|apply same_deeper; assumption|].
    eapply steps_seq; [exact E2|]. rewrite steps_end by assumption.
    rewrite app_nil_r, rev_involutive. reflexivity.
  - intros ps pos doc name a ch stack k _ _. exists k. reflexivity.
  - intros ps n x l y _ IHn _ IHl A pos doc name a ch stack k K SP.
    assert (R : room n ((name, a, ch) :: stack) true k).
    { destruct n; cbn in *; try discriminate; auto. destruct (K eq_refl) as (-> & K2). split; [reflexivity|]. eauto 10. }
    destruct (IHn pos doc _ true k R SP) as (k1 & K1 & E1).
    destruct (IHl (pos + length x) doc name a (n :: ch) stack k1) as (k2 & E2).
    { intros TL. destruct (is_text n) eqn:TN; [rewrite TL in A; discriminate|]. split; [apply K1; reflexivity|]. exact TN. }
    { exact SP. }
    exists k2. eapply steps_seq; [exact E1|]. cbn [add_node s_stack s_doc s_seen s_scan orb]. rewrite E2.
    cbn [rev]. rewrite <- app_assoc. reflexivity.
  - intros ps x l y W _ IHl pos doc name a ch stack k K SP.
    destruct (steps_skip x W pos doc (name, a, ch) stack true k) as (k1 & K1 & E1).
    destruct (IHl (pos + length x) doc name a ch stack k1) as (k2 & E2).
    { intros TL. destruct (K TL) as (-> & T). auto. }
    { exact SP. }
    exists k2. eapply steps_seq; [exact E1|exact E2].
Qed.

(** ** Documents *)
Lemma between_top pos doc seen k w : Forall blank w -> w <> [] ->
  steps pos (State doc [] seen (Between k)) w = Some (State doc [] seen (Between 0)).
Proof.
  intros F NE. destruct w as [|c w]; [congruence|]. inversion F; subst. one.
  replace (c =? 60)%N with false by (chars; lia). replace (is_white c) with true by (chars; lia). cbv iota.
  apply steps_white; [|assumption]. intros pos' c' W'. one.
  replace (c' =? 60)%N with false by (chars; lia). replace (is_white c') with true by (chars; lia). reflexivity.
Qed.
Lemma misc_any loose ps n x : (match n with DComment _ | DPI _ _ => True | _ => False end) -> node_text false [] n x -> node_text loose ps n x.
Proof. intros M T. destruct T; try contradiction; [apply comment_written|apply pi_written]; assumption. Qed.
Lemma steps_outer l x : outer_text l x -> forall pos doc seen,
  steps pos (State doc [] seen (Between 0)) x = Some (State (rev l ++ doc) [] seen (Between 0)).
Proof.
  induction 1 as [w W|w n x l y W M T O IH]; intros pos doc seen.
  - destruct w as [|c w]; [reflexivity|]. apply between_top; [assumption|discriminate].
  - apply steps_seq with (s' := State doc [] seen (Between 0)).
    { destruct w as [|c w]; [reflexivity|]. apply between_top; [assumption|discriminate]. }
    destruct (proj1 nodes_are_read [] n x (misc_any lenient [] n x M T) (pos + length w) doc [] seen 0) as (k' & K & E).
    { destruct n; try contradiction; exact I. }
    { intros p. reflexivity. }
    assert (k' = 0) by (apply K; destruct n; try contradiction; reflexivity). subst k'.
    eapply steps_seq; [exact E|].
    replace (is_elem_node n) with false by (destruct n; try contradiction; reflexivity). rewrite orb_false_r.
    unfold add_node; cbn [s_stack s_doc s_seen s_scan]. rewrite IH. cbn [rev]. rewrite <- app_assoc. reflexivity.
Qed.

End Lenient.

(** ** All characters are allowed *)
Definition good_text := Forall good_char.
Lemma good_app a b : good_text a -> good_text b -> good_text (a ++ b).
Proof. intros. apply Forall_app. auto. Qed.
Lemma good_white w : Forall blank w -> good_text w.
Proof. apply Forall_impl. intros c C. chars. lia. Qed.
Lemma good_rest s : Forall name_rest s -> good_text s.
Proof. apply Forall_impl. intros c C. chars. lia. Qed.
Lemma good_name_text n : good_name n -> good_text n.
Proof. intros (c & s & -> & C & F). constructor; [chars; lia|apply good_rest; assumption]. Qed.
Definition is_good (c : N) : bool := xml_char c && negb (c =? 13)%N.
Lemma good_check s : forallb is_good s = true -> good_text s.
Proof.
  intros H. apply Forall_forall. intros c I. rewrite forallb_forall in H. specialize (H c I). unfold is_good in H. chars. lia.
Qed.
Lemma good_refers c n : refers c n -> good_text n.
Proof.
  intros [| | | | |ds NE F|ds NE F]; try (apply good_check; reflexivity); (apply good_app; [apply good_check; reflexivity|]);
    (eapply Forall_impl; [|exact F]); intros d D; cbv beta in D; chars; lia.
Qed.
Lemma good_written loose raw d x : written loose raw d x -> good_text x.
Proof.
  induction 1 as [|c d x G R W IH|c n d x R G W IH|n d x L U W IH]; [constructor|constructor; assumption| |];
    (repeat apply good_app; try assumption; try (apply good_check; reflexivity)); [eapply good_refers; eassumption|apply good_name_text, U].
Qed.
Lemma good_qualified_name n : qualified n -> good_text n.
Proof.
  intros [G|(p & m & G & G' & ->)]; [apply good_name_text; assumption|].
  repeat apply good_app; try (apply good_name_text; assumption). apply good_check. reflexivity.
Qed.
Lemma good_attributes loose l y : attributes_text loose l y -> good_text y.
Proof.
  induction 1 as [|k v l w w1 w2 q x y NE F Q G W A IH]; [constructor|].
  apply good_white, Forall_app in F. destruct F as [F F2]. apply Forall_app in F2. destruct F2 as [F1 F2].
  assert (good_text [q]) by (destruct Q; subst; apply good_check; reflexivity).
  assert (good_text k).
  { apply good_qualified_name. exact (attribute_name _ G). }
  assert (good_text x) by (eapply good_written; eassumption).
  repeat apply good_app; try assumption. apply good_check; reflexivity.
Qed.
Lemma good_tag loose ps n l x : tag_text loose ps n l x -> good_text x.
Proof.
  intros (l0 & y & w & G & ND & B & A & W & -> & ->). repeat apply good_app.
  - apply good_check; reflexivity.
  - apply good_qualified_name; assumption.
  - eapply good_attributes; eassumption.
  - apply good_white; assumption.
Qed.
Lemma good_nodes loose : (forall ps n x, node_text loose ps n x -> good_text x) /\ (forall ps l x, nodes_text loose ps l x -> good_text x).
Proof.
  apply text_ind; intros; repeat apply good_app; try assumption;
    try (apply good_white; assumption); try (apply good_name_text; assumption); try (eapply good_tag; eassumption);
    try (eapply good_written; eassumption); try (apply good_check; reflexivity).
  apply good_qualified_name. eapply tag_qualified; eassumption.
Qed.
Lemma good_outer l x : outer_text l x -> good_text x.
Proof.
  induction 1; repeat apply good_app; try assumption; try (apply good_white; assumption).
  eapply (proj1 (good_nodes false)); eassumption.
Qed.
Lemma good_quote q : q = 34%N \/ q = 39%N -> good_text [q].
Proof. intros [-> | ->]; apply good_check; reflexivity. Qed.
Lemma good_setting n v x : setting_text n v x -> good_text n -> good_text x.
Proof.
  intros [w w1 w2 q NE F Q V] G. apply good_white, Forall_app in F. destruct F as [F F2]. apply Forall_app in F2. destruct F2 as [F1 F2].
  assert (good_text [q]) by (apply good_quote; assumption). assert (good_text v) by (apply good_rest; assumption).
  repeat apply good_app; try assumption. apply good_check; reflexivity.
Qed.
Lemma good_declaration sa x : declaration_text sa x -> good_text x.
Proof.
  intros (v & x1 & x2 & x3 & w & S1 & S2 & S3 & W & ->). repeat apply good_app; try (apply good_check; reflexivity).
  - eapply good_setting; [exact S1|apply good_check; reflexivity].
  - destruct S2 as [->|(e & _ & _ & S2)]; [constructor|]. eapply good_setting; [exact S2|apply good_check; reflexivity].
  - destruct S3 as [(-> & _)|S3]; [constructor|]. eapply good_setting; [exact S3|apply good_check; reflexivity].
  - apply good_white; assumption.
Qed.
Lemma public_good c : public_id_char c -> good_char c.
Proof.
  intros [C|I]; [chars; lia|]. assert (G : good_text (lit " '()+,/:=?;!*#@$%")) by (apply good_check; reflexivity).
  unfold good_text in G. rewrite Forall_forall in G. exact (G c I).
Qed.
Lemma good_doctype e x : doctype_text e x -> good_text x.
Proof.
  intros [w n w' NE F G|w n w1 w2 q v w' N1 N2 N3 F G Q V|w n w1 w2 q v w3 q' v' w' N1 N2 N3 N4 F G Q V Q' V'];
    apply good_white in F; repeat (apply Forall_app in F; destruct F as [? F]); apply good_name_text in G;
    repeat apply good_app; try assumption; try (apply good_check; reflexivity); try (apply good_quote; assumption);
    (eapply Forall_impl; [|eassumption]); cbv beta; intros c [C _]; try exact C. apply public_good. exact C.
Qed.
Lemma good_prolog loose l x : prolog_text loose l x -> good_text x.
Proof.
  intros [sa e x0 b x1 x2 b' x3 D O T O']. repeat apply good_app; try (eapply good_outer; eassumption).
  - destruct D as [(-> & _)|D]; [constructor|eapply good_declaration; exact D].
  - destruct T as [(-> & _)|T]; [constructor|eapply good_doctype; exact T].
Qed.
Lemma good_document d x : document_text d x -> good_text x.
Proof.
  intros (loose & b & x1 & n & l & ch & x2 & a & x3 & -> & -> & O1 & T & O2).
  repeat apply good_app; [eapply good_prolog; eassumption| |eapply good_outer; eassumption]. eapply (proj1 (good_nodes loose)); eassumption.
Qed.
Lemma good_no_special x : good_text x -> existsb surrogate x = false /\ existsb (N.eqb 13) x = false.
Proof.
  induction 1 as [|c x C F [I1 I2]]; [auto|]. cbn [existsb]. rewrite I1, I2. unfold surrogate. chars. split; lia.
Qed.

(** The first character. *)
Definition starts (x : str) : Prop := match x with c :: _ => blank c \/ c = 60%N | [] => True end.
Lemma starts_app w x : Forall blank w -> starts x -> starts (w ++ x).
Proof. intros F S. destruct F; [exact S|left; assumption]. Qed.
Lemma starts_more x y : starts x -> x <> [] -> starts (x ++ y).
Proof. destruct x; [congruence|auto]. Qed.
Lemma starts_node loose ps n x : node_text loose ps n x -> is_text n = false -> starts x /\ x <> [].
Proof.
  intros T NT. destruct T as [| | | |ps n l x (l0 & y & w & _ & _ & _ & _ & _ & _ & ->)|ps n l x ch y w (l0 & y0 & w0 & _ & _ & _ & _ & _ & _ & ->) _ _];
    try discriminate; (split; [right; reflexivity|discriminate]).
Qed.
Lemma starts_outer l x y : outer_text l x -> starts y -> starts (x ++ y).
Proof.
  intros O S. destruct O as [w W|w n x l z W M T O]; [apply starts_app; assumption|].
  rewrite <- !app_assoc. apply starts_app; [assumption|]. destruct (starts_node _ _ n x T) as (A & B); [destruct n; try contradiction; reflexivity|].
  apply starts_more; assumption.
Qed.
Lemma starts_prolog loose l x y : prolog_text loose l x -> starts y -> starts (x ++ y).
Proof.
  intros [sa e x0 b x1 x2 b' x3 D O T O'] S. rewrite <- !app_assoc.
  destruct D as [(-> & _)|(? & ? & ? & ? & ? & _ & _ & _ & _ & ->)]; [|right; reflexivity]. cbn [app].
  apply (starts_outer b); [exact O|]. destruct T as [(-> & _)|T]; [cbn [app]; apply (starts_outer b'); assumption|].
  destruct T; right; reflexivity.
Qed.
Lemma starts_document d x : document_text d x -> starts x.
Proof.
  intros (loose & b & x1 & n & l & ch & x2 & a & x3 & -> & -> & O1 & T & O2). eapply starts_prolog; [eassumption|].
  destruct (starts_node _ _ _ _ T eq_refl). apply starts_more; assumption.
Qed.
Lemma starts_no_bom x : starts x -> match x with c :: _ => (c =? 65279)%N | [] => false end = false.
Proof. destruct x as [|c x]; [reflexivity|]. cbn. intros S. chars. lia. Qed.
Lemma parse_no_bom x : match x with c :: _ => (c =? 65279)%N | [] => false end = false -> parse_text x = parse_from 0 x.
Proof. unfold parse_text. destruct x as [|c x]; [reflexivity|]. intros ->. reflexivity. Qed.

(** ** Before the root element *)
Definition no_white (x : str) : Prop := match x with c :: _ => ~ blank c | [] => True end.
Lemma skip_blanks w x : Forall blank w -> no_white x -> skip_white (w ++ x) = x.
Proof.
  intros F N. induction F as [|c w C F IH].
  - destruct x as [|c x]; [reflexivity|]. cbn [app skip_white]. cbn [no_white] in N. tests. reflexivity.
  - cbn [app skip_white]. tests. exact IH.
Qed.
Lemma some_blanks w x : w <> [] -> Forall blank w -> no_white x -> some_white (w ++ x) = Some x.
Proof.
  intros NE F N. destruct w as [|c w]; [congruence|]. inversion F; subst. cbn [app some_white]. tests. rewrite skip_blanks by assumption. reflexivity.
Qed.
Lemma word_app w x : word w (w ++ x) = Some x.
Proof. induction w as [|c w IH]; [reflexivity|]. cbn [app word]. rewrite N.eqb_refl. exact IH. Qed.
Lemma word_some w : forall x y, word w x = Some y -> x = w ++ y.
Proof.
  induction w as [|c w IH]; intros x y E; cbn [word] in E; [injection E as ->; reflexivity|]. destruct x as [|d x]; [discriminate|].
  destruct (N.eqb_spec c d) as [->|]; [|discriminate]. cbn [app]. f_equal. auto.
Qed.
Lemma until_app q ok v x : Forall (fun c => c <> q /\ ok c = true) v -> until q ok (v ++ q :: x) = Some (v, x).
Proof.
  induction 1 as [|c v (N & O) F IH]; cbn [app until]; [rewrite N.eqb_refl; reflexivity|].
  replace (c =? q)%N with false by lia. rewrite O, IH. reflexivity.
Qed.
Lemma quoted_app q ok v x : q = 34%N \/ q = 39%N -> Forall (fun c => c <> q /\ ok c = true) v ->
  quoted_text ok ([q] ++ v ++ [q] ++ x) = Some (v, x).
Proof. intros Q F. cbn [app quoted_text]. tests. apply until_app. exact F. Qed.
Lemma quote_no_white q x : q = 34%N \/ q = 39%N -> no_white ([q] ++ x).
Proof. intros Q. cbn. chars. lia. Qed.
Lemma lit_no_white w x : match w with c :: _ => negb (is_white c) | [] => false end = true -> no_white (w ++ x).
Proof. destruct w as [|c w]; [discriminate|]. intros H. cbn. chars. lia. Qed.
Lemma setting_reads n v x r : setting_text n v x -> match n with c :: _ => negb (is_white c) | [] => false end = true ->
  setting n (x ++ r) = Some (v, r).
Proof.
  intros [w w1 w2 q NE F Q V] N. apply Forall_app in F. destruct F as [F F2]. apply Forall_app in F2. destruct F2 as [F1 F2].
  unfold setting. rewrite <- !app_assoc. rewrite some_blanks by (assumption || (apply lit_no_white; exact N)). cbn [then_].
  rewrite word_app. cbn [then_]. rewrite skip_blanks by (assumption || (apply lit_no_white; reflexivity)). rewrite word_app. cbn [then_].
  rewrite skip_blanks by (assumption || (apply quote_no_white; exact Q)). apply quoted_app; [exact Q|].
  eapply Forall_impl; [|exact V]. intros c C. unfold version_char. chars. split; [lia|]. lia.
Qed.
(** Another setting, or the end of the declaration. *)
Lemma setting_none n n' v x r : setting_text n' v x -> match n' with c :: _ => negb (is_white c) | [] => false end = true ->
  (forall y, word n (n' ++ y) = None) -> setting n (x ++ r) = None.
Proof.
  intros [w w1 w2 q NE F Q V] N W. apply Forall_app in F. destruct F as [F _].
  unfold setting. rewrite <- !app_assoc. rewrite some_blanks by (assumption || (apply lit_no_white; exact N)). cbn [then_].
  rewrite W. reflexivity.
Qed.
Lemma setting_end n w r : Forall blank w -> match n with c :: _ => negb (c =? 63)%N && negb (is_white c) | [] => false end = true ->
  setting n (w ++ lit "?>" ++ r) = None.
Proof.
  intros F N. unfold setting. destruct w as [|c w].
  - reflexivity.
  - rewrite some_blanks by (assumption || discriminate || (apply lit_no_white; reflexivity)). cbn [then_].
    destruct n as [|d n]; [discriminate|]. change (lit "?>" ++ r) with (63%N :: 62%N :: r). cbn [word].
    replace (d =? 63)%N with false by lia. reflexivity.
Qed.
Lemma declaration_reads sa x r : declaration_text sa x -> exists c z, x ++ r = lit "<?xml" ++ c :: z /\ is_white c = true
  /\ xml_declaration (c :: z) = Some (sa, r).
Proof.
  intros (v & x1 & x2 & x3 & w & S1 & S2 & S3 & W & ->).
  assert (H : exists c z, x1 ++ x2 ++ x3 ++ w ++ lit "?>" ++ r = c :: z /\ is_white c = true).
  { destruct S1 as [w0 w1 w2 q NE F Q V]. destruct w0 as [|c w0]; [congruence|]. inversion F; subst. eexists c, _.
    split; [cbn [app]; reflexivity|chars; lia]. }
  destruct H as (c & z & E & C). exists c, z. split; [rewrite <- E, <- !app_assoc; reflexivity|]. split; [exact C|]. rewrite <- E.
  unfold xml_declaration. rewrite (setting_reads _ _ _ _ S1) by reflexivity. cbn [then_ snd fst].
  assert (S3' : setting (lit "standalone") (x3 ++ w ++ lit "?>" ++ r) = Some (if sa then lit "yes" else lit "no", w ++ lit "?>" ++ r)
                \/ setting (lit "standalone") (x3 ++ w ++ lit "?>" ++ r) = None /\ x3 = [] /\ sa = false).
  { destruct S3 as [(-> & ->)|S3].
    - right. cbn [app]. split; [apply setting_end; [assumption|reflexivity]|auto].
    - left. rewrite (setting_reads _ _ _ _ S3) by reflexivity. reflexivity. }
  assert (END : then_ (word (lit "?>") (skip_white (w ++ lit "?>" ++ r))) (fun x => Some (sa, x)) = Some (sa, r)).
  { rewrite skip_blanks by (assumption || (apply lit_no_white; reflexivity)). rewrite word_app. reflexivity. }
  destruct S2 as [->|(e & G & U & S2)].
  - cbn [app]. assert (NONE : setting (lit "encoding") (x3 ++ w ++ lit "?>" ++ r) = None).
    { destruct S3 as [(-> & ->)|S3]; [apply setting_end; [assumption|reflexivity]|].
      eapply setting_none; [exact S3|reflexivity|reflexivity]. }
    rewrite NONE. cbn [then_]. destruct S3' as [E3|(E3 & -> & ->)]; rewrite E3; [destruct sa|]; cbn [then_ fst snd]; exact END.
  - rewrite (setting_reads _ _ _ _ S2) by reflexivity. destruct G as (a & e' & -> & A & _).
    replace (ascii_letter a) with true.
    + cbn [then_]. destruct S3' as [E3|(E3 & -> & ->)]; rewrite E3; [destruct sa|]; cbn [then_ fst snd]; exact END.
    + assert (a <> 95%N) by (intros ->; apply (U e'); reflexivity). chars. lia.
Qed.
Lemma skip_rest n x : Forall name_rest n -> match x with c :: _ => ~ name_rest c | [] => True end -> skip_name (n ++ x) = x.
Proof.
  intros F N. induction F as [|c n C F IH].
  - destruct x as [|c x]; [reflexivity|]. cbn [app skip_name]. tests. reflexivity.
  - cbn [app skip_name]. tests. exact IH.
Qed.
Lemma some_name_app n x : good_name n -> match x with c :: _ => ~ name_rest c | [] => True end -> some_name (n ++ x) = Some x.
Proof.
  intros (c & s & -> & C & F) N. cbn [app some_name]. tests. rewrite skip_rest by assumption. reflexivity.
Qed.
Lemma name_no_white n x : good_name n -> no_white (n ++ x).
Proof. intros (c & s & -> & C & F). cbn. chars. lia. Qed.
Lemma blank_no_rest w x : Forall blank w -> w <> [] -> match w ++ x with c :: _ => ~ name_rest c | [] => True end.
Proof. intros F NE. destruct w as [|c w]; [congruence|]. inversion F; subst. cbn [app]. chars. lia. Qed.
Lemma good_is_char v q : Forall (fun c => good_char c /\ c <> q) v -> Forall (fun c => c <> q /\ xml_char c = true) v.
Proof. apply Forall_impl. intros c (C & N). split; [exact N|chars; lia]. Qed.
Lemma public_is_char v q : Forall (fun c => public_id_char c /\ c <> q) v -> Forall (fun c => c <> q /\ public_char c = true) v.
Proof.
  apply Forall_impl. intros c (C & N). split; [exact N|]. unfold public_char. destruct C as [C|C].
  - destruct (ascii_letter c || ascii_digit c) eqn:E; [reflexivity|]. cbn [orb]. apply existsb_exists.
    assert (X : c = 95%N \/ c = 45%N \/ c = 46%N) by (chars; lia).
    destruct X as [-> |[-> | ->]]; [exists 95%N|exists 45%N|exists 46%N]; (split; [vm_compute; tauto|reflexivity]).
  - rewrite orb_true_iff. right. apply existsb_exists. exists c. split; [|apply N.eqb_refl].
    revert C. change (lit " -'()+,./:=?;!*#@$_%") with (lit " " ++ lit "-" ++ lit "'()+," ++ lit "." ++ lit "/:=?;!*#@$" ++ lit "_" ++ lit "%").
    change (lit " '()+,/:=?;!*#@$%") with (lit " " ++ lit "'()+," ++ lit "/:=?;!*#@$" ++ lit "%"). rewrite !in_app_iff. tauto.
Qed.
Lemma doctype_reads e x r : doctype_text e x -> exists z, x ++ r = lit "<!DOCTYPE" ++ z /\ doctype z = Some (e, r).
Proof.
  intros T.
  assert (GT : forall w e, Forall blank w -> then_ (word (lit ">") (skip_white (snd (e, w ++ lit ">" ++ r)))) (fun x => Some (fst (e, x), x)) = Some (e : bool, r)).
  { intros w e0 W. cbn [snd fst]. rewrite skip_blanks by (assumption || (apply lit_no_white; reflexivity)). rewrite word_app. reflexivity. }
  destruct T as [w n w' NE F G|w n w1 w2 q v w' N1 N2 N3 F G Q V|w n w1 w2 q v w3 q' v' w' N1 N2 N3 N4 F G Q V Q' V'].
  - apply Forall_app in F. destruct F as [F F']. eexists. split; [rewrite <- !app_assoc; reflexivity|]. unfold doctype.
    rewrite some_blanks by (assumption || (apply name_no_white; assumption)). cbn [then_].
    rewrite some_name_app; [|assumption|].
    2: { destruct w' as [|c w']; [change (~ name_rest 62%N); chars; lia|]. apply blank_no_rest; [assumption|discriminate]. }
    cbn [then_]. destruct w' as [|c w']; [reflexivity|].
    rewrite some_blanks by (assumption || discriminate || (apply lit_no_white; reflexivity)).
    change (word (lit "SYSTEM") (lit ">" ++ r)) with (@None str). change (word (lit "PUBLIC") (lit ">" ++ r)) with (@None str). cbv iota.
    cbn [then_]. exact (GT [] false (Forall_nil _)).
  - apply Forall_app in F. destruct F as [F F1]. apply Forall_app in F1. destruct F1 as [F1 F2]. apply Forall_app in F2. destruct F2 as [F2 F'].
    eexists. split; [rewrite <- !app_assoc; reflexivity|]. unfold doctype.
    rewrite some_blanks by (assumption || (apply name_no_white; assumption)). cbn [then_].
    rewrite some_name_app by (assumption || (apply blank_no_rest; assumption)). cbn [then_].
    rewrite some_blanks by (assumption || (apply lit_no_white; reflexivity)). rewrite word_app.
    rewrite some_blanks by (assumption || (apply quote_no_white; assumption)). cbn [then_].
    rewrite quoted_app by (assumption || (apply good_is_char; assumption)). cbn [then_]. exact (GT w' true F').
  - apply Forall_app in F. destruct F as [F F1]. apply Forall_app in F1. destruct F1 as [F1 F2]. apply Forall_app in F2. destruct F2 as [F2 F3].
    apply Forall_app in F3. destruct F3 as [F3 F'].
    eexists. split; [rewrite <- !app_assoc; reflexivity|]. unfold doctype.
    rewrite some_blanks by (assumption || (apply name_no_white; assumption)). cbn [then_].
    rewrite some_name_app by (assumption || (apply blank_no_rest; assumption)). cbn [then_].
    rewrite some_blanks by (assumption || (apply lit_no_white; reflexivity)).
    match goal with |- context [word (lit "SYSTEM") ?y] => change (word (lit "SYSTEM") y) with (@None str) end. cbv iota. rewrite word_app.
    rewrite some_blanks by (assumption || (apply quote_no_white; assumption)). cbn [then_].
    rewrite quoted_app by (assumption || (apply public_is_char; assumption)). cbn [then_ snd].
    rewrite some_blanks by (assumption || (apply quote_no_white; assumption)). cbn [then_].
    rewrite quoted_app by (assumption || (apply good_is_char; assumption)). cbn [then_]. exact (GT w' true F').
Qed.

Definition blanks (x : str) : str := map (fun c => if (c =? 10)%N then c else 32%N) x.
Lemma blanks_blank x : Forall blank (blanks x).
Proof. unfold blanks. apply Forall_map, Forall_forall. intros c _. destruct (c =? 10)%N eqn:E; chars; lia. Qed.
Lemma blanked_app x r : blanked (x ++ r) r = blanks x ++ r.
Proof.
  unfold blanked. rewrite app_length, Nat.add_sub, firstn_app, firstn_all, Nat.sub_diag. cbn [firstn]. rewrite app_nil_r. reflexivity.
Qed.
(** Finding the document type. *)
Lemma find_outside lenient x : forall pos s y, lenient = false -> find_doctype pos s x = Some y -> run lenient pos s x = Outside.
Proof.
  induction x as [|c x IH]; intros pos s y -> F; [discriminate|]. cbn [find_doctype] in F.
  destruct (match s_scan s, s_stack s, s_seen s, word (lit "<!DOCTYPE") (c :: x) with Between _, [], false, Some _ => true | _, _, _, _ => false end) eqn:B.
  - destruct s as [doc stack seen m]. cbn [s_scan s_stack s_seen] in B. destruct m; try discriminate. destruct stack; [|discriminate].
    destruct seen; [discriminate|]. destruct (word (lit "<!DOCTYPE") (c :: x)) as [z|] eqn:W; [|discriminate]. apply word_some in W.
    rewrite W. reflexivity.
  - cbn [run]. destruct (step false pos s c) as [s'| |]; [|discriminate|discriminate]. eapply IH; [reflexivity|exact F].
Qed.
Lemma find_app x : forall pos s k doc z, steps false pos s x = Some (State doc [] false (Between k)) ->
  find_doctype pos s (x ++ lit "<!DOCTYPE" ++ z) = Some (lit "<!DOCTYPE" ++ z).
Proof.
  induction x as [|c x IH]; intros pos s k doc z E.
  - cbn [steps app] in *. injection E as ->. reflexivity.
  - cbn [app find_doctype]. cbn [steps] in E.
    destruct (match s_scan s, s_stack s, s_seen s, word (lit "<!DOCTYPE") (c :: x ++ lit "<!DOCTYPE" ++ z) with Between _, [], false, Some _ => true | _, _, _, _ => false end) eqn:B.
    + exfalso. destruct s as [doc0 stack seen m]. cbn [s_scan s_stack s_seen] in B. destruct m; try discriminate. destruct stack; [|discriminate].
      destruct seen; [discriminate|]. destruct (word (lit "<!DOCTYPE") (c :: x ++ lit "<!DOCTYPE" ++ z)) as [u|] eqn:W; [|discriminate].
      apply word_some in W. change (lit "<!DOCTYPE" ++ u) with (60%N :: 33%N :: 68%N :: lit "OCTYPE" ++ u) in W. injection W as -> W.
      destruct x as [|c1 [|c2 x]]; [discriminate| |].
      * injection W as ->. discriminate.
      * injection W as -> -> W. discriminate.
    + destruct (step false pos s c) as [s'| |]; [|discriminate|discriminate]. eapply IH. exact E.
Qed.
Lemma xml_not_start x y k doc : steps false 0 start x = Some (State doc [] false (Between k)) -> x <> [] ->
  forall c z, x ++ y = lit "<?xml" ++ c :: z -> is_white c = true -> False.
Proof.
  intros E NE c z X C. change (lit "<?xml" ++ c :: z) with (60%N :: 63%N :: 120%N :: 109%N :: 108%N :: c :: z) in X.
  destruct x as [|c1 [|c2 [|c3 [|c4 [|c5 [|c6 x]]]]]]; [congruence| | | | | |]; cbn [app] in X;
    injection X; intros; subst; try discriminate.
  revert E. cbn [steps].
  change (step false 0 start 60) with (Go (State [] [] false (Lt 0))). cbv iota.
  change (step false 1 (State [] [] false (Lt 0)) 63) with (Go (State [] [] false (PiName 0 []))). cbv iota.
  change (step false 2 (State [] [] false (PiName 0 [])) 120) with (Go (State [] [] false (PiName 0 [120%N]))). cbv iota.
  change (step false 3 (State [] [] false (PiName 0 [120%N])) 109) with (Go (State [] [] false (PiName 0 [120%N; 109%N]))). cbv iota.
  change (step false 4 (State [] [] false (PiName 0 [120%N; 109%N])) 108) with (Go (State [] [] false (PiName 0 [120%N; 109%N; 108%N]))). cbv iota.
  unfold step; cbn [s_scan]. assert (W : blank c) by (chars; lia).
  replace (name_char c) with false by (chars; lia). replace (other_name c) with false by (chars; lia). replace (c =? 58)%N with false by (chars; lia).
  rewrite C. discriminate.
Qed.
Lemma xml_start_outside c z : is_white c = true -> run false 0 start (lit "<?xml" ++ c :: z) = Outside.
Proof.
  intros C. assert (W : blank c) by (chars; lia).
  change (lit "<?xml" ++ c :: z) with (60%N :: 63%N :: 120%N :: 109%N :: 108%N :: c :: z).
  cbn [run].
  change (step false 0 start 60) with (Go (State [] [] false (Lt 0))). cbv iota.
  change (step false 1 (State [] [] false (Lt 0)) 63) with (Go (State [] [] false (PiName 0 []))). cbv iota.
  change (step false 2 (State [] [] false (PiName 0 [])) 120) with (Go (State [] [] false (PiName 0 [120%N]))). cbv iota.
  change (step false 3 (State [] [] false (PiName 0 [120%N])) 109) with (Go (State [] [] false (PiName 0 [120%N; 109%N]))). cbv iota.
  change (step false 4 (State [] [] false (PiName 0 [120%N; 109%N])) 108) with (Go (State [] [] false (PiName 0 [120%N; 109%N; 108%N]))). cbv iota.
  unfold step; cbn [s_scan].
  replace (name_char c) with false by (chars; lia). replace (other_name c) with false by (chars; lia). replace (c =? 58)%N with false by (chars; lia).
  rewrite C. reflexivity.
Qed.
Lemma read_no_declaration x : (forall c z, x = lit "<?xml" ++ c :: z -> is_white c = true -> False) -> read_text x = read_body false x.
Proof.
  intros N. unfold read_text. destruct (word (lit "<?xml") x) as [[|c y]|] eqn:E; try reflexivity.
  destruct (is_white c) eqn:C; [|reflexivity]. apply word_some in E. exfalso. eapply N; eassumption.
Qed.
Lemma outer_blanks l x w : outer_text l x -> Forall blank w -> outer_text l (w ++ x).
Proof.
  intros O W. destruct O as [w' W'|w' n x l y W' M T O].
  - apply outer_white. apply Forall_app. auto.
  - rewrite app_assoc. apply outer_more; auto. apply Forall_app. auto.
Qed.
Lemma outer_app l x : outer_text l x -> forall l' x', outer_text l' x' -> outer_text (l ++ l') (x ++ x').
Proof.
  induction 1 as [w W|w n x l y W M T O IH]; intros l' x' O'; [apply outer_blanks; assumption|].
  rewrite <- !app_assoc. cbn [app]. apply outer_more; auto.
Qed.
Lemma read_body_found sa b x1 e x2 r : outer_text b x1 -> doctype_text e x2 ->
  read_body sa (x1 ++ x2 ++ r) = run (e && negb sa) 0 start (x1 ++ blanks x2 ++ r).
Proof.
  intros O T. destruct (doctype_reads e x2 r T) as (z & E & D). unfold read_body. rewrite E.
  rewrite (find_app x1 0 start 0 (rev b ++ [])) by (apply (steps_outer false b x1 O)).
  rewrite word_app. cbn [then_]. rewrite D. rewrite <- E, blanked_app.
  rewrite app_length, Nat.add_sub, firstn_app, firstn_all, Nat.sub_diag. cbn [firstn]. rewrite app_nil_r. reflexivity.
Qed.
Lemma read_body_plain sa x : run false 0 start x <> Outside -> read_body sa x = run false 0 start x.
Proof.
  intros N. unfold read_body. destruct (find_doctype 0 start x) as [y|] eqn:F; [|reflexivity].
  exfalso. apply N. eapply find_outside; [reflexivity|exact F].
Qed.
Lemma prolog_reads loose b x : prolog_text loose b x -> exists x', length x' = length x /\ outer_text b x'
  /\ forall y, run loose 0 start (x' ++ y) <> Outside -> read_text (x ++ y) = run loose 0 start (x' ++ y).
Proof.
  intros [sa e x0 b1 x1 x2 b2 x3 D O T O']. exists ((blanks x0 ++ x1) ++ blanks x2 ++ x3). split; [|split].
  - rewrite !app_length. unfold blanks. rewrite !map_length. lia.
  - apply outer_app; apply outer_blanks; assumption || apply blanks_blank.
  - intros y N.
    assert (O1 : outer_text b1 (blanks x0 ++ x1)) by (apply outer_blanks; [exact O|apply blanks_blank]).
    assert (B : read_body sa ((blanks x0 ++ x1) ++ x2 ++ x3 ++ y) = run (e && negb sa) 0 start (((blanks x0 ++ x1) ++ blanks x2 ++ x3) ++ y)).
    { destruct T as [(-> & ->)|T].
      - cbn [blanks map andb app] in *. rewrite <- !app_assoc in *. apply read_body_plain. exact N.
      - rewrite (read_body_found sa b1 _ e x2 (x3 ++ y) O1 T), <- !app_assoc. reflexivity. }
    rewrite <- B. rewrite <- !app_assoc. destruct D as [(-> & ->)|D].
    + cbn [blanks map app] in *. apply read_no_declaration. intros c z E C. destruct x1 as [|c1 x1].
      * cbn [app] in *. destruct T as [(-> & ->)|T].
        -- cbn [blanks map app andb] in *. apply N. rewrite E. apply xml_start_outside. exact C.
        -- destruct T; discriminate.
      * eapply (xml_not_start (c1 :: x1)); [apply (steps_outer false b1 _ O)|discriminate|exact E|exact C].
    + destruct (declaration_reads sa x0 (x1 ++ x2 ++ x3 ++ y) D) as (c & z & E & C & X).
      unfold read_text. rewrite E, word_app, C, X, <- E, blanked_app. reflexivity.
Qed.

Theorem parser_reads : reads parse_text.
Proof.
  intros d x D. rewrite (parse_no_bom x (starts_no_bom x (starts_document d x D))). unfold parse_from. destruct (good_no_special x (good_document d x D)) as (G1 & G2).
  rewrite G1, G2, (starts_no_bom x (starts_document d x D)). cbn [orb].
  destruct D as (loose & b & x1 & n & l & ch & x2 & a & x3 & -> & -> & P & T & O2).
  destruct (prolog_reads loose b x1 P) as (x1' & _ & O1 & R).
  assert (E0 : run loose 0 start (x1' ++ x2 ++ x3) = Read (b ++ [DElem n l ch] ++ a)).
  { rewrite (run_steps _ _ _ _ _ _ (steps_outer loose b x1' O1 0 [] false)).
    destruct (proj1 (nodes_are_read loose) _ _ _ T (0 + length x1') (rev b ++ []) [] false 0) as (k' & K & E); [exact (fun _ => eq_refl)|intros p; reflexivity|].
    rewrite (run_steps _ _ _ _ _ _ E). rewrite (K eq_refl). unfold add_node; cbn [s_stack s_doc s_seen s_scan orb is_elem_node].
    rewrite <- (app_nil_r x3). rewrite (run_steps _ _ _ _ _ _ (steps_outer loose a x3 O2 _ _ true)). cbn [run finish s_scan s_stack s_seen s_doc].
    rewrite rev_app_distr, rev_involutive. cbn [rev]. rewrite app_nil_r, rev_involutive, <- app_assoc. reflexivity. }
  rewrite R by (rewrite E0; discriminate). rewrite E0. reflexivity.
Qed.

(** ** Gaps *)
Ltac one := cbn [steps]; unfold ModelExpat.step; cbn [s_scan s_stack s_doc s_seen]; unfold goto, with_scan; cbn [s_doc s_stack s_seen s_scan].
Lemma attributes_app loose l0 y0 : attributes_text loose l0 y0 -> forall l1 y1, attributes_text loose l1 y1 ->
  attributes_text loose (l0 ++ l1) (y0 ++ y1).
Proof.
  induction 1 as [|k v l w w1 w2 q x y NE F Q G W A IH]; intros l1 y1 A1; [exact A1|].
  replace ((w ++ k ++ w1 ++ lit "=" ++ w2 ++ [q] ++ x ++ [q] ++ y) ++ y1)
    with (w ++ k ++ w1 ++ lit "=" ++ w2 ++ [q] ++ x ++ [q] ++ y ++ y1) by (rewrite <- !app_assoc; reflexivity).
  cbn [app]. apply (attributes_more loose k v (l ++ l1) w w1 w2 q x (y ++ y1)); auto.
Qed.
Lemma attributes_wider loose l y w : attributes_text loose l y -> Forall blank w -> l <> [] -> attributes_text loose l (w ++ y).
Proof.
  intros A W NE. destruct A as [|k v l w0 w1 w2 q x y N F Q G Wr A]; [congruence|].
  rewrite app_assoc. apply attributes_more; auto.
  - destruct w; [assumption|discriminate].
  - rewrite <- app_assoc. apply Forall_app. auto.
Qed.
Lemma tag_fill loose ps n l0 y0 l1 y1 w w' : qualified n -> NoDup (map fst (l0 ++ l1)) -> names_bound ps n (l0 ++ l1) ->
  attributes_text loose l0 y0 -> attributes_text loose l1 y1 ->
  Forall blank w -> Forall blank w' -> tag_text loose ps n (dom_order (l0 ++ l1)) (lit "<" ++ n ++ y0 ++ w ++ y1 ++ w').
Proof.
  intros G ND B A0 A1 W W'. destruct l1 as [|kv l1].
  - inversion A1; subst. exists (l0 ++ []), (y0 ++ []), (w ++ w').
    split; [exact G|]. split; [exact ND|]. split; [exact B|]. split; [apply attributes_app; assumption|]. split; [apply Forall_app; auto|].
    split; [reflexivity|]. rewrite app_nil_r; reflexivity.
  - exists (l0 ++ kv :: l1), (y0 ++ w ++ y1), w'.
    split; [exact G|]. split; [exact ND|]. split; [exact B|]. split; [|split; [assumption|split; [reflexivity|rewrite <- !app_assoc; reflexivity]]].
    apply attributes_app; [assumption|]. apply attributes_wider; [assumption|assumption|discriminate].
Qed.
Lemma nodes_app loose ps l1 x : nodes_text loose ps l1 x -> forall m y l2 z, node_text loose ps m y -> is_text m = false ->
  nodes_text loose ps l2 z -> nodes_text loose ps (l1 ++ m :: l2) (x ++ y ++ z).
Proof.
  induction 1 as [ps|ps n x l y Tn Tl IH A|ps x l y S Tl IH]; intros m y' l2 z T NT T2.
  - cbn [app]. constructor; [assumption|assumption|rewrite NT; reflexivity].
  - rewrite <- app_assoc. cbn [app]. constructor; [assumption|apply IH; assumption|].
    destruct l as [|n' l]; [cbn; rewrite NT; apply andb_false_r|exact A].
  - rewrite <- app_assoc. apply nodes_skip; [assumption|]. apply IH; assumption.
Qed.
Lemma gap_elem loose ps m u v : gap_node loose ps m u v -> is_text m = false /\ is_elem_node m = true.
Proof. intros []; auto. Qed.
Lemma gap_fill loose ps m u v : gap_node loose ps m u v -> forall w, Forall blank w -> node_text loose ps m (u ++ w ++ v).
Proof.
  induction 1 as [ps n l0 y0 l1 y1 w' G ND B A0 A1 W'|ps n l0 y0 l1 y1 w' ch z w2 G ND B A0 A1 W' T|ps n l x before y m u v behind z w' T Tb H IH Tz W'];
    intros w W.
  - replace ((lit "<" ++ n ++ y0) ++ w ++ y1 ++ w' ++ lit "/>") with ((lit "<" ++ n ++ y0 ++ w ++ y1 ++ w') ++ lit "/>")
      by (rewrite <- !app_assoc; reflexivity).
    apply empty_written. apply tag_fill; assumption.
  - apply Forall_app in W'. destruct W' as [W1 W2].
    replace ((lit "<" ++ n ++ y0) ++ w ++ y1 ++ w' ++ lit ">" ++ z ++ lit "</" ++ n ++ w2 ++ lit ">")
      with ((lit "<" ++ n ++ y0 ++ w ++ y1 ++ w') ++ lit ">" ++ z ++ lit "</" ++ n ++ w2 ++ lit ">")
      by (rewrite <- !app_assoc; reflexivity).
    apply element_written; [apply tag_fill; assumption|assumption|assumption].
  - replace ((x ++ lit ">" ++ y ++ u) ++ w ++ v ++ z ++ lit "</" ++ n ++ w' ++ lit ">")
      with (x ++ lit ">" ++ (y ++ (u ++ w ++ v) ++ z) ++ lit "</" ++ n ++ w' ++ lit ">")
      by (rewrite <- !app_assoc; reflexivity).
    apply element_written; [assumption| |assumption]. apply nodes_app; try assumption; [apply IH; assumption|].
    eapply gap_elem; eassumption.
Qed.
Lemma gap_filled d u v w : gap_document d u v -> Forall blank w -> document_text d (u ++ w ++ v).
Proof.
  intros (loose & b & x1 & m & u2 & v2 & a & x3 & -> & -> & -> & O1 & G & O2) W.
  assert (T := gap_fill _ _ _ _ _ G w W). destruct (gap_elem _ _ _ _ _ G) as [_ E].
  destruct m as [n l ch| | | |]; try discriminate.
  exists loose, b, x1, n, l, ch, (u2 ++ w ++ v2), a, x3. repeat split; try assumption. rewrite <- !app_assoc. reflexivity.
Qed.

Lemma NoDup_left {A} (a b : list A) : NoDup (a ++ b) -> NoDup a.
Proof.
  induction a as [|x a IH]; intros N; [constructor|]. inversion N; subst. constructor; [|apply IH; assumption].
  intros I. apply H1, in_app_iff. auto.
Qed.
Lemma steps_gap loose ps m u v : gap_node loose ps m u v -> forall pos doc stack seen k, (stack = [] -> seen = false) ->
  same_prefixes stack ps -> exists doc' stack' seen' m' g, steps loose pos (State doc stack seen (Between k)) u = Some (State doc' stack' seen' m') /\ in_tag m' g.
Proof.
  induction 1 as [ps n l0 y0 l1 y1 w' G ND B A0 A1 W'|ps n l0 y0 l1 y1 w' ch z w2 G ND B A0 A1 W' T|ps n l x before y m u v behind z w' T Tb H IH Tz W'];
    intros pos doc stack seen k SS SP.
  1, 2: rewrite map_app in ND; destruct (steps_tag_part loose n l0 y0 [] G (NoDup_left _ _ ND) A0 (Forall_nil _) pos doc stack seen k SS) as (m & E & I);
    rewrite app_nil_r in E; exists doc, stack, seen, m, (Tag pos n l0 None); auto.
  destruct (steps_tag loose ps _ _ _ T pos doc stack seen k SS SP) as (m' & g & E & I & FT).
  assert (SP' : same_prefixes ((n, l, []) :: stack) (declared l ++ ps)) by (apply same_deeper; [apply (tag_qualified loose ps n l x T)|exact SP]).
  destruct (proj2 (nodes_are_read loose) _ _ _ Tb (S (pos + length x)) doc n l [] stack 0) as (k' & E2); [auto|exact SP'|].
  destruct (IH (S (pos + length x) + length y) doc ((n, l, rev before ++ []) :: stack) true k') as (doc' & stack' & seen' & m2 & g2 & E3 & I3);
    [discriminate|exact SP'|].
  exists doc', stack', seen', m2, g2. split; [|exact I3].
  eapply steps_seq; [exact E|]. change (lit ">" ++ y ++ u) with (62%N :: y ++ u).
  cbn [steps]. rewrite (in_tag_close loose _ _ _ _ _ g I), FT. eapply steps_seq; [exact E2|]. exact E3.
Qed.

Lemma run_no_value loose m c rest : no_value m c -> forall pos doc stack seen g,
  run loose pos (State doc stack seen (Attrs g)) (m ++ c :: rest) = Wrong 4 (pos + length m).
Proof.
  intros NV pos doc stack seen g. destruct NV as [n w c N W G NW NE S|n w w' c N W G NW NQ].
  - destruct (steps_whole_name loose n (or_introl N) pos doc stack seen g) as (E & NK).
    rewrite <- app_assoc, (run_steps _ _ _ _ _ _ E), app_length, Nat.add_assoc. destruct w as [|c0 w].
    + cbn [app run length]. unfold ModelExpat.step; cbn [s_scan]. destruct (S eq_refl) as (S1 & S2 & S3).
      rewrite next_end by assumption. tests. rewrite Nat.add_0_r. reflexivity.
    + inversion W; subst.
      assert (E2 : exists g', steps loose (pos + length n) (State doc stack seen (AttrName g pos n)) (c0 :: w)
                              = Some (State doc stack seen (AttrEq g' n))).
      { eexists. one. rewrite next_end by (assumption || (chars; lia)).
        replace (c0 =? 61)%N with false by (chars; lia). replace (is_white c0) with true by (chars; lia). cbn [andb]. cbv iota.
        apply steps_white; [|assumption]. intros; apply stay_eq; assumption. }
      destruct E2 as (g' & E2). rewrite (run_steps _ _ _ _ _ _ E2). cbn [run]. unfold ModelExpat.step; cbn [s_scan]. tests. reflexivity.
  - apply Forall_app in W. destruct W as [W W'].
    destruct (steps_whole_name loose n (or_introl N) pos doc stack seen g) as (E & NK).
    assert (E2 : exists g', steps loose (pos + length n) (State doc stack seen (AttrName g pos n)) (w ++ [61%N])
                            = Some (State doc stack seen (AttrQuote g' n))).
    { destruct w as [|c0 w].
      - eexists. cbn [app]. one. rewrite next_end by (assumption || (chars; lia)). reflexivity.
      - inversion W; subst. eexists. cbn [app]. one. rewrite next_end by (assumption || (chars; lia)).
        replace (c0 =? 61)%N with false by (chars; lia). replace (is_white c0) with true by (chars; lia). cbn [andb]. cbv iota.
        eapply steps_seq; [apply steps_white; [|assumption]; intros; apply stay_eq; assumption|]. reflexivity. }
    destruct E2 as (g' & E2).
    replace ((n ++ w ++ lit "=" ++ w') ++ c :: rest) with (n ++ (w ++ [61%N]) ++ w' ++ c :: rest) by (rewrite <- !app_assoc; reflexivity).
    rewrite (run_steps _ _ _ _ _ _ E), (run_steps _ _ _ _ _ _ E2).
    erewrite run_steps by (apply steps_white; [|assumption]; intros; apply stay_quote; assumption).
    cbn [run]. unfold ModelExpat.step; cbn [s_scan]. cbn [In] in NQ. tests.
    rewrite !app_length. cbn [length]. change (length (lit "=")) with 1. f_equal. lia.
Qed.
Lemma line_column_one x : ~ In 10%N x -> forall n, line_column 1 n x = (1, n + length x).
Proof.
  induction x as [|c x IH]; intros N n; cbn [line_column length]; [rewrite Nat.add_0_r; reflexivity|].
  replace (c =? 10)%N with false. 2: { symmetry. apply N.eqb_neq. intros ->. apply N. left. reflexivity. }
  rewrite IH by (intros I; apply N; right; exact I). f_equal. lia.
Qed.
Lemma good_gap d u v : gap_document d u v -> good_text u /\ starts u /\ u <> [].
Proof.
  intros G. assert (D := gap_filled d u v [] G (Forall_nil _)). cbn [app] in D. assert (GD := good_document _ _ D).
  assert (SD := starts_document _ _ D). apply Forall_app in GD. destruct GD as [GD _].
  assert (NE : u <> []).
  { destruct G as (loose & b & x1 & m & u2 & v2 & a & x3 & -> & -> & -> & O1 & G & O2). intros E. apply app_eq_nil in E. destruct E as [_ E].
    destruct G as [| |ps n l x ? ? ? ? ? ? ? ? (? & ? & ? & ? & ? & ? & ? & ? & ? & ->)]; discriminate. }
  split; [exact GD|]. split; [|exact NE]. destruct u; [exact I|exact SD].
Qed.
Lemma good_no_value m c : no_value m c -> good_text m.
Proof.
  intros [n w c' N W G NW NE S|n w w' c' N W G NW NQ].
  - apply good_app; [apply good_name_text|apply good_white]; assumption.
  - apply Forall_app in W. destruct W. repeat apply good_app; try (apply good_white; assumption); [apply good_name_text; assumption|].
    apply good_check; reflexivity.
Qed.
Theorem parser_stops : stops parse_text.
Proof.
  intros d u v w m c rest G NE W NV GR NL. destruct (good_gap _ _ _ G) as (G1 & G2 & G3).
  assert (GT : good_text (u ++ w ++ m ++ c :: rest)).
  { repeat apply good_app; try assumption; [apply good_white; assumption|eapply good_no_value; eassumption]. }
  rewrite parse_no_bom by (apply starts_no_bom, starts_more; assumption). unfold parse_from.
  destruct (good_no_special _ GT) as (A & B). rewrite A, B.
  rewrite starts_no_bom by (apply starts_more; assumption). cbn [orb].
  assert (R : read_text (u ++ w ++ m ++ c :: rest) = Wrong 4 (length (u ++ w ++ m))).
  { destruct G as (loose & b & x1 & mm & u2 & v2 & a & x3 & -> & -> & -> & P & G & O2).
    destruct (prolog_reads loose b x1 P) as (x1' & L & O1 & R).
    destruct (steps_gap _ _ _ _ _ G (0 + length x1') (rev b ++ []) [] false 0 (fun _ => eq_refl)) as (doc' & stack' & seen' & m' & g & E & I);
      [intros p; reflexivity|].
    assert (E0 : run loose 0 start (x1' ++ u2 ++ w ++ m ++ c :: rest) = Wrong 4 (length ((x1 ++ u2) ++ w ++ m))).
    { rewrite (run_steps _ _ _ _ _ _ (steps_outer loose b x1' O1 0 [] false)), (run_steps _ _ _ _ _ _ E).
      erewrite run_steps by (eapply steps_in_tag_white; eassumption). rewrite run_no_value by assumption.
      rewrite !app_length, L. f_equal. lia. }
    rewrite <- app_assoc, R; [exact E0|]. rewrite E0. discriminate. }
  rewrite R. replace (u ++ w ++ m ++ c :: rest) with ((u ++ w ++ m) ++ c :: rest) by (rewrite <- !app_assoc; reflexivity).
  rewrite firstn_app, firstn_all, Nat.sub_diag. cbn [firstn]. rewrite app_nil_r, line_column_one by assumption. reflexivity.
Qed.
