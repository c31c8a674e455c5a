(** The program of single steps, run alone, is the model that runs a call at once. *)
From Coq Require Import String.
From Verif Require Export ModelSteps LemShared LemDoc.
Local Open Scope string_scope.
Local Open Scope list_scope.

Lemma alone_catch {A B} (p : prog A) (f : res A -> prog B) st :
  alone (catch p f) st = let (st1, r) := alone p st in alone (f r) st1.
Proof. revert st. induction p; intro st; cbn; auto. Qed.
Lemma alone_then {A B} (p : prog A) (f : A -> prog B) st :
  alone (then_ p f) st = match alone p st with
                         | (st1, Ok a) => alone (f a) st1
                         | (st1, Raise e) => (st1, Raise e)
                         end.
Proof. unfold then_. rewrite alone_catch. destruct (alone p st) as [st1 [a|e]]; reflexivity. Qed.

(** The same effect on the dictionaries and the same outcome; no adapter is touched. *)
Definition same {A} (p : prog A) (m : M A) : Prop :=
  forall h xs, alone p (State h xs) = (State (fst (m h)) xs, snd (m h)).
Lemma same_give {A} (a : A) : same (give a) (ret a).
Proof. intros h xs. reflexivity. Qed.
Lemma same_fail {A} e : same (@fail A e) (raise e).
Proof. intros h xs. reflexivity. Qed.
Lemma same_then {A B} (p : prog A) m (f : A -> prog B) g :
  same p m -> (forall a, same (f a) (g a)) -> same (then_ p f) (bind m g).
Proof.
  intros P F h xs. rewrite alone_then, (P h xs). unfold bind. destruct (m h) as [h1 [a|e]]; cbn [fst snd]; auto. apply F.
Qed.
Lemma same_get_or {B} l k d (f : str -> prog B) g :
  (forall a, same (f (dget_or a k d)) (g a)) -> same (then_ (get_or l k d) f) (bind (read_attributes l) g).
Proof. intros F h xs. unfold get_or, then_. cbn. apply (F (hget h l)). Qed.
Lemma same_get {B} l k (f : option str -> prog B) g :
  (forall a, same (f (dget a k)) (g a)) -> same (then_ (get l k) f) (bind (read_attributes l) g).
Proof. intros F h xs. unfold get, then_. cbn. apply (F (hget h l)). Qed.

(** Constructors. *)
Definition same_make (p : prog s_converter) (mk : heap -> heap * converter) : Prop :=
  forall h xs, exists c, alone p (State h xs) = (State (fst (mk h)) xs, Ok c) /\ same c (snd (mk h)).
Record same_kid (k : s_kid) (k' : kid) : Prop := {
  sk_elem : s_elem k = kid_elem k';
  sk_make : same_make (s_make k) (kid_mk k')
}.
Lemma alone_run c st : alone (s_run c) st = alone c st.
Proof. unfold s_run. cbn [alone]. rewrite alone_catch. destruct (alone c st). reflexivity. Qed.
Lemma same_run c m : same c m -> same (s_run c) m.
Proof. intros H h xs. rewrite alone_run. apply H. Qed.
Lemma alone_relative {A} name e : forall (k : bool -> prog A) st,
  alone (s_relative name e k) st = alone (k (is_relative_of_name name e)) st.
Proof.
  induction e as [n v ch l IH] using elem_ind'. intros k st. cbn [s_relative is_relative_of_name alone].
  destruct (str_eqb n name); [reflexivity|]. cbn [orb].
  assert (X : forall b, alone (fold_right (fun c k' b => s_relative name c (fun b' => k' (b || b'))) k ch b) st
              = alone (k (b || existsb (is_relative_of_name name) ch)) st); [|apply (X false)].
  induction IH as [|e es He F IHs]; intro b; cbn [fold_right existsb]; [rewrite orb_false_r; reflexivity|].
  rewrite He, IHs, orb_assoc. reflexivity.
Qed.
Lemma alone_there {A} es name (k : bool -> prog A) st : alone (s_there es name k) st = alone (k (is_there_relative_of_name es name)) st.
Proof.
  unfold s_there, is_there_relative_of_name.
  assert (X : forall b, alone (fold_right (fun c k' b => s_relative name c (fun b' => k' (b || b'))) k es b) st
              = alone (k (b || existsb (is_relative_of_name name) es)) st); [|apply (X false)].
  induction es as [|e es IHs]; intro b; cbn [fold_right existsb]; [rewrite orb_false_r; reflexivity|].
  rewrite alone_relative, IHs, orb_assoc. reflexivity.
Qed.
Lemma same_kid_convert k k' : same_kid k k' -> same (s_kid_convert k) (kid_convert k').
Proof.
  intros [_ Mk] h xs. destruct (Mk h xs) as (c & E & S). unfold s_kid_convert. rewrite alone_then, E, alone_run.
  rewrite (S (fst (kid_mk k' h)) xs). unfold kid_convert. destruct (kid_mk k' h); reflexivity.
Qed.
Lemma same_convert_all ks ks' : Forall2 same_kid ks ks' -> same (s_convert_all ks) (convert_all ks').
Proof.
  induction 1 as [|k k' ks ks' K F IH]; cbn; [apply same_give|].
  apply same_then; [apply same_kid_convert; auto|]. intro s. apply same_then; auto. intro. apply same_give.
Qed.
Lemma same_all_then {B} ks ks' (f : list str -> prog B) g : Forall2 same_kid ks ks' -> (forall ss, same (f ss) (g ss)) ->
  same (then_ (s_convert_all ks) f) (bind (convert_all ks') g).
Proof. intros. apply same_then; auto. apply same_convert_all; auto. Qed.
Lemma same_kid_then {B} k k' (f : str -> prog B) g : same_kid k k' -> (forall s, same (f s) (g s)) ->
  same (then_ (s_kid_convert k) f) (bind (kid_convert k') g).
Proof. intros. apply same_then; auto. apply same_kid_convert; auto. Qed.
Lemma same_base k k' : same_kid k k' -> same (s_handle_base_child k) (handle_base_child k').
Proof.
  intros K. apply same_kid_then; auto. intro s. rewrite (sk_elem _ _ K). destruct (Nat.leb _ 1); apply same_give.
Qed.
Lemma same_script k k' : same_kid k k' -> same (s_handle_script_child k) (handle_script_child k').
Proof. intros K. apply same_kid_then; auto. intro s. apply same_give. Qed.

Lemma same_elems ks ks' : Forall2 same_kid ks ks' -> map s_elem ks = map kid_elem ks'.
Proof. induction 1 as [|k k' ks ks' K F IH]; cbn; auto. rewrite IH, (sk_elem _ _ K). reflexivity. Qed.

(** Each class. *)
Section Classes3.
  Variables (n v : str) (ks : list s_kid) (ks' : list kid) (al : loc).
  Hypothesis K : Forall2 same_kid ks ks'.
  Let len : length ks = length ks'.
  Proof. exact (Forall2_len _ _ _ K). Qed.

  Lemma same_two {B} (F2 : s_kid -> s_kid -> prog B) (G2 : kid -> kid -> M B) e :
    (forall k1 k2 p1 p2, same_kid k1 p1 -> same_kid k2 p2 -> same (F2 k1 k2) (G2 p1 p2)) ->
    same (match ks with [k1; k2] => F2 k1 k2 | _ => fail e end) (match ks' with [k1; k2] => G2 k1 k2 | _ => raise e end).
  Proof.
    intro H. destruct K as [|k1 p1 ? ? K1 R1]; [apply same_fail|].
    destruct R1 as [|k2 p2 ? ? K2 R2]; [apply same_fail|].
    destruct R2 as [|k3 p3 ? ? K3 R3]; [auto|apply same_fail].
  Qed.
  Lemma same_three {B} (F3 : s_kid -> s_kid -> s_kid -> prog B) (G3 : kid -> kid -> kid -> M B) e :
    (forall k1 k2 k3 p1 p2 p3, same_kid k1 p1 -> same_kid k2 p2 -> same_kid k3 p3 -> same (F3 k1 k2 k3) (G3 p1 p2 p3)) ->
    same (match ks with [k1; k2; k3] => F3 k1 k2 k3 | _ => fail e end)
         (match ks' with [k1; k2; k3] => G3 k1 k2 k3 | _ => raise e end).
  Proof.
    intro H. destruct K as [|k1 p1 ? ? K1 R1]; [apply same_fail|].
    destruct R1 as [|k2 p2 ? ? K2 R2]; [apply same_fail|].
    destruct R2 as [|k3 p3 ? ? K3 R3]; [apply same_fail|].
    destruct R3 as [|k4 p4 ? ? K4 R4]; [auto|apply same_fail].
  Qed.
  Lemma same_nth i : match nth_error ks i with
                     | Some k => exists k', nth_error ks' i = Some k' /\ same_kid k k'
                     | None => nth_error ks' i = None
                     end.
  Proof.
    clear len. revert i. induction K as [|k k' ks0 ks0' K0 F IH]; intros [|i]; cbn; eauto. apply IH; auto.
  Qed.
  Lemma same_pre_nth i : s_is_prescripts_nth ks i = is_prescripts_nth ks' i.
  Proof.
    pose proof (same_nth i) as H. unfold s_is_prescripts_nth, is_prescripts_nth, is_prescripts.
    destruct (nth_error ks i) as [k|]; [|rewrite H; reflexivity].
    destruct H as (k' & E & S). rewrite E, (sk_elem _ _ S). reflexivity.
  Qed.
  Lemma same_convert_nth i : same (s_convert_nth ks i) (convert_nth ks' i).
  Proof.
    pose proof (same_nth i) as H. unfold s_convert_nth, convert_nth.
    destruct (nth_error ks i) as [k|]; [|rewrite H; apply same_fail].
    destruct H as (k' & E & S). rewrite E. apply same_kid_convert; auto.
  Qed.
  Lemma same_pre : same (s_prescript_latex ks) (prescript_latex ks').
  Proof.
    unfold s_prescript_latex, prescript_latex. rewrite len, !same_pre_nth.
    destruct (Nat.leb 4 _ && _); [|destruct (Nat.leb 6 _ && _); [|apply same_give]];
      (apply same_then; [apply same_convert_nth|intro; apply same_then; [apply same_convert_nth|intro; apply same_give]]).
  Qed.
  Lemma same_post : same (s_postscript_latex ks) (postscript_latex ks').
  Proof.
    unfold s_postscript_latex, postscript_latex. rewrite len, !same_pre_nth.
    destruct (_ || _); [apply same_give|].
    apply same_then; [apply same_convert_nth|intro; apply same_then; [apply same_convert_nth|intro; apply same_give]].
  Qed.
  Lemma same_variant : same (s_get_math_variant al) (bind (read_attributes al) (fun a => ret (get_math_variant a))).
  Proof.
    intros h xs. unfold s_get_math_variant, bind, read_attributes, ret, get_math_variant. cbn [alone dicts fst snd].
    destruct (hget h al) as [|p d] eqn:E; [reflexivity|]. cbn [alone dicts]. rewrite E.
    destruct (dget (p :: d) (lit "mathvariant")) eqn:G; [|reflexivity]. cbn [alone dicts]. rewrite E, G. reflexivity.
  Qed.
  Lemma same_MI : same (s_MI v al) (MI_convert v al).
  Proof.
    intros h xs. unfold s_MI, MI_convert, mi_convert, bind, read_attributes, ret.
    destruct (str_eqb (normalize v) (lit " ")); [reflexivity|].
    destruct (negb _); [reflexivity|]. rewrite alone_then, same_variant. reflexivity.
  Qed.
  Lemma same_text_parts chars : same (s_text_parts al chars)
    (bind (read_attributes al) (fun a => ret (map (fun ch =>
            if negb (ch_alnum ch) then mi_convert (ch_value ch) []
            else text_command_apply (dget a (lit "mathvariant")) (ch_value ch)) chars))).
  Proof.
    induction chars as [|ch chars IH]; intros h xs; [reflexivity|]. cbn [s_text_parts map].
    rewrite alone_then. unfold bind, read_attributes, ret in *. cbn [fst snd].
    destruct (negb (ch_alnum ch)).
    - cbn. rewrite alone_then, (IH h xs). reflexivity.
    - rewrite alone_then. cbn. rewrite alone_then, (IH h xs). reflexivity.
  Qed.
  Lemma same_MText : same (s_MText v al) (MText_convert v al).
  Proof.
    intros h xs. unfold s_MText, MText_convert, mtext_convert. rewrite alone_then, same_text_parts. reflexivity.
  Qed.
  Lemma alone_add_flag {A} name f e : forall h xs (k : prog A),
    alone (s_add_flag name f e k) (State h xs) = alone k (State (add_flag_recursive_if_name name f e h) xs).
  Proof.
    induction e as [en ev ch l IH] using elem_ind'. intros h xs k. cbn [s_add_flag add_flag_recursive_if_name].
    assert (X : forall h0, alone (fold_right (s_add_flag name f) k ch) (State h0 xs)
                = alone k (State (fold_left (fun h1 c => add_flag_recursive_if_name name f c h1) ch h0) xs)).
    { clear -IH. induction IH as [|e es He F IHs]; intro h0; cbn [fold_right fold_left]; [reflexivity|]. rewrite He. apply IHs. }
    cbn [alone]. destruct (str_eqb en name); cbn [alone dicts xmls]; apply X.
  Qed.
  Lemma alone_add_flag_all name f es h xs :
    alone (s_add_flag_to_all es name f) (State h xs) = (State (add_flag_to_all es name f h) xs, Ok tt).
  Proof.
    unfold s_add_flag_to_all, add_flag_to_all. revert h. induction es as [|e es IH]; intro h; cbn [fold_right fold_left]; [reflexivity|].
    rewrite alone_add_flag. apply IH.
  Qed.

  (** The two dispatch tables. *)
  Inductive same_class : s_class -> converter_class -> Prop :=
  | same_class_ c d : same_make (c n v ks al) (d n v ks' al) -> same_class c d.
  Lemma same_plain f g : same (f n v ks al) (g n v ks' al) -> same_class (s_plain f) (plain g).
  Proof. intro H. constructor. intros h xs. eexists. split; [reflexivity|exact H]. Qed.

  Ltac same_tac :=
    repeat first [apply same_give | apply same_fail | apply same_base; assumption | apply same_script; assumption
      | apply same_kid_convert; assumption | apply same_convert_all; exact K | apply same_then; [|intro]
      | apply same_get_or; intro | apply same_get; intro].

  Lemma same_Fenced : same_make (s_MFenced ks al) (MFenced_new ks' al).
  Proof.
    intros h xs. unfold s_MFenced, MFenced_new, get_or, then_. cbn. eexists. split; [reflexivity|].
    apply same_all_then; auto. intros ss h1 xs1. rewrite alone_there, (same_elems _ _ K). destruct (is_there_relative_of_name _ _); reflexivity.
  Qed.
  Lemma same_Enclose : same_make (s_MEnclose ks al) (MEnclose_new ks' al).
  Proof.
    intros h xs. unfold s_MEnclose, MEnclose_new, get_or, then_. cbn. eexists. split; [reflexivity|].
    apply same_all_then; auto. intro ss. apply same_give.
  Qed.
  Lemma same_Table : same_make (s_MTable ks al) (MTable_new ks' al).
  Proof.
    intros h xs. unfold s_MTable, MTable_new. rewrite alone_then, alone_add_flag_all. cbn [fst snd].
    rewrite (same_elems _ _ K). eexists. split; [reflexivity|].
    apply same_all_then; auto. intro ss. apply same_get_or. intro a. apply same_give.
  Qed.
  Lemma same_Action : same (s_MAction ks al) (MAction_convert ks' al).
  Proof.
    unfold s_MAction, MAction_convert. apply same_get. intro a. unfold is_toggle.
    match goal with |- same (if ?b then _ else _) _ => destruct b end.
    - apply same_all_then; auto. intro; apply same_give.
    - destruct K as [|k k' ? ? K1 R1]; [apply same_fail|apply same_kid_convert; auto].
  Qed.
  Lemma same_Multi : same (s_MMultiscripts n ks) (MMultiscripts_convert n ks').
  Proof.
    unfold s_MMultiscripts, MMultiscripts_convert. rewrite len. destruct (Nat.ltb _ 3); [apply same_fail|].
    apply same_then; [apply same_convert_nth|intro]. apply same_then; [apply same_pre|intro].
    apply same_then; [apply same_post|intro]. apply same_give.
  Qed.

  Lemma same_classes key : same_class (dget_or s_converter_table key s_generic_spacing_wrapper)
                                      (dget_or converter_table key generic_spacing_wrapper).
  Proof.
    assert (Row : same_class s_generic_spacing_wrapper generic_spacing_wrapper).
    { apply same_plain. apply same_all_then; auto. intro; apply same_give. }
    unfold dget_or, s_converter_table, converter_table. cbn [dget].
    repeat match goal with
    | |- same_class (match (if str_eqb key (lit ?s) then _ else _) with _ => _ end) _ => destruct (str_eqb key (lit s)); [|]
    end; try exact Row; try (apply same_plain; apply same_all_then; auto; intro; apply same_give).
    - apply same_plain, same_MI.
    - apply same_plain, same_give.
    - apply same_plain, same_give.
    - constructor. exact same_Fenced.
    - apply same_plain. unfold s_MFrac, MFrac_convert, s_invalid_children, invalid_children. rewrite len.
      apply same_two. intros. same_tac.
    - apply same_plain. unfold s_MRoot, MRoot_convert, s_invalid_children, invalid_children. rewrite len.
      apply same_two. intros. same_tac.
    - apply same_plain, same_Action.
    - constructor. exact same_Enclose.
    - apply same_plain, same_give.
    - apply same_plain. unfold s_MSup, MSup_convert, s_invalid_children, invalid_children. rewrite len.
      apply same_two. intros. same_tac.
    - apply same_plain. unfold s_MSub, MSub_convert, s_invalid_children, invalid_children. rewrite len.
      apply same_two. intros. same_tac.
    - apply same_plain. unfold s_MSubsup, MSubsup_convert, s_invalid_children, invalid_children. rewrite len.
      apply same_three. intros. same_tac.
    - apply same_plain, same_Multi.
    - apply same_plain, same_MText.
    - apply same_plain. unfold s_MUnderover, MUnderover_convert, s_invalid_children, invalid_children. rewrite len.
      apply same_three. intros. same_tac.
    - constructor. exact same_Table.
    - apply same_plain. unfold s_GenericUnderOver, GenericUnderOver_convert, s_invalid_children, invalid_children. rewrite len.
      apply same_two. intros. same_tac.
    - apply same_plain. unfold s_GenericUnderOver, GenericUnderOver_convert, s_invalid_children, invalid_children. rewrite len.
      apply same_two. intros. same_tac.
  Qed.
End Classes3.

Lemma same_to_latex e : same_make (s_to_latex_converter e) (to_latex_converter e).
Proof.
  induction e as [n v ch l IH] using elem_ind'. cbn [s_to_latex_converter to_latex_converter].
  unfold s_make_converter, make_converter. cbv zeta.
  assert (K : Forall2 same_kid (map (fun c => SKid c (s_to_latex_converter c)) ch) (map (fun c => Kid c (to_latex_converter c)) ch)).
  { induction IH; cbn; constructor; auto. constructor; auto. }
  destruct (same_classes n v _ _ l K (py_or n (lit "void"))). assumption.
Qed.
Lemma same_convert_elem e : same (s_convert_elem e) (convert_elem e).
Proof. apply (same_kid_convert (SKid e (s_to_latex_converter e)) (Kid e (to_latex_converter e))). constructor; auto. apply same_to_latex. Qed.

(** Building the elements. *)
Definition same_build (p : prog (list elem)) (m : heap -> heap * list elem) : Prop :=
  forall h xs, alone p (State h xs) = (State (fst (m h)) xs, Ok (snd (m h))).
Lemma same_convert_elements_gen ns : Forall (fun n => same_build (s_convert_element n) (convert_element n)) ns ->
  same_build (s_convert_elements ns) (convert_elements ns).
Proof.
  induction 1 as [|n ns Hn F IH]; intros h xs; [reflexivity|]. cbn [s_convert_elements convert_elements].
  rewrite alone_then, (Hn h xs). destruct (convert_element n h) as [h1 e]. cbn [fst snd].
  rewrite alone_then, (IH h1 xs). destruct (convert_elements ns h1) as [h2 es]. reflexivity.
Qed.
Lemma s_convert_element_eq tag attributes children :
  s_convert_element (DElem tag attributes children) =
  Alloc (convert_element_attributes attributes) (fun l => els <- s_convert_elements children ;;; give [Elem tag (element_value children) els l]).
Proof.
  cbn [s_convert_element].
  assert (X : (fix go (ns : list dnode) : prog (list elem) :=
                  match ns with
                  | [] => give []
                  | m :: ns' => e <- s_convert_element m ;;; es <- go ns' ;;; give (e ++ es)
                  end) children = s_convert_elements children).
  { induction children as [|m ms IH]; [reflexivity|]. cbn [s_convert_elements]. rewrite <- IH. reflexivity. }
  rewrite X. reflexivity.
Qed.
Lemma same_convert_element n : same_build (s_convert_element n) (convert_element n).
Proof.
  induction n as [tag a ch IH|n H] using dnode_ind'; [|destruct n; try discriminate; intros h xs; reflexivity].
  intros h xs. rewrite s_convert_element_eq, convert_element_eq. cbn [alone dicts xmls].
  rewrite alone_then, (same_convert_elements_gen ch IH _ xs). reflexivity.
Qed.
Lemma same_convert_elements ns : same_build (s_convert_elements ns) (convert_elements ns).
Proof. apply same_convert_elements_gen. apply Forall_forall. intros n _. apply same_convert_element. Qed.

(** Making and running all converters. *)
Lemma alone_make_all es : forall h xs, exists cs,
  alone (s_make_all es) (State h xs) = (State (fst (make_all es h)) xs, Ok cs) /\ Forall2 same cs (snd (make_all es h)).
Proof.
  induction es as [|e es IH]; intros h xs; cbn [s_make_all make_all].
  - exists []. split; [reflexivity|constructor].
  - destruct (same_to_latex e h xs) as (c & E & S). rewrite alone_then, E.
    destruct (to_latex_converter e h) as [h1 c']. cbn [fst snd] in *.
    destruct (IH h1 xs) as (cs & E2 & S2). rewrite alone_then, E2. destruct (make_all es h1) as [h2 cs']. cbn [fst snd] in *.
    exists (c :: cs). split; [reflexivity|constructor; auto].
Qed.
Lemma same_run_all cs cs' : Forall2 same cs cs' -> same (s_run_all cs) (run_all cs').
Proof.
  induction 1 as [|c c' cs cs' S F IH]; cbn; [apply same_give|].
  apply same_then; [apply same_run; auto|]. intro s. apply same_then; auto. intro; apply same_give.
Qed.

(** Adapters. *)
Lemma put_nth_length {A} (l : list A) i x : length (put_nth l i x) = length l.
Proof. revert i. induction l as [|y l IH]; intros [|i]; cbn; auto. Qed.
Lemma nth_put_same {A} (l : list A) i x d : i < length l -> nth i (put_nth l i x) d = x.
Proof. revert i. induction l as [|y l IH]; intros [|i] H; cbn in *; auto; try lia. apply IH. lia. Qed.
Lemma nth_put_other {A} (l : list A) i j x d : j <> i -> nth j (put_nth l i x) d = nth j l d.
Proof. revert i j. induction l as [|y l IH]; intros [|i] [|j] H; cbn in *; auto; try lia. Qed.
Lemma put_put {A} (l : list A) i x y : put_nth (put_nth l i x) i y = put_nth l i y.
Proof. revert i. induction l as [|z l IH]; intros [|i]; cbn; auto. f_equal. apply IH. Qed.
Lemma put_self {A} (l : list A) i d : put_nth l i (nth i l d) = l.
Proof. revert i. induction l as [|z l IH]; intros [|i]; cbn; auto. f_equal. apply IH. Qed.
Lemma put_last {A} (l : list A) x y : put_nth (l ++ [x]) (length l) y = l ++ [y].
Proof. induction l as [|z l IH]; cbn; auto. f_equal. apply IH. Qed.

Section Calls.
  Variables (wc : N -> bool) (ps : str -> res document).

  Lemma alone_parse_loop fuel : forall i last h xs, i < length xs ->
    alone (s_parse_loop wc ps fuel i last) (State h xs) =
    (State h (put_nth xs i (fst (parse_loop wc ps fuel (nth i xs []) last))), snd (parse_loop wc ps fuel (nth i xs []) last)).
  Proof.
    induction fuel as [|f IH]; intros i last h xs L; cbn [s_parse_loop parse_loop].
    - cbn [fst snd]. rewrite put_self. destruct last; reflexivity.
    - cbn [alone xmls]. destruct (ps (nth i xs [])) as [d|e]; cbn [alone give fst snd xmls].
      + rewrite put_self. reflexivity.
      + destruct (fix_error wc (nth i xs []) e) as [s|e']; cbn [alone fail fst snd dicts xmls].
        * rewrite IH by (rewrite put_nth_length; auto). rewrite nth_put_same by auto. rewrite put_put. reflexivity.
        * rewrite put_self. reflexivity.
  Qed.

  (** The text the adapter is left with. *)
  Definition left_text (mathml : str) : str := fst (parse_loop wc ps 5 (remove_ms_word_prefixes (remove_line_breaks mathml)) None).

  Lemma alone_convert_with i mathml h xs : i < length xs ->
    alone (s_convert_with wc ps i mathml) (State h xs) =
    (State (fst (mathml_to_latex wc ps mathml h)) (put_nth xs i (left_text mathml)), snd (mathml_to_latex wc ps mathml h)).
  Proof.
    intro L. unfold s_convert_with, s_adapter_convert, mathml_to_latex, adapter_convert, left_text.
    rewrite alone_then. cbn [alone dicts xmls]. rewrite nth_put_same by auto. rewrite put_put.
    rewrite alone_then, alone_parse_loop by (rewrite put_nth_length; auto).
    rewrite nth_put_same by auto. rewrite put_put.
    destruct (parse_loop wc ps 5 (remove_ms_word_prefixes (remove_line_breaks mathml)) None) as [s [ns|e]]; cbn [fst snd]; [|reflexivity].
    rewrite same_convert_elements. destruct (convert_elements ns h) as [h1 els]. cbn [fst snd].
    rewrite alone_then. destruct (alone_make_all els h1 (put_nth xs i s)) as (cs & E & S). rewrite E.
    destruct (make_all els h1) as [h2 cs']. cbn [fst snd] in *.
    rewrite (same_then _ _ (fun latex => give (strip (concat latex))) (fun latex => ret (strip (concat latex))) (same_run_all _ _ S)
               (fun _ => same_give _)). reflexivity.
  Qed.
  Lemma alone_call mathml h xs :
    alone (s_mathml_to_latex wc ps mathml) (State h xs) =
    (State (fst (mathml_to_latex wc ps mathml h)) (xs ++ [left_text mathml]), snd (mathml_to_latex wc ps mathml h)).
  Proof.
    unfold s_mathml_to_latex. cbn [alone dicts xmls]. rewrite alone_convert_with by (rewrite app_length; cbn; lia).
    rewrite put_last. reflexivity.
  Qed.
End Calls.

(** Single steps, as often as it takes. *)
Fixpoint steps {A} (n : nat) (p : prog A) (st : state) : prog A * state :=
  match n with
  | O => (p, st)
  | S n' => let (p', st') := step p st in steps n' p' st'
  end.
Lemma alone_steps {A} (p : prog A) : forall st, exists n, steps n p st = (Done (snd (alone p st)), fst (alone p st)).
Proof.
  induction p; intro st; [exists 0; reflexivity|..];
  match goal with H : forall x, forall st : state, _ |- _ => edestruct H as (n & E) | H : forall st : state, _ |- _ => edestruct H as (n & E) end;
  exists (S n); cbn; exact E.
Qed.
