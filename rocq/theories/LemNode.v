(** Every converter class refines [node]; the main refinement theorem. *)
From Coq Require Import String.
From Verif Require Export LemRefine.
Local Open Scope string_scope.
Local Open Scope list_scope.

(** ** Dispatch *)
Inductive class_of (n : str) : tag -> converter_class -> Prop :=
| CMath : class_of n TagMath (plain (fun _ _ ks _ => Math_convert ks))
| CMi : class_of n TagMi (plain (fun _ v _ a => MI_convert v a))
| CMo : class_of n TagMo (plain (fun _ v _ _ => MO_convert v))
| CMn : class_of n TagMn (plain (fun _ v _ _ => MN_convert v))
| CMtext : class_of n TagMtext (plain (fun _ v _ a => MText_convert v a))
| CSqrt : class_of n TagSqrt (plain (fun _ _ ks _ => MSqrt_convert ks))
| CFenced : class_of n TagFenced (fun _ _ ks a => MFenced_new ks a)
| CFrac : class_of n TagFrac (plain (fun n _ ks a => MFrac_convert n ks a))
| CRoot : class_of n TagRoot (plain (fun n _ ks _ => MRoot_convert n ks))
| CAction : class_of n TagAction (plain (fun _ _ ks a => MAction_convert ks a))
| CEnclose : class_of n TagEnclose (fun _ _ ks a => MEnclose_new ks a)
| CError : class_of n TagError (plain (fun _ _ ks _ => MError_convert ks))
| CPhantom : class_of n TagPhantom (plain (fun _ _ _ _ => Void_convert))
| CSup : class_of n TagSup (plain (fun n _ ks _ => MSup_convert n ks))
| CSub : class_of n TagSub (plain (fun n _ ks _ => MSub_convert n ks))
| CSubsup : class_of n TagSubsup (plain (fun n _ ks _ => MSubsup_convert n ks))
| CMulti : class_of n TagMultiscripts (plain (fun n _ ks _ => MMultiscripts_convert n ks))
| CUnderover : class_of n TagUnderover (plain (fun n _ ks _ => MUnderover_convert n ks))
| CTable : n = mtable_name -> class_of n TagTable (fun _ _ ks a => MTable_new ks a)
| CTr : class_of n TagTr (plain (fun _ _ ks _ => MTr_convert ks))
| COver : n = lit "mover" -> class_of n TagOver (plain (fun n _ ks _ => GenericUnderOver_convert n ks))
| CUnder : n = lit "munder" -> class_of n TagUnder (plain (fun n _ ks _ => GenericUnderOver_convert n ks))
| CRow : class_of n TagRow generic_spacing_wrapper.

Definition class_for (n : str) : converter_class :=
  dget_or converter_table (py_or n (lit "void")) generic_spacing_wrapper.

Lemma py_or_eqb n d k : d <> k -> k <> [] -> str_eqb (py_or n d) k = str_eqb n k.
Proof.
  intros H K. unfold py_or. destruct n; cbn [truthy]; auto.
  rewrite (proj2 (str_eqb_neq d k)) by auto. symmetry. apply str_eqb_neq. congruence.
Qed.

Lemma class_for_ok n : class_of n (tag_of n) (class_for n).
Proof.
  unfold class_for, dget_or, tag_of, known_tags, converter_table.
  cbn [dget tag_lookup].
  repeat rewrite py_or_eqb by discriminate.
  repeat match goal with
  | |- context [str_eqb n (lit ?s)] =>
      let H := fresh in destruct (str_eqb n (lit s)) eqn:H;
      [ apply str_eqb_eq in H; rewrite H; constructor; reflexivity | cbn iota]
  end.
  constructor.
Qed.

Lemma tag_table n : is_table n = true <-> tag_of n = TagTable.
Proof.
  split.
  - intro H. apply str_eqb_eq in H. rewrite H. reflexivity.
  - intro H. pose proof (class_for_ok n) as C. rewrite H in C. inversion C; subst. reflexivity.
Qed.
Lemma tag_not_table n : is_table n = false <-> tag_of n <> TagTable.
Proof. rewrite <- tag_table. destruct (is_table n); split; congruence. Qed.

(** ** Each class *)
Lemma relative_spec_gen S I ks ps : Forall2 (kid_ok S I) ks ps ->
  is_there_relative_of_name (map kid_elem ks) (lit "mtable") = existsb has_table (map fst ps).
Proof.
  unfold is_there_relative_of_name. rewrite !existsb_map.
  induction 1 as [|k p ks0 ps0 K0 F IH]; cbn; auto. rewrite <- IH. f_equal. apply K0.
Qed.
Lemma nth_kid_gen S I ks ps : Forall2 (kid_ok S I) ks ps -> forall i,
  match nth_error ks i with
  | Some k => exists p, nth_error ps i = Some p /\ kid_ok S I k p
  | None => nth_error ps i = None
  end.
Proof. induction 1 as [|k p ks0 ps0 K0 F IH]; intros [|i]; cbn; eauto. apply IH. Qed.

Ltac ret_str := eapply sim_conv; [apply sim_ret|]; unfold braced; cbn [rbind]; rewrite <- ?app_assoc; reflexivity.
Section Classes.
  Variables (S : list loc) (I : heap -> Prop).
  Variables (n v : str) (ks : list kid) (ps : list (tree * res str)) (al : loc) (a : dict str) (inside : bool).
  Hypothesis K : Forall2 (kid_ok S I) ks ps.

  Let len : length ks = length ps.
  Proof. exact (Forall2_len _ _ _ K). Qed.

  Definition relative_spec := relative_spec_gen S I ks ps K.
  Definition nth_kid := nth_kid_gen S I ks ps K.
  Lemma is_pre_nth i :
    is_prescripts_nth ks i = match nth_error ps i with
                      | Some (t, _) => str_eqb (t_name t) (lit "mprescripts")
                      | None => false
                      end.
  Proof.
    pose proof (nth_kid i) as H. unfold is_prescripts_nth. destruct (nth_error ks i) as [k|].
    - destruct H as ([t r] & E & K'). rewrite E. unfold is_prescripts. rewrite (ko_name _ _ _ _ K'). auto.
    - rewrite H. auto.
  Qed.
  Lemma convert_nth_sim i {B} (f : str -> M B) g : i < length ps -> (forall s, sim S I (f s) (g s)) ->
    sim S I (bind (convert_nth ks i) f) (rbind (nth i (map snd ps) (Ok [])) g).
  Proof.
    intros L Hf. pose proof (nth_kid i) as H. unfold convert_nth. destruct (nth_error ks i) as [k|] eqn:E.
    - destruct H as ([t r] & E2 & K'). apply sim_bind; auto.
      erewrite nth_error_nth; [apply K'|]. rewrite nth_error_map, E2. reflexivity.
    - apply nth_error_None in H. lia.
  Qed.

  Lemma Math_ok : sim S I (Math_convert ks) (ss <~ rseq (map snd ps) ;; Ok (squeeze (join (lit " ") ss))).
  Proof. apply convert_all_bind; auto. intro. rewrite normalize_squeeze. apply sim_ret. Qed.

  Lemma pair_sim {B} (F2 : kid -> kid -> M B) (G2 : tree * res str -> tree * res str -> res B) e :
    (forall k1 k2 p1 p2, kid_ok S I k1 p1 -> kid_ok S I k2 p2 -> sim S I (F2 k1 k2) (G2 p1 p2)) ->
    sim S I (match ks with [k1; k2] => F2 k1 k2 | _ => raise e end)
          (match ps with [p1; p2] => G2 p1 p2 | _ => Raise e end).
  Proof.
    intro H. destruct K as [|k1 p1 ? ? K1 R1]; [apply sim_raise|].
    destruct R1 as [|k2 p2 ? ? K2 R2]; [apply sim_raise|].
    destruct R2 as [|k3 p3 ? ? K3 R3]; [auto|apply sim_raise].
  Qed.
  Lemma triple_sim {B} (F3 : kid -> kid -> kid -> M B) (G3 : tree * res str -> tree * res str -> tree * res str -> res B) e :
    (forall k1 k2 k3 p1 p2 p3, kid_ok S I k1 p1 -> kid_ok S I k2 p2 -> kid_ok S I k3 p3 -> sim S I (F3 k1 k2 k3) (G3 p1 p2 p3)) ->
    sim S I (match ks with [k1; k2; k3] => F3 k1 k2 k3 | _ => raise e end)
          (match ps with [p1; p2; p3] => G3 p1 p2 p3 | _ => Raise e end).
  Proof.
    intro H. destruct K as [|k1 p1 ? ? K1 R1]; [apply sim_raise|].
    destruct R1 as [|k2 p2 ? ? K2 R2]; [apply sim_raise|].
    destruct R2 as [|k3 p3 ? ? K3 R3]; [apply sim_raise|].
    destruct R3 as [|k4 p4 ? ? K4 R4]; [auto|apply sim_raise].
  Qed.

  Lemma two_of {B C} (f : B -> C) (l : list B) {D} (g : C -> C -> D) (d : D) :
    match map f l with [x; y] => g x y | _ => d end = match l with [x; y] => g (f x) (f y) | _ => d end.
  Proof. destruct l as [|? [|? [|? ?]]]; reflexivity. Qed.
  Lemma three_of {B C} (f : B -> C) (l : list B) {D} (g : C -> C -> C -> D) (d : D) :
    match map f l with [x; y; z] => g x y z | _ => d end = match l with [x; y; z] => g (f x) (f y) (f z) | _ => d end.
  Proof. destruct l as [|? [|? [|? [|? ?]]]]; reflexivity. Qed.

  Lemma MMulti_ok : tag_of n = TagMultiscripts -> sim S I (MMultiscripts_convert n ks) (node inside n v ps a).
  Proof.
    intro Tg. unfold node. rewrite Tg. unfold MMultiscripts_convert. rewrite len.
    destruct (Nat.ltb_spec (length ps) 3) as [L|L]; [apply sim_raise|].
    apply convert_nth_sim; [lia|]. intro sb.
    apply sim_bind.
    - unfold prescript_latex. rewrite len, !is_pre_nth.
      rewrite (andb_comm (Nat.leb 4 _)), (andb_comm (Nat.leb 6 _)).
      match goal with |- sim _ _ (if ?b then _ else if ?c then _ else _) _ => destruct b eqn:B; [|destruct c eqn:C] end.
      + apply andb_true_iff in B as [_ B]. apply Nat.leb_le in B. rewrite rbind_assoc.
        apply convert_nth_sim; [lia|]. intro s1. rewrite rbind_assoc. apply convert_nth_sim; [lia|]. intro s2. ret_str.
      + apply andb_true_iff in C as [_ C]. apply Nat.leb_le in C. rewrite rbind_assoc.
        apply convert_nth_sim; [lia|]. intro s1. rewrite rbind_assoc. apply convert_nth_sim; [lia|]. intro s2. ret_str.
      + apply sim_ret.
    - intro pre. apply sim_bind.
      + unfold postscript_latex. rewrite len, !is_pre_nth.
        destruct (Nat.ltb_spec (length ps) 3); try lia. destruct (Nat.leb_spec 1 (length ps)); try lia. cbn [orb andb].
        match goal with |- sim _ _ (if ?b then _ else _) _ => destruct b end; [apply sim_ret|].
        apply convert_nth_sim; [lia|]. intro s1. apply convert_nth_sim; [lia|]. intro s2. ret_str.
      + intro post. rewrite wrap_space_spec. apply sim_ret.
  Qed.

  Lemma scripted_sup : tag_of n = TagSup -> sim S I (MSup_convert n ks) (node inside n v ps a).
  Proof.
    intro Tg. unfold node. rewrite Tg. unfold MSup_convert, invalid_children, arity_error. rewrite len.
    eapply sim_conv; [apply (pair_sim _ (fun p1 p2 => sb <~ snd p1 ;; sx <~ snd p2 ;; Ok (base_latex (fst p1) sb ++ lit "^" ++ braced sx)))|].
    - intros. apply (handle_base_sim S I _ _ _ (fun b => sx <~ snd p2 ;; Ok (b ++ lit "^" ++ braced sx))); auto. intro sb.
      apply (handle_script_sim S I _ _ _ (fun x => Ok (sb ++ lit "^" ++ x))); auto. intro; apply sim_ret.
    - destruct ps as [|[? ?] [|[? ?] [|? ?]]]; reflexivity.
  Qed.
  Lemma scripted_sub : tag_of n = TagSub -> sim S I (MSub_convert n ks) (node inside n v ps a).
  Proof.
    intro Tg. unfold node. rewrite Tg. unfold MSub_convert, invalid_children, arity_error. rewrite len.
    eapply sim_conv; [apply (pair_sim _ (fun p1 p2 => sb <~ snd p1 ;; sx <~ snd p2 ;; Ok (base_latex (fst p1) sb ++ lit "_" ++ braced sx)))|].
    - intros. apply (handle_base_sim S I _ _ _ (fun b => sx <~ snd p2 ;; Ok (b ++ lit "_" ++ braced sx))); auto. intro sb.
      apply (handle_script_sim S I _ _ _ (fun x => Ok (sb ++ lit "_" ++ x))); auto. intro; apply sim_ret.
    - destruct ps as [|[? ?] [|[? ?] [|? ?]]]; reflexivity.
  Qed.
  Lemma scripted_subsup : tag_of n = TagSubsup -> sim S I (MSubsup_convert n ks) (node inside n v ps a).
  Proof.
    intro Tg. unfold node. rewrite Tg. unfold MSubsup_convert, invalid_children, arity_error. rewrite len.
    eapply sim_conv; [apply (triple_sim _ (fun p1 p2 p3 => sb <~ snd p1 ;; sx <~ snd p2 ;; sy <~ snd p3 ;;
       Ok (base_latex (fst p1) sb ++ lit "_" ++ braced sx ++ lit "^" ++ braced sy)))|].
    - intros. apply (handle_base_sim S I _ _ _ (fun b => sx <~ snd p2 ;; sy <~ snd p3 ;; Ok (b ++ lit "_" ++ braced sx ++ lit "^" ++ braced sy))); auto.
      intro sb. apply (handle_script_sim S I _ _ _ (fun x => sy <~ snd p3 ;; Ok (sb ++ lit "_" ++ x ++ lit "^" ++ braced sy))); auto.
      intro x. apply (handle_script_sim S I _ _ _ (fun y => Ok (sb ++ lit "_" ++ x ++ lit "^" ++ y))); auto. intro; apply sim_ret.
    - destruct ps as [|[? ?] [|[? ?] [|[? ?] [|? ?]]]]; reflexivity.
  Qed.

  Lemma Frac_ok : (forall h, I h -> hget h al = a) -> tag_of n = TagFrac ->
    sim S I (MFrac_convert n ks al) (node inside n v ps a).
  Proof.
    intros A Tg. unfold node. rewrite Tg. unfold MFrac_convert, invalid_children, arity_error. rewrite len, two_of.
    apply pair_sim. intros k1 k2 p1 p2 K1 K2. apply kid_bind; auto. intro s1. apply kid_bind; auto. intro s2.
    apply (sim_read S I al a); auto.
    rewrite !paren_long_spec. unfold attr. eapply sim_conv; [apply sim_ret|].
    destruct (truthy _); unfold braced; rewrite <- ?app_assoc; reflexivity.
  Qed.
  Lemma Root_ok : tag_of n = TagRoot -> sim S I (MRoot_convert n ks) (node inside n v ps a).
  Proof.
    intros Tg. unfold node. rewrite Tg. unfold MRoot_convert, invalid_children, arity_error. rewrite len, two_of.
    apply pair_sim. intros k1 k2 p1 p2 K1 K2. apply kid_bind; auto. intro s1. apply kid_bind; auto. intro s2.
    apply sim_ret.
  Qed.
  Lemma Underover_ok : tag_of n = TagUnderover -> sim S I (MUnderover_convert n ks) (node inside n v ps a).
  Proof.
    intros Tg. unfold node. rewrite Tg. unfold MUnderover_convert, invalid_children, arity_error. rewrite len, three_of.
    apply triple_sim. intros k1 k2 k3 p1 p2 p3 K1 K2 K3. apply kid_bind; auto. intro s1. apply kid_bind; auto. intro s2.
    apply kid_bind; auto. intro s3. eapply sim_conv; [apply sim_ret|]. unfold braced. rewrite <- ?app_assoc. reflexivity.
  Qed.
  Lemma UnderOver_ok : (n = lit "munder" \/ n = lit "mover") ->
    sim S I (GenericUnderOver_convert n ks) (node inside n v ps a).
  Proof.
    intros Tg. unfold node, GenericUnderOver_convert, invalid_children, arity_error. rewrite len.
    assert (X : forall s1 s2, under_over_apply (re_search (RLit (lit "under")) n) s1 s2 =
       (if str_in s2 (map lit ["\hat"; "\bar"; "\underbrace"; "\overbrace"])
              then s2 ++ braced s1
              else lit (match tag_of n with TagUnder => "\underset" | _ => "\overset" end) ++ braced s2 ++ braced s1)).
    { intros. destruct Tg; subst n; unfold under_over_apply; cbn [map]; destruct (str_in _ _); try reflexivity;
      match goal with |- context [re_search ?r ?x] => let b := eval vm_compute in (re_search r x) in change (re_search r x) with b end;
      match goal with |- context [tag_of ?x] => let b := eval vm_compute in (tag_of x) in change (tag_of x) with b end;
      cbn iota; unfold braced; change (lit "}{") with (lit "}" ++ lit "{"); rewrite <- ?app_assoc; reflexivity. }
    destruct Tg; subst n; 
    match goal with |- context [match tag_of ?x with _ => _ end] => let b := eval vm_compute in (tag_of x) in change (tag_of x) with b in * end; cbn iota in *;
    rewrite two_of; apply pair_sim; intros k1 k2 p1 p2 K1 K2; apply kid_bind; auto; intro s1; apply kid_bind; auto; intro s2;
    rewrite X; apply sim_ret.
  Qed.

  Lemma Action_ok : (forall h, I h -> hget h al = a) -> tag_of n = TagAction ->
    sim S I (MAction_convert ks al) (node inside n v ps a).
  Proof.
    intros A Tg. unfold node. rewrite Tg. unfold MAction_convert.
    apply (sim_read S I al a); auto.
    assert (X : is_toggle a = negb (truthy (attr a "actiontype") && negb (str_eqb (attr a "actiontype") (lit "toggle")))).
    { unfold is_toggle, attr, dget_or. destruct (dget a (lit "actiontype")); auto.
      destruct (str_eqb s _), (truthy s); auto. }
    rewrite X. destruct (truthy _ && _); cbn [negb].
    - destruct K as [|k p ? ? K1 R1]; [apply sim_raise|]. apply K1.
    - apply convert_all_bind; auto. intro; apply sim_ret.
  Qed.

  Lemma node_ok : (forall h, I h -> hget h al = a) -> is_table n = false ->
    exists c, (forall h, I h -> class_for n n v ks al h = (h, c)) /\ sim S I c (node inside n v ps a).
  Proof.
    intros A NT. pose proof (class_for_ok n) as C.
    remember (tag_of n) as tg eqn:Tg. symmetry in Tg. remember (class_for n) as cl eqn:Cl.
    destruct C; try (apply tag_not_table in NT; congruence); (eexists; split; [intros h Hh; unfold MFenced_new, MEnclose_new; rewrite ?(A h Hh); reflexivity|]).
    - unfold node. rewrite Tg. apply Math_ok.
    - unfold node. rewrite Tg. unfold MI_convert. apply (sim_read S I al a); auto. rewrite mi_convert_spec. apply sim_ret.
    - unfold node. rewrite Tg. unfold MO_convert. rewrite mo_convert_spec. apply sim_ret.
    - unfold node. rewrite Tg. unfold MN_convert. rewrite mn_convert_spec. apply sim_ret.
    - unfold node. rewrite Tg. unfold MText_convert. apply (sim_read S I al a); auto. rewrite mtext_convert_spec. apply sim_ret.
    - unfold node. rewrite Tg. apply convert_all_bind; auto. intro; apply sim_ret.
    - unfold node. rewrite Tg. apply convert_all_bind; auto. intro ss. unfold attr.
      rewrite relative_spec. eapply sim_conv with (r := Ok _); [|reflexivity].
      destruct (existsb _ _); [rewrite Matrix_spec|rewrite Vector_spec]; apply sim_ret.
    - apply Frac_ok; auto.
    - apply Root_ok; auto.
    - apply Action_ok; auto.
    - unfold node. rewrite Tg. apply convert_all_bind; auto. intro ss. rewrite enclose_spec. apply sim_ret.
    - unfold node. rewrite Tg. apply convert_all_bind; auto. intro ss. apply sim_ret.
    - unfold node. rewrite Tg. apply sim_ret.
    - apply scripted_sup; auto.
    - apply scripted_sub; auto.
    - apply scripted_subsup; auto.
    - apply MMulti_ok; auto.
    - apply Underover_ok; auto.
    - unfold node. rewrite Tg. apply convert_all_bind; auto. intro ss. apply sim_ret.
    - apply UnderOver_ok; auto.
    - apply UnderOver_ok; auto.
    - unfold node. rewrite Tg. apply convert_all_bind; auto. intro ss. apply sim_ret.
  Qed.

  Lemma table_ok : (forall h, I h -> flagged (hget h al) = inside || truthy (attr a "innerTable")) -> is_table n = true ->
    exists c, (forall h, class_for n n v ks al h = (add_flag_to_all (map kid_elem ks) mtable_name flag h, c))
              /\ sim S I c (node inside n v ps a).
  Proof.
    intros A NT. apply str_eqb_eq in NT. subst n. eexists. split; [intro h; reflexivity|].
    unfold node. change (tag_of (lit "mtable")) with TagTable. cbn iota.
    apply convert_all_bind; auto. intro ss. cbv zeta.
    apply (sim_read_ret S I al (fun a0 => if has_flag a0 (lit "innerTable") then _ else _)).
    intros h H. specialize (A h H). unfold flagged, flag in A. rewrite A.
    destruct (inside || _); [|reflexivity].
    unfold env, cmd1. change (lit "\begin{") with (lit "\begin" ++ lit "{"). change (lit "\end{") with (lit "\end" ++ lit "{").
    rewrite <- ?app_assoc. reflexivity.
  Qed.
End Classes.
