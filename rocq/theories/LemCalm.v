(** Converting an element step by step while other threads may set flags: the outcome is the rendering of the tree at the start. *)
From Coq Require Import String.
From Verif Require Export LemSteps.
Local Open Scope string_scope.
Local Open Scope list_scope.

(** The tree an element holds, given what the dictionaries hold. *)
Fixpoint tree_in (g : loc -> dict str) (e : elem) : tree :=
  match e with Elem n v ch l => T n v (map (tree_in g) ch) (g l) end.
Lemma tree_at_in h e : tree_at h e = tree_in (hget h) e.
Proof.
  induction e as [n v ch l IH] using elem_ind'. cbn. f_equal. induction IH as [|e es He F IHs]; cbn; auto. rewrite He, IHs. reflexivity.
Qed.
Lemma tree_in_ext g g' e : (forall l, In l (locs e) -> g l = g' l) -> tree_in g e = tree_in g' e.
Proof.
  induction e as [n v ch l IH] using elem_ind'. intro H. cbn [tree_in]. f_equal; [|apply H; cbn; auto].
  apply map_ext_in. intros c Ic. rewrite Forall_forall in IH. apply IH; auto.
  intros x Ix. apply H. cbn. right. apply in_flat_map. eauto.
Qed.
Lemma tree_in_facts g e : e_name e = t_name (tree_in g e) /\ length (e_children e) = length (t_children (tree_in g e))
  /\ is_relative_of_name mtable_name e = has_table (tree_in g e).
Proof.
  split; [destruct e; reflexivity|]. split; [destruct e; cbn; rewrite map_length; reflexivity|].
  induction e as [n v ch l IH] using elem_ind'. cbn. unfold is_table. change (lit "mtable") with mtable_name. f_equal.
  rewrite existsb_map. induction IH as [|e es He F IHs]; cbn; auto. rewrite He, IHs. reflexivity.
Qed.

(** A dictionary after the flag was set in those of [V]. *)
Definition wr (V : list loc) (l : loc) (d : dict str) : dict str := if existsb (Nat.eqb l) V then dset d flag flag else d.
Lemma wr_same V l d : same_but (wr V l d) d.
Proof. intros k N. unfold wr. destruct (existsb _ _); auto. apply dget_dset_other; auto. Qed.
Lemma wr_flagged V l d : flagged d = true -> flagged (wr V l d) = true.
Proof. unfold wr. destruct (existsb _ _); auto. intros _. apply flagged_set. Qed.
Lemma wr_out V l d : ~ In l V -> wr V l d = d.
Proof. unfold wr. intro N. destruct (existsb (Nat.eqb l) V) eqn:E; auto. apply existsb_eqb in E. tauto. Qed.

Section Calm.
  (** What the dictionaries held at the start, which may be flagged, and which are looked at here at all. *)
  Variables (g0 : loc -> dict str) (D : list loc) (Vis : loc -> Prop).

  Definition sees (h : heap) : Prop := exists V, incl V D /\ forall l, Vis l -> hget h l = wr V l (g0 l).
  Definition flags (W : list loc) (h : heap) : Prop := forall l, In l W -> flagged (hget h l) = true.
  Lemma flags_incl W W' h : incl W W' -> flags W' h -> flags W h.
  Proof. intros I F l Il. apply F, I, Il. Qed.
  Lemma sees_same h l : sees h -> Vis l -> same_but (hget h l) (g0 l).
  Proof. intros (V & _ & E) Il. rewrite (E l Il). apply wr_same. Qed.
  Lemma sees_flagged h l : sees h -> Vis l -> flagged (g0 l) = true -> flagged (hget h l) = true.
  Proof. intros (V & _ & E) Il F. rewrite (E l Il). apply wr_flagged; auto. Qed.
  Lemma sees_out h l : sees h -> Vis l -> ~ In l D -> hget h l = g0 l.
  Proof. intros (V & IV & E) Il N. rewrite (E l Il). apply wr_out. intro X. apply N, IV, X. Qed.

  (** [p] sets no flag outside of [D], writes nothing else, and comes to [r] whatever the others do, once the flags of [W] are set. *)
  Inductive calm {A} : list loc -> prog A -> res A -> Prop :=
  | calm_done W r : calm W (Done r) r
  | calm_look W l k r : (forall h, sees h -> flags W h -> calm W (k (hget h l)) r) -> calm W (Look l k) r
  | calm_put W l p r : In l D -> calm (l :: W) p r -> calm W (Put l flag flag p) r
  | calm_mark W v p r : calm W p r -> calm W (Mark v p) r.

  Lemma calm_weaken {A} W W' (p : prog A) r : incl W W' -> calm W p r -> calm W' p r.
  Proof.
    intros I C. revert W' I. induction C as [W r|W l k r H IH|W l p r Il C IH|W v p r C IH]; intros W' I.
    - constructor.
    - constructor. intros h Sh Fh. apply IH; auto. eapply flags_incl; eauto.
    - constructor; auto. apply IH. intros x [<-|Ix]; cbn; auto.
    - constructor; auto.
  Qed.
  Lemma calm_catch {A B} W (p : prog A) (f : res A -> prog B) r0 r : calm W p r0 -> calm W (f r0) r -> calm W (catch p f) r.
  Proof.
    induction 1 as [W r0|W l k r0 H IH|W l p r0 Il C IH|W v p r0 C IH]; intro F; cbn [catch]; auto.
    - constructor. intros h Sh Fh. apply IH; auto.
    - constructor; auto. apply IH. eapply calm_weaken; [|exact F]. intros x Ix. cbn; auto.
    - constructor; auto.
  Qed.
  Lemma calm_run W c r : calm W c r -> calm W (s_run c) r.
  Proof. intro C. unfold s_run. constructor. apply (calm_catch W c _ r); auto. constructor. constructor. Qed.
  Lemma calm_relative {A} W name e : forall (k : bool -> prog A) r, calm W (k (is_relative_of_name name e)) r -> calm W (s_relative name e k) r.
  Proof.
    induction e as [n v ch l IH] using elem_ind'. intros k r C. cbn [s_relative is_relative_of_name] in *. constructor.
    destruct (str_eqb n name); [exact C|]. cbn [orb] in C.
    assert (X : forall b, calm W (k (b || existsb (is_relative_of_name name) ch)) r ->
      calm W (fold_right (fun c k' b => s_relative name c (fun b' => k' (b || b'))) k ch b) r); [|apply (X false); exact C].
    clear C. induction IH as [|e es He F IHs]; intros b C; cbn [fold_right existsb] in *; [rewrite orb_false_r in C; exact C|].
    apply He, IHs. rewrite <- orb_assoc. exact C.
  Qed.
  Lemma calm_there {A} W es name (k : bool -> prog A) r : calm W (k (is_there_relative_of_name es name)) r -> calm W (s_there es name k) r.
  Proof.
    unfold s_there, is_there_relative_of_name.
    assert (X : forall b, calm W (k (b || existsb (is_relative_of_name name) es)) r ->
      calm W (fold_right (fun c k' b => s_relative name c (fun b' => k' (b || b'))) k es b) r); [|apply (X false)].
    induction es as [|e es IHs]; intros b C; cbn [fold_right existsb] in *; [rewrite orb_false_r in C; exact C|].
    apply calm_relative, IHs. rewrite <- orb_assoc. exact C.
  Qed.
  Lemma calm_give {A} W (a : A) : calm W (give a) (Ok a).
  Proof. constructor. Qed.
  Lemma calm_fail {A} W e : calm W (@fail A e) (Raise e).
  Proof. constructor. Qed.
  Lemma calm_then {A B} W (p : prog A) (f : A -> prog B) r g :
    calm W p r -> (forall a, calm W (f a) (g a)) -> calm W (then_ p f) (rbind r g).
  Proof. intros P F. apply (calm_catch W p _ r); auto. destruct r; cbn [rbind]; auto. constructor. Qed.
  Lemma calm_conv {A} W (p : prog A) r r' : calm W p r -> r = r' -> calm W p r'.
  Proof. intros; subst; auto. Qed.
  Lemma calm_get_or {B} W l k d v (f : str -> prog B) r :
    (forall h, sees h -> flags W h -> dget_or (hget h l) k d = v) -> calm W (f v) r -> calm W (then_ (get_or l k d) f) r.
  Proof. intros E F. unfold then_, get_or. cbn. constructor. intros h Sh Fh. rewrite (E h Sh Fh). exact F. Qed.
  Lemma calm_get {B} W l k v (f : option str -> prog B) r :
    (forall h, sees h -> flags W h -> dget (hget h l) k = v) -> calm W (f v) r -> calm W (then_ (get l k) f) r.
  Proof. intros E F. unfold then_, get. cbn. constructor. intros h Sh Fh. rewrite (E h Sh Fh). exact F. Qed.

  Record ckid (W : list loc) (k : s_kid) (p : tree * res str) : Prop := {
    ck_calm : calm W (s_kid_convert k) (snd p);
    ck_name : e_name (s_elem k) = t_name (fst p);
    ck_arity : length (e_children (s_elem k)) = length (t_children (fst p));
    ck_table : is_relative_of_name mtable_name (s_elem k) = has_table (fst p)
  }.
  Lemma calm_convert_all W ks ps : Forall2 (ckid W) ks ps -> calm W (s_convert_all ks) (rseq (map snd ps)).
  Proof.
    induction 1 as [|k p ks ps K F IH]; cbn; [apply calm_give|].
    apply calm_then; [apply K|]. intro s. apply calm_then; [exact IH|]. intro; apply calm_give.
  Qed.
  Lemma calm_all_then W ks ps {B} (f : list str -> prog B) g : Forall2 (ckid W) ks ps -> (forall ss, calm W (f ss) (g ss)) ->
    calm W (then_ (s_convert_all ks) f) (rbind (rseq (map snd ps)) g).
  Proof. intros. apply calm_then; auto. apply calm_convert_all; auto. Qed.
  Lemma calm_base W k p {B} (f : str -> prog B) g :
    ckid W k p -> (forall s, calm W (f s) (g s)) ->
    calm W (then_ (s_handle_base_child k) f) (sb <~ snd p ;; g (base_latex (fst p) sb)).
  Proof.
    intros K Hf. eapply calm_conv; [apply calm_then with (r := sb <~ snd p ;; Ok (base_latex (fst p) sb)) (g := g); auto|].
    - apply calm_then; [apply K|]. intro s. rewrite (ck_arity _ _ _ K).
      eapply calm_conv with (r := Ok _); [|reflexivity].
      unfold base_latex, paren_wrap_if_more_than_one_char.
      destruct (Nat.leb_spec (length (t_children (fst p))) 1), (Nat.ltb_spec 1 (length (t_children (fst p)))); try lia; [apply calm_give|].
      destruct (Nat.leb_spec (length s) 1), (Nat.ltb_spec 1 (length s)); try lia; apply calm_give.
    - rewrite rbind_assoc. reflexivity.
  Qed.
  Lemma calm_script W k p {B} (f : str -> prog B) g :
    ckid W k p -> (forall s, calm W (f s) (g s)) ->
    calm W (then_ (s_handle_script_child k) f) (sb <~ snd p ;; g (braced sb)).
  Proof.
    intros K Hf. eapply calm_conv; [apply calm_then with (r := sb <~ snd p ;; Ok (braced sb)) (g := g); auto|].
    - apply calm_then; [apply K|]. intro s. apply calm_give.
    - rewrite rbind_assoc. reflexivity.
  Qed.
  Lemma calm_kid_then W k p {B} (f : str -> prog B) g :
    ckid W k p -> (forall s, calm W (f s) (g s)) -> calm W (then_ (s_kid_convert k) f) (rbind (snd p) g).
  Proof. intros K Hf. apply calm_then; auto. apply K. Qed.

  Ltac give_str := eapply calm_conv; [apply calm_give|]; unfold braced; cbn [rbind]; rewrite <- ?app_assoc; reflexivity.

  (** Each class; compare LemNode.v. *)
  Section Classes4.
    Variables (W : list loc) (n v : str) (ks : list s_kid) (ps : list (tree * res str)) (al : loc) (a : dict str) (inside : bool).
    Hypothesis K : Forall2 (ckid W) ks ps.
    Hypothesis A : forall h, sees h -> same_but (hget h al) a.
    Let len : length ks = length ps.
    Proof. exact (Forall2_len _ _ _ K). Qed.

    Lemma c_relative : is_there_relative_of_name (map s_elem ks) (lit "mtable") = existsb has_table (map fst ps).
    Proof.
      clear len. unfold is_there_relative_of_name. rewrite !existsb_map.
      induction K as [|k p ks0 ps0 K0 F IH]; cbn; auto. rewrite <- IH by auto. f_equal. apply K0.
    Qed.
    Lemma c_nth i :
      match nth_error ks i with
      | Some k => exists p, nth_error ps i = Some p /\ ckid W k p
      | None => nth_error ps i = None
      end.
    Proof. clear len. revert i. induction K as [|k p ks0 ps0 K0 F IH]; intros [|i]; cbn; eauto. apply IH; auto. Qed.
    Lemma c_pre_nth i :
      s_is_prescripts_nth ks i = match nth_error ps i with
                        | Some (t, _) => str_eqb (t_name t) (lit "mprescripts")
                        | None => false
                        end.
    Proof.
      pose proof (c_nth i) as H. unfold s_is_prescripts_nth. destruct (nth_error ks i) as [k|].
      - destruct H as ([t r] & E & K'). rewrite E. rewrite (ck_name _ _ _ K'). auto.
      - rewrite H. auto.
    Qed.
    Lemma c_convert_nth i {B} (f : str -> prog B) g : i < length ps -> (forall s, calm W (f s) (g s)) ->
      calm W (then_ (s_convert_nth ks i) f) (rbind (nth i (map snd ps) (Ok [])) g).
    Proof.
      intros L Hf. pose proof (c_nth i) as H. unfold s_convert_nth. destruct (nth_error ks i) as [k|] eqn:E.
      - destruct H as ([t r] & E2 & K'). apply calm_then; auto.
        erewrite nth_error_nth; [apply K'|]. rewrite nth_error_map, E2. reflexivity.
      - apply nth_error_None in H. lia.
    Qed.
    Lemma c_pair {B} (F2 : s_kid -> s_kid -> prog B) (G2 : tree * res str -> tree * res str -> res B) e :
      (forall k1 k2 p1 p2, ckid W k1 p1 -> ckid W k2 p2 -> calm W (F2 k1 k2) (G2 p1 p2)) ->
      calm W (match ks with [k1; k2] => F2 k1 k2 | _ => fail e end)
            (match ps with [p1; p2] => G2 p1 p2 | _ => Raise e end).
    Proof.
      intro H. destruct K as [|k1 p1 ? ? K1 R1]; [apply calm_fail|].
      destruct R1 as [|k2 p2 ? ? K2 R2]; [apply calm_fail|].
      destruct R2 as [|k3 p3 ? ? K3 R3]; [auto|apply calm_fail].
    Qed.
    Lemma c_triple {B} (F3 : s_kid -> s_kid -> s_kid -> prog B) (G3 : tree * res str -> tree * res str -> tree * res str -> res B) e :
      (forall k1 k2 k3 p1 p2 p3, ckid W k1 p1 -> ckid W k2 p2 -> ckid W k3 p3 -> calm W (F3 k1 k2 k3) (G3 p1 p2 p3)) ->
      calm W (match ks with [k1; k2; k3] => F3 k1 k2 k3 | _ => fail e end)
            (match ps with [p1; p2; p3] => G3 p1 p2 p3 | _ => Raise e end).
    Proof.
      intro H. destruct K as [|k1 p1 ? ? K1 R1]; [apply calm_fail|].
      destruct R1 as [|k2 p2 ? ? K2 R2]; [apply calm_fail|].
      destruct R2 as [|k3 p3 ? ? K3 R3]; [apply calm_fail|].
      destruct R3 as [|k4 p4 ? ? K4 R4]; [auto|apply calm_fail].
    Qed.

    Lemma c_Multi : tag_of n = TagMultiscripts -> calm W (s_MMultiscripts n ks) (node inside n v ps a).
    Proof.
      intro Tg. unfold node. rewrite Tg. unfold s_MMultiscripts. rewrite len.
      destruct (Nat.ltb_spec (length ps) 3) as [L|L]; [apply calm_fail|].
      apply c_convert_nth; [lia|]. intro sb.
      apply calm_then.
      - unfold s_prescript_latex. rewrite len, !c_pre_nth.
        rewrite (andb_comm (Nat.leb 4 _)), (andb_comm (Nat.leb 6 _)).
        match goal with |- calm _ (if ?b then _ else if ?c then _ else _) _ => destruct b eqn:B; [|destruct c eqn:C] end.
        + apply andb_true_iff in B as [_ B]. apply Nat.leb_le in B. rewrite rbind_assoc.
          apply c_convert_nth; [lia|]. intro s1. rewrite rbind_assoc. apply c_convert_nth; [lia|]. intro s2. give_str.
        + apply andb_true_iff in C as [_ C]. apply Nat.leb_le in C. rewrite rbind_assoc.
          apply c_convert_nth; [lia|]. intro s1. rewrite rbind_assoc. apply c_convert_nth; [lia|]. intro s2. give_str.
        + apply calm_give.
      - intro pre. apply calm_then.
        + unfold s_postscript_latex. rewrite len, !c_pre_nth.
          destruct (Nat.ltb_spec (length ps) 3); try lia. destruct (Nat.leb_spec 1 (length ps)); try lia. cbn [orb andb].
          match goal with |- calm _ (if ?b then _ else _) _ => destruct b end; [apply calm_give|].
          apply c_convert_nth; [lia|]. intro s1. apply c_convert_nth; [lia|]. intro s2. give_str.
        + intro post. rewrite wrap_space_spec. apply calm_give.
    Qed.
    Lemma c_Sup : tag_of n = TagSup -> calm W (s_MSup n ks) (node inside n v ps a).
    Proof.
      intro Tg. unfold node. rewrite Tg. unfold s_MSup, s_invalid_children, arity_error. rewrite len.
      eapply calm_conv; [apply (c_pair _ (fun p1 p2 => sb <~ snd p1 ;; sx <~ snd p2 ;; Ok (base_latex (fst p1) sb ++ lit "^" ++ braced sx)))|].
      - intros. apply (calm_base W _ _ _ (fun b => sx <~ snd p2 ;; Ok (b ++ lit "^" ++ braced sx))); auto. intro sb.
        apply (calm_script W _ _ _ (fun x => Ok (sb ++ lit "^" ++ x))); auto. intro; apply calm_give.
      - destruct ps as [|[? ?] [|[? ?] [|? ?]]]; reflexivity.
    Qed.
    Lemma c_Sub : tag_of n = TagSub -> calm W (s_MSub n ks) (node inside n v ps a).
    Proof.
      intro Tg. unfold node. rewrite Tg. unfold s_MSub, s_invalid_children, arity_error. rewrite len.
      eapply calm_conv; [apply (c_pair _ (fun p1 p2 => sb <~ snd p1 ;; sx <~ snd p2 ;; Ok (base_latex (fst p1) sb ++ lit "_" ++ braced sx)))|].
      - intros. apply (calm_base W _ _ _ (fun b => sx <~ snd p2 ;; Ok (b ++ lit "_" ++ braced sx))); auto. intro sb.
        apply (calm_script W _ _ _ (fun x => Ok (sb ++ lit "_" ++ x))); auto. intro; apply calm_give.
      - destruct ps as [|[? ?] [|[? ?] [|? ?]]]; reflexivity.
    Qed.
    Lemma c_Subsup : tag_of n = TagSubsup -> calm W (s_MSubsup n ks) (node inside n v ps a).
    Proof.
      intro Tg. unfold node. rewrite Tg. unfold s_MSubsup, s_invalid_children, arity_error. rewrite len.
      eapply calm_conv; [apply (c_triple _ (fun p1 p2 p3 => sb <~ snd p1 ;; sx <~ snd p2 ;; sy <~ snd p3 ;;
         Ok (base_latex (fst p1) sb ++ lit "_" ++ braced sx ++ lit "^" ++ braced sy)))|].
      - intros. apply (calm_base W _ _ _ (fun b => sx <~ snd p2 ;; sy <~ snd p3 ;; Ok (b ++ lit "_" ++ braced sx ++ lit "^" ++ braced sy))); auto.
        intro sb. apply (calm_script W _ _ _ (fun x => sy <~ snd p3 ;; Ok (sb ++ lit "_" ++ x ++ lit "^" ++ braced sy))); auto.
        intro x. apply (calm_script W _ _ _ (fun y => Ok (sb ++ lit "_" ++ x ++ lit "^" ++ y))); auto. intro; apply calm_give.
      - destruct ps as [|[? ?] [|[? ?] [|[? ?] [|? ?]]]]; reflexivity.
    Qed.
    Lemma c_Frac : tag_of n = TagFrac -> calm W (s_MFrac n ks al) (node inside n v ps a).
    Proof.
      intros Tg. unfold node. rewrite Tg. unfold s_MFrac, s_invalid_children, arity_error. rewrite len, two_of.
      apply c_pair. intros k1 k2 p1 p2 K1 K2. apply calm_kid_then; auto. intro s1. apply calm_kid_then; auto. intro s2.
      apply (calm_get_or W al _ _ (dget_or a (lit "bevelled") [])).
      { intros h Sh _. apply same_but_or; [apply A; auto|discriminate]. }
      rewrite !paren_long_spec. unfold attr. eapply calm_conv; [apply calm_give|].
      destruct (truthy _); unfold braced; rewrite <- ?app_assoc; reflexivity.
    Qed.
    Lemma c_Root : tag_of n = TagRoot -> calm W (s_MRoot n ks) (node inside n v ps a).
    Proof.
      intros Tg. unfold node. rewrite Tg. unfold s_MRoot, s_invalid_children, arity_error. rewrite len, two_of.
      apply c_pair. intros k1 k2 p1 p2 K1 K2. apply calm_kid_then; auto. intro s1. apply calm_kid_then; auto. intro s2.
      apply calm_give.
    Qed.
    Lemma c_Underover : tag_of n = TagUnderover -> calm W (s_MUnderover n ks) (node inside n v ps a).
    Proof.
      intros Tg. unfold node. rewrite Tg. unfold s_MUnderover, s_invalid_children, arity_error. rewrite len, three_of.
      apply c_triple. intros k1 k2 k3 p1 p2 p3 K1 K2 K3. apply calm_kid_then; auto. intro s1. apply calm_kid_then; auto. intro s2.
      apply calm_kid_then; auto. intro s3. eapply calm_conv; [apply calm_give|]. unfold braced. rewrite <- ?app_assoc. reflexivity.
    Qed.
    Lemma c_UnderOver : (n = lit "munder" \/ n = lit "mover") ->
      calm W (s_GenericUnderOver n ks) (node inside n v ps a).
    Proof.
      intros Tg. unfold node, s_GenericUnderOver, s_invalid_children, arity_error. rewrite len.
      assert (X : forall s1 s2, under_over_apply (re_search (RLit (lit "under")) n) s1 s2 =
         (if str_in s2 (map lit ["\hat"; "\bar"; "\underbrace"; "\overbrace"])
                then s2 ++ braced s1
                else lit (match tag_of n with TagUnder => "\underset" | _ => "\overset" end) ++ braced s2 ++ braced s1)).
      { intros. destruct Tg; subst n; unfold under_over_apply; cbn [map]; destruct (str_in _ _); try reflexivity;
        match goal with |- context [re_search ?r ?x] => let b := eval vm_compute in (re_search r x) in change (re_search r x) with b end;
        match goal with |- context [tag_of ?x] => let b := eval vm_compute in (tag_of x) in change (tag_of x) with b end;
        cbn iota; unfold braced; change (lit "}{") with (lit "}" ++ lit "{"); rewrite <- ?app_assoc; reflexivity. }
      destruct Tg; subst n;
      match goal with |- context [match tag_of ?x with _ => _ end] => let b := eval vm_compute in (tag_of x) in change (tag_of x) with b in * end; cbn iota in *;
      rewrite two_of; apply c_pair; intros k1 k2 p1 p2 K1 K2; apply calm_kid_then; auto; intro s1; apply calm_kid_then; auto; intro s2;
      rewrite X; apply calm_give.
    Qed.
    Lemma c_Action : tag_of n = TagAction -> calm W (s_MAction ks al) (node inside n v ps a).
    Proof.
      intros Tg. unfold node. rewrite Tg. unfold s_MAction.
      apply (calm_get W al _ (dget a (lit "actiontype"))).
      { intros h Sh _. apply A; auto. discriminate. }
      assert (X : is_toggle a = negb (truthy (attr a "actiontype") && negb (str_eqb (attr a "actiontype") (lit "toggle")))).
      { unfold is_toggle, attr, dget_or. destruct (dget a (lit "actiontype")); auto.
        destruct (str_eqb s _), (truthy s); auto. }
      change (calm W (if is_toggle a then (latex <- s_convert_all ks ;;; give (join (lit " \Longrightarrow ") latex))
                      else match ks with [] => fail EIndex | c0 :: _ => s_kid_convert c0 end)
        (if truthy (attr a "actiontype") && negb (str_eqb (attr a "actiontype") (lit "toggle"))
         then match map snd ps with r :: _ => r | [] => Raise EIndex end
         else ss <~ rseq (map snd ps) ;; Ok (join (lit " \Longrightarrow ") ss))).
      rewrite X. destruct (truthy _ && _); cbn [negb].
      - destruct K as [|k p ? ? K1 R1]; [apply calm_fail|]. apply K1.
      - apply calm_all_then; auto. intro; apply calm_give.
    Qed.
    Lemma c_variant {B} (f : str -> prog B) r : calm W (f (get_math_variant a)) r -> calm W (then_ (s_get_math_variant al) f) r.
    Proof.
      intro F. unfold s_get_math_variant, then_. cbn [catch]. constructor. intros h Sh Fh.
      assert (G : forall h, sees h -> dget (hget h al) (lit "mathvariant") = dget a (lit "mathvariant")).
      { intros h1 S1. apply A; auto. discriminate. }
      unfold get_math_variant in F. pose proof (G h Sh) as E. destruct (hget h al) as [|q d].
      - cbn [dget] in E. rewrite <- E in F. exact F.
      - clear E. cbn [catch]. constructor. intros h1 S1 F1. rewrite (G h1 S1).
        destruct (dget a (lit "mathvariant")) eqn:E; [|exact F]. cbn [catch]. constructor. intros h2 S2 F2.
        rewrite (G h2 S2). exact F.
    Qed.
    Lemma c_MI : calm W (s_MI v al) (Ok (mi_convert v a)).
    Proof.
      unfold s_MI, mi_convert. destruct (str_eqb (normalize v) (lit " ")); [apply calm_give|].
      destruct (negb _); [apply calm_give|]. apply c_variant. apply calm_give.
    Qed.
    Lemma c_MText : calm W (s_MText v al) (Ok (mtext_convert v a)).
    Proof.
      unfold s_MText, mtext_convert. generalize (mtext_merge (mtext_chars v)) as chars. intro chars.
      set (part := fun ch => if negb (ch_alnum ch) then mi_convert (ch_value ch) []
                             else text_command_apply (dget a (lit "mathvariant")) (ch_value ch)).
      change (Ok (concat (map part chars))) with (rbind (Ok (map part chars)) (fun ss => Ok (concat ss))).
      apply calm_then; [|intro; apply calm_give].
      induction chars as [|ch chars IH]; [apply calm_give|]. cbn [s_text_parts map].
      change (Ok (part ch :: map part chars)) with (rbind (Ok (part ch)) (fun s => rbind (Ok (map part chars)) (fun ss => Ok (s :: ss)))).
      apply calm_then.
      - unfold part. destruct (negb (ch_alnum ch)); [apply calm_give|].
        apply (calm_get W al _ (dget a (lit "mathvariant"))); [intros h Sh _; apply A; auto; discriminate|]. apply calm_give.
      - intro s. apply calm_then; [exact IH|]. intro; apply calm_give.
    Qed.

    (** Making the converter of a class that writes no flags. *)
    Definition makes (p : prog s_converter) (W' : list loc) (c : s_converter) : Prop :=
      forall B (f : s_converter -> prog B) r, calm (W' ++ W) (f c) r -> calm W (then_ p f) r.
    Lemma makes_give c : makes (give c) [] c.
    Proof. intros B f r H. exact H. Qed.
    Lemma makes_get_or l k d x g c : (forall h, sees h -> flags W h -> dget_or (hget h l) k d = x) -> makes (g x) [] c ->
      makes (then_ (get_or l k d) g) [] c.
    Proof.
      intros E Mk B f r H. unfold then_, get_or. cbn. constructor. intros h Sh Fh. rewrite (E h Sh Fh). apply Mk. exact H.
    Qed.
  End Classes4.

  Definition s_class_for (n : str) : s_class := dget_or s_converter_table (py_or n (lit "void")) s_generic_spacing_wrapper.
  Inductive s_class_of (n : str) : tag -> s_class -> Prop :=
  | SMath : s_class_of n TagMath (s_plain (fun _ _ ks _ => s_Math ks))
  | SMi : s_class_of n TagMi (s_plain (fun _ v _ a => s_MI v a))
  | SMo : s_class_of n TagMo (s_plain (fun _ v _ _ => s_MO v))
  | SMn : s_class_of n TagMn (s_plain (fun _ v _ _ => s_MN v))
  | SMtext : s_class_of n TagMtext (s_plain (fun _ v _ a => s_MText v a))
  | SSqrt : s_class_of n TagSqrt (s_plain (fun _ _ ks _ => s_MSqrt ks))
  | SFenced : s_class_of n TagFenced (fun _ _ ks a => s_MFenced ks a)
  | SFrac : s_class_of n TagFrac (s_plain (fun n _ ks a => s_MFrac n ks a))
  | SRoot : s_class_of n TagRoot (s_plain (fun n _ ks _ => s_MRoot n ks))
  | SAction : s_class_of n TagAction (s_plain (fun _ _ ks a => s_MAction ks a))
  | SEnclose : s_class_of n TagEnclose (fun _ _ ks a => s_MEnclose ks a)
  | SError : s_class_of n TagError (s_plain (fun _ _ ks _ => s_MError ks))
  | SPhantom : s_class_of n TagPhantom (s_plain (fun _ _ _ _ => s_Void))
  | SSup : s_class_of n TagSup (s_plain (fun n _ ks _ => s_MSup n ks))
  | SSub : s_class_of n TagSub (s_plain (fun n _ ks _ => s_MSub n ks))
  | SSubsup : s_class_of n TagSubsup (s_plain (fun n _ ks _ => s_MSubsup n ks))
  | SMulti : s_class_of n TagMultiscripts (s_plain (fun n _ ks _ => s_MMultiscripts n ks))
  | SUnderover : s_class_of n TagUnderover (s_plain (fun n _ ks _ => s_MUnderover n ks))
  | STable : n = mtable_name -> s_class_of n TagTable (fun _ _ ks a => s_MTable ks a)
  | STr : s_class_of n TagTr (s_plain (fun _ _ ks _ => s_MTr ks))
  | SOver : n = lit "mover" -> s_class_of n TagOver (s_plain (fun n _ ks _ => s_GenericUnderOver n ks))
  | SUnder : n = lit "munder" -> s_class_of n TagUnder (s_plain (fun n _ ks _ => s_GenericUnderOver n ks))
  | SRow : s_class_of n TagRow s_generic_spacing_wrapper.
  Lemma s_class_for_ok n : s_class_of n (tag_of n) (s_class_for n).
  Proof.
    unfold s_class_for, dget_or, tag_of, known_tags, s_converter_table.
    cbn [dget tag_lookup].
    repeat rewrite py_or_eqb by discriminate.
    repeat match goal with
    | |- context [str_eqb n (lit ?s)] =>
        let H := fresh in destruct (str_eqb n (lit s)) eqn:H;
        [ apply str_eqb_eq in H; rewrite H; constructor; reflexivity | cbn iota]
    end.
    constructor.
  Qed.

  Lemma c_node W n v ks ps al a inside : Forall2 (ckid W) ks ps -> (forall h, sees h -> same_but (hget h al) a) ->
    is_table n = false ->
    exists c, makes W (s_class_for n n v ks al) [] c /\ calm W c (node inside n v ps a).
  Proof.
    intros K A NT. pose proof (s_class_for_ok n) as C.
    assert (Go : forall k d h, k <> flag -> sees h -> dget_or (hget h al) k d = dget_or a k d).
    { intros k d h N Sh. apply same_but_or; auto. }
    remember (tag_of n) as tg eqn:Tg. symmetry in Tg. remember (s_class_for n) as cl eqn:Cl.
    destruct C; try (apply tag_not_table in NT; congruence).
    7: { eexists. split.
      - unfold s_MFenced. apply makes_get_or with (x := dget_or a (lit "open") []); [intros; apply Go; auto; discriminate|].
        apply makes_get_or with (x := dget_or a (lit "close") []); [intros; apply Go; auto; discriminate|].
        apply makes_get_or with (x := dget_or a (lit "separators") []); [intros; apply Go; auto; discriminate|]. apply makes_give.
      - unfold node. rewrite Tg. apply calm_all_then; auto. intro ss. unfold attr.
        apply calm_there. rewrite (c_relative W ks ps K). eapply calm_conv with (r := Ok _); [|reflexivity].
        destruct (existsb _ _); [rewrite Matrix_spec|rewrite Vector_spec]; apply calm_give. }
    10: { eexists. split.
      - unfold s_MEnclose. apply makes_get_or with (x := dget_or a (lit "notation") (lit "longdiv")); [intros; apply Go; auto; discriminate|]. apply makes_give.
      - unfold node. rewrite Tg. apply calm_all_then; auto. intro ss. rewrite enclose_spec. apply calm_give. }
    all: eexists; (split; [apply makes_give|]).
    - unfold node. rewrite Tg. apply calm_all_then; auto. intro. rewrite normalize_squeeze. apply calm_give.
    - unfold node. rewrite Tg. rewrite <- mi_convert_spec. apply c_MI; auto.
    - unfold node. rewrite Tg. unfold s_MO. rewrite mo_convert_spec. apply calm_give.
    - unfold node. rewrite Tg. unfold s_MN. rewrite mn_convert_spec. apply calm_give.
    - unfold node. rewrite Tg. rewrite <- mtext_convert_spec. apply c_MText; auto.
    - unfold node. rewrite Tg. apply calm_all_then; auto. intro; apply calm_give.
    - apply c_Frac; auto.
    - apply c_Root; auto.
    - apply c_Action; auto.
    - unfold node. rewrite Tg. apply calm_all_then; auto. intro ss. apply calm_give.
    - unfold node. rewrite Tg. apply calm_give.
    - apply c_Sup; auto.
    - apply c_Sub; auto.
    - apply c_Subsup; auto.
    - apply c_Multi; auto.
    - apply c_Underover; auto.
    - unfold node. rewrite Tg. apply calm_all_then; auto. intro ss. apply calm_give.
    - apply c_UnderOver; auto.
    - apply c_UnderOver; auto.
    - unfold node. rewrite Tg. apply calm_all_then; auto. intro ss. apply calm_give.
  Qed.

  (** The flags of all mtables at or below [e]. *)
  Lemma catch_add_flag {A B} name fl e : forall (k : prog A) (f : res A -> prog B),
    catch (s_add_flag name fl e k) f = s_add_flag name fl e (catch k f).
  Proof.
    induction e as [n v ch l IH] using elem_ind'. intros k f. cbn [s_add_flag].
    assert (X : catch (fold_right (s_add_flag name fl) k ch) f = fold_right (s_add_flag name fl) (catch k f) ch).
    { induction IH as [|e es He F IHs]; cbn [fold_right]; auto. rewrite He, IHs. reflexivity. }
    cbn [catch]. destruct (str_eqb n name); cbn [catch]; rewrite X; reflexivity.
  Qed.
  Definition flags_ok {A} (e : elem) : Prop := forall W (k : prog A) r, incl (writable true e) D ->
    calm (rev (writable true e) ++ W) k r -> calm W (s_add_flag mtable_name flag e k) r.
  Lemma calm_add_flags {A} es : Forall (@flags_ok A) es -> forall W (k : prog A) r, incl (flat_map (writable true) es) D ->
    calm (rev (flat_map (writable true) es) ++ W) k r -> calm W (fold_right (s_add_flag mtable_name flag) k es) r.
  Proof.
    induction 1 as [|e es He F IHs]; intros W k r I C; cbn [fold_right flat_map] in *; [exact C|].
    apply He.
    - intros x Ix. apply I. apply in_app_iff; auto.
    - apply IHs; [intros x Ix; apply I; apply in_app_iff; auto|]. rewrite rev_app_distr, <- app_assoc in C. exact C.
  Qed.
  Lemma calm_add_flag {A} e : @flags_ok A e.
  Proof.
    induction e as [n v ch l IH] using elem_ind'. intros W k r I C. cbn [s_add_flag]. constructor.
    cbn [writable andb orb] in I, C. change (str_eqb n mtable_name) with (is_table n). destruct (is_table n).
    - constructor; [apply I; cbn; auto|]. apply calm_add_flags; auto.
      + intros x Ix. apply I. cbn. auto.
      + cbn [app rev] in C. rewrite <- app_assoc in C. exact C.
    - apply calm_add_flags; auto.
  Qed.
  Lemma catch_add_flags {A B} es (k : prog A) (f : res A -> prog B) :
    catch (fold_right (s_add_flag mtable_name flag) k es) f = fold_right (s_add_flag mtable_name flag) (catch k f) es.
  Proof. induction es as [|e es IH]; cbn [fold_right]; auto. rewrite catch_add_flag, IH. reflexivity. Qed.
  Lemma makes_add_flags es W c : incl (flat_map (writable true) es) D ->
    makes W (then_ (s_add_flag_to_all es mtable_name flag) (fun _ => give c)) (rev (flat_map (writable true) es)) c.
  Proof.
    intros I B f r C. unfold then_, s_add_flag_to_all. rewrite !catch_add_flags. cbn [catch give]. apply calm_add_flags; auto.
    apply Forall_forall. intros e _. apply calm_add_flag.
  Qed.

  (** What may be flagged below [e], and which mtables never are. *)
  Definition fit (inside : bool) (e : elem) : Prop :=
    incl (writable inside e) D
    /\ (forall l, In l (locs e) -> Vis l)
    /\ (inside = false -> forall x, outermost_table e x -> In (e_attributes x) D -> flagged (g0 (e_attributes x)) = true).

  Definition calm_made (e : elem) : Prop := forall b W, fit b e -> (b = true -> incl (writable true e) W) ->
    exists W' c, makes W (s_to_latex_converter e) W' c /\ calm (W' ++ W) c (render b (tree_in g0 e)).

  Lemma calm_made_convert e b W : calm_made e -> fit b e -> (b = true -> incl (writable true e) W) ->
    calm W (s_convert_elem e) (render b (tree_in g0 e)).
  Proof. intros M F I. destruct (M b W F I) as (W' & c & Mk & C). apply Mk. apply calm_run. exact C. Qed.
  Lemma calm_kids ch b W : Forall calm_made ch -> Forall (fit b) ch -> (b = true -> incl (flat_map (writable true) ch) W) ->
    Forall2 (ckid W) (map (fun c => SKid c (s_to_latex_converter c)) ch) (map (fun t => (t, render b t)) (map (tree_in g0) ch)).
  Proof.
    intros M F I. rewrite map_map. apply Forall2_map. induction ch as [|c ch IH]; [constructor|].
    inversion M; inversion F; subst. constructor.
    - destruct (tree_in_facts g0 c) as (F1 & F2 & F3). constructor; cbn [s_elem fst snd]; auto.
      apply calm_made_convert; auto. intros B x Ix. apply I; auto. cbn. apply in_app_iff. auto.
    - apply IH; auto. intros B x Ix. apply I; auto. cbn. apply in_app_iff. auto.
  Qed.
  Lemma map_s_elem ch : map s_elem (map (fun c => SKid c (s_to_latex_converter c)) ch) = ch.
  Proof. rewrite map_map. apply map_id. Qed.

  Lemma makes_mark W v p W' c : makes W p W' c -> makes W (Mark v p) W' c.
  Proof. intros Mk B f r H. unfold then_. cbn [catch]. constructor. apply Mk. exact H. Qed.
  Theorem calm_made_all e : calm_made e.
  Proof.
    induction e as [n v ch l IH] using elem_ind'. intros b W (FW & FV & FO) Fl.
    cbn [s_to_latex_converter tree_in render]. unfold s_make_converter. cbv zeta. fold (s_class_for n).
    assert (Vl : Vis l) by (apply FV; cbn; auto).
    assert (Vc : forall c, In c ch -> forall x, In x (locs c) -> Vis x) by (intros c Ic x Ix; apply FV; cbn; right; apply in_flat_map; eauto).
    destruct (is_table n) eqn:Tn.
    - rewrite orb_true_r.
      assert (If : incl (flat_map (writable true) ch) D).
      { intros x I. apply FW. cbn [writable]. rewrite Tn, orb_true_r. apply in_app_iff. auto. }
      set (Wf := rev (flat_map (writable true) ch)).
      assert (K : Forall2 (ckid (Wf ++ W)) (map (fun c => SKid c (s_to_latex_converter c)) ch)
                    (map (fun t => (t, render true t)) (map (tree_in g0) ch))).
      { apply calm_kids; auto.
        - apply Forall_forall. intros c Ic. split; [|split; [exact (Vc c Ic)|discriminate]]. intros x Ix. apply If. apply in_flat_map. eauto.
        - intros _ x Ix. apply in_app_iff. left. unfold Wf. rewrite <- in_rev. exact Ix. }
      pose proof Tn as Nn. apply str_eqb_eq in Nn. subst n. change (s_class_for (lit "mtable")) with (fun (_ _ : str) => s_MTable).
      cbv beta. unfold s_MTable. exists Wf. eexists. split.
      + apply makes_mark. rewrite map_s_elem. apply makes_add_flags; auto.
      + unfold node. change (tag_of (lit "mtable")) with TagTable. cbn iota.
        apply calm_all_then; auto. intro ss. cbv zeta. unfold then_, get_or. cbn [catch give]. constructor. intros h Sh Fh.
        assert (X : truthy (dget_or (hget h l) (lit "innerTable") []) = b || truthy (attr (g0 l) "innerTable")).
        { change (flagged (hget h l) = b || flagged (g0 l)). destruct b; cbn [orb].
          - apply Fh. apply in_app_iff. right. apply Fl; auto. cbn [writable]. rewrite Tn. cbn. auto.
          - destruct (in_dec Nat.eq_dec l D) as [Y|N].
            + assert (Z : flagged (g0 l) = true) by (apply (FO eq_refl (Elem (lit "mtable") v ch l)); auto; apply outermost_here; auto).
              rewrite Z. apply sees_flagged; auto.
            + rewrite (sees_out h l); auto. }
        rewrite X. eapply calm_conv; [apply calm_give|]. destruct (b || _); [|reflexivity].
        unfold env, cmd1. change (lit "\begin{") with (lit "\begin" ++ lit "{"). change (lit "\end{") with (lit "\end" ++ lit "{").
        rewrite <- ?app_assoc. reflexivity.
    - rewrite orb_false_r.
      assert (K : Forall2 (ckid W) (map (fun c => SKid c (s_to_latex_converter c)) ch)
                    (map (fun t => (t, render b t)) (map (tree_in g0) ch))).
      { apply calm_kids; auto.
        - apply Forall_forall. intros c Ic. split; [|split; [exact (Vc c Ic)|]].
          + intros x Ix. apply FW. cbn [writable]. rewrite Tn, orb_false_r, andb_false_r. cbn [app]. apply in_flat_map. eauto.
          + intros B x Ox. apply FO; auto. eapply outermost_below; eauto.
        - intros B x Ix. apply Fl; auto. cbn [writable]. rewrite Tn. cbn. exact Ix. }
      destruct (c_node W n v _ _ l (g0 l) b K (fun h Sh => sees_same h l Sh Vl) Tn) as (c & Mk & C).
      exists [], c. split; auto. apply makes_mark. exact Mk.
  Qed.
End Calm.
