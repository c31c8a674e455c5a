(** Shared element objects: conversion without the assumption that the dictionaries are distinct. *)
From Coq Require Import String.
From Verif Require Export SpecShared LemObjects.
Local Open Scope string_scope.
Local Open Scope list_scope.

(** Dictionaries that agree on all keys but the flag. *)
Definition same_but (c a : dict str) : Prop := forall k, k <> flag -> dget c k = dget a k.
Lemma same_but_or c a k d : same_but c a -> k <> flag -> dget_or c k d = dget_or a k d.
Proof. intros H N. unfold dget_or. rewrite (H k N). reflexivity. Qed.

Lemma sim_read_eq {B} S (I : heap -> Prop) l a (f : dict str -> M B) r :
  (forall h, I h -> f (hget h l) = f a) -> sim S I (f a) r -> sim S I (bind (read_attributes l) f) r.
Proof.
  intros A (W & IW & H). exists W. split; auto. intros h Ih. unfold bind, read_attributes. rewrite (A h Ih). auto.
Qed.
Lemma sim_stronger {A} S (I J : heap -> Prop) (m : M A) r :
  (forall h, I h -> J h) -> (forall h W, incl W S -> I h -> I (writes W h)) -> sim S J m r -> sim S I m r.
Proof. intros IJ P (W & IW & H). exists W. split; auto. intros h Ih. destruct (H h (IJ h Ih)) as [E _]. auto. Qed.

Section Classes2.
  Variables (S : list loc) (I : heap -> Prop).
  Variables (n v : str) (ks : list kid) (ps : list (tree * res str)) (al : loc) (a : dict str) (inside : bool).
  Hypothesis K : Forall2 (kid_ok S I) ks ps.
  Hypothesis A : forall h, I h -> same_but (hget h al) a.
  Let len : length ks = length ps.
  Proof. exact (Forall2_len _ _ _ K). Qed.

  Lemma Frac_ok2 : tag_of n = TagFrac -> sim S I (MFrac_convert n ks al) (node inside n v ps a).
  Proof.
    intros Tg. unfold node. rewrite Tg. unfold MFrac_convert, invalid_children, arity_error. rewrite len, two_of.
    apply (pair_sim S I ks ps K). intros k1 k2 p1 p2 K1 K2. apply kid_bind; auto. intro s1. apply kid_bind; auto. intro s2.
    apply (sim_read_eq S I al a).
    { intros h Ih. rewrite (same_but_or _ _ _ _ (A h Ih)) by discriminate. reflexivity. }
    rewrite !paren_long_spec. unfold attr. eapply sim_conv; [apply sim_ret|].
    destruct (truthy _); unfold braced; rewrite <- ?app_assoc; reflexivity.
  Qed.
  Lemma Action_ok2 : tag_of n = TagAction -> sim S I (MAction_convert ks al) (node inside n v ps a).
  Proof.
    intros Tg. unfold node. rewrite Tg. unfold MAction_convert.
    apply (sim_read_eq S I al a).
    { intros h Ih. unfold is_toggle. rewrite (A h Ih) by discriminate. reflexivity. }
    assert (X : is_toggle a = negb (truthy (attr a "actiontype") && negb (str_eqb (attr a "actiontype") (lit "toggle")))).
    { unfold is_toggle, attr, dget_or. destruct (dget a (lit "actiontype")); auto.
      destruct (str_eqb s _), (truthy s); auto. }
    rewrite X. destruct (truthy _ && _); cbn [negb].
    - destruct K as [|k p ? ? K1 R1]; [apply sim_raise|]. apply K1.
    - apply convert_all_bind; auto. intro; apply sim_ret.
  Qed.
  Lemma mi_same w c : same_but c a -> mi_convert w c = mi_convert w a.
  Proof. intro H. unfold mi_convert, get_math_variant. rewrite H by discriminate. reflexivity. Qed.
  Lemma mtext_same w c : same_but c a -> mtext_convert w c = mtext_convert w a.
  Proof. intro H. unfold mtext_convert. rewrite H by discriminate. reflexivity. Qed.

  Lemma node_ok2 : is_table n = false ->
    exists c, (forall h, I h -> class_for n n v ks al h = (h, c)) /\ sim S I c (node inside n v ps a).
  Proof.
    intros NT. pose proof (class_for_ok n) as C.
    remember (tag_of n) as tg eqn:Tg. symmetry in Tg. remember (class_for n) as cl eqn:Cl.
    destruct C; try (apply tag_not_table in NT; congruence).
    7: { eexists. split; [intros h Hh; unfold MFenced_new; rewrite !(same_but_or _ _ _ _ (A h Hh)) by discriminate; reflexivity|].
      unfold node. rewrite Tg. apply convert_all_bind; auto. intro ss. unfold attr.
      rewrite (relative_spec S I ks ps K). eapply sim_conv with (r := Ok _); [|reflexivity].
      destruct (existsb _ _); [rewrite Matrix_spec|rewrite Vector_spec]; apply sim_ret. }
    10: { eexists. split; [intros h Hh; unfold MEnclose_new; rewrite !(same_but_or _ _ _ _ (A h Hh)) by discriminate; reflexivity|].
      unfold node. rewrite Tg. apply convert_all_bind; auto. intro ss. rewrite enclose_spec. apply sim_ret. }
    all: eexists; (split; [intros h Hh; reflexivity|]).
    - unfold node. rewrite Tg. apply Math_ok; auto.
    - unfold node. rewrite Tg. unfold MI_convert. apply (sim_read_eq S I al a); [intros h Ih; rewrite (mi_same v _ (A h Ih)); reflexivity|]. rewrite mi_convert_spec. apply sim_ret.
    - unfold node. rewrite Tg. unfold MO_convert. rewrite mo_convert_spec. apply sim_ret.
    - unfold node. rewrite Tg. unfold MN_convert. rewrite mn_convert_spec. apply sim_ret.
    - unfold node. rewrite Tg. unfold MText_convert. apply (sim_read_eq S I al a); [intros h Ih; rewrite (mtext_same v _ (A h Ih)); reflexivity|]. rewrite mtext_convert_spec. apply sim_ret.
    - unfold node. rewrite Tg. apply convert_all_bind; auto. intro; apply sim_ret.
    - apply Frac_ok2; auto.
    - apply Root_ok; auto.
    - apply Action_ok2; auto.
    - unfold node. rewrite Tg. apply convert_all_bind; auto. intro ss. apply sim_ret.
    - unfold node. rewrite Tg. apply sim_ret.
    - apply scripted_sup; auto.
    - apply scripted_sub; auto.
    - apply scripted_subsup; auto.
    - apply MMulti_ok; auto.
    - apply Underover_ok; auto.
    - unfold node. rewrite Tg. apply convert_all_bind; auto. intro ss. apply sim_ret.
    - apply UnderOver_ok; auto.
    - apply UnderOver_ok; auto.
    - unfold node. rewrite Tg. apply convert_all_bind; auto. intro ss. apply sim_ret.
  Qed.
End Classes2.

Section Shared.
  (** The heap at the start and the dictionaries that may be written. *)
  Variables (h0 : heap) (D : list loc).
  Hypothesis bound : forall l, In l D -> l < length h0.

  Definition later (h : heap) : Prop := exists W, incl W D /\ h = writes W h0.
  Lemma later_start : later h0.
  Proof. exists []. split; [intros x []|reflexivity]. Qed.
  Lemma later_writes h W : incl W D -> later h -> later (writes W h).
  Proof. intros IW (V & IV & ->). exists (V ++ W). split; [apply incl_app; auto|]. rewrite writes_app. reflexivity. Qed.
  Lemma later_length h : later h -> length h = length h0.
  Proof. intros (V & _ & ->). apply writes_length. Qed.
  Lemma flagged_kept W h l : flagged (hget h l) = true -> flagged (hget (writes W h) l) = true.
  Proof. intro F. rewrite hget_writes. destruct (_ && _); auto. apply flagged_set. Qed.
  Lemma later_same h l : later h -> same_but (hget h l) (hget h0 l).
  Proof. intros (V & _ & ->) k N. rewrite hget_writes. destruct (_ && _); auto. apply dget_dset_other; auto. Qed.
  Lemma later_out h l : later h -> ~ In l D -> hget h l = hget h0 l.
  Proof. intros (V & IV & ->) N. apply writes_other. auto. Qed.
  Lemma later_flagged h l : later h -> flagged (hget h0 l) = true -> flagged (hget h l) = true.
  Proof. intros (V & _ & ->). apply flagged_kept. Qed.

  (** The flags an element needs: below an mtable, those of all its mtables. *)
  Definition ready (inside : bool) (e : elem) (h : heap) : Prop :=
    later h /\ (inside = true -> forall l, In l (writable true e) -> flagged (hget h l) = true).
  Lemma ready_writes b e h W : incl W D -> ready b e h -> ready b e (writes W h).
  Proof. intros IW [L F]. split; [apply later_writes; auto|]. intros B l I. apply flagged_kept; auto. Qed.
  Lemma ready_child b n v ch l c h : In c ch -> ready b (Elem n v ch l) h -> ready b c h.
  Proof.
    intros I [L F]. split; auto. intros B x J. apply F; auto. cbn [writable andb orb]. apply in_app_iff. right. apply in_flat_map. eauto.
  Qed.

  (** What may be written below [e], and which mtables are never written. *)
  Definition apt (inside : bool) (e : elem) : Prop :=
    incl (writable inside e) D
    /\ (inside = false -> forall x, outermost_table e x -> In (e_attributes x) D -> flagged (hget h0 (e_attributes x)) = true).

  Lemma elem_facts e : e_name e = t_name (tree_at h0 e) /\ length (e_children e) = length (t_children (tree_at h0 e))
    /\ is_relative_of_name mtable_name e = has_table (tree_at h0 e).
  Proof. apply (shape_facts Exact h0). apply shape_tree_at. Qed.

  (** Making a converter for [e] in any later heap gives the same converter; run in any later heap that has the flags,
      it gives the rendering of the tree [e] held at the start. *)
  Definition made_spec (e : elem) : Prop := forall b, apt b e ->
    exists W c, incl W D /\ (forall h, ready b e h -> to_latex_converter e h = (writes W h, c))
    /\ exists J : heap -> Prop, (forall h V, incl V D -> J h -> J (writes V h)) /\ (forall h, ready b e h -> J (writes W h))
    /\ sim D J c (render b (tree_at h0 e)).

  Lemma made_convert e b : made_spec e -> apt b e -> sim D (ready b e) (convert_elem e) (render b (tree_at h0 e)).
  Proof.
    intros M P. destruct (M b P) as (W & c & IW & E & J & PJ & RJ & (V & IV & HV)).
    exists (W ++ V). split; [apply incl_app; auto|]. intros h R. unfold convert_elem. rewrite (E h R), writes_app.
    destruct (HV _ (RJ h R)) as [EV _]. split; [exact EV|]. apply ready_writes; auto. apply ready_writes; auto.
  Qed.
  Lemma shared_kids ch b (I : heap -> Prop) : Forall made_spec ch -> Forall (apt b) ch ->
    (forall h V, incl V D -> I h -> I (writes V h)) -> (forall c h, In c ch -> I h -> ready b c h) ->
    Forall2 (kid_ok D I) (map (fun c => Kid c (to_latex_converter c)) ch) (map (fun t => (t, render b t)) (map (tree_at h0) ch)).
  Proof.
    intros M P PI IR. rewrite map_map. apply Forall2_map. induction ch as [|c ch IH]; [constructor|].
    inversion M; inversion P; subst. constructor; [|apply IH; auto; intros; apply IR; cbn; auto].
    destruct (elem_facts c) as (F1 & F2 & F3). constructor; cbn [kid_elem fst snd]; auto.
    apply (sim_stronger D I (ready b c)); auto; [intros h Ih; apply IR; cbn; auto|]. apply made_convert; auto.
  Qed.

  Theorem made e : made_spec e.
  Proof.
    induction e as [n v ch l IH] using elem_ind'. intros b [PW PO].
    rewrite to_latex_converter_eq. cbn [tree_at render].
    destruct (is_table n) eqn:Tn.
    - rewrite orb_true_r.
      set (Wf := flat_map (writable true) ch).
      assert (If : incl Wf D).
      { intros x I. apply PW. cbn [writable]. rewrite Tn, orb_true_r. apply in_app_iff. auto. }
      set (I := fun h => later h /\ (forall x, In x Wf -> flagged (hget h x) = true)
                        /\ flagged (hget h l) = b || truthy (attr (hget h0 l) "innerTable")).
      assert (PI : forall h V, incl V D -> I h -> I (writes V h)).
      { intros h V IV (L & F & G). split; [apply later_writes; auto|]. split; [intros; apply flagged_kept; auto|].
        destruct (b || truthy (attr (hget h0 l) "innerTable")) eqn:Q; [apply flagged_kept; auto|].
        apply orb_false_iff in Q as [-> Q]. destruct (in_dec Nat.eq_dec l D) as [Y|N].
        - assert (X : flagged (hget h0 l) = true) by (apply (PO eq_refl (Elem n v ch l)); auto; apply outermost_here; auto).
          unfold flagged, has_flag in X. change (truthy (attr (hget h0 l) "innerTable") = true) in X. congruence.
        - rewrite (later_out (writes V h)); auto. apply later_writes; auto. }
      assert (Start : forall h, ready b (Elem n v ch l) h -> I (writes Wf h)).
      { intros h [L F]. split; [apply later_writes; auto|]. split.
        - intros x Ix. rewrite writes_in; auto; [apply flagged_set|]. rewrite (later_length h L). auto.
        - destruct b.
          + cbn [orb]. apply flagged_kept. apply F; auto. cbn [writable]. rewrite Tn. cbn. auto.
          + cbn [orb]. destruct (in_dec Nat.eq_dec l D) as [Y|N].
            * assert (X : flagged (hget h0 l) = true) by (apply (PO eq_refl (Elem n v ch l)); auto; apply outermost_here; auto).
              rewrite (flagged_kept Wf h l (later_flagged h l L X)). symmetry. exact X.
            * rewrite (later_out (writes Wf h)); auto. apply later_writes; auto. }
      assert (K : Forall2 (kid_ok D I) (map (fun c => Kid c (to_latex_converter c)) ch)
                     (map (fun c => (c, render true c)) (map (tree_at h0) ch))).
      { apply shared_kids; auto.
        - apply Forall_forall. intros c Ic. split; [|discriminate]. intros x Ix. apply If. apply in_flat_map. eauto.
        - intros c h Ic (L & F & _). split; auto. intros _ x Ix. apply F. apply in_flat_map. eauto. }
      destruct (table_ok D I n v _ _ l (hget h0 l) b K (fun h H => proj2 (proj2 H)) Tn) as (c & E2 & HS).
      exists Wf, c. split; auto. split.
      + intros h _. rewrite E2, map_kid_elem, add_flag_to_all_writes. reflexivity.
      + exists I. auto.
    - rewrite orb_false_r.
      assert (PC : Forall (apt b) ch).
      { apply Forall_forall. intros c Ic. split.
        - intros x Ix. apply PW. cbn [writable]. rewrite Tn, orb_false_r, andb_false_r. cbn [app]. apply in_flat_map. eauto.
        - intros B x Ox. apply PO; auto. eapply outermost_below; eauto. }
      assert (K : Forall2 (kid_ok D (ready b (Elem n v ch l))) (map (fun c => Kid c (to_latex_converter c)) ch)
                     (map (fun c => (c, render b c)) (map (tree_at h0) ch))).
      { apply shared_kids; auto; [intros; apply ready_writes; auto|]. intros. eapply ready_child; eauto. }
      destruct (node_ok2 D (ready b (Elem n v ch l)) n v _ _ l (hget h0 l) b K (fun h H => later_same h l (proj1 H)) Tn) as (c & E2 & HS).
      exists [], c. split; [intros x []|]. split; [exact E2|]. exists (ready b (Elem n v ch l)).
      split; [intros; apply ready_writes; auto|]. split; auto.
  Qed.
End Shared.

(** ** The hypotheses in terms of the specification *)
Lemma inner_writable e : forall l, In l (writable false e) <-> exists x, inner_table e x /\ l = e_attributes x.
Proof.
  intro l. split.
  - intro I. apply writable_inner in I as (x & E & Tx & [Q|[Q _]]); [|discriminate Q]. eauto.
  - intros (x & (o & O & To & B & Tx) & ->).
    assert (Bw : forall e x, below_elem e x -> is_table (e_name x) = true -> In (e_attributes x) (flat_map (writable true) (e_children e))).
    { clear. induction 1 as [e c I|e c x I B IH]; intro Tx; apply in_flat_map; exists c; (split; [exact I|]); destruct c as [n v ch l]; cbn [writable e_name e_attributes] in *.
      - rewrite Tx. cbn. auto.
      - apply in_app_iff. right. cbn [orb e_children] in *. auto. }
    assert (At : forall e, In (e_attributes x) (flat_map (writable true) (e_children e)) -> is_table (e_name e) = true -> In (e_attributes x) (writable false e)).
    { intros [n v ch l] I Te. cbn [writable e_name e_children andb orb app] in *. rewrite Te. exact I. }
    destruct O as [->|O]; [apply At; auto|].
    induction O as [e o I|e c o I O IH].
    + destruct e as [n v ch l]. cbn [writable andb app orb e_children] in *. apply in_flat_map. exists o. split; auto.
      destruct (is_table n); [apply writable_mono|]; apply At; auto.
    + destruct e as [n v ch l]. cbn [writable andb app orb e_children] in *. apply in_flat_map. exists c. split; auto.
      destruct (is_table n); [apply writable_mono|]; auto.
Qed.
Lemma inner_writable_ex e x : inner_table e x -> In (e_attributes x) (writable false e).
Proof. intro H. apply inner_writable. eauto. Qed.
Lemma inner_locs e x : inner_table e x -> In (e_attributes x) (locs e).
Proof. intro H. apply (writable_locs false). apply inner_writable. eauto. Qed.
Lemma outermost_locs e x : outermost_table e x -> In (e_attributes x) (locs e).
Proof.
  induction 1 as [e Te|e c x Te I O IH]; destruct e as [n v ch l]; cbn in *; auto. right. apply in_flat_map. eauto.
Qed.
Lemma unmixed_apt h e D : (forall f, In f D -> unmixed h e f) -> In e D -> apt h (flat_map (writable false) D) false e.
Proof.
  intros U Ie. split; [intros l Il; apply in_flat_map; eauto|].
  intros _ x Ox Ix. apply in_flat_map in Ix as (f & If & Ix). apply inner_writable in Ix as (y & Iy & E).
  exact (U f If x y Ox Iy E).
Qed.
Lemma in_heap_bound h U : (forall e, In e U -> in_heap h e) -> forall l, In l (flat_map (writable false) U) -> l < length h.
Proof. intros H l I. apply in_flat_map in I as (e & Ie & I). apply (H e Ie). eapply writable_locs; eauto. Qed.

(** One element. *)
Lemma convert_shared e h : in_heap h e -> unmixed h e e ->
  exists W, incl W (writable false e) /\
    convert_elem e h = (writes W h, latex_of (tree_at h e)) /\
    convert_elem e (writes W h) = (writes W h, latex_of (tree_at h e)).
Proof.
  intros B U.
  assert (B' : forall l, In l (writable false e) -> l < length h) by (intros l I; apply B; eapply writable_locs; eauto).
  assert (P : apt h (writable false e) false e).
  { pose proof (unmixed_apt h e [e]) as P. cbn [flat_map] in P. rewrite app_nil_r in P. apply P; cbn; auto. intros f [<-|[]]; auto. }
  destruct (made_convert h (writable false e) e false (made h (writable false e) B' e) P) as (W & IW & H).
  exists W. split; auto. rewrite latex_of_render.
  assert (R : ready h (writable false e) false e h) by (split; [apply later_start|discriminate]).
  destruct (H h R) as [E R2]. destruct (H _ R2) as [E2 _]. rewrite writes_idem in E2. auto.
Qed.
Lemma convert_times_shared e h n : in_heap h e -> unmixed h e e ->
  convert_times (S n) e h = (fst (convert_elem e h), repeat (snd (convert_elem e h)) (S n)).
Proof.
  intros B U. destruct (convert_shared e h B U) as (W & _ & E1 & E2). cbn. rewrite E1.
  rewrite (convert_times_stable _ _ _ E2). reflexivity.
Qed.

(** Several converters. *)
Section Program.
  Variables (h0 : heap) (U : list elem).
  Let D : list loc := flat_map (writable false) U.
  Hypothesis B : forall e, In e U -> in_heap h0 e.
  Hypothesis X : forall e f, In e U -> In f U -> unmixed h0 e f.

  (** A converter whose element has the flags it needs. *)
  Definition running (h : heap) (e : elem) (c : converter) : Prop :=
    exists J : heap -> Prop, (forall k V, incl V D -> J k -> J (writes V k)) /\ J h /\ sim D J c (latex_of (tree_at h0 e)).
  Lemma running_writes h e c W : incl W D -> running h e c -> running (writes W h) e c.
  Proof. intros IW (J & PJ & Jh & Sm). exists J. auto. Qed.

  Lemma perform_shared : forall acts es cs h, incl (subjects_of acts) U -> later h0 D h -> Forall2 (running h) es cs ->
    snd (perform acts cs h) = outcomes h0 acts es.
  Proof.
    induction acts as [|[e|i] acts IH]; intros es cs h Inc L R; [reflexivity| |].
    - assert (Ie : In e U) by (apply Inc; left; reflexivity).
      assert (P : apt h0 D false e) by (apply unmixed_apt; auto).
      destruct (made h0 D (in_heap_bound h0 U B) e false P) as (W & c & IW & E & J & PJ & RJ & Sm).
      assert (Rd : ready h0 D false e h) by (split; [exact L|discriminate]).
      cbn [perform outcomes]. rewrite (E h Rd). apply IH.
      + intros x Ix. apply Inc. right. exact Ix.
      + apply later_writes; auto.
      + apply Forall2_app.
        * clear -R IW. induction R; constructor; auto. apply running_writes; auto.
        * constructor; [|constructor]. exists J. rewrite latex_of_render. auto.
    - cbn [perform outcomes].
      assert (Inc' : incl (subjects_of acts) U) by (intros x Ix; apply Inc; exact Ix).
      assert (N : match nth_error cs i with
                  | Some c => exists e, nth_error es i = Some e /\ running h e c
                  | None => nth_error es i = None end).
      { clear -R. revert i. induction R; intros [|i]; cbn; eauto. apply IHR. }
      destruct (nth_error cs i) as [c|]; [|rewrite N; apply IH; auto].
      destruct N as (e & N & (J & PJ & Jh & (W & IW & HW))). rewrite N. destruct (HW h Jh) as [E _]. rewrite E.
      specialize (IH es cs (writes W h) Inc'). destruct (perform acts cs (writes W h)) as [h2 rs]. cbn [snd] in *. f_equal.
      apply IH; [apply later_writes; auto|]. clear -R IW. induction R; constructor; auto. apply running_writes; auto.
  Qed.
End Program.

(** Distinct dictionaries are unmixed. *)
Lemma nodup_child ch (c d : elem) l : NoDup (flat_map locs ch) -> In c ch -> In d ch -> In l (locs c) -> In l (locs d) -> c = d.
Proof.
  induction ch as [|x ch IH]; intros ND Ic Id Lc Ld; [destruct Ic|].
  cbn in ND. apply NoDup_app_inv in ND as (P1 & P2 & P3).
  destruct Ic as [->|Ic], Id as [->|Id]; auto; exfalso; apply (P3 l); auto; apply in_flat_map; eauto.
Qed.
Lemma distinct_unmixed e : NoDup (locs e) -> forall x y, outermost_table e x -> inner_table e y -> e_attributes x <> e_attributes y.
Proof.
  induction e as [n v ch l IH] using elem_ind'. intros ND x y O I E.
  cbn in ND. inversion ND as [|? ? N1 N2]; subst.
  apply inner_writable_ex in I as Iw. rewrite <- E in Iw. cbn [writable andb app orb] in Iw.
  inversion O as [? Te|? c ? Te Ic Oc]; subst; cbn [e_name e_children e_attributes] in *.
  - apply N1. apply in_flat_map in Iw as (d & Id & J). apply in_flat_map. exists d. split; auto. eapply writable_locs; eauto.
  - rewrite Te in Iw. apply in_flat_map in Iw as (d & Id & J).
    assert (Q : c = d).
    { apply (nodup_child ch c d (e_attributes x)); auto; [apply outermost_locs; auto|eapply writable_locs; eauto]. }
    subst d.
    apply inner_writable in J as (z & Iz & Ez). rewrite Forall_forall in IH. apply (IH c Ic) with (x := x) (y := z); auto.
    eapply flat_map_NoDup_in; eauto.
Qed.

(** For the examples: the outermost mtables as a list of dictionaries. *)
Fixpoint outer_locs (e : elem) : list loc :=
  match e with Elem n _ ch l => if is_table n then [l] else flat_map outer_locs ch end.
Lemma outermost_outer_locs e x : outermost_table e x -> In (e_attributes x) (outer_locs e).
Proof.
  induction 1 as [e Te|e c x Te I O IH]; destruct e as [n v ch l]; cbn [e_name e_children e_attributes outer_locs] in *; rewrite Te; [left; reflexivity|].
  apply in_flat_map. eauto.
Qed.
