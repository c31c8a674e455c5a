(** Lemmas for converter objects (C55). *)
From Coq Require Import String.
From Verif Require Export SpecObjects LemHeap.
Local Open Scope string_scope.
Local Open Scope list_scope.

(** What the constructor does to the heap. *)
Definition made_writes (e : elem) : list loc :=
  if is_table (e_name e) then flat_map (writable true) (e_children e) else [].
(** The children as the constructor leaves them. *)
Definition kid_mode (n : str) : mode := if is_table n then Flagged else Exact.
(** What the converter of [e] needs of the dictionary of [e] itself. *)
Definition root_ok (n : str) (c a : dict str) : Prop :=
  if is_table n then flagged c = flagged a else if reads_early n then True else c = a.

Lemma reads_early_tag n : reads_early n = true <-> (tag_of n = TagFenced \/ tag_of n = TagEnclose).
Proof.
  split.
  - unfold reads_early. cbn. intro H. apply orb_true_iff in H as [H|H].
    + apply str_eqb_eq in H. subst. auto.
    + rewrite orb_false_r in H. apply str_eqb_eq in H. subst. auto.
  - intro H. assert (K : n = lit "mfenced" \/ n = lit "menclose").
    { revert H. unfold tag_of, known_tags. cbn [tag_lookup].
      repeat match goal with
      | |- context [str_eqb n (lit ?s)] =>
          let E := fresh in destruct (str_eqb n (lit s)) eqn:E;
          [ apply str_eqb_eq in E; intros [Q|Q]; try discriminate Q; auto | cbn iota]
      end. intros [Q|Q]; discriminate Q. }
    destruct K; subst; reflexivity.
Qed.

(** The converter is the same whatever the heap, except for the attributes that are read early. *)
Lemma make_same n v ch l h1 h2 : (reads_early n = true -> hget h1 l = hget h2 l) ->
  snd (to_latex_converter (Elem n v ch l) h1) = snd (to_latex_converter (Elem n v ch l) h2).
Proof.
  intro H. rewrite to_latex_converter_eq. generalize (map (fun c => Kid c (to_latex_converter c)) ch). intro ks.
  pose proof (class_for_ok n) as C. remember (tag_of n) as tg eqn:Tg. symmetry in Tg. remember (class_for n) as cl eqn:Cl.
  assert (R : tg = TagFenced \/ tg = TagEnclose -> hget h1 l = hget h2 l).
  { intro Q. apply H, reads_early_tag. rewrite Tg. auto. }
  destruct C; try reflexivity; unfold MFenced_new, MEnclose_new; rewrite R by auto; reflexivity.
Qed.
Lemma make_heap e h : fst (to_latex_converter e h) = writes (made_writes e) h.
Proof.
  destruct e as [n v ch l]. rewrite to_latex_converter_eq. unfold made_writes. cbn [e_name e_children].
  destruct (is_table n) eqn:Tn.
  - apply str_eqb_eq in Tn. subst n. rewrite <- (map_kid_elem ch) at 2. rewrite <- add_flag_to_all_writes. reflexivity.
  - pose proof (class_for_ok n) as C. remember (tag_of n) as tg eqn:Tg. symmetry in Tg. remember (class_for n) as cl eqn:Cl.
    destruct C; try reflexivity. subst n. discriminate Tn.
Qed.

(** Running the converter of an element whose children hold [ts]; [a] is what the element's dictionary held when the
    converter was made (mfenced, menclose) or holds now (all others). *)
Lemma run_spec n v ch l ts a h0 :
  sound h0 (locs (Elem n v ch l)) -> Forall2 (shape (kid_mode n) h0) ch ts -> root_ok n (hget h0 l) a ->
  exists W, incl W (writable false (Elem n v ch l)) /\
    forall hm h, (reads_early n = true -> hget hm l = a) ->
      sound h (locs (Elem n v ch l)) -> Forall2 (shape (kid_mode n) h) ch ts -> root_ok n (hget h l) a ->
      snd (to_latex_converter (Elem n v ch l) hm) h = (writes W h, render false (T n v ts a))
      /\ Forall2 (shape (kid_mode n) (writes W h)) ch ts.
Proof.
  intros S0 F0 R0. pose proof S0 as [ND B].
  pose proof (writable_not_root _ _ _ _ ND) as WR.
  assert (L : length ch = length ts) by (eapply Forall2_len; eauto).
  set (W0 := writable false (Elem n v ch l)) in *.
  assert (Sc : forall h, sound h (locs (Elem n v ch l)) -> sound h (flat_map locs ch)).
  { intros h [Nh Bh]. cbn in Nh. inversion Nh; subst. split; auto. intros l1 J. apply Bh. cbn; auto. }
  assert (IH : Forall convert_spec ch) by (apply Forall_forall; intros; apply refine).
  assert (NF : kid_mode n <> Free) by (unfold kid_mode; destruct (is_table n); discriminate).
  set (extra := fun h => root_ok n (hget h l) a).
  assert (EX : forall h W, incl W W0 -> extra h -> extra (writes W h)).
  { intros h W IW. unfold extra. rewrite writes_other; auto. }
  pose proof (kids_ok ch ts (kid_mode n) W0 extra NF IH L (writable_false_incl _ _ _ _) EX) as K. cbv zeta in K.
  set (I := fun h => Forall2 (shape (kid_mode n) h) ch ts /\ sound h (flat_map locs ch) /\ extra h) in *.
  specialize (K (ex_intro I h0 (conj F0 (conj (Sc _ S0) R0)))).
  assert (Im : inside_of (kid_mode n) = is_table n) by (unfold kid_mode; destruct (is_table n); auto).
  rewrite Im in K. cbn [render orb].
  assert (Fin : exists c, (forall hm, (reads_early n = true -> hget hm l = a) -> snd (to_latex_converter (Elem n v ch l) hm) = c)
                  /\ sim W0 I c (node false n v (map (fun c => (c, render (is_table n) c)) ts) a)).
  { destruct (is_table n) eqn:Tn; [|destruct (reads_early n) eqn:Re].
    - destruct (table_ok W0 I n v _ _ l a false K) as (c & E & Sm); auto.
      { intros h (_ & _ & X). unfold extra, root_ok in X. rewrite Tn in X. exact X. }
      exists c. split; auto. intros hm _. rewrite to_latex_converter_eq, E. reflexivity.
    - assert (Q : n = lit "mfenced" \/ n = lit "menclose").
      { unfold reads_early in Re. cbn in Re. apply orb_true_iff in Re as [Q|Q]; [left|right].
        - apply str_eqb_eq in Q. auto.
        - rewrite orb_false_r in Q. apply str_eqb_eq in Q. auto. }
      destruct Q as [Q|Q]; subst n.
      + eexists. split.
        { intros hm Q. change (to_latex_converter (Elem (lit "mfenced") v ch l) hm) with
            (MFenced_new (map (fun c => Kid c (to_latex_converter c)) ch) l hm). unfold MFenced_new.
          rewrite (Q eq_refl). cbn [snd]. reflexivity. }
        unfold node. change (tag_of (lit "mfenced")) with TagFenced. cbn iota.
        apply convert_all_bind; auto. intro ss. unfold attr.
        rewrite (relative_spec_gen _ _ _ _ K). eapply sim_conv with (r := Ok _); [|reflexivity].
        destruct (existsb _ _); [rewrite Matrix_spec|rewrite Vector_spec]; apply sim_ret.
      + eexists. split.
        { intros hm Q. change (to_latex_converter (Elem (lit "menclose") v ch l) hm) with
            (MEnclose_new (map (fun c => Kid c (to_latex_converter c)) ch) l hm). unfold MEnclose_new.
          rewrite (Q eq_refl). cbn [snd]. reflexivity. }
        unfold node. change (tag_of (lit "menclose")) with TagEnclose. cbn iota.
        apply convert_all_bind; auto. intro ss. rewrite enclose_spec. apply sim_ret.
    - destruct (node_ok W0 I n v _ _ l a false K) as (c & E & Sm); auto.
      { intros h (_ & _ & X). unfold extra, root_ok in X. rewrite Tn, Re in X. exact X. }
      exists c. split; auto. intros hm _. rewrite (make_same _ _ _ _ hm h0); [|congruence].
      rewrite to_latex_converter_eq, E; auto. split; auto. }
  destruct Fin as (c & E & (W & IW & HW)). exists W. split; auto.
  intros hm h Q Sh Fh Rh. rewrite (E hm Q). destruct (HW h) as [E2 (F2 & _)]; [split; auto|]. split; auto.
Qed.

(** *** Flags *)
Lemma flagged_shape e : forall t h,
  (forall x, x = e \/ below_elem e x -> is_table (e_name x) = true -> flagged (hget h (e_attributes x)) = true) ->
  shape Free h e t -> shape Flagged h e t.
Proof.
  induction e as [n v ch l IH] using elem_ind'. intros [n' v' ts a] h H Sh. rewrite shape_unfold in *.
  destruct Sh as (-> & -> & C & F). cbn [below] in *. repeat split; auto.
  - unfold cell_ok in *. destruct (is_table n') eqn:Tn; auto. apply (H (Elem n' v' ch l)); auto.
  - eapply Forall2_impl_in; [|exact F]. intros x y Ix Sx. rewrite Forall_forall in IH. apply IH; auto.
    intros z Hz. apply H. right. destruct Hz as [->|Hz]; [apply below_child; auto|eapply below_deep; eauto].
Qed.
Lemma kids_flagged n v ch l h : inner_flags_set h (Elem n v ch l) ->
  Forall2 (shape (kid_mode n) h) ch (map (tree_at h) ch).
Proof.
  intro H. apply Forall2_self_map. apply Forall_forall. intros c Ic. unfold kid_mode.
  destruct (is_table n) eqn:Tn; [|apply shape_tree_at].
  apply flagged_shape; [|eapply shape_free, shape_tree_at].
  intros x Hx. unfold flagged, has_flag. apply (H Tn x). destruct Hx as [->|Hx]; [apply below_child; auto|eapply below_deep; eauto].
Qed.

Lemma run_late e h1 h2 : reads_early (e_name e) = false -> sound h2 (locs e) -> inner_flags_set h2 e ->
  snd (snd (to_latex_converter e h1) h2) = latex_of (tree_at h2 e).
Proof.
  destruct e as [n v ch l]. cbn [e_name]. intros Re Sd Fl. rewrite latex_of_render.
  assert (R : root_ok n (hget h2 l) (hget h2 l)) by (unfold root_ok; destruct (is_table n), (reads_early n); auto).
  pose proof (kids_flagged _ _ _ _ _ Fl) as F.
  destruct (run_spec n v ch l _ (hget h2 l) h2 Sd F R) as (W & _ & HW).
  destruct (HW h1 h2) as [E _]; auto; [congruence|]. rewrite E. reflexivity.
Qed.
Lemma run_early n v ch l h1 h2 : reads_early n = true -> sound h2 (locs (Elem n v ch l)) ->
  snd (snd (to_latex_converter (Elem n v ch l) h1) h2) = latex_of (T n v (map (tree_at h2) ch) (hget h1 l)).
Proof.
  intros Re Sd. rewrite latex_of_render.
  assert (Tn : is_table n = false).
  { apply tag_not_table. apply reads_early_tag in Re. destruct Re as [Q|Q]; rewrite Q; discriminate. }
  assert (R : root_ok n (hget h2 l) (hget h1 l)) by (unfold root_ok; rewrite Tn, Re; auto).
  assert (F : Forall2 (shape (kid_mode n) h2) ch (map (tree_at h2) ch)).
  { apply kids_flagged with (v := v) (l := l). intro Q. cbn [e_name] in Q. congruence. }
  destruct (run_spec n v ch l _ (hget h1 l) h2 Sd F R) as (W & _ & HW).
  destruct (HW h1 h2) as [E _]; auto. rewrite E. reflexivity.
Qed.

(** What making a converter writes. *)
Lemma writable_true_below e l : In l (writable true e) <->
  exists x, (x = e \/ below_elem e x) /\ is_table (e_name x) = true /\ l = e_attributes x.
Proof.
  induction e as [n v ch a IH] using elem_ind'. cbn [writable andb orb]. rewrite in_app_iff, in_flat_map.
  rewrite Forall_forall in IH. split.
  - intros [J|(c & Ic & J)].
    + destruct (is_table n) eqn:Tn; [|destruct J]. destruct J as [<-|[]]. exists (Elem n v ch a). auto.
    + apply IH in J as (x & [->|D] & Tx & E); auto; exists x || exists c; repeat split; auto; right;
        [apply below_child; auto|eapply below_deep; eauto].
  - intros (x & [->|D] & Tx & ->).
    + cbn [e_name e_attributes] in *. rewrite Tx. left. left. reflexivity.
    + right. inversion D; subst; cbn in *.
      * exists x. split; auto. apply IH; auto. eauto.
      * exists c. split; auto. apply IH; auto. eauto.
Qed.
Lemma made_writes_below e l : In l (made_writes e) <->
  is_table (e_name e) = true /\ exists x, below_elem e x /\ is_table (e_name x) = true /\ l = e_attributes x.
Proof.
  unfold made_writes. destruct e as [n v ch a]. cbn [e_name e_children]. destruct (is_table n); [|split; [intros []|intros [Q _]; discriminate Q]].
  rewrite in_flat_map. split.
  - intros (c & Ic & J). split; auto. apply writable_true_below in J as (x & [->|D] & Tx & E).
    + exists c. repeat split; auto. apply below_child; auto.
    + exists x. repeat split; auto. eapply below_deep; eauto.
  - intros [_ (x & D & Tx & E)]. inversion D; subst; cbn in *.
    + exists x. split; auto. apply writable_true_below. eauto.
    + exists c. split; auto. apply writable_true_below. eauto.
Qed.

(** *** Interleavings *)
(** The state of an element between two steps. *)
Definition good (h0 h : heap) (e : elem) : Prop :=
  sound h (locs e) /\ shape Exact h e (tree_at h0 e).
(** ... once a converter was made for it. *)
Definition primed (h0 h : heap) (e : elem) : Prop :=
  good h0 h e /\ Forall2 (shape (kid_mode (e_name e)) h) (e_children e) (map (tree_at h0) (e_children e)).

Lemma good_frame h0 h W e : good h0 h e -> (forall l, In l (locs e) -> ~ In l W) -> good h0 (writes W h) e.
Proof.
  intros [S1 S2] D. split; [apply sound_writes; auto|]. eapply shape_frame; [|exact S2]. intros. apply writes_other. auto.
Qed.
Lemma primed_frame h0 h W e : primed h0 h e -> (forall l, In l (locs e) -> ~ In l W) -> primed h0 (writes W h) e.
Proof.
  intros [G F] D. split; [apply good_frame; auto|]. eapply Forall2_impl_in; [|exact F].
  intros x y Ix Sx. eapply shape_frame; [|exact Sx]. intros l Il. apply writes_other, D.
  destruct e as [n v ch a]. cbn in *. right. apply in_flat_map. eauto.
Qed.
Lemma made_writes_locs e : incl (made_writes e) (locs e).
Proof.
  intros l J. unfold made_writes in J. destruct e as [n v ch a]. cbn [e_name e_children locs] in *. destruct (is_table n); [|destruct J].
  apply in_flat_map in J as (c & Ic & J). right. apply in_flat_map. exists c. split; auto. eapply writable_locs; eauto.
Qed.

(** Making a converter for a good element primes it. *)
Lemma make_primes h0 h e : good h0 h e -> primed h0 (writes (made_writes e) h) e.
Proof.
  intros [Sd Sh]. destruct e as [n v ch l]. cbn [tree_at] in *.
  assert (Q : ~ In l (made_writes (Elem n v ch l))).
  { intro J. pose proof Sd as [ND _]. cbn in ND. inversion ND as [|? ? N1 N2]; subst. apply N1.
    unfold made_writes in J. cbn [e_name e_children] in J. destruct (is_table n); [|destruct J].
    apply in_flat_map in J as (c & Ic & J). apply in_flat_map. exists c. split; auto. eapply writable_locs; eauto. }
  rewrite shape_unfold in Sh. destruct Sh as (_ & _ & C & F).
  assert (K : Forall2 (shape (kid_mode n) (writes (made_writes (Elem n v ch l)) h)) ch (map (tree_at h0) ch)).
  { unfold kid_mode, made_writes. cbn [e_name e_children] in *. destruct (is_table n) eqn:Tn; [|exact F].
    pose proof Sd as [ND B]. cbn in ND. inversion ND as [|? ? N1 N2]; subst.
    eapply Forall2_impl_in; [|exact F]. intros x y Ix Sx. apply writes_shape.
    - intros l0 I0. rewrite in_flat_map. split; [|eauto].
      intros (c & J1 & J2). assert (x = c); [|subst; auto].
      apply writable_locs in J2. clear -N2 Ix J1 I0 J2.
      induction ch as [|d ch IHc]; [destruct Ix|]. cbn in N2. apply NoDup_app_inv in N2 as (P1 & P2 & P3).
      destruct Ix as [->|I], J1 as [->|J1]; auto.
      + exfalso. apply (P3 l0); auto. apply in_flat_map; eauto.
      + exfalso. apply (P3 l0); auto. apply in_flat_map; eauto.
    - eapply flat_map_NoDup_in; eauto.
    - intros l0 I0. apply B. cbn. right. apply in_flat_map; eauto.
    - eapply shape_free; eauto. }
  split; [|exact K]. split; [apply sound_writes; auto|]. cbn [tree_at]. rewrite shape_unfold. repeat split; auto.
  - rewrite writes_other; auto.
  - unfold kid_mode in K. destruct (is_table n); cbn [below]; auto.
    eapply Forall2_impl_in; [|exact K]. intros. eapply shape_free; eauto.
Qed.

(** A converter made for [e] in a heap where [e] was good. *)
Definition made_for (h0 : heap) (e : elem) (c : converter) : Prop :=
  exists hm, c = snd (to_latex_converter e hm) /\ (reads_early (e_name e) = true -> hget hm (e_attributes e) = hget h0 (e_attributes e)).

Lemma run_primed h0 h e c : made_for h0 e c -> primed h0 h e ->
  exists W, incl W (writable false e) /\ c h = (writes W h, latex_of (tree_at h0 e)) /\ primed h0 (writes W h) e.
Proof.
  intros (hm & -> & Q) [[Sd Sh] F]. destruct e as [n v ch l]. cbn [e_name e_children e_attributes tree_at] in *.
  rewrite shape_unfold in Sh. destruct Sh as (_ & _ & C & _).
  assert (R : root_ok n (hget h l) (hget h0 l)).
  { unfold root_ok. unfold cell_ok in C. destruct (is_table n); auto. destruct (reads_early n); auto. }
  destruct (run_spec n v ch l _ (hget h0 l) h Sd F R) as (W & IW & HW).
  destruct (HW hm h Q Sd F R) as [E F2]. exists W. split; auto. rewrite latex_of_render. split; auto.
  pose proof Sd as [ND _]. pose proof (writable_not_root _ _ _ _ ND) as WR.
  split; [|exact F2]. split; [apply sound_writes; auto|]. cbn [tree_at]. rewrite shape_unfold. repeat split; auto.
  - rewrite writes_other; auto.
  - unfold kid_mode in F2. destruct (is_table n); cbn [below]; auto.
    eapply Forall2_impl_in; [|exact F2]. intros. eapply shape_free; eauto.
Qed.

Lemma good_early h0 h e : good h0 h e -> reads_early (e_name e) = true -> hget h (e_attributes e) = hget h0 (e_attributes e).
Proof.
  intros [_ Sh] Re. destruct e as [n v ch l]. cbn [e_name e_attributes tree_at] in *. rewrite shape_unfold in Sh.
  destruct Sh as (_ & _ & C & _). unfold cell_ok in C.
  assert (Tn : is_table n = false) by (apply tag_not_table; apply reads_early_tag in Re; destruct Re as [Q|Q]; rewrite Q; discriminate).
  rewrite Tn in C. auto.
Qed.

Lemma perform_spec h0 U : apart U -> forall acts es cs h,
  incl (subjects_of acts) U -> incl es U ->
  Forall (good h0 h) U -> Forall (primed h0 h) es -> Forall2 (made_for h0) es cs ->
  snd (perform acts cs h) = outcomes h0 acts es.
Proof.
  intro Ap. induction acts as [|[e|i] acts IH]; intros es cs h Inc Ies G P M; [reflexivity| |].
  - cbn [perform outcomes]. destruct (to_latex_converter e h) as [h1 c] eqn:E.
    assert (Iu : In e U) by (apply Inc; left; reflexivity).
    assert (E1 : h1 = writes (made_writes e) h) by (rewrite <- make_heap, E; reflexivity).
    assert (Ge : good h0 h e) by (rewrite Forall_forall in G; auto).
    pose proof (make_primes _ _ _ Ge) as Pe. rewrite <- E1 in Pe.
    apply IH.
    + intros x Ix. apply Inc. right. exact Ix.
    + apply incl_app; auto. intros x [<-|[]]. auto.
    + rewrite Forall_forall in *. intros x Ix. destruct (Ap x e Ix Iu) as [->|D]; [apply Pe|].
      subst h1. apply good_frame; auto. intros l Il J. apply (D l Il). apply made_writes_locs; auto.
    + apply Forall_app. split; [|constructor; auto]. rewrite Forall_forall in *. intros x Ix.
      destruct (Ap x e (Ies x Ix) Iu) as [->|D]; auto.
      subst h1. apply primed_frame; auto. intros l Il J. apply (D l Il). apply made_writes_locs; auto.
    + apply Forall2_app; auto. constructor; auto. exists h. rewrite E. split; auto. apply good_early; auto.
  - cbn [perform outcomes].
    assert (Inc' : incl (subjects_of acts) U) by (intros x Ix; apply Inc; exact Ix).
    assert (N : match nth_error cs i with
                | Some c => exists e, nth_error es i = Some e /\ made_for h0 e c
                | None => nth_error es i = None end).
    { clear -M. revert i. induction M; intros [|i]; cbn; eauto. apply IHM. }
    destruct (nth_error cs i) as [c|]; [|rewrite N; apply IH; auto].
    destruct N as (e & N & Mc). rewrite N. assert (Ie : In e es) by (eapply nth_error_In; eauto).
    assert (Pe : primed h0 h e) by (rewrite Forall_forall in P; auto).
    destruct (run_primed h0 h e c Mc Pe) as (W & IW & E & P2). rewrite E.
    specialize (IH es cs (writes W h) Inc' Ies). destruct (perform acts cs (writes W h)) as [h2 rs]. cbn [snd] in *. f_equal.
    apply IH; auto.
    + rewrite Forall_forall in *. intros x Ix. destruct (Ap x e Ix (Ies e Ie)) as [->|D]; [apply P2|].
      apply good_frame; auto. intros l Il J. apply (D l Il). apply IW, writable_locs in J. auto.
    + rewrite Forall_forall in *. intros x Ix. destruct (Ap x e (Ies x Ix) (Ies e Ie)) as [->|D]; [apply P2|].
      apply primed_frame; auto. intros l Il J. apply (D l Il). apply IW, writable_locs in J. auto.
Qed.
