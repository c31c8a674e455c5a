(** The main refinement theorem: on any heap, converting elements that hold a tree gives the reference
    rendering, keeps the tree, and writes nothing but flags of inner tables. *)
From Coq Require Import String.
From Verif Require Export LemNode.
Local Open Scope string_scope.
Local Open Scope list_scope.

Definition inside_of (md : mode) : bool := match md with Flagged => true | _ => false end.

Lemma shape_facts md h e t : shape md h e t ->
  e_name e = t_name t /\ length (e_children e) = length (t_children t)
  /\ is_relative_of_name mtable_name e = has_table t.
Proof.
  revert md t. induction e as [n v ch l IH] using elem_ind'. intros md [n' v' ch' a] S.
  rewrite shape_unfold in S. destruct S as (-> & -> & C & F). cbn. repeat split.
  - eapply Forall2_len; eauto.
  - change (str_eqb n' mtable_name) with (str_eqb n' (lit "mtable")). f_equal.
    remember (below md (is_table n')) as md' eqn:Q. clear Q C.
    induction F; cbn; auto. inversion IH; subst. rewrite IHF by auto. f_equal. eapply H2; eauto.
Qed.

Lemma Forall2_split {A B} (R : A -> B -> Prop) : forall l l',
  length l = length l' ->
  (forall pre x post pre' y post', l = pre ++ x :: post -> l' = pre' ++ y :: post' -> length pre = length pre' -> R x y) ->
  Forall2 R l l'.
Proof.
  induction l as [|x l IH]; intros [|y l'] L H; cbn in L; try discriminate; constructor.
  - apply (H [] x l [] y l'); auto.
  - apply IH; [congruence|]. intros. apply (H (x :: pre) x0 post (y :: pre') y0 post'); cbn; congruence.
Qed.

Lemma Forall2_map {A B C D} (R : C -> D -> Prop) (f : A -> C) (g : B -> D) l l' :
  Forall2 R (map f l) (map g l') <-> Forall2 (fun x y => R (f x) (g y)) l l'.
Proof.
  split.
  - revert l'. induction l; intros [|y l'] H; inversion H; subst; constructor; auto.
  - induction 1; cbn; constructor; auto.
Qed.

Definition convert_spec (e : elem) : Prop :=
  forall md t h0, md <> Free -> sound h0 (locs e) -> shape md h0 e t ->
  exists W, incl W (writable false e) /\
    forall h, sound h (locs e) -> shape md h e t ->
      convert_elem e h = (writes W h, render (inside_of md) t) /\ shape md (writes W h) e t.

Lemma Forall2_app_parts {A B} (R : A -> B -> Prop) pre x post pre' y post' :
  length pre = length pre' ->
  Forall2 R (pre ++ x :: post) (pre' ++ y :: post') -> Forall2 R pre pre' /\ R x y /\ Forall2 R post post'.
Proof.
  revert pre'. induction pre as [|p pre IH]; intros [|p' pre'] L F; cbn in *; try discriminate.
  - inversion F; subst. repeat split; auto.
  - inversion F; subst. apply IH in H4 as (A1 & A2 & A3); [|congruence]. repeat split; auto.
Qed.

Lemma sound_writes W h ls : sound h ls -> sound (writes W h) ls.
Proof. intros [N B]. split; auto. intros l I. rewrite writes_length. auto. Qed.

(** [extra] is a further condition on the heap that writes inside [S] preserve. *)
Lemma kids_ok ch ts md S (extra : heap -> Prop) :
  md <> Free -> Forall convert_spec ch -> length ch = length ts ->
  incl (flat_map (writable false) ch) S ->
  (forall h W, incl W S -> extra h -> extra (writes W h)) ->
  let I := fun h => Forall2 (shape md h) ch ts /\ sound h (flat_map locs ch) /\ extra h in
  (exists h, I h) ->
  Forall2 (kid_ok S I) (map (fun c => Kid c (to_latex_converter c)) ch)
                     (map (fun c => (c, render (inside_of md) c)) ts).
Proof.
  intros NF IH L IN EX I [hx [FX [SX _]]]. apply Forall2_map.
  apply Forall2_split; auto. intros pre c post pre' t post' E1 E2 L2.
  destruct SX as [ND BX]. subst ch ts.
  destruct (Forall2_app_parts _ _ _ _ _ _ _ L2 FX) as (_ & Sx & _). pose proof Sx as Sx'.
  apply shape_facts in Sx' as (S1 & S2 & S3).
  constructor; cbn [fst snd kid_elem]; auto.
  assert (Cs : convert_spec c) by (rewrite Forall_forall in IH; apply IH; apply in_app_iff; cbn; auto).
  rewrite flat_map_app in ND, IN, BX. cbn in ND, IN, BX.
  destruct (Cs md t hx NF) as (W & IW & HW); auto.
  { apply NoDup_app_inv in ND as (_ & N2 & _). apply NoDup_app_inv in N2 as (N4 & _).
    split; auto. intros l Il. apply BX. rewrite !in_app_iff. auto. }
  assert (IWS : incl W S).
  { intros x Hx. apply IN. rewrite !in_app_iff. apply IW in Hx. auto. }
  exists W. split; auto.
  intros h (F & Sd & Eh). destruct (Forall2_app_parts _ _ _ _ _ _ _ L2 F) as (F1 & Sc & F2).
  apply NoDup_app_inv in ND as (N1 & N2 & N3). apply NoDup_app_inv in N2 as (N4 & N5 & N6).
  destruct (HW h) as [E Sc']; auto.
  { split; auto. intros l Il. apply Sd. rewrite flat_map_app. cbn. rewrite !in_app_iff. auto. }
  split; [exact E|]. split; [|split; [apply sound_writes; auto|apply EX; auto]].
  apply Forall2_app; [|constructor; auto].
  - eapply Forall2_impl_in; [|exact F1]. intros x y Ix Sy. eapply shape_frame; [|exact Sy].
    intros l Il. apply writes_other. intro Wl. apply IW, writable_locs in Wl.
    apply (N3 l); [apply in_flat_map; eauto|apply in_app_iff; auto].
  - eapply Forall2_impl_in; [|exact F2]. intros x y Ix Sy. eapply shape_frame; [|exact Sy].
    intros l Il. apply writes_other. intro Wl. apply IW, writable_locs in Wl.
    apply (N6 l); [auto|apply in_flat_map; eauto].
Qed.

Lemma to_latex_converter_eq n v ch l :
  to_latex_converter (Elem n v ch l) =
  class_for n n v (map (fun c => Kid c (to_latex_converter c)) ch) l.
Proof. reflexivity. Qed.

Lemma map_kid_elem ch : map kid_elem (map (fun c => Kid c (to_latex_converter c)) ch) = ch.
Proof. rewrite map_map. cbn. apply map_id. Qed.

Lemma writable_false_incl n v ch l : incl (flat_map (writable false) ch) (writable false (Elem n v ch l)).
Proof.
  intros x H. cbn. apply in_flat_map in H as (c & H1 & H2). apply in_flat_map. exists c. split; auto.
  destruct (is_table n); auto. apply writable_mono; auto.
Qed.
Lemma writable_not_root n v ch l : NoDup (locs (Elem n v ch l)) -> ~ In l (writable false (Elem n v ch l)).
Proof.
  cbn. intros H I. inversion H; subst. apply H2. apply in_flat_map in I as (c & H4 & H5).
  apply in_flat_map. exists c. split; auto. eapply writable_locs; eauto.
Qed.

Theorem refine e : convert_spec e.
Proof.
  induction e as [n v ch l IH] using elem_ind'. intros md [n' v' ts a] h0 NF [ND B] Sh.
  pose proof (writable_not_root _ _ _ _ ND) as WR.
  rewrite shape_unfold in Sh. destruct Sh as (-> & -> & C & F).
  assert (L : length ch = length ts) by (eapply Forall2_len; eauto).
  pose proof ND as ND'. cbn in ND'. inversion ND' as [|? ? N1 N2]; subst.
  set (W0 := writable false (Elem n' v' ch l)) in *.
  assert (Sc : forall h, sound h (locs (Elem n' v' ch l)) -> sound h (flat_map locs ch)).
  { intros h [_ Bh]. split; auto. intros x I. apply Bh. cbn; auto. }
  assert (S0 : sound h0 (flat_map locs ch)) by (apply Sc; split; auto).
  unfold convert_elem. rewrite to_latex_converter_eq. cbn [render].
  destruct (is_table n') eqn:Tn.
  - (* mtable *)
    rewrite orb_true_r.
    set (Wf := flat_map (writable true) ch).
    assert (W0f : W0 = Wf) by (subst W0 Wf; cbn [writable andb app orb]; rewrite Tn; reflexivity).
    assert (Flag : forall h, sound h (flat_map locs ch) -> Forall2 (shape (below md true) h) ch ts ->
              Forall2 (shape Flagged (writes Wf h)) ch ts).
    { intros h [Nh Bh] Fh. apply Forall2_impl_in with (P := shape (below md true) h); auto.
      intros x y Ix Sx. apply writes_shape.
      - intros l0 I0. subst Wf. rewrite in_flat_map. split; [|eauto].
        intros (c & J1 & J2). assert (x = c); [|subst; auto].
        apply writable_locs in J2. clear -N2 Ix J1 I0 J2.
        induction ch as [|d ch IHc]; [destruct Ix|]. cbn in N2. apply NoDup_app_inv in N2 as (P1 & P2 & P3).
        destruct Ix as [->|I], J1 as [->|J1]; auto.
        + exfalso. apply (P3 l0); auto. apply in_flat_map; eauto.
        + exfalso. apply (P3 l0); auto. apply in_flat_map; eauto.
      - eapply flat_map_NoDup_in; eauto.
      - intros l0 I0. apply Bh. apply in_flat_map; eauto.
      - eapply shape_free; eauto. }
    set (extra := fun h => flagged (hget h l) = inside_of md || truthy (attr a "innerTable")).
    assert (EX : forall h W, incl W W0 -> extra h -> extra (writes W h)).
    { intros h W IW. unfold extra. rewrite writes_other; auto. }
    set (I := fun h' => Forall2 (shape Flagged h') ch ts /\ sound h' (flat_map locs ch) /\ extra h').
    assert (Start : forall h, sound h (locs (Elem n' v' ch l)) ->
       shape md h (Elem n' v' ch l) (T n' v' ts a) -> I (writes Wf h)).
    { intros h Sd Sh. rewrite shape_unfold in Sh. destruct Sh as (_ & _ & Ch & Fh). rewrite Tn in Ch, Fh.
      split; [apply Flag; auto|]. split; [apply sound_writes; auto|].
      apply EX; [rewrite W0f; apply incl_refl|]. unfold extra. unfold cell_ok in Ch.
      destruct md; cbn [inside_of]; [exact Ch|congruence|exact Ch]. }
    assert (K : Forall2 (kid_ok W0 I) (map (fun c => Kid c (to_latex_converter c)) ch)
                     (map (fun c => (c, render true c)) ts)).
    { apply (kids_ok ch ts Flagged W0 extra); auto; try discriminate.
      - apply writable_false_incl.
      - exists (writes Wf h0). apply Start; [split; auto|]. rewrite shape_unfold, Tn. auto. }
    destruct (table_ok W0 I n' v' _ _ l a (inside_of md) K (fun h H => proj2 (proj2 H)) Tn) as (c & E2 & (W & IW & HW)).
    exists (Wf ++ W). split; [apply incl_app; [rewrite W0f; apply incl_refl|auto]|].
    intros h Sd Sh. rewrite E2, map_kid_elem, add_flag_to_all_writes, writes_app. fold Wf.
    destruct (HW _ (Start h Sd Sh)) as [E3 (F2 & _ & _)]. split; [exact E3|].
    rewrite shape_unfold in *. destruct Sh as (_ & _ & Ch & Fh). rewrite Tn in *. repeat split; auto.
    + unfold cell_ok in *. rewrite !writes_other; auto. intro X. apply WR. rewrite W0f. auto.
    + apply Forall2_impl_in with (P := shape Flagged (writes W (writes Wf h))); auto.
      intros x y _ Sx. unfold below. destruct md; auto.
      eapply shape_free; eauto. congruence.
  - rewrite orb_false_r.
    assert (Bm : below md false = md) by (destruct md; auto). rewrite Bm in F.
    set (extra := fun h => hget h l = a).
    assert (EX : forall h W, incl W W0 -> extra h -> extra (writes W h)).
    { intros h W IW. unfold extra. rewrite writes_other; auto. }
    set (I := fun h' => Forall2 (shape md h') ch ts /\ sound h' (flat_map locs ch) /\ extra h').
    assert (Start : forall h, sound h (locs (Elem n' v' ch l)) ->
       shape md h (Elem n' v' ch l) (T n' v' ts a) -> I h).
    { intros h Sd Sh. rewrite shape_unfold in Sh. destruct Sh as (_ & _ & Ch & Fh). rewrite Tn, ?Bm in *.
      split; auto. }
    assert (K : Forall2 (kid_ok W0 I) (map (fun c => Kid c (to_latex_converter c)) ch)
                     (map (fun c => (c, render (inside_of md) c)) ts)).
    { apply (kids_ok ch ts md W0 extra); auto.
      - apply writable_false_incl.
      - exists h0. apply Start; [split; auto|]. rewrite shape_unfold, Tn, Bm. auto. }
    destruct (node_ok W0 I n' v' _ _ l a (inside_of md) K (fun h H => proj2 (proj2 H)) Tn) as (c & E2 & (W & IW & HW)).
    exists W. split; auto. intros h Sd Sh. pose proof (Start h Sd Sh) as Ih.
    rewrite E2 by auto. destruct (HW h Ih) as [E3 (F2 & _ & X)]. split; [exact E3|].
    rewrite shape_unfold. rewrite Tn, Bm. repeat split; auto.
Qed.

(** ** Built elements *)
Fixpoint build_list (ts : list tree) (h : heap) : heap * list elem :=
  match ts with
  | [] => (h, [])
  | t :: ts' => let (h1, e) := build t h in let (h2, es) := build_list ts' h1 in (h2, e :: es)
  end.
Lemma build_eq n v ch a h :
  build (T n v ch a) h =
  (fst (build_list ch (h ++ [a])), Elem n v (snd (build_list ch (h ++ [a]))) (length h)).
Proof.
  cbn. assert (X : forall ts h0,
    (fix go (ts : list tree) (h0 : heap) {struct ts} : heap * list elem :=
           match ts with
           | [] => (h0, [])
           | u :: ts' => let (h3, e) := build u h0 in
                         let (h4, es) := go ts' h3 in (h4, e :: es)
           end) ts h0 = build_list ts h0).
  { induction ts as [|u ts IH]; intro h0; cbn; auto. }
  rewrite X. destruct (build_list ch (h ++ [a])); auto.
Qed.

(** What a fresh construction from heap [h] to [h'] guarantees. *)
Definition fresh_ext (h h' : heap) (ls : list loc) : Prop :=
  (exists x, h' = h ++ x) /\ NoDup ls /\ forall l, In l ls -> length h <= l < length h'.

Lemma hget_app1 h x l : l < length h -> hget (h ++ x) l = hget h l.
Proof. intro. unfold hget. apply app_nth1; auto. Qed.

Lemma build_spec t : forall h,
  fresh_ext h (fst (build t h)) (locs (snd (build t h))) /\ shape Exact (fst (build t h)) (snd (build t h)) t.
Proof.
  induction t as [n v ch a IH] using tree_ind'. intro h. rewrite build_eq. cbn [fst snd].
  assert (K : forall h0, fresh_ext h0 (fst (build_list ch h0)) (flat_map locs (snd (build_list ch h0)))
      /\ Forall2 (shape Exact (fst (build_list ch h0))) (snd (build_list ch h0)) ch).
  { induction IH as [|t ts Ht F IHts]; intro h0; cbn.
    - repeat split; auto; try (exists []; rewrite app_nil_r; auto); try constructor; contradiction.
    - destruct (Ht h0) as [[[x X] [N1 B1]] S1]. destruct (build t h0) as [h1 e]. cbn in *.
      destruct (IHts h1) as [[[y Y] [N2 B2]] S2]. destruct (build_list ts h1) as [h2 es]. cbn in *.
      subst h1. subst h2. repeat split.
      + exists (x ++ y). rewrite app_assoc; auto.
      + apply NoDup_app_intro; auto. intros l I1 I2. apply B1 in I1. apply B2 in I2. lia.
      + apply in_app_iff in H as [H|H]; [apply B1 in H|apply B2 in H]; rewrite ?app_length in *; lia.
      + apply in_app_iff in H as [H|H]; [apply B1 in H|apply B2 in H]; rewrite ?app_length in *; lia.
      + constructor; auto. eapply shape_frame; [|exact S1]. intros l I. apply hget_app1. apply B1 in I. lia. }
  destruct (K (h ++ [a])) as [[[x X] [N1 B1]] S1]. clear K.
  destruct (build_list ch (h ++ [a])) as [h1 es]. cbn in *. subst h1.
  assert (G : hget ((h ++ [a]) ++ x) (length h) = a).
  { rewrite hget_app1 by (rewrite app_length; cbn; lia). unfold hget. rewrite app_nth2 by lia.
    rewrite Nat.sub_diag. reflexivity. }
  rewrite !app_length in B1. cbn in B1.
  repeat split.
  - exists ([a] ++ x). rewrite app_assoc; auto.
  - constructor; auto. intro I. apply B1 in I. lia.
  - destruct H as [<-|H]; [lia|]. apply B1 in H. lia.
  - destruct H as [<-|H]; rewrite ?app_length; cbn; [lia|]. apply B1 in H. lia.
  - unfold hget in G; rewrite G. unfold cell_ok. destruct (is_table n); auto.
  - apply all2_Forall2. destruct (is_table n); auto. cbn.
    eapply Forall2_impl_in; [|exact S1]. intros. eapply shape_free; eauto.
Qed.

Lemma fresh_sound h h' ls : fresh_ext h h' ls -> sound h' ls.
Proof. intros [_ [N B]]. split; auto. intros l I. apply B in I. lia. Qed.

(** One run from a given heap. *)
Theorem refine_run e md t h : md <> Free -> sound h (locs e) -> shape md h e t ->
  exists W, incl W (writable false e) /\ convert_elem e h = (writes W h, render (inside_of md) t)
            /\ shape md (writes W h) e t
            /\ convert_elem e (writes W h) = (writes W h, render (inside_of md) t).
Proof.
  intros NF Sd Sh. destruct (refine e md t h NF Sd Sh) as (W & IW & HW). exists W.
  destruct (HW h Sd Sh) as [E S2]. repeat split; auto.
  destruct (HW (writes W h) (sound_writes _ _ _ Sd) S2) as [E2 _]. rewrite writes_idem in E2. exact E2.
Qed.

(** Conversion of newly built elements is the reference rendering, on any heap. *)
Theorem convert_built t h0 :
  snd (convert_elem (snd (build t h0)) (fst (build t h0))) = render false t.
Proof.
  destruct (build_spec t h0) as [Fr S]. destruct (build t h0) as [h e]. cbn in *.
  destruct (refine_run e Exact t h) as (W & _ & E & _); auto; try discriminate.
  - eapply fresh_sound; eauto.
  - rewrite E. reflexivity.
Qed.
Theorem latex_of_render t : latex_of t = render false t.
Proof. unfold latex_of. pose proof (convert_built t []) as H. destruct (build t []); auto. Qed.
