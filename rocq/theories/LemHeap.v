(** Lemmas for the heap properties C02 - C06, C23. *)
From Coq Require Import String.
From Verif Require Export LemDoc.
Local Open Scope string_scope.
Local Open Scope list_scope.

Lemma Forall2_self_map {A B} (R : A -> B -> Prop) f l : Forall (fun x => R x (f x)) l -> Forall2 R l (map f l).
Proof. induction 1; cbn; constructor; auto. Qed.

Lemma shape_tree_at h e : shape Exact h e (tree_at h e).
Proof.
  induction e as [n v ch l IH] using elem_ind'. cbn [tree_at]. rewrite shape_unfold. repeat split.
  - unfold cell_ok. destruct (is_table n); auto.
  - apply Forall2_self_map. eapply Forall_impl; [|exact IH]. cbn. intros c S.
    destruct (is_table n); auto. eapply shape_free; eauto.
Qed.

(** Conversion of any element in any heap. *)
Theorem convert_any e h : sound h (locs e) ->
  exists W, incl W (writable false e) /\ convert_elem e h = (writes W h, render false (tree_at h e))
            /\ convert_elem e (writes W h) = (writes W h, render false (tree_at h e)).
Proof.
  intro Sd. destruct (refine_run e Exact (tree_at h e) h) as (W & IW & E1 & _ & E2); auto; try discriminate.
  - apply shape_tree_at.
  - exists W. auto.
Qed.

Lemma convert_times_stable e h r : convert_elem e h = (h, r) ->
  forall n, convert_times n e h = (h, repeat r n).
Proof. intros E. induction n as [|n IH]; cbn; auto. rewrite E, IH. auto. Qed.

Lemma convert_times_same e h n : sound h (locs e) ->
  convert_times (S n) e h = (fst (convert_elem e h), repeat (snd (convert_elem e h)) (S n)).
Proof.
  intro Sd. destruct (convert_any e h Sd) as (W & _ & E1 & E2). cbn. rewrite E1.
  rewrite (convert_times_stable _ _ _ E2). reflexivity.
Qed.

Lemma writable_inner b e l : In l (writable b e) ->
  exists x, l = e_attributes x /\ is_table (e_name x) = true /\
    (inner_table e x \/ (b = true /\ (x = e \/ below_elem e x))).
Proof.
  revert b. induction e as [n v ch a IH] using elem_ind'. intros b I. cbn [writable] in I.
  apply in_app_iff in I as [I|I].
  - destruct (b && is_table n) eqn:E; [|destruct I]. apply andb_true_iff in E as [-> E].
    destruct I as [<-|[]]. exists (Elem n v ch a). split; [|split]; auto 8.
  - apply in_flat_map in I as (c & Ic & I). rewrite Forall_forall in IH. apply (IH c Ic) in I as (x & E & Tx & D).
    exists x. split; auto. split; auto.
    assert (Dx : x = c \/ below_elem c x -> below_elem (Elem n v ch a) x).
    { intros [->|B]; [apply below_child; auto|eapply below_deep; eauto]. }
    destruct D as [(o & O1 & O2 & O3 & O4)|[Eb D]].
    + left. exists o. split; auto. right. destruct O1 as [->|B]; [apply below_child; auto|eapply below_deep; eauto].
    + apply orb_true_iff in Eb as [->|Tn]; auto.
      left. exists (Elem n v ch a). cbn. auto.
Qed.

(** Trees without nested tables write nothing. *)
Lemma writable_true_no_table h e : has_table (tree_at h e) = false -> writable true e = [].
Proof.
  induction e as [n v ch l IH] using elem_ind'. cbn. intro H. apply orb_false_iff in H as [H1 H2].
  fold (is_table n) in H1. rewrite H1. cbn [andb app orb]. rewrite existsb_map in H2.
  induction IH as [|c cs Hc F IH2]; cbn in *; auto. apply orb_false_iff in H2 as [H2 H3].
  rewrite Hc, IH2; auto.
Qed.
Lemma writable_none h e : table_in_table (tree_at h e) = false -> writable false e = [].
Proof.
  induction e as [n v ch l IH] using elem_ind'. cbn. intro H. apply orb_false_iff in H as [H1 H2].
  rewrite !existsb_map in *. destruct (is_table n); cbn in H1.
  - clear IH H2. induction ch as [|c ch IH]; cbn in *; auto. apply orb_false_iff in H1 as [H1 H2].
    rewrite (writable_true_no_table h), IH; auto.
  - clear H1. induction IH as [|c cs Hc F IH2]; cbn in *; auto. apply orb_false_iff in H2 as [H2 H3].
    rewrite Hc, IH2; auto.
Qed.

(** ** Contexts *)
Lemma render_plug c t : forall b, render b (plug c t) = fill b c t (render (b || in_table c) t).
Proof.
  induction c as [|n v l c IH rg a]; intro b; cbn.
  - rewrite orb_false_r. auto.
  - rewrite map_app. cbn. rewrite IH, <- orb_assoc. reflexivity.
Qed.

(** [node] looks at a child only through its outcome and [same_look]. *)
Definition pair_look (p q : tree * res str) : Prop := same_look (fst p) (fst q) /\ snd p = snd q.
Lemma look_snd ps qs : Forall2 pair_look ps qs -> map snd ps = map snd qs.
Proof. induction 1 as [|p q ps qs [_ H] F IH]; cbn; congruence. Qed.
Lemma look_table ps qs : Forall2 pair_look ps qs -> existsb has_table (map fst ps) = existsb has_table (map fst qs).
Proof. induction 1 as [|p q ps qs [(_ & _ & H) _] F IH]; cbn; congruence. Qed.
Lemma look_base b b' s : same_look b b' -> base_latex b s = base_latex b' s.
Proof. intros (_ & H & _). unfold base_latex. rewrite H. auto. Qed.
Lemma look_nth ps qs i : Forall2 pair_look ps qs ->
  match nth_error ps i with
  | Some (t, _) => str_eqb (t_name t) (lit "mprescripts")
  | None => false
  end =
  match nth_error qs i with
  | Some (t, _) => str_eqb (t_name t) (lit "mprescripts")
  | None => false
  end.
Proof.
  intro F. revert i. induction F as [|[t r] [u s] ps qs [(H & _) _] F IH]; intros [|i]; cbn [nth_error]; auto.
Qed.

Lemma node_look inside n v ps qs a :
  Forall2 pair_look ps qs -> node inside n v ps a = node inside n v qs a.
Proof.
  intro F. pose proof (look_snd _ _ F) as E1. pose proof (look_table _ _ F) as E2. pose proof (Forall2_len _ _ _ F) as E3.
  unfold node. rewrite E1, E2, E3. destruct (tag_of n) eqn:Tg; auto.
  - destruct F as [|[t r] [u s] ps qs [H1 H2] F]; auto. destruct F as [|[t2 r2] [u2 s2] ps qs [H3 H4] F]; auto.
    destruct F; auto. cbn in *. subst. destruct s as [x|]; auto. cbn. destruct s2 as [y|]; auto. cbn. rewrite (look_base _ _ _ H1). auto.
  - destruct F as [|[t r] [u s] ps qs [H1 H2] F]; auto. destruct F as [|[t2 r2] [u2 s2] ps qs [H3 H4] F]; auto.
    destruct F; auto. cbn in *. subst. destruct s as [x|]; auto. cbn. destruct s2 as [y|]; auto. cbn. rewrite (look_base _ _ _ H1). auto.
  - destruct F as [|[t r] [u s] ps qs [H1 H2] F]; auto. destruct F as [|[t2 r2] [u2 s2] ps qs [H3 H4] F]; auto.
    destruct F as [|[t3 r3] [u3 s3] ps qs [H5 H6] F]; auto.
    destruct F; auto. cbn in *. subst. destruct s as [x|]; auto. cbn. destruct s2 as [y|]; auto. cbn.
    destruct s3 as [z|]; auto. cbn. rewrite (look_base _ _ _ H1). auto.
  - rewrite (look_nth _ _ 1 F), (look_nth _ _ 3 F). reflexivity.
Qed.

Lemma has_table_plug c t : has_table (plug c t) =
  match c with Hole => has_table t
  | At n _ l c' r _ => is_table n || (existsb has_table l || (has_table (plug c' t) || existsb has_table r)) end.
Proof. destruct c; auto. cbn. rewrite existsb_app. cbn. reflexivity. Qed.
Lemma same_look_refl t : same_look t t.
Proof. repeat split. Qed.
Lemma same_look_plug c t u : same_look t u -> same_look (plug c t) (plug c u).
Proof.
  induction c as [|n v l c IH r a]; auto. intro H. apply IH in H as (_ & _ & H). repeat split; cbn [plug t_children].
  - rewrite !app_length. reflexivity.
  - change (has_table (plug (At n v l c r a) t) = has_table (plug (At n v l c r a) u)).
    rewrite (has_table_plug (At n v l c r a) t), (has_table_plug (At n v l c r a) u), H. auto.
Qed.
Lemma fill_look c t u r : same_look t u -> forall b, fill b c t r = fill b c u r.
Proof.
  intro H. induction c as [|n v l c IH rg a]; intro b; cbn; auto.
  apply node_look. apply Forall2_app; [|constructor].
  - apply Forall2_map. induction l; constructor; auto. split; auto using same_look_refl.
  - split; cbn; auto using same_look_plug.
  - apply Forall2_map. induction rg; constructor; auto. split; auto using same_look_refl.
Qed.
Theorem render_context c t u b : same_look t u -> render (b || in_table c) t = render (b || in_table c) u ->
  render b (plug c t) = render b (plug c u).
Proof. intros L E. rewrite !render_plug, E. apply fill_look; auto. Qed.

(** ** Histories of calls *)
Section Calls.
Variable wc : N -> bool.
Variable ps : str -> res document.
Lemma call_any x h : exists h' r, mathml_to_latex wc ps x h = (h', r) /\
  (forall h2, snd (mathml_to_latex wc ps x h2) = r) /\
  (forall l, l < length h -> hget h' l = hget h l) /\ length h <= length h'.
Proof.
  destruct (read_or_rejected wc ps x) as [[d R]|[e R]].
  - destruct (convert_read wc ps x d h R) as (h' & E & X). exists h', (document_latex d).
    split; auto. split; auto. intro h2. destruct (convert_read wc ps x d h2 R) as (h3 & E3 & _). rewrite E3. auto.
  - exists h, (Raise e). rewrite (convert_rejected wc ps x e h R). repeat split; auto.
    intro h2. rewrite (convert_rejected wc ps x e h2 R). auto.
Qed.
Lemma run_calls_spec xmls : forall h,
  snd (run_calls wc ps xmls h) = map (fun x => snd (mathml_to_latex wc ps x [])) xmls
  /\ (forall l, l < length h -> hget (fst (run_calls wc ps xmls h)) l = hget h l).
Proof.
  induction xmls as [|x xmls IH]; intro h; cbn; auto.
  destruct (call_any x h) as (h1 & r & E & U & P & L). rewrite E.
  destruct (IH h1) as [I1 I2]. destruct (run_calls wc ps xmls h1) as [h2 rs]. cbn in *. split.
  - rewrite I1, U. auto.
  - intros l Hl. rewrite I2 by lia. auto.
Qed.
End Calls.
