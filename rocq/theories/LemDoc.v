(** Documents: building elements from the DOM, running all converters, call histories. *)
From Coq Require Import String.
From Verif Require Export SpecDoc LemMain LemRecovery.
Local Open Scope string_scope.
Local Open Scope list_scope.

Lemma text_of_spec ch : element_value ch = text_of ch.
Proof. unfold element_value, text_of, has_element_child. change (fun n => match n with DElem _ _ _ => true | _ => false end) with is_elem_node. change dom_value with node_value. destruct ch as [|n ch]; auto. destruct (existsb _ _); auto. Qed.

Lemma distinct_snoc l x : distinct (l ++ [x]) = if str_in x l then distinct l else distinct l ++ [x].
Proof.
  induction l as [|y l IH]; auto. cbn [app distinct str_in existsb]. rewrite IH. unfold str_in in *.
  rewrite (str_eqb_sym x y). destruct (str_eqb y x) eqn:E; cbn [orb].
  - apply str_eqb_eq in E. subst y. destruct (existsb (str_eqb x) l); auto. rewrite filter_app. cbn.
    rewrite str_eqb_refl. cbn. rewrite app_nil_r. auto.
  - destruct (existsb (str_eqb x) l); auto. rewrite filter_app. cbn. rewrite E. reflexivity.
Qed.
Lemma last_value_snoc l n v k d : last_value (l ++ [(n, v)]) k d = if str_eqb n k then v else last_value l k d.
Proof. revert d. induction l as [|[m w] l IH]; intro d; cbn; auto. Qed.
Lemma distinct_in l x : In x (distinct l) <-> In x l.
Proof.
  induction l as [|y l IH]; cbn; [tauto|]. split.
  - intros [->|I]; auto. apply filter_In in I as [I _]. right. apply IH; auto.
  - intros [->|I]; auto. destruct (str_eqb y x) eqn:E; [apply str_eqb_eq in E; auto|].
    right. apply filter_In. rewrite E. split; auto. apply IH; auto.
Qed.
Lemma distinct_nodup l : NoDup (distinct l).
Proof.
  induction l as [|y l IH]; cbn; constructor.
  - intro I. apply filter_In in I as [_ I]. rewrite str_eqb_refl in I. discriminate.
  - apply NoDup_filter; auto.
Qed.
Lemma dset_map (f f' : str -> str) ks k v : NoDup ks -> (forall n, n <> k -> f' n = f n) -> f' k = v ->
  dset (map (fun n => (n, f n)) ks) k v =
  map (fun n => (n, f' n)) (if str_in k ks then ks else ks ++ [k]).
Proof.
  intros N E1 E2. induction ks as [|y ks IH]; cbn [map dset str_in existsb app].
  - rewrite E2. auto.
  - inversion N; subst. unfold str_in in *. destruct (str_eqb k y) eqn:E; cbn [orb].
    + apply str_eqb_eq in E. subst y. cbn [map]. f_equal. apply map_ext_in. intros n I. rewrite E1; auto. intro; subst; auto.
    + rewrite IH by auto. rewrite <- (E1 y) by (intro; subst; rewrite str_eqb_refl in E; discriminate).
      destruct (existsb (str_eqb k) ks); reflexivity.
Qed.
Lemma attributes_spec l : convert_element_attributes l = attributes_of l.
Proof.
  unfold convert_element_attributes. induction l as [|[n v] l IH] using rev_ind; auto.
  rewrite fold_left_app. cbn [fold_left fst snd]. rewrite IH. unfold attributes_of.
  rewrite (dset_map _ (fun m => let v' := last_value (l ++ [(n, v)]) m [] in if str_eqb v' m then [] else v')).
  - rewrite map_app. cbn [map fst]. rewrite distinct_snoc.
    replace (str_in n (distinct (map fst l))) with (str_in n (map fst l)); auto.
    unfold str_in. apply eq_true_iff_eq. rewrite !existsb_exists. 
    split; intros (x & I & E); exists x; split; auto; apply distinct_in; auto.
  - apply distinct_nodup.
  - intros m D. cbv zeta. rewrite last_value_snoc. rewrite (proj2 (str_eqb_neq n m)); auto.
  - cbv zeta. rewrite last_value_snoc, str_eqb_refl. auto.
Qed.

Lemma build_list_app ts ts' h :
  build_list (ts ++ ts') h =
  (fst (build_list ts' (fst (build_list ts h))), snd (build_list ts h) ++ snd (build_list ts' (fst (build_list ts h)))).
Proof.
  revert h. induction ts as [|t ts IH]; intro h; cbn.
  - destruct (build_list ts' h); auto.
  - destruct (build t h) as [h1 e]. rewrite IH. destruct (build_list ts h1) as [h2 es]. cbn.
    destruct (build_list ts' h2); auto.
Qed.
Lemma build_list_one t h : build_list [t] h = (fst (build t h), [snd (build t h)]).
Proof. cbn. destruct (build t h); auto. Qed.

Lemma convert_element_eq tag attrs ch h :
  convert_element (DElem tag attrs ch) h =
  (fst (convert_elements ch (h ++ [convert_element_attributes attrs])),
   [Elem tag (element_value ch) (snd (convert_elements ch (h ++ [convert_element_attributes attrs]))) (length h)]).
Proof.
  cbn. assert (X : forall ns h0,
    (fix go (ns : list dnode) (h0 : heap) {struct ns} : heap * list elem :=
           match ns with
           | [] => (h0, [])
           | m :: ns' => let (h3, e) := convert_element m h0 in
                         let (h4, es) := go ns' h3 in (h4, e ++ es)
           end) ns h0 = convert_elements ns h0).
  { induction ns as [|u ns IH]; intro h0; cbn; auto. }
  rewrite X. destruct (convert_elements ch _); auto.
Qed.
Lemma convert_elements_build_gen ns :
  Forall (fun n => forall h, convert_element n h = build_list (tree_of_node n) h) ns ->
  forall h, convert_elements ns h = build_list (flat_map tree_of_node ns) h.
Proof.
  induction 1 as [|n ns Hn F IH]; intro h; cbn; auto.
  rewrite Hn, build_list_app. destruct (build_list (tree_of_node n) h) as [h1 e]. cbn. rewrite IH.
  destruct (build_list _ h1); auto.
Qed.
Lemma convert_element_build n : forall h, convert_element n h = build_list (tree_of_node n) h.
Proof.
  induction n as [tag a ch IH|n H] using dnode_ind'; intro h.
  - rewrite convert_element_eq. rewrite (convert_elements_build_gen ch IH).
    cbn [tree_of_node]. rewrite build_list_one, build_eq, text_of_spec, attributes_spec. reflexivity.
  - destruct n; try discriminate; reflexivity.
Qed.
Lemma convert_elements_build ns h : convert_elements ns h = build_list (flat_map tree_of_node ns) h.
Proof. apply convert_elements_build_gen. apply Forall_forall. intros. apply convert_element_build. Qed.

Lemma math_nodes_spec_node n :
  flat_map tree_of_node (elements_by_tag (lit "math") n) = filter (named "math") (flat_map preorder (tree_of_node n)).
Proof.
  induction n as [tag a ch IH|n H] using dnode_ind'.
  - cbn [elements_by_tag tree_of_node flat_map]. rewrite app_nil_r. cbn [preorder].
    rewrite flat_map_app. cbn [filter named t_name].
    assert (X : flat_map tree_of_node (flat_map (elements_by_tag (lit "math")) ch) =
                filter (named "math") (flat_map preorder (flat_map tree_of_node ch))).
    { clear -IH. induction IH as [|n ns Hn F IH2]; cbn [flat_map]; auto.
      rewrite !flat_map_app, filter_app, Hn, IH2. reflexivity. }
    unfold named at 1. cbn [t_name]. rewrite X.
    destruct (str_eqb tag (lit "math")); cbn; reflexivity.
  - destruct n; try discriminate; reflexivity.
Qed.
Lemma math_nodes_spec d :
  flat_map tree_of_node (get_elements_by_tag_name d (lit "math")) = math_trees d.
Proof.
  unfold get_elements_by_tag_name, math_trees. induction d as [|n d IH]; cbn [flat_map]; auto.
  rewrite !flat_map_app, filter_app, <- IH, math_nodes_spec_node. reflexivity.
Qed.

Lemma build_list_spec ts : forall h,
  fresh_ext h (fst (build_list ts h)) (flat_map locs (snd (build_list ts h)))
  /\ Forall2 (shape Exact (fst (build_list ts h))) (snd (build_list ts h)) ts.
Proof.
  induction ts as [|t ts IH]; intro h; cbn.
  - repeat split; auto; try (exists []; rewrite app_nil_r; auto); try constructor; contradiction.
  - destruct (build_spec t h) as [[[x X] [N1 B1]] S1]. destruct (build t h) as [h1 e]. cbn in *.
    destruct (IH h1) as [[[y Y] [N2 B2]] S2]. destruct (build_list ts h1) as [h2 es]. cbn in *.
    subst h1. subst h2. repeat split.
    + exists (x ++ y). rewrite app_assoc; auto.
    + apply NoDup_app_intro; auto. intros l I1 I2. apply B1 in I1. apply B2 in I2. lia.
    + apply in_app_iff in H as [H|H]; [apply B1 in H|apply B2 in H]; rewrite ?app_length in *; lia.
    + apply in_app_iff in H as [H|H]; [apply B1 in H|apply B2 in H]; rewrite ?app_length in *; lia.
    + constructor; auto. eapply shape_frame; [|exact S1]. intros l I. apply hget_app1. apply B1 in I. lia.
Qed.

(** All converters of math elements, made first and then run, behave as conversion one by one. *)
Lemma make_all_math es : Forall (fun e => e_name e = lit "math") es ->
  forall h, exists cs, make_all es h = (h, cs) /\
    forall h', run_all cs h' = convert_all (map (fun c => Kid c (to_latex_converter c)) es) h'.
Proof.
  induction 1 as [|e es E F IH]; intro h; cbn [make_all].
  - exists []. auto.
  - destruct e as [n v ch l]. cbn in E. subst n.
    destruct (IH h) as (cs & E1 & E2). 
    assert (X : forall h0, to_latex_converter (Elem (lit "math") v ch l) h0 =
       (h0, Math_convert (map (fun c => Kid c (to_latex_converter c)) ch))) by reflexivity.
    rewrite X. rewrite E1.
    eexists. split; [reflexivity|]. intro h'. cbn [run_all convert_all map]. unfold bind at 1 3.
    unfold kid_convert at 1. cbn [kid_mk]. rewrite X.
    destruct (Math_convert _ h') as [h2 [s|ex]]; auto.
    unfold bind. rewrite E2. reflexivity.
Qed.

Lemma build_list_names ts h n :
  Forall (fun t => t_name t = n) ts -> Forall (fun e => e_name e = n) (snd (build_list ts h)).
Proof.
  intro F. destruct (build_list_spec ts h) as [_ S].
  revert S. generalize (fst (build_list ts h)) as hh. generalize (snd (build_list ts h)) as ee. intros ee hh S. induction S as [|e t es ts' S R IH]; auto.
  inversion F; subst. constructor; auto. apply shape_facts in S as (S & _). congruence.
Qed.

Lemma Forall_impl' {A} (P Q : A -> Prop) l : (forall x, P x -> Q x) -> Forall P l -> Forall Q l.
Proof. intros H F. eapply Forall_impl; eauto. Qed.

Lemma math_trees_named d : Forall (fun t => t_name t = lit "math") (math_trees d).
Proof. apply Forall_forall. intros t I. apply filter_In in I as [_ I]. apply str_eqb_eq in I. auto. Qed.

Lemma render_math_canonical t s : t_name t = lit "math" -> render false t = Ok s -> canonical s.
Proof.
  destruct t as [n v ch a]. cbn. intros -> H. unfold node in H. change (tag_of (lit "math")) with TagMath in H. cbn iota in H.
  destruct (rseq _) as [ss|]; cbn in H; [|discriminate]. inversion H. apply canonical_squeeze.
Qed.

Lemma rseq_Forall2 {A} (rs : list (res A)) ss : rseq rs = Ok ss <-> Forall2 (fun r s => r = Ok s) rs ss.
Proof.
  revert ss. induction rs as [|r rs IH]; intro ss; cbn.
  - split; intro H; inversion H; auto.
  - split; intro H.
    + destruct r as [a|]; cbn in H; [|discriminate]. destruct (rseq rs) as [b|]; cbn in H; [|discriminate].
      inversion H; subst. constructor; auto. apply IH; auto.
    + inversion H; subst. cbn. apply IH in H4. rewrite H4. reflexivity.
Qed.

(** The document-level theorem. *)
Lemma run_document d h :
  exists h', (let (h1, els) := convert_elements (get_elements_by_tag_name d (lit "math")) h in
              let (h2, cs) := make_all els h1 in
              (latex <- run_all cs ;; ret (strip (concat latex))) h2) = (h', document_latex d)
             /\ (forall l, l < length h -> hget h' l = hget h l) /\ length h <= length h'.
Proof.
  rewrite convert_elements_build, math_nodes_spec.
  pose proof (build_list_spec (math_trees d) h) as [[[x X] [N B]] F].
  pose proof (build_list_names (math_trees d) h _ (math_trees_named d)) as Nm.
  destruct (build_list (math_trees d) h) as [h1 es] eqn:Eb. cbn [fst snd] in *.
  destruct (make_all_math es Nm h1) as (cs & E1 & E2). rewrite E1.
  set (I := fun h' => Forall2 (shape Exact h') es (math_trees d) /\ sound h' (flat_map locs es) /\ True).
  assert (I1 : I h1).
  { split; auto. split; auto. split; auto. intros l Il. apply B in Il. lia. }
  assert (K : Forall2 (kid_ok (flat_map (writable false) es) I) (map (fun c => Kid c (to_latex_converter c)) es)
               (map (fun c => (c, render (inside_of Exact) c)) (math_trees d))).
  { apply (kids_ok es (math_trees d) Exact (flat_map (writable false) es) (fun _ => True)); try discriminate; auto.
    - apply Forall_forall. intros e _. apply refine.
    - eapply Forall2_len; eauto.
    - apply incl_refl.
    - exists h1. exact I1. }
  destruct (convert_all_sim _ I _ _ K) as (W & IW & HW). destruct (HW h1 I1) as [R _].
  exists (writes W h1). split; [|split].
  - unfold bind. rewrite E2, R. unfold document_latex. rewrite map_map. cbn [snd inside_of].
    rewrite (map_ext latex_of (render false)) by apply latex_of_render.
    destruct (rseq (map (render false) (math_trees d))) as [ss|ex] eqn:Rs; [|reflexivity]. cbn.
    unfold ret. do 2 f_equal. apply strip_id. apply canonical_concat.
    apply rseq_Forall2 in Rs. pose proof (math_trees_named d) as Nd. clear -Rs Nd.
    remember (map (render false) (math_trees d)) as rs eqn:E. revert E Nd. generalize (math_trees d).
    induction Rs as [|r s rs ss Hr Rs IH]; intros [|t ts] E Nd; cbn in E; try discriminate; constructor.
    + inversion E; subst. inversion Nd; subst. eapply render_math_canonical; eauto.
    + inversion E; inversion Nd; subst. eapply IH; eauto.
  - intros l L. rewrite writes_other.
    + subst h1. apply hget_app1; auto.
    + intro Il. apply IW in Il. apply in_flat_map in Il as (e & Ie & Il). apply writable_locs in Il.
      assert (In l (flat_map locs es)) by (apply in_flat_map; eauto). apply B in H. lia.
  - rewrite writes_length. subst h1. rewrite app_length. lia.
Qed.

Lemma document_latex_canonical d s : document_latex d = Ok s -> canonical s.
Proof.
  unfold document_latex. rewrite (map_ext latex_of (render false)) by apply latex_of_render.
  destruct (rseq (map (render false) (math_trees d))) as [ss|ex] eqn:Rs; [|discriminate]. cbn. intro H; inversion H; subst.
  apply canonical_concat. apply rseq_Forall2 in Rs. pose proof (math_trees_named d) as Nd. clear -Rs Nd.
  remember (map (render false) (math_trees d)) as rs eqn:E. revert E Nd. generalize (math_trees d).
  induction Rs as [|r s rs ss Hr Rs IH]; intros [|t ts] E Nd; cbn in E; try discriminate; constructor.
  + inversion E; subst. inversion Nd; subst. eapply render_math_canonical; eauto.
  + inversion E; inversion Nd; subst. eapply IH; eauto.
Qed.

(** ** Parse attempts *)
Section Parse.
Variable wc : N -> bool.
Variable ps : str -> res document.
Notation loop := (parse_loop wc ps).

(** The attempts with the model's recovery. *)
Inductive mreaches : nat -> str -> str -> Prop :=
| mreaches_0 x : mreaches 0 x x
| mreaches_S k x e x' y :
    ps x = Raise e -> fix_error wc x e = Ok x' -> mreaches k x' y -> mreaches (S k) x y.
Definition mread_as (xml : str) (d : document) : Prop :=
  exists k y, k < 5 /\ mreaches k (clean xml) y /\ ps y = Ok d.
Definition mrejected (xml : str) (e : exn) : Prop :=
  (exists y, mreaches 4 (clean xml) y /\ ps y = Raise e /\ exists y', fix_error wc y e = Ok y')
  \/ (exists k y e0, k < 5 /\ mreaches k (clean xml) y /\ ps y = Raise e0 /\ fix_error wc y e0 = Raise e).

Lemma parse_loop_cases fuel x last :
  (exists k y d, k < fuel /\ mreaches k x y /\ ps y = Ok d
     /\ loop fuel x last = (y, Ok (get_elements_by_tag_name d (lit "math"))))
  \/ (exists k y e0 e, k < fuel /\ mreaches k x y /\ ps y = Raise e0 /\ fix_error wc y e0 = Raise e
     /\ loop fuel x last = (y, Raise e))
  \/ (exists y, mreaches fuel x y /\ 
       match fuel with
       | O => loop fuel x last = (y, match last with Some e => Raise e | None => Ok [] end)
       | S f => exists z e, mreaches f x z /\ ps z = Raise e /\ fix_error wc z e = Ok y /\ loop fuel x last = (y, Raise e)
       end).
Proof.
  revert x last. induction fuel as [|f IH]; intros x last.
  - right; right. exists x. split; [constructor|]. reflexivity.
  - cbn [parse_loop]. destruct (ps x) as [d|e] eqn:P.
    + left. exists 0, x, d. repeat split; auto; try lia. constructor.
    + destruct (fix_error wc x e) as [x'|e'] eqn:Fx.
      * destruct (IH x' (Some e)) as [(k & y & d & K1 & K2 & K3 & K4)|[(k & y & e0 & e1 & K1 & K2 & K3 & K4 & K5)|(y & K1 & K2)]].
        -- left. exists (S k), y, d. repeat split; auto; try lia. econstructor; eauto.
        -- right; left. exists (S k), y, e0, e1. repeat split; auto; try lia. econstructor; eauto.
        -- right; right. exists y. split; [econstructor; eauto|]. destruct f as [|f].
           ++ inversion K1; subst. exists x, e. repeat split; auto. constructor.
           ++ destruct K2 as (z & e2 & Z1 & Z2 & Z3 & Z4). exists z, e2. repeat split; auto. econstructor; eauto.
      * right; left. exists 0, x, e, e'. repeat split; auto; try lia. constructor.
Qed.

(** The path of attempts is unique. *)
Lemma reaches_fun k x y : mreaches k x y -> forall y', mreaches k x y' -> y = y'.
Proof.
  induction 1 as [|k x e x' y P F R IH]; intros y2 R2; inversion R2; subst; auto.
  apply IH. congruence.
Qed.
Lemma reaches_stop k x y : mreaches k x y -> forall j z e, mreaches j x z -> j < k ->
  (ps z = Raise e -> exists z', fix_error wc z e = Ok z') /\ (forall d, ps z <> Ok d).
Proof.
  induction 1 as [|k x e x' y P F R IH]; intros j z e2 R2 L; [lia|].
  inversion R2; subst.
  - split; [|congruence]. intro. assert (e2 = e) by congruence. subst. eauto.
  - assert (x'0 = x') by congruence. subst. eapply IH; eauto. lia.
Qed.

Lemma read_as_loop xml d : mread_as xml d ->
  exists y, loop 5 (clean xml) None = (y, Ok (get_elements_by_tag_name d (lit "math"))).
Proof.
  intros (k & y & K & R & P).
  destruct (parse_loop_cases 5 (clean xml) None) as [(k2 & y2 & d2 & K1 & K2 & K3 & K4)|[(k2 & y2 & e0 & e1 & K1 & K2 & K3 & K4 & K5)|(y2 & K1 & K2)]].
  - assert (k = k2).
    { destruct (lt_eq_lt_dec k k2) as [[L|E]|L]; auto.
      - destruct (reaches_stop _ _ _ K2 _ _ EIndex R L) as [_ X]. destruct (X d); auto.
      - destruct (reaches_stop _ _ _ R _ _ EIndex K2 L) as [_ X]. destruct (X d2); auto. }
    subst k2. assert (y = y2) by (eapply reaches_fun; eauto). subst y2. exists y. rewrite K4. congruence.
  - exfalso. destruct (lt_eq_lt_dec k k2) as [[L|E]|L].
    + destruct (reaches_stop _ _ _ K2 _ _ EIndex R L) as [_ X]. destruct (X d); auto.
    + subst. assert (y = y2) by (eapply reaches_fun; eauto). subst. congruence.
    + destruct (reaches_stop _ _ _ R _ _ e0 K2 L) as [X _]. destruct (X K3) as [z Z]. congruence.
  - exfalso. destruct (reaches_stop _ _ _ K1 _ _ EIndex R K) as [_ X]. destruct (X d); auto.
Qed.

Lemma rejected_loop xml e : mrejected xml e -> exists y, loop 5 (clean xml) None = (y, Raise e).
Proof.
  intros [(y & R & P & y' & Fy)|(k & y & e0 & K & R & P & Fy)].
  - destruct (parse_loop_cases 5 (clean xml) None) as [(k2 & y2 & d2 & K1 & K2 & K3 & K4)|[(k2 & y2 & e1 & e2 & K1 & K2 & K3 & K4 & K5)|(y2 & K1 & K2)]].
    + exfalso. destruct (lt_eq_lt_dec 4 k2) as [[L|E]|L]; try lia.
      * subst. assert (y = y2) by (eapply reaches_fun; eauto). congruence.
      * destruct (reaches_stop _ _ _ R _ _ EIndex K2 L) as [_ X]. destruct (X d2); auto.
    + exfalso. destruct (lt_eq_lt_dec 4 k2) as [[L|E]|L]; try lia.
      * subst. assert (y = y2) by (eapply reaches_fun; eauto). subst. congruence.
      * destruct (reaches_stop _ _ _ R _ _ e1 K2 L) as [X _]. destruct (X K3) as [z Z]. congruence.
    + destruct K2 as (z & e2 & Z1 & Z2 & Z3 & Z4). exists y2. rewrite Z4.
      assert (y = z) by (eapply reaches_fun; eauto). subst. congruence.
  - destruct (parse_loop_cases 5 (clean xml) None) as [(k2 & y2 & d2 & K1 & K2 & K3 & K4)|[(k2 & y2 & e1 & e2 & K1 & K2 & K3 & K4 & K5)|(y2 & K1 & K2)]].
    + exfalso. destruct (lt_eq_lt_dec k k2) as [[L|E]|L].
      * destruct (reaches_stop _ _ _ K2 _ _ e0 R L) as [X _]. destruct (X P) as [z Z]. congruence.
      * subst. assert (y = y2) by (eapply reaches_fun; eauto). congruence.
      * destruct (reaches_stop _ _ _ R _ _ EIndex K2 L) as [_ X]. destruct (X d2); auto.
    + destruct (lt_eq_lt_dec k k2) as [[L|E]|L].
      * destruct (reaches_stop _ _ _ K2 _ _ e0 R L) as [X _]. destruct (X P) as [z Z]. congruence.
      * subst. assert (y = y2) by (eapply reaches_fun; eauto). subst. exists y2. rewrite K5. congruence.
      * destruct (reaches_stop _ _ _ R _ _ e1 K2 L) as [X _]. destruct (X K3) as [z Z]. congruence.
    + exfalso. destruct (reaches_stop _ _ _ K1 _ _ e0 R K) as [X _]. destruct (X P) as [z Z]. congruence.
Qed.

Lemma mread_or_rejected xml : (exists d, mread_as xml d) \/ (exists e, mrejected xml e).
Proof.
  destruct (parse_loop_cases 5 (clean xml) None) as [(k2 & y2 & d2 & K1 & K2 & K3 & K4)|[(k2 & y2 & e1 & e2 & K1 & K2 & K3 & K4 & K5)|(y2 & K1 & K2)]].
  - left. exists d2, k2, y2. auto.
  - right. exists e2. right. exists k2, y2, e1. auto.
  - right. destruct K2 as (z & e2 & Z1 & Z2 & Z3 & Z4). exists e2. left. exists z. eauto.
Qed.

(** On one line the model's recovery is the specified one. *)
Lemma reaches_line k x y : reaches ps k x y -> ~ In 10%N x -> ~ In 10%N y.
Proof. induction 1; auto. intro N. apply IHreaches. eapply recovers_one_line; eauto. Qed.
Lemma reaches_iff k x y : ~ In 10%N x -> reaches ps k x y <-> mreaches k x y.
Proof.
  intro N. split; intro H.
  - induction H as [|k x e x' y P F M IH]; [constructor|].
    econstructor; eauto; [apply fix_recovers; eauto|]. apply IH. eapply recovers_one_line; eauto.
  - induction H as [|k x e x' y P F M IH]; [constructor|]. apply (fix_recovers wc) in F; auto.
    econstructor; eauto. apply IH. eapply recovers_one_line; eauto.
Qed.
Lemma read_as_iff xml d : read_as ps xml d <-> mread_as xml d.
Proof.
  pose proof (clean_one_line xml) as N.
  split; intros (k & y & K & R & P); exists k, y; repeat split; auto; apply reaches_iff; auto.
Qed.
Lemma rejected_iff xml e : rejected_with ps xml e <-> mrejected xml e.
Proof.
  pose proof (clean_one_line xml) as N. split; intros [(y & R & P & F)|(k & y & e0 & K & R & P & F)].
  - left. exists y. split; [apply reaches_iff; auto|]. split; auto.
    pose proof (reaches_line _ _ _ R N) as Ny.
    destruct (fix_cases wc y (or_intror Ny) e) as [(y' & E & _)|(_ & F' & _)]; [eauto|contradiction].
  - right. exists k, y, e0. split; auto. split; [apply reaches_iff; auto|]. split; auto.
    apply fix_fails; auto. right. eapply reaches_line; eauto.
  - left. exists y. apply reaches_iff in R; auto. split; auto. split; auto.
    pose proof (reaches_line _ _ _ R N) as Ny. destruct F as (y' & F). intro X.
    assert (Y : fix_error wc y e = Raise EIndex) by (apply fix_fails; auto). congruence.
  - right. exists k, y, e0. apply reaches_iff in R; auto. split; auto. split; auto. split; auto.
    apply (fix_fails wc) in F; auto. right. eapply reaches_line; eauto.
Qed.
Lemma read_or_rejected xml : (exists d, read_as ps xml d) \/ (exists e, rejected_with ps xml e).
Proof.
  destruct (mread_or_rejected xml) as [(d & H)|(e & H)]; [left; exists d; apply read_as_iff|right; exists e; apply rejected_iff]; auto.
Qed.

(** The whole function. *)
Theorem convert_read xml d h : read_as ps xml d ->
  exists h', mathml_to_latex wc ps xml h = (h', document_latex d)
    /\ (forall l, l < length h -> hget h' l = hget h l) /\ length h <= length h'.
Proof.
  intro R. apply read_as_iff in R. destruct (read_as_loop xml d R) as (y & L). destruct (run_document d h) as (h' & E & X).
  exists h'. split; auto. unfold mathml_to_latex, adapter_convert. rewrite clean_spec. rewrite L.
  destruct (convert_elements _ h) as [h1 els]. rewrite <- E. reflexivity.
Qed.
Theorem convert_rejected xml e h : rejected_with ps xml e ->
  mathml_to_latex wc ps xml h = (h, Raise e).
Proof.
  intro R. apply rejected_iff in R. destruct (rejected_loop xml e R) as (y & L).
  unfold mathml_to_latex, adapter_convert. rewrite clean_spec. rewrite L. reflexivity.
Qed.
End Parse.
