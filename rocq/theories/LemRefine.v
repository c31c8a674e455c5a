(** The heap model refines the reference rendering: invariant, frame, effect. *)
From Coq Require Import String.
From Verif Require Export SpecHeap LemTokens.
Local Open Scope string_scope.
Local Open Scope list_scope.

(** ** Shapes *)
Definition mtable_name := lit "mtable".
Definition flag := lit "innerTable".
Definition flagged (a : dict str) : bool := has_flag a flag.

(** Dictionaries that conversion may write: those of mtables inside an mtable. *)
Fixpoint writable (inside : bool) (e : elem) : list loc :=
  match e with
  | Elem n _ ch l =>
      (if inside && is_table n then [l] else []) ++ flat_map (writable (inside || is_table n)) ch
  end.

Lemma writable_locs b e : incl (writable b e) (locs e).
Proof.
  revert b. induction e as [n v ch l IH] using elem_ind'. intros b x. cbn. rewrite in_app_iff, in_flat_map.
  intros [H|[c [H1 H2]]].
  - destruct (b && is_table n); cbn in H; tauto.
  - right. apply in_flat_map. exists c. split; auto. rewrite Forall_forall in IH. eapply IH; eauto.
Qed.
Lemma writable_mono e : incl (writable false e) (writable true e).
Proof.
  induction e as [n v ch l IH] using elem_ind'. intros x. cbn. rewrite !in_app_iff, !in_flat_map.
  intros [c [H1 H2]]. right. exists c. split; auto.
  destruct (is_table n); auto. rewrite Forall_forall in IH. eapply IH; eauto.
Qed.

(** Setting the flag in one dictionary, in several. *)
Definition set_flag (h : heap) (l : loc) : heap := hset h l (dset (hget h l) flag flag).
Definition writes (W : list loc) (h : heap) : heap := fold_left set_flag W h.

Lemma writes_app W W' h : writes (W ++ W') h = writes W' (writes W h).
Proof. apply fold_left_app. Qed.
Lemma writes_length W h : length (writes W h) = length h.
Proof. revert h. induction W; intro h; cbn; auto. unfold writes in IHW. rewrite IHW. apply hset_length. Qed.
Lemma hset_out h l d : length h <= l -> hset h l d = h.
Proof. revert l. induction h as [|x h IH]; intros [|l] H; cbn in *; auto; try lia. f_equal. apply IH; lia. Qed.
Lemma hget_set_flag h l l' :
  hget (set_flag h l) l' = if Nat.eqb l' l && Nat.ltb l (length h) then dset (hget h l') flag flag else hget h l'.
Proof.
  unfold set_flag. destruct (Nat.eqb_spec l' l) as [->|N]; cbn [andb].
  - destruct (Nat.ltb_spec l (length h)); [apply hget_hset_same; auto|]. rewrite hset_out; auto.
  - apply hget_hset_other; auto.
Qed.
Lemma hget_writes W : forall h l,
  hget (writes W h) l = if existsb (Nat.eqb l) W && Nat.ltb l (length h) then dset (hget h l) flag flag else hget h l.
Proof.
  induction W as [|w W IH]; intros h l; auto.
  change (writes (w :: W) h) with (writes W (set_flag h w)). rewrite IH, hget_set_flag.
  assert (L : length (set_flag h w) = length h) by apply hset_length. rewrite L. cbn [existsb].
  destruct (Nat.eqb_spec l w) as [->|N]; cbn [andb orb]; auto.
  destruct (existsb (Nat.eqb w) W); cbn [andb]; auto. destruct (Nat.ltb w (length h)); auto. apply dset_dset.
Qed.
Lemma existsb_eqb l W : existsb (Nat.eqb l) W = true <-> In l W.
Proof.
  rewrite existsb_exists. split.
  - intros (x & I & E). apply Nat.eqb_eq in E. congruence.
  - intro I. exists l. split; auto. apply Nat.eqb_refl.
Qed.
Lemma writes_other W h l : ~ In l W -> hget (writes W h) l = hget h l.
Proof.
  intro N. rewrite hget_writes. destruct (existsb (Nat.eqb l) W) eqn:E; auto.
  apply existsb_eqb in E. tauto.
Qed.
Lemma writes_in W h l : In l W -> l < length h -> hget (writes W h) l = dset (hget h l) flag flag.
Proof.
  intros I L. rewrite hget_writes. apply existsb_eqb in I. rewrite I. apply Nat.ltb_lt in L. rewrite L. auto.
Qed.
Lemma writes_idem W h : writes W (writes W h) = writes W h.
Proof.
  apply heap_ext; [rewrite !writes_length; auto|]. intros l _. rewrite !hget_writes, writes_length.
  destruct (existsb _ _ && _); auto. apply dset_dset.
Qed.

(** ** The invariant relating elements in a heap to a tree.
    Exact: as built.  Free: below an mtable, flags unknown.  Flagged: below an mtable, flags set. *)
Inductive mode := Exact | Free | Flagged.

Section All2.
  Context {A B : Type} (f : A -> B -> Prop).
  Fixpoint all2 (l : list A) (l' : list B) : Prop :=
    match l, l' with
    | [], [] => True
    | x :: l, y :: l' => f x y /\ all2 l l'
    | _, _ => False
    end.
  Lemma all2_Forall2 l l' : all2 l l' <-> Forall2 f l l'.
  Proof.
    revert l'; induction l as [|x l IH]; intros [|y l']; cbn; split; intro H; try inversion H; subst; auto.
    - constructor; auto. apply IH; auto.
    - split; auto. apply IH; auto.
  Qed.
End All2.

Definition cell_ok (md : mode) (table : bool) (c a : dict str) : Prop :=
  if table then
    match md with
    | Exact => flagged c = flagged a
    | Free => True
    | Flagged => flagged c = true
    end
  else c = a.
Definition below (md : mode) (table : bool) : mode :=
  match md with Exact => if table then Free else Exact | _ => md end.

Fixpoint shape (md : mode) (h : heap) (e : elem) (t : tree) {struct e} : Prop :=
  match e, t with
  | Elem n v ch l, T n' v' ch' a =>
      n = n' /\ v = v' /\ cell_ok md (is_table n) (hget h l) a
      /\ all2 (shape (below md (is_table n)) h) ch ch'
  end.

Lemma shape_unfold md h n v ch l n' v' ch' a :
  shape md h (Elem n v ch l) (T n' v' ch' a) <->
  n = n' /\ v = v' /\ cell_ok md (is_table n) (hget h l) a
  /\ Forall2 (shape (below md (is_table n)) h) ch ch'.
Proof. cbn. rewrite all2_Forall2. tauto. Qed.

Lemma Forall2_impl_in {A B} (P Q : A -> B -> Prop) l l' :
  (forall x y, In x l -> P x y -> Q x y) -> Forall2 P l l' -> Forall2 Q l l'.
Proof. intros H F. induction F; constructor; auto. - apply H; cbn; auto. - apply IHF. intros. apply H; cbn; auto. Qed.

Lemma shape_frame md h h' e t :
  (forall l, In l (locs e) -> hget h' l = hget h l) -> shape md h e t -> shape md h' e t.
Proof.
  revert md t. induction e as [n v ch l IH] using elem_ind'. intros md [n' v' ch' a] H S.
  rewrite shape_unfold in *. destruct S as (-> & -> & C & F). repeat split; auto.
  - rewrite H; cbn; auto.
  - eapply Forall2_impl_in; [|exact F]. intros x y I S. rewrite Forall_forall in IH.
    apply IH; auto. intros l' I'. apply H. cbn. right. apply in_flat_map. eauto.
Qed.

Lemma shape_free md h e t : shape md h e t -> shape Free h e t.
Proof.
  revert md t. induction e as [n v ch l IH] using elem_ind'. intros md [n' v' ch' a] S.
  rewrite shape_unfold in *. destruct S as (-> & -> & C & F). repeat split; auto.
  - unfold cell_ok in *. destruct (is_table n'); auto.
  - eapply Forall2_impl_in; [|exact F]. intros x y I S. rewrite Forall_forall in IH.
    eapply IH; eauto.
Qed.

(** Flags already set elsewhere are not lost. *)
Lemma flagged_set c : flagged (dset c flag flag) = true.
Proof. unfold flagged, has_flag, dget_or. rewrite dget_dset_same. reflexivity. Qed.

(** ** The flag pass *)
Definition add_flag := add_flag_recursive_if_name mtable_name flag.

Lemma add_flag_all es h : add_flag_to_all es mtable_name flag h = fold_left (fun h0 c => add_flag c h0) es h.
Proof. reflexivity. Qed.

Lemma add_flag_fold es :
  Forall (fun e => forall h, add_flag e h = writes (writable true e) h) es ->
  forall h, fold_left (fun h0 c => add_flag c h0) es h = writes (flat_map (writable true) es) h.
Proof.
  induction 1 as [|e es He F IH]; intro h; cbn [fold_left flat_map]; auto.
  rewrite He, IH, writes_app. reflexivity.
Qed.
Lemma add_flag_writes e : forall h, add_flag e h = writes (writable true e) h.
Proof.
  induction e as [n v ch l IH] using elem_ind'. intro h.
  unfold add_flag. cbn [add_flag_recursive_if_name]. fold add_flag.
  change (fold_left (fun h0 c => add_flag c h0) ch
    (if str_eqb n mtable_name then hset h l (dset (hget h l) flag flag) else h) = writes (writable true (Elem n v ch l)) h).
  rewrite add_flag_fold by auto. cbn [writable andb orb]. rewrite writes_app. 
  change (str_eqb n mtable_name) with (is_table n). destruct (is_table n); reflexivity.
Qed.
Lemma add_flag_to_all_writes es h :
  add_flag_to_all es mtable_name flag h = writes (flat_map (writable true) es) h.
Proof. rewrite add_flag_all. apply add_flag_fold. apply Forall_forall. intros; apply add_flag_writes. Qed.

(** Setting the flags of all tables at or below [e] makes its shape flagged. *)
Lemma writes_shape e : forall t h W,
  (forall l, In l (locs e) -> In l W <-> In l (writable true e)) ->
  NoDup (locs e) -> (forall l, In l (locs e) -> l < length h) ->
  shape Free h e t -> shape Flagged (writes W h) e t.
Proof.
  induction e as [n v ch l IH] using elem_ind'. intros [n' v' ch' a] h W HW ND B S.
  rewrite shape_unfold in *. destruct S as (-> & -> & C & F). cbn [below] in *.
  cbn in ND. inversion ND as [|? ? N1 N2]; subst.
  assert (Bl : l < length h) by (apply B; cbn; auto).
  assert (Lw : In l W <-> is_table n' = true).
  { rewrite HW by (cbn; auto). cbn [writable andb orb]. rewrite in_app_iff, in_flat_map. split.
    - intros [I|(c & I1 & I2)]; [destruct (is_table n'); auto; destruct I|].
      apply writable_locs in I2. exfalso. apply N1. apply in_flat_map. eauto.
    - intros ->. left. cbn; auto. }
  repeat split; auto.
  - unfold cell_ok in *. destruct (is_table n').
    + rewrite writes_in; auto; [apply flagged_set|apply Lw; auto].
    + rewrite writes_other; auto. intro I. apply Lw in I. discriminate.
  - clear Lw. apply Forall2_impl_in with (P := shape Free h); auto.
    intros x y I S. rewrite Forall_forall in IH. apply IH; auto.
    + intros l0 I0. rewrite HW by (cbn; right; apply in_flat_map; eauto).
      cbn [writable andb orb]. rewrite in_app_iff, in_flat_map. split.
      * intros [J|(c & J1 & J2)].
        { destruct (is_table n'); [destruct J as [<-|[]]|destruct J]. exfalso. apply N1. apply in_flat_map; eauto. }
        { assert (x = c); [|subst; auto].
          apply writable_locs in J2. clear -N2 I J1 I0 J2.
          induction ch as [|d ch IHc]; [destruct I|]. cbn in N2. apply NoDup_app_inv in N2 as (P1 & P2 & P3).
          destruct I as [->|I], J1 as [->|J1]; auto.
          - exfalso. apply (P3 l0); auto. apply in_flat_map; eauto.
          - exfalso. apply (P3 l0); auto. apply in_flat_map; eauto. }
      * intro J. right. eauto.
    + eapply flat_map_NoDup_in; eauto.
    + intros l0 I0. apply B. cbn. right. apply in_flat_map. eauto.
Qed.

(** ** Simulation of effectful code by pure outcomes.
    One list of flag writes inside [S] describes the heap effect from every heap satisfying [I]. *)
Definition sim {A} (S : list loc) (I : heap -> Prop) (m : M A) (r : res A) : Prop :=
  exists W, incl W S /\ forall h, I h -> m h = (writes W h, r) /\ I (writes W h).

Lemma sim_ret {A} S I (a : A) : sim S I (ret a) (Ok a).
Proof. exists []. split; [intros x []|]. intros h H. auto. Qed.
Lemma sim_raise {A} S I e : sim S I (@raise A e) (Raise e).
Proof. exists []. split; [intros x []|]. intros h H. auto. Qed.
Lemma sim_bind {A B} S I (m : M A) (f : A -> M B) r g :
  sim S I m r -> (forall a, sim S I (f a) (g a)) -> sim S I (bind m f) (rbind r g).
Proof.
  intros (W & IW & Hm) Hf. destruct r as [a|e]; cbn [rbind].
  - destruct (Hf a) as (W' & IW' & Hf'). exists (W ++ W'). split; [apply incl_app; auto|].
    intros h H. destruct (Hm h H) as [E H1]. unfold bind. rewrite E, writes_app. apply Hf'; auto.
  - exists W. split; auto. intros h H. destruct (Hm h H) as [E H1]. unfold bind. rewrite E. auto.
Qed.
Lemma sim_read {B} S (I : heap -> Prop) l a (f : dict str -> M B) r :
  (forall h, I h -> hget h l = a) -> sim S I (f a) r -> sim S I (bind (read_attributes l) f) r.
Proof.
  intros A (W & IW & H). exists W. split; auto. intros h Ih. unfold bind, read_attributes.
  rewrite (A h Ih). auto.
Qed.
Lemma sim_read_ret {B} S (I : heap -> Prop) l (g : dict str -> B) x :
  (forall h, I h -> g (hget h l) = x) -> sim S I (bind (read_attributes l) (fun a => ret (g a))) (Ok x).
Proof.
  intros A. exists []. split; [intros y []|]. intros h Ih. unfold bind, read_attributes, ret.
  rewrite (A h Ih). auto.
Qed.
Lemma sim_conv {A} S I (m : M A) r r' : sim S I m r -> r = r' -> sim S I m r'.
Proof. intros; subst; auto. Qed.

(** A child converter and what the specification knows about it. *)
Record kid_ok (S : list loc) (I : heap -> Prop) (k : kid) (p : tree * res str) : Prop := {
  ko_sim : sim S I (kid_convert k) (snd p);
  ko_name : e_name (kid_elem k) = t_name (fst p);
  ko_arity : length (e_children (kid_elem k)) = length (t_children (fst p));
  ko_table : is_relative_of_name mtable_name (kid_elem k) = has_table (fst p)
}.

Lemma convert_all_sim S I ks ps :
  Forall2 (kid_ok S I) ks ps -> sim S I (convert_all ks) (rseq (map snd ps)).
Proof.
  induction 1 as [|k p ks ps K F IH]; cbn; [apply sim_ret|].
  apply sim_bind; [apply K|]. intro s. apply sim_bind; [exact IH|]. intro; apply sim_ret.
Qed.
Lemma convert_all_bind S I ks ps {B} (f : list str -> M B) g :
  Forall2 (kid_ok S I) ks ps -> (forall ss, sim S I (f ss) (g ss)) ->
  sim S I (bind (convert_all ks) f) (rbind (rseq (map snd ps)) g).
Proof. intros. apply sim_bind; auto. apply convert_all_sim; auto. Qed.

Lemma rbind_assoc {A B C} (r : res A) (f : A -> res B) (g : B -> res C) :
  rbind (rbind r f) g = rbind r (fun a => rbind (f a) g).
Proof. destruct r; auto. Qed.

Lemma handle_base_sim S I k p {B} (f : str -> M B) g :
  kid_ok S I k p -> (forall s, sim S I (f s) (g s)) ->
  sim S I (bind (handle_base_child k) f) (sb <~ snd p ;; g (base_latex (fst p) sb)).
Proof.
  intros K Hf. eapply sim_conv; [apply sim_bind with (r := sb <~ snd p ;; Ok (base_latex (fst p) sb)) (g := g); auto|].
  - apply sim_bind; [apply K|]. intro s. rewrite (ko_arity _ _ _ _ K).
    eapply sim_conv with (r := Ok _); [|reflexivity].
    unfold base_latex, paren_wrap_if_more_than_one_char.
    destruct (Nat.leb_spec (length (t_children (fst p))) 1), (Nat.ltb_spec 1 (length (t_children (fst p)))); try lia; [apply sim_ret|].
    destruct (Nat.leb_spec (length s) 1), (Nat.ltb_spec 1 (length s)); try lia; apply sim_ret.
  - rewrite rbind_assoc. reflexivity.
Qed.
Lemma handle_script_sim S I k p {B} (f : str -> M B) g :
  kid_ok S I k p -> (forall s, sim S I (f s) (g s)) ->
  sim S I (bind (handle_script_child k) f) (sb <~ snd p ;; g (braced sb)).
Proof.
  intros K Hf. eapply sim_conv; [apply sim_bind with (r := sb <~ snd p ;; Ok (braced sb)) (g := g); auto|].
  - apply sim_bind; [apply K|]. intro s. apply sim_ret.
  - rewrite rbind_assoc. reflexivity.
Qed.
Lemma kid_bind S I k p {B} (f : str -> M B) g :
  kid_ok S I k p -> (forall s, sim S I (f s) (g s)) -> sim S I (bind (kid_convert k) f) (rbind (snd p) g).
Proof. intros K Hf. apply sim_bind; auto. apply K. Qed.

(** ** Separators *)
Lemma last_nth {A} (l : list A) d : last l d = nth (length l - 1) l d.
Proof.
  induction l as [|x l IH]; auto. destruct l as [|y l]; auto.
  change (last (x :: y :: l) d) with (last (y :: l) d). rewrite IH. cbn. rewrite Nat.sub_0_r. auto.
Qed.

Definition drop_sep (separators : list str) : list str :=
  match separators with [] => [] | [s] => [s] | _ :: more => more end.
Fixpoint drops (k : nat) (separators : list str) : list str :=
  match k with O => separators | S k' => drops k' (drop_sep separators) end.

Lemma fence_join_cons seps p q parts :
  fence_join seps (p :: q :: parts) = p ++ sep_get seps 0 ++ fence_join (drop_sep seps) (q :: parts).
Proof.
  unfold sep_get. cbn [fence_join]. f_equal. destruct seps as [|s [|s' more]]; cbn [length Nat.ltb Nat.leb nth last drop_sep];
    reflexivity.
Qed.
Lemma sep_get_drop seps i : sep_get (drop_sep seps) i = sep_get seps (S i).
Proof.
  destruct seps as [|s [|s' more]]; cbn [drop_sep]; auto.
  destruct i; reflexivity.
Qed.
Lemma sep_get_drops k seps i : sep_get (drops k seps) i = sep_get seps (k + i).
Proof.
  revert seps; induction k as [|k IH]; intro seps; cbn; auto. rewrite IH, sep_get_drop. auto.
Qed.
Lemma drops_S k seps : drops (S k) seps = drop_sep (drops k seps).
Proof. revert seps; induction k as [|k IH]; intro seps; auto. change (drops (S (S k)) seps) with (drops (S k) (drop_sep seps)). rewrite IH. reflexivity. Qed.

Lemma sep_join_loop_spec seps arr : forall n index acc,
  index + length arr = n ->
  sep_join_loop seps n index arr acc = acc ++ fence_join (drops index seps) arr.
Proof.
  induction arr as [|p arr IH]; intros n index acc H; cbn [sep_join_loop].
  - cbn. rewrite app_nil_r. auto.
  - cbn in H. rewrite IH by lia. destruct arr as [|q arr].
    + cbn in H. destruct (Nat.eqb_spec index (n - 1)); try lia. cbn. rewrite !app_nil_r. auto.
    + cbn in H. destruct (Nat.eqb_spec index (n - 1)); try lia.
      rewrite fence_join_cons. rewrite sep_get_drops, Nat.add_0_r, drops_S.
      rewrite <- !app_assoc. auto.
Qed.
Lemma sep_join_spec seps arr : sep_join seps arr = fence_join seps arr.
Proof. unfold sep_join. rewrite sep_join_loop_spec by reflexivity. reflexivity. Qed.

Lemma Vector_spec op close seps ss :
  Vector_apply op close seps ss =
  lit "\left" ++ default op "(" ++ fence_join seps ss ++ lit "\right" ++ default close ")".
Proof.
  unfold Vector_apply, generic_wrap, wrap, default. rewrite sep_join_spec.
  destruct op, close; cbn [str_eqb negb truthy]; rewrite <- ?app_assoc; reflexivity.
Qed.
Lemma matrix_command_spec op close : matrix_command op close = fence_env op close.
Proof.
  unfold matrix_command, fence_env, sep_compare.
  repeat match goal with |- context [if ?b then _ else _] => destruct b eqn:?; auto end; cbn in *; congruence.
Qed.
Lemma Matrix_spec op close ss : Matrix_apply op close ss = fenced_matrix op close ss.
Proof.
  unfold Matrix_apply, fenced_matrix, generic_wrap, wrap, env, cmd1. rewrite matrix_command_spec.
  change (lit "\begin{") with (lit "\begin" ++ lit "{"). change (lit "\end{") with (lit "\end" ++ lit "{").
  destruct (String.eqb _ _); rewrite <- ?app_assoc; reflexivity.
Qed.

(** The search of usecases.py:815 is "contains whitespace". *)
Lemma m_star_some {R} total p s g (k : str -> caps -> option R) :
  (forall s1 g1, k s1 g1 <> None) -> m_regex total (RStar (RChar p)) s g k <> None.
Proof.
  intros K. cbn. generalize (length s) at 1 as fuel. intro fuel. revert s g.
  induction fuel as [|f IH]; intros s g; auto. destruct s as [|c s]; auto.
  destruct (p c); auto.
  match goal with |- context [match ?x with Some _ => _ | None => _ end] => destruct x end; auto; discriminate.
Qed.
Lemma space_search s : re_search (RPlus (RChar is_space)) s = existsb is_space s.
Proof.
  unfold re_search. generalize (length s) as total.
  induction s as [|c s IH]; intro total; [reflexivity|].
  cbn [search_from existsb]. unfold attempt, RPlus. cbn [m_regex].
  destruct (is_space c) eqn:E.
  - cbn [orb].
    match goal with |- context [match ?x with Some _ => _ | None => _ end] =>
      assert (X : x <> None) by (apply (m_star_some total is_space s []); intros; cbn; discriminate);
      destruct x as [[? ?]|]; [reflexivity|congruence] end.
  - cbn [orb]. rewrite <- (IH total). destruct (search_from total false _ s) as [[[? ?] ?]|]; reflexivity.
Qed.
Lemma wrap_space_spec s : wrap_in_parenthesis_if_there_is_space s = paren_if_space s.
Proof.
  unfold wrap_in_parenthesis_if_there_is_space, paren_if_space. rewrite space_search.
  destruct (existsb is_space s); reflexivity.
Qed.
Lemma paren_long_spec s : paren_wrap_if_more_than_one_char s = paren_if_long s.
Proof.
  unfold paren_wrap_if_more_than_one_char, paren_if_long.
  destruct (Nat.leb_spec (length s) 1), (Nat.ltb_spec 1 (length s)); try lia; auto.
Qed.
