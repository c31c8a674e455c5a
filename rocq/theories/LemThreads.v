(** Threads: whatever the schedule, no thread changes what another one relies on. *)
From Coq Require Import String.
From Verif Require Export SpecThreads LemCalm.
Local Open Scope string_scope.
Local Open Scope list_scope.

Definition upd {A} (f : nat -> A) (i : nat) (x : A) : nat -> A := fun j => if Nat.eqb j i then x else f j.
Lemma upd_same {A} (f : nat -> A) i x : upd f i x i = x.
Proof. unfold upd. rewrite Nat.eqb_refl. reflexivity. Qed.
Lemma upd_other {A} (f : nat -> A) i j x : j <> i -> upd f i x j = f j.
Proof. unfold upd. intro N. apply Nat.eqb_neq in N. rewrite N. reflexivity. Qed.

(** Regrouping. *)
Lemma calm_assoc {A B C} g0 D Vis (p : prog A) (g : A -> prog B) (f : B -> prog C) : forall W q,
  calm g0 D Vis W (then_ p (fun a => then_ (g a) f)) q -> calm g0 D Vis W (then_ (then_ p g) f) q.
Proof.
  unfold then_. induction p; intros W q H1; cbn [catch] in *; try (inversion H1; subst; constructor; auto; fail).
  destruct r; exact H1.
Qed.

(** Making and running the converters of several elements. *)
Section All.
  Variables (g0 : loc -> dict str) (D : list loc) (Vis : loc -> Prop).

  Lemma calm_make_all es : Forall (fit g0 D Vis false) es -> forall W, exists W' cs,
    (forall B (f : list s_converter -> prog B) r, calm g0 D Vis (W' ++ W) (f cs) r -> calm g0 D Vis W (then_ (s_make_all es) f) r)
    /\ Forall2 (calm g0 D Vis (W' ++ W)) cs (map (fun e => render false (tree_in g0 e)) es).
  Proof.
    induction 1 as [|e es Fe F IH]; intro W; cbn [s_make_all map].
    - exists [], []. split; [intros B f r H; exact H|constructor].
    - destruct (calm_made_all g0 D Vis e false W Fe) as (W1 & c & Mk & C); [discriminate|].
      destruct (IH (W1 ++ W)) as (W2 & cs & Mk2 & C2). exists (W2 ++ W1), (c :: cs). rewrite <- app_assoc. split.
      + intros B f r H. apply calm_assoc. apply Mk. apply calm_assoc. apply Mk2. exact H.
      + constructor; auto. eapply calm_weaken; [|exact C]. intros x Ix. apply in_app_iff. auto.
  Qed.
  Lemma calm_run_all W cs rs : Forall2 (calm g0 D Vis W) cs rs -> calm g0 D Vis W (s_run_all cs) (rseq rs).
  Proof.
    induction 1 as [|c r cs rs C F IH]; cbn [s_run_all rseq]; [apply calm_give|].
    apply calm_then; [apply calm_run; exact C|]. intro s. apply calm_then; [exact IH|]. intro; apply calm_give.
  Qed.
End All.

Section Threads.
  (** The dictionaries at the start and those of them that may be flagged. *)
  Variables (h0 : heap) (D : list loc).
  Hypothesis bound : forall l, In l D -> l < length h0.
  Let n0 := length h0.
  Definition old (l : loc) : Prop := l < length h0.

  (** What a thread knows: the text of its adapters [gA], the contents of the dictionaries it made [gP], and dictionaries of
      the start whose flag is set. *)
  Record ghost : Type := Ghost { gA : list nat; gx : nat -> str; gP : list loc; gc : loc -> dict str; gW : list loc }.
  Definition common (st : state) : Prop := length h0 <= length (dicts st) /\ sees (hget h0) D old (dicts st).
  Definition know (g : ghost) (st : state) : Prop :=
    common st
    /\ (forall a, In a (gA g) -> a < length (xmls st) /\ nth a (xmls st) [] = gx g a)
    /\ (forall l, In l (gP g) -> n0 <= l < length (dicts st) /\ hget (dicts st) l = gc g l)
    /\ (forall l, In l (gW g) -> l < n0 /\ flagged (hget (dicts st) l) = true).

  (** [p] touches only what the thread owns, and flags of [D]; it comes to [r] whatever the others do. *)
  Inductive safe {A} : ghost -> prog A -> res A -> Prop :=
  | safe_done g r : safe g (Done r) r
  | safe_look g l k r : (forall st, know g st -> safe g (k (hget (dicts st) l)) r) -> safe g (Look l k) r
  | safe_flag a x P c W l p r : In l D -> safe (Ghost a x P c (l :: W)) p r -> safe (Ghost a x P c W) (Put l flag flag p) r
  | safe_put a x P c W l key v p r : In l P -> safe (Ghost a x P (upd c l (dset (c l) key v)) W) p r ->
      safe (Ghost a x P c W) (Put l key v p) r
  | safe_alloc a x P c W d k r : (forall l, n0 <= l -> ~ In l P -> safe (Ghost a x (l :: P) (upd c l d) W) (k l) r) ->
      safe (Ghost a x P c W) (Alloc d k) r
  | safe_getxml g i k r : In i (gA g) -> safe g (k (gx g i)) r -> safe g (GetXml i k) r
  | safe_setxml a x P c W i s p r : In i a -> safe (Ghost a (upd x i s) P c W) p r -> safe (Ghost a x P c W) (SetXml i s p) r
  | safe_new a x P c W k r : (forall i, ~ In i a -> safe (Ghost (i :: a) (upd x i []) P c W) (k i) r) ->
      safe (Ghost a x P c W) (NewAdapter k) r
  | safe_mark g v p r : safe g p r -> safe g (Mark v p) r.

  (** One step of a thread: it stays safe, and so do those that own other objects. *)
  Definition disjoint (g g' : ghost) : Prop :=
    (forall i, In i (gA g) -> ~ In i (gA g')) /\ (forall l, In l (gP g) -> ~ In l (gP g')).
  Lemma disjoint_sym g g' : disjoint g g' -> disjoint g' g.
  Proof. intros [H1 H2]. split; intros x I J; [apply (H1 x J I)|apply (H2 x J I)]. Qed.

  Lemma hget_put h l d l' : hget (hset h l d) l' = if Nat.eqb l' l && Nat.ltb l (length h) then d else hget h l'.
  Proof.
    destruct (Nat.eqb_spec l' l) as [->|N]; cbn [andb].
    - destruct (Nat.ltb_spec l (length h)); [apply hget_hset_same; auto|]. rewrite hset_out; auto.
    - apply hget_hset_other; auto.
  Qed.
  Lemma nth_app1 (xs : list str) x i : i < length xs -> nth i (xs ++ [x]) [] = nth i xs [].
  Proof. intro. apply app_nth1; auto. Qed.

  Lemma common_flag st l : In l D -> common st ->
    common (State (hset (dicts st) l (dset (hget (dicts st) l) flag flag)) (xmls st)).
  Proof.
    intros Il [L (V & IV & E)]. split; [cbn; rewrite hset_length; auto|]. exists (l :: V). split; [intros x [<-|Ix]; auto|].
    intros x Ox. cbn [dicts]. rewrite hget_put. unfold wr in *. cbn [existsb].
    destruct (Nat.eqb_spec x l) as [->|N]; cbn [orb andb]; [|apply (E x Ox)].
    assert (X : Nat.ltb l (length (dicts st)) = true) by (apply Nat.ltb_lt; unfold old in Ox; lia). rewrite X, (E l Ox).
    destruct (existsb (Nat.eqb l) V); auto. apply dset_dset.
  Qed.
  Lemma common_put st l d : n0 <= l -> common st -> common (State (hset (dicts st) l d) (xmls st)).
  Proof.
    intros Nl [L (V & IV & E)]. split; [cbn; rewrite hset_length; auto|]. exists V. split; auto.
    intros x Ox. cbn [dicts]. rewrite hget_hset_other; auto. unfold old, n0 in *. lia.
  Qed.
  Lemma common_alloc st d : common st -> common (State (dicts st ++ [d]) (xmls st)).
  Proof.
    intros [L (V & IV & E)]. split; [cbn; rewrite app_length; lia|]. exists V. split; auto.
    intros x Ox. cbn [dicts]. unfold old in Ox. rewrite hget_app1 by lia. apply (E x Ox).
  Qed.
  Lemma common_xmls st xs : common st -> common (State (dicts st) xs).
  Proof. intro H. exact H. Qed.

  Lemma step_safe {A} g (p : prog A) r st : safe g p r -> know g st ->
    exists g', know g' (snd (step p st)) /\ safe g' (fst (step p st)) r
      /\ forall g2, know g2 st -> disjoint g g2 -> know g2 (snd (step p st)) /\ disjoint g' g2.
  Proof.
    intros S K. pose proof K as (KC & KA & KP & KW).
    destruct S as [g r|g l k r H|a x P c W l p r Il H|a x P c W l key v p r Il H|a x P c W d k r H|g i k r Ii H|a x P c W i s p r Ii H|a x P c W k r H|g v p r H];
      cbn [step fst snd] in *.
    - exists g. split; [exact K|]. split; [apply safe_done|auto].
    - exists g. split; [exact K|]. split; [apply H; exact K|auto].
    - (* flag *)
      exists (Ghost a x P c (l :: W)). cbn [gA gx gP gc gW] in *.
      assert (Bl : l < n0) by (apply bound; auto).
      assert (Fr : forall g2, know g2 st -> know g2 (State (hset (dicts st) l (dset (hget (dicts st) l) flag flag)) (xmls st))).
      { intros g2 (C2 & A2 & P2 & W2). split; [apply common_flag; auto|]. cbn [dicts xmls]. split; [exact A2|]. split.
        - intros y Iy. destruct (P2 y Iy) as [B2 E2]. rewrite hset_length. split; auto. rewrite hget_hset_other; auto. lia.
        - intros y Iy. destruct (W2 y Iy) as [B2 F2]. split; auto. rewrite hget_put.
          destruct (Nat.eqb_spec y l) as [->|N]; cbn [andb]; auto. destruct (Nat.ltb _ _); auto. apply flagged_set. }
      split; [|split; [exact H|]].
      + destruct (Fr _ K) as (C2 & A2 & P2 & W2). split; [exact C2|]. split; [exact A2|]. split; [exact P2|].
        cbn [gW]. intros y [<-|Iy]; [|apply (W2 y Iy)]. split; auto. cbn [dicts]. rewrite hget_hset_same; [apply flagged_set|].
        destruct KC as [L _]. unfold n0 in *. lia.
      + intros g2 K2 Dj. split; [apply Fr; auto|]. exact Dj.
    - (* own dictionary *)
      exists (Ghost a x P (upd c l (dset (c l) key v)) W). cbn [gA gx gP gc gW] in *.
      destruct (KP l Il) as [Bl El].
      split; [|split; [exact H|]].
      + split; [apply common_put; [apply Bl|auto]|]. cbn [dicts xmls gA gx gP gc gW]. split; [exact KA|]. split.
        * intros y Iy. destruct (KP y Iy) as [B2 E2]. rewrite hset_length. split; auto.
          destruct (Nat.eq_dec y l) as [->|N]; [rewrite hget_hset_same by lia; rewrite upd_same, El; reflexivity|].
          rewrite hget_hset_other, upd_other by auto. exact E2.
        * intros y Iy. destruct (KW y Iy) as [B2 F2]. split; auto. rewrite hget_hset_other; auto. lia.
      + intros g2 (C2 & A2 & P2 & W2) [D1 D2]. cbn [gA gP] in *. split; [|split; auto].
        split; [apply common_put; [apply Bl|auto]|]. cbn [dicts xmls]. split; [exact A2|]. split.
        * intros y Iy. destruct (P2 y Iy) as [B2 E2]. rewrite hset_length. split; auto. rewrite hget_hset_other; auto.
          intros ->. apply (D2 l Il Iy).
        * intros y Iy. destruct (W2 y Iy) as [B2 F2]. split; auto. rewrite hget_hset_other; auto. lia.
    - (* new dictionary *)
      destruct KC as [L KS]. assert (C' : common (State (dicts st ++ [d]) (xmls st))) by (apply common_alloc; split; auto).
      assert (Nl : ~ In (length (dicts st)) P) by (intro I; apply KP in I; cbn in I; lia).
      assert (Fr : forall g2, know g2 st -> know g2 (State (dicts st ++ [d]) (xmls st))).
      { intros g2 (C2 & A2 & P2 & W2). split; [exact C'|]. cbn [dicts xmls]. split; [exact A2|]. split.
        - intros y Iy. destruct (P2 y Iy) as [B2 E2]. rewrite app_length. cbn. split; [lia|]. rewrite hget_app1 by lia. exact E2.
        - intros y Iy. destruct (W2 y Iy) as [B2 F2]. split; auto. rewrite hget_app1 by (unfold n0 in *; lia). exact F2. }
      exists (Ghost a x (length (dicts st) :: P) (upd c (length (dicts st)) d) W). cbn [gA gx gP gc gW] in *.
      split; [|split; [apply H; auto; unfold n0; lia|]].
      + destruct (Fr _ K) as (_ & A2 & P2 & W2). split; [exact C'|]. split; [exact A2|]. split; [|exact W2].
        cbn [gP gc dicts] in *. intros y [<-|Iy].
        * rewrite app_length. cbn. split; [unfold n0; lia|]. rewrite upd_same. unfold hget. rewrite app_nth2 by lia.
          rewrite Nat.sub_diag. reflexivity.
        * destruct (P2 y Iy) as [B2 E2]. split; auto. rewrite upd_other; [exact E2|]. intros ->. auto.
      + intros g2 K2 [D1 D2]. split; [apply Fr; auto|]. split; [exact D1|]. cbn [gP] in *. intros y [<-|Iy] J; [|apply (D2 y Iy J)].
        destruct K2 as (_ & _ & P2 & _). apply P2 in J. lia.
    - (* reading the text *)
      exists g. destruct (KA i Ii) as [_ E]. rewrite E. split; [exact K|]. split; [exact H|auto].
    - (* assigning the text *)
      exists (Ghost a (upd x i s) P c W). cbn [gA gx gP gc gW] in *. destruct (KA i Ii) as [B1 _].
      split; [|split; [exact H|]].
      + split; [apply common_xmls; auto|]. cbn [dicts xmls gA gx gP gc gW]. split; [|split; auto].
        intros y Iy. destruct (KA y Iy) as [B2 E2]. rewrite put_nth_length. split; auto.
        destruct (Nat.eq_dec y i) as [->|N]; [rewrite nth_put_same, upd_same by auto; reflexivity|].
        rewrite nth_put_other, upd_other by auto. exact E2.
      + intros g2 (C2 & A2 & P2 & W2) [D1 D2]. cbn [gA gP] in *. split; [|split; auto].
        split; [apply common_xmls; auto|]. cbn [dicts xmls]. split; [|split; auto].
        intros y Iy. destruct (A2 y Iy) as [B2 E2]. rewrite put_nth_length. split; auto. rewrite nth_put_other; auto.
        intros ->. apply (D1 i Ii Iy).
    - (* new adapter *)
      assert (Ni : ~ In (length (xmls st)) a) by (intro I; apply KA in I; cbn in I; lia).
      assert (Fr : forall g2, know g2 st -> know g2 (State (dicts st) (xmls st ++ [[]]))).
      { intros g2 (C2 & A2 & P2 & W2). split; [apply common_xmls; auto|]. cbn [dicts xmls]. split; [|split; auto].
        intros y Iy. destruct (A2 y Iy) as [B2 E2]. rewrite app_length. cbn. split; [lia|]. rewrite nth_app1 by lia. exact E2. }
      exists (Ghost (length (xmls st) :: a) (upd x (length (xmls st)) []) P c W). cbn [gA gx gP gc gW] in *.
      split; [|split; [apply H; auto|]].
      + destruct (Fr _ K) as (C2 & A2 & P2 & W2). split; [exact C2|]. split; [|split; [exact P2|exact W2]].
        cbn [gA gx xmls] in *. intros y [<-|Iy].
        * rewrite app_length. cbn. split; [lia|]. rewrite upd_same, app_nth2, Nat.sub_diag by lia. reflexivity.
        * destruct (A2 y Iy) as [B2 E2]. split; auto. rewrite upd_other; [exact E2|]. intros ->. auto.
      + intros g2 K2 [D1 D2]. split; [apply Fr; auto|]. split; [|exact D2]. cbn [gA] in *. intros y [<-|Iy] J; [|apply (D1 y Iy J)].
        destruct K2 as (_ & A2 & _). apply A2 in J. lia.
    - exists g. split; [exact K|]. split; [exact H|auto].
  Qed.

  Lemma safe_assoc {A B C} (p : prog A) (k : res A -> prog B) (f : res B -> prog C) : forall g q,
    safe g (catch p (fun x => catch (k x) f)) q -> safe g (catch (catch p k) f) q.
  Proof.
    induction p; intros g q H1; cbn [catch] in *; auto; inversion H1; subst;
      first [apply safe_look | apply safe_flag; [assumption|] | apply safe_put; [assumption|] | apply safe_alloc
            | apply safe_getxml; [assumption|] | apply safe_setxml; [assumption|] | apply safe_new | apply safe_mark]; auto.
  Qed.

  (** Converting an element of the start; converting elements of one's own. *)
  Lemma calm_safe_old {A B} W (p : prog A) r : calm (hget h0) D old W p r -> forall (f : res A -> prog B) R a x P c W',
    incl W W' -> incl W' (seq 0 n0) -> (forall W'', incl W'' (seq 0 n0) -> safe (Ghost a x P c W'') (f r) R) -> safe (Ghost a x P c W') (catch p f) R.
  Proof.
    induction 1 as [W r|W l k r H IH|W l p r Il C IH|W v p r C IH]; intros f R a x P c W' I I' F; cbn [catch]; auto.
    - constructor. intros st (KC & _ & _ & KW). apply IH; auto; [apply KC|]. intros y Iy. apply KW. cbn. auto.
    - apply safe_flag; auto. apply IH; auto.
      + intros y [<-|Iy]; cbn; auto.
      + intros y [<-|Iy]; auto. apply in_seq. apply bound in Il. unfold n0. lia.
    - constructor. apply IH; auto.
  Qed.
  Lemma calm_safe_own {A B} g00 D' (Vis : loc -> Prop) W (p : prog A) r : calm g00 D' Vis W p r ->
    forall (f : res A -> prog B) R a x P c W' V,
    (forall l, Vis l -> In l P) -> (forall l, In l D' -> Vis l) -> incl V D' -> incl W V ->
    (forall l, Vis l -> c l = wr V l (g00 l)) ->
    (forall c', safe (Ghost a x P c' W') (f r) R) -> safe (Ghost a x P c W') (catch p f) R.
  Proof.
    induction 1 as [W r|W l k r H IH|W l p r Il C IH|W v p r C IH]; intros f R a x P c W' V VP DV IV IW E F; cbn [catch]; auto.
    - constructor. intros st (_ & _ & KP & _). cbn [gP gc] in KP. apply IH with (V := V); auto.
      + exists V. split; auto. intros y Vy. rewrite <- (E y Vy). apply KP; auto.
      + intros y Iy. assert (Vy : Vis y) by auto. destruct (KP y (VP y Vy)) as [_ ->]. rewrite (E y Vy).
        unfold wr. apply IW, existsb_eqb in Iy. rewrite Iy. apply flagged_set.
    - apply safe_put; [auto|]. apply IH with (V := l :: V); auto.
      + intros y [<-|Iy]; auto.
      + intros y [<-|Iy]; cbn; auto.
      + intros y Vy. unfold wr in *. cbn [existsb]. destruct (Nat.eqb_spec y l) as [->|N]; cbn [orb].
        * rewrite upd_same, (E l Vy). destruct (existsb (Nat.eqb l) V); auto. apply dset_dset.
        * rewrite upd_other by auto. apply (E y Vy).
    - constructor. apply IH with (V := V); auto.
  Qed.

  (** Building elements. *)
  Definition built (P : list loc) (c : loc -> dict str) (P' : list loc) (c' : loc -> dict str) (els : list elem) (ts : list tree) : Prop :=
    incl P P' /\ (forall l, In l P -> c' l = c l) /\ NoDup (flat_map locs els)
    /\ (forall l, In l (flat_map locs els) -> In l P' /\ ~ In l P) /\ map (tree_in c') els = ts.
  Definition builds {B} (p : prog (list elem)) (ts : list tree) : Prop := forall (f : res (list elem) -> prog B) R a x P c W,
    (forall P' c' els, built P c P' c' els ts -> safe (Ghost a x P' c' W) (f (Ok els)) R) -> safe (Ghost a x P c W) (catch p f) R.
  Lemma built_refl P c : built P c P c [] [].
  Proof. repeat split; auto; try (apply incl_refl); try constructor; destruct H. Qed.
  Lemma built_app P c P1 c1 e1 t1 P2 c2 e2 t2 : built P c P1 c1 e1 t1 -> built P1 c1 P2 c2 e2 t2 ->
    built P c P2 c2 (e1 ++ e2) (t1 ++ t2).
  Proof.
    intros (I1 & E1 & N1 & B1 & T1) (I2 & E2 & N2 & B2 & T2). split; [intros y Iy; auto|]. split; [|split; [|split]].
    - intros y Iy. rewrite E2, E1; auto.
    - rewrite flat_map_app. apply NoDup_app_intro; auto. intros y J1 J2. apply B1 in J1. apply B2 in J2. tauto.
    - intros y Iy. rewrite flat_map_app in Iy. apply in_app_iff in Iy as [Iy|Iy].
      + apply B1 in Iy. destruct Iy. auto.
      + apply B2 in Iy. destruct Iy as [Iy N]. split; auto.
    - rewrite map_app, T2. f_equal. rewrite <- T1. apply map_ext_in. intros e Ie. apply tree_in_ext. intros y Iy.
      apply E2. apply B1. apply in_flat_map. eauto.
  Qed.
  Lemma builds_elements {B} ns : Forall (fun n => forall C, @builds C (s_convert_element n) (tree_of_node n)) ns ->
    @builds B (s_convert_elements ns) (flat_map tree_of_node ns).
  Proof.
    induction 1 as [|n ns Hn F IH]; intros f R a x P c W Hf; cbn [s_convert_elements flat_map] in *.
    - apply Hf. apply built_refl.
    - unfold then_ at 1. apply safe_assoc. apply Hn. intros P1 c1 e1 B1. cbn beta iota. unfold then_ at 1. apply safe_assoc.
      apply IH. intros P2 c2 e2 B2. cbn. apply Hf. eapply built_app; eauto.
  Qed.
  Lemma builds_element n : forall B, @builds B (s_convert_element n) (tree_of_node n).
  Proof.
    induction n as [tag at_ ch IH|n H] using dnode_ind'; intro B.
    - intros f R a x P c W Hf. rewrite s_convert_element_eq. cbn [catch]. apply safe_alloc. intros l Nl Il.
      unfold then_. apply safe_assoc. apply (builds_elements ch IH). intros P1 c1 els (I1 & E1 & N1 & B1 & T1). cbn [catch give].
      apply Hf. split; [intros y Iy; apply I1; cbn; auto|]. split; [|split; [|split]].
      + intros y Iy. rewrite E1 by (cbn; auto). apply upd_other. intros ->. auto.
      + cbn [flat_map locs]. rewrite app_nil_r. constructor; auto. intro J. apply B1 in J. cbn in J. tauto.
      + cbn [flat_map locs]. rewrite app_nil_r. intros y [<-|Iy].
        * split; auto. apply I1. cbn. auto.
        * apply B1 in Iy. cbn in Iy. tauto.
      + cbn [map tree_in tree_of_node]. rewrite T1, E1, upd_same by (cbn; auto). rewrite text_of_spec, attributes_spec. reflexivity.
    - destruct n; try discriminate; intros f R a x P c W Hf; apply Hf; apply built_refl.
  Qed.
  Lemma builds_all {B} ns : @builds B (s_convert_elements ns) (flat_map tree_of_node ns).
  Proof. apply builds_elements. apply Forall_forall. intros n _ C. apply builds_element. Qed.

  (** Elements with distinct dictionaries. *)
  Lemma fit_own c es : NoDup (flat_map locs es) -> Forall (fit c (flat_map (writable false) es) (fun l => In l (flat_map locs es)) false) es.
  Proof.
    intro ND. apply Forall_forall. intros e Ie. split; [|split].
    - intros y Iy. apply in_flat_map. eauto.
    - intros y Iy. apply in_flat_map. eauto.
    - intros _ x Ox Ix. exfalso. apply in_flat_map in Ix as (e' & Ie' & Ix).
      assert (Q : e = e').
      { apply (nodup_child es e e' (e_attributes x)); auto; [apply outermost_locs; auto|eapply writable_locs; eauto]. }
      subst e'. apply inner_writable in Ix as (y & Iy & E). eapply (distinct_unmixed e); eauto.
      eapply flat_map_NoDup_in; eauto.
  Qed.
  Definition elems_result (ts : list tree) : res str := rbind (rseq (map (render false) ts)) (fun ss => Ok (strip (concat ss))).
  Lemma calm_elems c es : NoDup (flat_map locs es) ->
    calm c (flat_map (writable false) es) (fun l => In l (flat_map locs es)) []
      (cs <- s_make_all es ;;; latex <- s_run_all cs ;;; give (strip (concat latex))) (elems_result (map (tree_in c) es)).
  Proof.
    intro ND. destruct (calm_make_all c _ _ es (fit_own c es ND) []) as (W' & cs & Mk & C). apply Mk.
    unfold elems_result. rewrite map_map. apply calm_then; [apply calm_run_all; exact C|]. intro; apply calm_give.
  Qed.
  Lemma elems_safe {B} es (f : res str -> prog B) R a x P c W ts : NoDup (flat_map locs es) -> (forall l, In l (flat_map locs es) -> In l P) ->
    map (tree_in c) es = ts -> (forall c', safe (Ghost a x P c' W) (f (elems_result ts)) R) ->
    safe (Ghost a x P c W) (catch (cs <- s_make_all es ;;; latex <- s_run_all cs ;;; give (strip (concat latex))) f) R.
  Proof.
    intros ND I <- F. eapply calm_safe_own with (V := []); [apply (calm_elems c es ND)| | | | | |exact F]; auto.
    - intros l Il. apply in_flat_map in Il as (e & Ie & Il). apply in_flat_map. exists e. split; auto. eapply writable_locs; eauto.
    - intros l [].
    - intros l [].
  Qed.

  Variables (wc : N -> bool) (ps : str -> res document).
  Lemma parse_safe {B} fuel : forall i last (f : res (list dnode) -> prog B) R a x P c W, In i a ->
    (forall x', safe (Ghost a x' P c W) (f (snd (parse_loop wc ps fuel (x i) last))) R) ->
    safe (Ghost a x P c W) (catch (s_parse_loop wc ps fuel i last) f) R.
  Proof.
    induction fuel as [|fu IH]; intros i last f R a x P c W Ii F; cbn [s_parse_loop parse_loop] in *.
    - destruct last; apply F.
    - cbn [catch]. apply safe_getxml; [exact Ii|]. cbn [gx]. destruct (ps (x i)) as [d|e]; [apply F|].
      cbn [catch]. apply safe_getxml; [exact Ii|]. cbn [gx]. destruct (fix_error wc (x i) e) as [s|e']; [|apply F].
      cbn [catch]. apply safe_setxml; [exact Ii|]. apply IH; auto. rewrite upd_same. exact F.
  Qed.
  Definition call_result (mathml : str) : res str :=
    match snd (parse_loop wc ps 5 (remove_ms_word_prefixes (remove_line_breaks mathml)) None) with
    | Raise e => Raise e
    | Ok nodes => elems_result (flat_map tree_of_node nodes)
    end.
  Lemma convert_with_safe {B} i mathml (f : res str -> prog B) R a x P c W : In i a ->
    (forall x' P' c', safe (Ghost a x' P' c' W) (f (call_result mathml)) R) ->
    safe (Ghost a x P c W) (catch (s_convert_with wc ps i mathml) f) R.
  Proof.
    intros Ii F. unfold s_convert_with. unfold then_ at 1. apply safe_assoc. unfold s_adapter_convert. cbn [catch].
    apply safe_setxml; [exact Ii|]. apply safe_getxml; [exact Ii|]. cbn [gx]. rewrite upd_same. apply safe_setxml; [exact Ii|].
    unfold then_ at 1. apply safe_assoc. apply parse_safe; [exact Ii|]. rewrite upd_same. intro x'.
    unfold call_result in F. destruct (snd (parse_loop _ _ _ _ _)) as [nodes|e]; [|cbn [catch]; apply F].
    apply builds_all. intros P' c' els (I1 & E1 & N1 & B1 & T1). apply (elems_safe els) with (ts := flat_map tree_of_node nodes); auto.
    intros l Il. apply B1. exact Il.
  Qed.
  Lemma call_safe {B} mathml (f : res str -> prog B) R a x P c W :
    (forall i x' P' c', safe (Ghost (i :: a) x' P' c' W) (f (call_result mathml)) R) ->
    safe (Ghost a x P c W) (catch (s_mathml_to_latex wc ps mathml) f) R.
  Proof. intro F. cbn [s_mathml_to_latex catch]. apply safe_new. intros i Ni. apply convert_with_safe; auto. cbn. auto. Qed.

  (** A thread. *)
  Definition job_result (j : job) : res str :=
    match j with
    | Call mathml => call_result mathml
    | CallWith _ mathml => call_result mathml
    | Convert e => latex_of (tree_at h0 e)
    end.
  Definition job_ok (A : list nat) (j : job) : Prop :=
    match j with
    | Call _ => True
    | CallWith i _ => In i A
    | Convert e => fit (hget h0) D old false e
    end.
  Lemma thread_safe {B} jobs : forall (f : res (list (res str)) -> prog B) R a x P c W, Forall (job_ok a) jobs ->
    incl W (seq 0 n0) ->
    (forall a' x' P' c' W', safe (Ghost a' x' P' c' W') (f (Ok (map job_result jobs))) R) ->
    safe (Ghost a x P c W) (catch (thread_prog wc ps jobs) f) R.
  Proof.
    induction jobs as [|j jobs IH]; intros f R a x P c W Ok_ IW F; cbn [thread_prog map] in *; [apply F|].
    inversion Ok_ as [|? ? O1 O2]; subst.
    assert (Mono : forall i, Forall (job_ok (i :: a)) jobs).
    { intro i. eapply Forall_impl; [|exact O2]. intros [m|k m|e]; cbn; auto. }
    apply safe_assoc. destruct j as [m|i m|e]; cbn [job_prog job_result job_ok] in *.
    - apply call_safe. intros i x' P' c'. unfold then_. apply safe_assoc. apply IH; auto; intros; cbn; apply F.
    - apply convert_with_safe; auto. intros x' P' c'. unfold then_. apply safe_assoc. apply IH; auto; intros; cbn; apply F.
    - eapply calm_safe_old with (W := []); [apply calm_made_convert; [apply calm_made_all|exact O1|discriminate]|intros l []|exact IW|].
      intros W'' IW''. rewrite <- tree_at_in, <- latex_of_render. unfold then_. apply safe_assoc. apply IH; auto; intros; cbn; apply F.
  Qed.

  (** Run alone. *)
  Lemma safe_alone {A} (p : prog A) : forall g r st, safe g p r -> know g st -> snd (alone p st) = r.
  Proof.
    induction p; intros g q st S K; destruct (step_safe g _ q st S K) as (g' & K' & S' & _); cbn [step fst snd alone] in *;
      try (eapply H; eauto); try (eapply IHp; eauto).
    inversion S; subst. reflexivity.
  Qed.

  (** Several threads. *)
  Definition running_ok {A} (gs : list ghost) (ts : list (prog A)) (rs : list (res A)) (st : state) : Prop :=
    common st /\ length gs = length ts /\ length rs = length ts
    /\ (forall i g p r, nth_error gs i = Some g -> nth_error ts i = Some p -> nth_error rs i = Some r -> know g st /\ safe g p r)
    /\ (forall i j g g', i <> j -> nth_error gs i = Some g -> nth_error gs j = Some g' -> disjoint g g').
  Lemma nth_error_put {X} (l : list X) i j y : nth_error (put_nth l i y) j =
    if Nat.eqb j i then match nth_error l i with Some _ => Some y | None => None end else nth_error l j.
  Proof. revert i j. induction l as [|z l IH]; intros [|i] [|j]; cbn; auto. - destruct (Nat.eqb j i); auto. Qed.
  Lemma nth_error_some {X} (l : list X) i : i < length l -> exists y, nth_error l i = Some y.
  Proof. intro H. destruct (nth_error l i) eqn:E; eauto. apply nth_error_None in E. lia. Qed.
  Lemma tick_ok {A} gs (ts : list (prog A)) rs st i : running_ok gs ts rs st ->
    exists gs', running_ok gs' (fst (tick i ts st)) rs (snd (tick i ts st)).
  Proof.
    intros (C & L1 & L2 & Hs & Dj). unfold tick. destruct (nth_error ts i) as [p|] eqn:Ep; [|exists gs; cbn [fst snd]; exact (conj C (conj L1 (conj L2 (conj Hs Dj))))].
    assert (Li : i < length ts) by (apply nth_error_Some; congruence).
    destruct (nth_error_some gs i) as (g & Eg); [lia|]. destruct (nth_error_some rs i) as (r & Er); [lia|].
    destruct (Hs i g p r Eg Ep Er) as [K S]. destruct (step_safe g p r st S K) as (g' & K' & S' & Fr).
    destruct (step p st) as [p' st'] eqn:Es. cbn [fst snd] in *.
    exists (put_nth gs i g'). split; [apply K'|]. split; [rewrite !put_nth_length; auto|]. split; [rewrite put_nth_length; auto|].
    split.
    - intros j g1 p1 r1 E1 E2 E3. rewrite nth_error_put in E1. rewrite nth_error_put in E2. rewrite Eg in E1. rewrite Ep in E2.
      destruct (Nat.eqb_spec j i) as [->|N].
      + injection E1 as <-. injection E2 as <-. rewrite Er in E3. injection E3 as <-. auto.
      + destruct (Hs j g1 p1 r1 E1 E2 E3) as [K1 S1]. split; auto. apply Fr; auto. apply (Dj i j); auto.
    - assert (Half : forall j g1, j <> i -> nth_error gs j = Some g1 -> disjoint g' g1).
      { intros j g1 N E1. destruct (nth_error_some ts j) as (p1 & Ep1); [rewrite <- L1; apply nth_error_Some; congruence|].
        destruct (nth_error_some rs j) as (r1 & Er1); [rewrite L2, <- L1; apply nth_error_Some; congruence|].
        destruct (Hs j g1 p1 r1 E1 Ep1 Er1) as [K1 _]. apply Fr; auto. apply (Dj i j); auto. }
      intros j k g1 g2 N E1 E2. rewrite nth_error_put in E1. rewrite nth_error_put in E2. rewrite Eg in E1. rewrite Eg in E2.
      destruct (Nat.eqb_spec j i) as [->|Nj].
      + injection E1 as <-. destruct (Nat.eqb_spec k i) as [->|Nk]; [congruence|]. apply (Half k); auto.
      + destruct (Nat.eqb_spec k i) as [->|Nk]; [|apply (Dj j k); auto]. injection E2 as <-. apply disjoint_sym. apply (Half j); auto.
  Qed.
  Lemma exec_ok {A} sched : forall gs (ts : list (prog A)) rs st, running_ok gs ts rs st ->
    exists gs', running_ok gs' (fst (exec sched ts st)) rs (snd (exec sched ts st)).
  Proof.
    induction sched as [|i sched IH]; intros gs ts rs st H; cbn [exec]; [eauto|].
    destruct (tick_ok gs ts rs st i H) as (gs' & H'). destruct (tick i ts st) as [ts' st']. eapply IH; eauto.
  Qed.
End Threads.

Lemma safe_catch_done h0 D {A} (p : prog A) : forall g q, safe h0 D g (catch p Done) q -> safe h0 D g p q.
Proof.
  induction p; intros g q H1; cbn [catch] in *; auto; inversion H1; subst;
    first [apply safe_look | apply safe_flag; [assumption|] | apply safe_put; [assumption|] | apply safe_alloc
          | apply safe_getxml; [assumption|] | apply safe_setxml; [assumption|] | apply safe_new | apply safe_mark]; auto.
Qed.

(** What a call gives does not depend on the heap. *)
Lemma call_result_spec wc ps m h : snd (mathml_to_latex wc ps m h) = call_result wc ps m.
Proof.
  pose (g := Ghost [] (fun _ => []) [] (fun _ => []) []).
  assert (K : know h [] g (State h [])).
  { split; [split; [cbn; auto|]|].
    - exists []. split; [apply incl_refl|]. intros l _. reflexivity.
    - split; [|split]; intros l []. }
  assert (S : safe h [] g (s_mathml_to_latex wc ps m) (call_result wc ps m)).
  { apply safe_catch_done. apply call_safe. intros. apply safe_done. }
  assert (B : forall l, In l (@nil loc) -> l < length h) by (intros l []).
  pose proof (safe_alone h [] B _ _ _ _ S K) as E. rewrite alone_call in E. exact E.
Qed.

(** The start. *)
Section Start.
  Variables (wc : N -> bool) (ps : str -> res document) (ths : list (list job)) (st : state).
  Hypothesis (Ef : elements_fine st ths) (Af : adapters_fine st ths).
  Let U := flat_map elements_of ths.
  Let D := flat_map (writable false) U.
  Lemma start_bound : forall l, In l D -> l < length (dicts st).
  Proof. apply in_heap_bound. apply Ef. Qed.
  Definition start_ghost (jobs : list job) : ghost := Ghost (adapters_of jobs) (fun i => nth i (xmls st) []) [] (fun _ => []) [].

  Lemma start_common : common (dicts st) D st.
  Proof. split; auto. exists []. split; [intros l []|]. intros l _. reflexivity. Qed.
  Lemma start_know jobs : In jobs ths -> know (dicts st) D (start_ghost jobs) st.
  Proof.
    intro I. split; [apply start_common|]. split; [|split; intros l []].
    intros a Ia. split; auto. apply Af. apply in_flat_map. eauto.
  Qed.
  Lemma job_result_spec j : job_result (dicts st) wc ps j = job_outcome wc ps (dicts st) j.
  Proof. destruct j; cbn [job_result job_outcome]; rewrite ?call_result_spec; reflexivity. Qed.
  Lemma start_fit e : In e U -> fit (hget (dicts st)) D (old (dicts st)) false e.
  Proof.
    intro Ie. destruct Ef as [Eh Eu]. split; [|split].
    - intros l Il. apply in_flat_map. eauto.
    - intros l Il. apply (Eh e Ie l Il).
    - intros _ x Ox Ix. apply in_flat_map in Ix as (f & If & Ix). apply inner_writable in Ix as (y & Iy & E).
      exact (Eu e f Ie If x y Ox Iy E).
  Qed.
  Lemma start_safe jobs : In jobs ths ->
    safe (dicts st) D (start_ghost jobs) (thread_prog wc ps jobs) (Ok (map (job_outcome wc ps (dicts st)) jobs)).
  Proof.
    intro I. apply safe_catch_done. apply (thread_safe (dicts st) D start_bound wc ps).
    - apply Forall_forall. intros j Ij. destruct j as [m|i m|e]; cbn [job_ok]; auto.
      + apply in_flat_map. exists (CallWith i m). cbn. auto.
      + apply start_fit. apply in_flat_map. exists jobs. split; auto. apply in_flat_map. exists (Convert e). cbn. auto.
    - intros l [].
    - intros. rewrite (map_ext _ _ job_result_spec). apply safe_done.
  Qed.
  Lemma start_ok : running_ok (dicts st) D (map start_ghost ths) (map (thread_prog wc ps) ths)
    (map (fun jobs => Ok (map (job_outcome wc ps (dicts st)) jobs)) ths) st.
  Proof.
    split; [apply start_common|]. split; [rewrite !map_length; reflexivity|]. split; [rewrite !map_length; reflexivity|]. split.
    - intros i g p r E1 E2 E3. rewrite nth_error_map in E1, E3. rewrite nth_error_map in E2.
      destruct (nth_error ths i) as [jobs|] eqn:E; [|discriminate]. cbn in *.
      injection E1 as <-. injection E2 as <-. injection E3 as <-. apply nth_error_In in E.
      split; [apply start_know; auto|apply start_safe; auto].
    - intros i j g g' N E1 E2. rewrite nth_error_map in E1, E2.
      destruct (nth_error ths i) as [t|] eqn:Et; [|discriminate]. destruct (nth_error ths j) as [u|] eqn:Eu; [|discriminate].
      cbn in *. injection E1 as <-. injection E2 as <-. split; [|intros l []]. cbn. destruct Af as [_ A2]. exact (A2 i j t u N Et Eu).
  Qed.

  Lemma exec_length {A} sched : forall (ts : list (prog A)) s, length (fst (exec sched ts s)) = length ts.
  Proof.
    induction sched as [|i sched IH]; intros ts s; cbn [exec]; auto. unfold tick. destruct (nth_error ts i) as [p|]; [|apply IH].
    destruct (step p s) as [p' s']. rewrite IH. apply put_nth_length.
  Qed.
  Lemma threads_done sched i jobs r : nth_error ths i = Some jobs ->
    nth_error (fst (exec sched (map (thread_prog wc ps) ths) st)) i = Some (Done r) ->
    r = Ok (map (job_outcome wc ps (dicts st)) jobs).
  Proof.
    intros Ej E. destruct (exec_ok (dicts st) D start_bound sched _ _ _ _ start_ok) as (gs & C & L1 & L2 & Hs & _).
    destruct (nth_error gs i) as [g|] eqn:Eg.
    2: { apply nth_error_None in Eg. rewrite L1 in Eg. apply nth_error_None in Eg. congruence. }
    destruct (Hs i g (Done r) (Ok (map (job_outcome wc ps (dicts st)) jobs)) Eg E) as [_ S].
    - rewrite nth_error_map, Ej. reflexivity.
    - inversion S; subst. reflexivity.
  Qed.
  Lemma threads_common sched : common (dicts st) D (snd (exec sched (map (thread_prog wc ps) ths) st)).
  Proof. destruct (exec_ok (dicts st) D start_bound sched _ _ _ _ start_ok) as (gs & C & _). exact C. Qed.
End Start.

(** Every thread comes to an end. *)
Lemma moment_S {A} sched (ts : list (prog A)) st n :
  moment sched ts st (S n) = tick (sched n) (fst (moment sched ts st n)) (snd (moment sched ts st n)).
Proof.
  unfold moment. rewrite seq_S, map_app. cbn [map Nat.add]. revert ts st. induction (map sched (seq 0 n)) as [|i l IH]; intros ts st; cbn [app exec].
  - cbn [fst snd]. destruct (tick (sched n) ts st). reflexivity.
  - destruct (tick i ts st). apply IH.
Qed.
Lemma tick_other {A} i j (ts : list (prog A)) st : i <> j -> nth_error (fst (tick i ts st)) j = nth_error ts j.
Proof.
  intro N. unfold tick. destruct (nth_error ts i); [|reflexivity]. destruct (step p st). cbn. rewrite nth_error_put.
  destruct (Nat.eqb_spec j i); [congruence|reflexivity].
Qed.
Lemma tick_self {A} i (ts : list (prog A)) st p : nth_error ts i = Some p -> nth_error (fst (tick i ts st)) i = Some (fst (step p st)).
Proof. intro E. unfold tick. rewrite E. destruct (step p st). cbn. rewrite nth_error_put, Nat.eqb_refl, E. reflexivity. Qed.
Lemma next_step {A} sched (ts : list (prog A)) st i p : forall d k, sched (k + d) = i -> nth_error (fst (moment sched ts st k)) i = Some p ->
  exists k' s, nth_error (fst (moment sched ts st k')) i = Some (fst (step p s)).
Proof.
  induction d as [|d IH]; intros k E Ep.
  - rewrite Nat.add_0_r in E. exists (S k), (snd (moment sched ts st k)). rewrite moment_S, E. apply tick_self; auto.
  - destruct (Nat.eq_dec (sched k) i) as [Q|N].
    + exists (S k), (snd (moment sched ts st k)). rewrite moment_S, Q. apply tick_self; auto.
    + apply (IH (S k)); [rewrite <- E; f_equal; lia|]. rewrite moment_S. rewrite tick_other; auto.
Qed.
Lemma finishes {A} sched (ts : list (prog A)) st i : (forall n, exists m, n <= m /\ sched m = i) ->
  forall p k, nth_error (fst (moment sched ts st k)) i = Some p -> exists n r, nth_error (fst (moment sched ts st n)) i = Some (Done r).
Proof.
  intros Often p. 
  assert (Next : forall (p : prog A) k, nth_error (fst (moment sched ts st k)) i = Some p ->
    exists k' s, nth_error (fst (moment sched ts st k')) i = Some (fst (step p s))).
  { intros q k E. destruct (Often k) as (m & L & Em). apply (next_step sched ts st i q (m - k) k); auto. rewrite <- Em. f_equal. lia. }
  induction p; intros n E; [eauto|..]; destruct (Next _ _ E) as (k' & s & E'); cbn [step fst] in E'; eauto.
Qed.

(** With one thread: the model without steps. *)
Lemma alone_thread wc ps jobs : forall h xs, (forall i, In i (adapters_of jobs) -> i < length xs) ->
  exists xs', alone (thread_prog wc ps jobs) (State h xs) = (State (fst (sequential wc ps jobs h)) xs', Ok (snd (sequential wc ps jobs h))).
Proof.
  induction jobs as [|j jobs IH]; intros h xs B; cbn [thread_prog sequential]; [exists xs; reflexivity|].
  rewrite alone_catch.
  assert (X : exists xs1, length xs <= length xs1 /\ alone (job_prog wc ps j) (State h xs) = (State (fst (sequential_job wc ps j h)) xs1, snd (sequential_job wc ps j h))).
  { destruct j as [m|i m|e]; cbn [job_prog sequential_job].
    - rewrite alone_call. eexists. split; [|reflexivity]. rewrite app_length. lia.
    - rewrite alone_convert_with by (apply B; cbn; auto). eexists. split; [|reflexivity]. rewrite put_nth_length. lia.
    - rewrite same_convert_elem. exists xs. split; auto. }
  destruct X as (xs1 & L & E). rewrite E. destruct (sequential_job wc ps j h) as [h1 r]. cbn [fst snd].
  destruct (IH h1 xs1) as (xs2 & E2).
  { intros i Ii. assert (i < length xs); [|lia]. apply B. unfold adapters_of in *. cbn [flat_map]. apply in_app_iff. auto. }
  exists xs2. rewrite alone_then, E2. destruct (sequential wc ps jobs h1). reflexivity.
Qed.
Lemma exec_one {A} n : forall (p : prog A) st, exec (repeat 0 n) [p] st = ([fst (steps n p st)], snd (steps n p st)).
Proof.
  induction n as [|n IH]; intros p st; cbn [repeat exec steps]; [reflexivity|]. unfold tick. cbn [nth_error put_nth].
  destruct (step p st). apply IH.
Qed.
