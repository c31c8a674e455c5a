(** Which trees convert and which fault is reported. *)
From Coq Require Import String.
From Verif Require Export LemText SpecShape.
Local Open Scope string_scope.
Local Open Scope list_scope.

Lemma tag_lookup_spec l n : (exists s, In (s, tag_lookup l n) l /\ n = lit s)
  \/ (tag_lookup l n = TagRow /\ forall s t, In (s, t) l -> str_eqb n (lit s) = false).
Proof.
  induction l as [|[s t] l IH]; cbn [tag_lookup].
  - right. split; auto. intros s t [].
  - destruct (str_eqb n (lit s)) eqn:E.
    + left. exists s. split; [cbn; auto|apply str_eqb_eq; auto].
    + destruct IH as [(s' & I & ->)|[-> N]].
      * left. exists s'. cbn; auto.
      * right. split; auto. intros s' t' [X|X]; [inversion X; subst; auto|eauto].
Qed.
(** Either one of the known names or a row. *)
Lemma tag_cases (P : str -> tag -> Prop) n :
  (forall s t, In (s, t) known_tags -> P (lit s) t) ->
  ((forall s t, In (s, t) known_tags -> str_eqb n (lit s) = false) -> P n TagRow) -> P n (tag_of n).
Proof.
  intros A B. unfold tag_of. destruct (tag_lookup_spec known_tags n) as [(s & I & E)|[E N]].
  - rewrite E at 1. apply A. auto.
  - rewrite E. auto.
Qed.

Definition settles {A} (r : res str) (rs : res A) : Prop :=
  match rs with Ok _ => exists s, r = Ok s | Raise e => r = Raise e end.
Lemma settles_bind {A} (rs : res A) (f : A -> str) : settles (x <~ rs ;; Ok (f x)) rs.
Proof. destruct rs; cbn; eauto. Qed.
Lemma kids_snd (f : tree -> res str) ch : map snd (map (fun c => (c, f c)) ch) = map f ch.
Proof. rewrite map_map. reflexivity. Qed.

Lemma multi_settles n v ch a inside (f : tree -> res str) : tag_of n = TagMultiscripts -> 3 <= length ch ->
  settles (node inside n v (map (fun c => (c, f c)) ch) a)
          (rseq (map f (pick ch 0 ++ pick_pair ch (prescripts ch) ++ pick_pair ch (postscripts ch)))).
Proof.
  intros Tg L. unfold node. rewrite Tg. cbn iota. rewrite map_length, !kids_nth_name, kids_snd.
  replace (Nat.ltb (length ch) 3) with false by (symmetry; apply Nat.ltb_ge; auto).
  destruct ch as [|c0 [|c1 [|c2 ch]]]; cbn [length] in L; try lia. clear L.
  unfold prescripts, postscripts. set (m1 := is_mprescripts _ 1). set (m3 := is_mprescripts _ 3). clearbody m1 m3.
  destruct m1.
  - destruct ch as [|c3 ch]; cbn [length Nat.leb andb].
    + rewrite andb_false_r. cbn [pick_pair pick nth_error app map nth rseq]. destruct (f c0); cbn; eauto.
    + cbn [pick_pair pick nth_error app map nth rseq].
      destruct (f c0); cbn; auto. destruct (f c2); cbn; auto. destruct (f c3); cbn; eauto.
  - cbn [andb]. destruct m3; cbn [andb].
    + destruct ch as [|c3 [|c4 [|c5 ch]]]; cbn [length Nat.leb pick_pair pick nth_error app map nth rseq];
      (destruct (f c0); cbn; auto); try (destruct (f c4); cbn; auto; destruct (f c5); cbn; auto);
      (destruct (f c1); cbn; auto); (destruct (f c2); cbn; eauto).
    + cbn [pick_pair pick nth_error app map nth rseq].
      (destruct (f c0); cbn; auto); (destruct (f c1); cbn; auto); (destruct (f c2); cbn; eauto).
Qed.

Lemma node_settles inside n v ch a (f : tree -> res str) : own_fault (T n v ch a) = None ->
  settles (node inside n v (map (fun c => (c, f c)) ch) a) (rseq (map f (visited (T n v ch a)))).
Proof.
  destruct (tag_lookup_spec known_tags n) as [(s & I & E)|[E N]].
  - assert (Tg : tag_of n = tag_of (lit s)) by (rewrite E at 1; auto). subst n.
    change (tag_lookup known_tags (lit s)) with (tag_of (lit s)) in I.
    destruct (str_eqb (lit s) (lit "mmultiscripts")) eqn:Em.
    + intro F. assert (Es : tag_of (lit s) = TagMultiscripts) by (apply str_eqb_eq in Em; rewrite Em; reflexivity).
      assert (V : visited (T (lit s) v ch a) = pick ch 0 ++ pick_pair ch (prescripts ch) ++ pick_pair ch (postscripts ch)).
      { apply str_eqb_eq in Em. rewrite Em. reflexivity. }
      rewrite V. apply multi_settles; auto. apply str_eqb_eq in Em. rewrite Em in F. cbn [own_fault] in F.
      change (required exact_counts (lit "mmultiscripts")) with (@None nat) in F. cbn iota in F.
      destruct (Nat.leb_spec 3 (length ch)); auto.
      change (str_eqb (lit "mmultiscripts") (lit "mmultiscripts")) with true in F. discriminate.
    + destruct (str_eqb (lit s) (lit "maction")) eqn:Ea.
      * apply str_eqb_eq in Ea. rewrite Ea. clear. cbn [own_fault visited].
        change (required exact_counts (lit "maction")) with (@None nat).
        change (str_eqb (lit "maction") (lit "mmultiscripts")) with false.
        change (str_eqb (lit "maction") (lit "maction")) with true.
        change (str_in (lit "maction") (map lit ["mphantom"; "mi"; "mo"; "mn"; "mtext"])) with false.
        cbn [andb]. unfold node. change (tag_of (lit "maction")) with TagAction. cbn iota. rewrite kids_snd.
        assert (X : truthy (attr a "actiontype") && negb (str_eqb (attr a "actiontype") (lit "toggle")) = fixed_action a).
        { unfold fixed_action. destruct (attr a "actiontype"); reflexivity. }
        rewrite X. destruct (fixed_action a).
        -- destruct ch as [|c ch]; cbn [length Nat.eqb andb]; [discriminate|]. intros _.
           cbn [firstn map rseq]. destruct (f c); cbn; eauto.
        -- intros _. apply settles_bind.
      * clear Tg. repeat (destruct I as [I|I]; [injection I as <- _; try discriminate Em; try discriminate Ea;
          cbn [own_fault]; 
          match goal with |- context [required exact_counts ?x] =>
            let r := eval vm_compute in (required exact_counts x) in change (required exact_counts x) with r end;
          cbn iota;
          match goal with |- context [visited (T ?x v ch a)] =>
            let r := eval vm_compute in (str_in x (map lit ["mphantom"; "mi"; "mo"; "mn"; "mtext"])) in
            cbn [visited]; change (str_in x (map lit ["mphantom"; "mi"; "mo"; "mn"; "mtext"])) with r;
            change (str_eqb x (lit "maction")) with false; change (str_eqb x (lit "mmultiscripts")) with false end;
          cbn [andb]; cbn iota; unfold node;
          match goal with |- context [tag_of ?x] => let r := eval vm_compute in (tag_of x) in change (tag_of x) with r end;
          cbn iota;
          first [ intros _; rewrite ?kids_snd; first [apply settles_bind | cbn; eexists; reflexivity]
                | destruct ch as [|c1 [|c2 [|c3 [|c4 ch]]]]; cbn [length Nat.eqb]; try discriminate; intros _; cbn [map snd rseq];
                  (destruct (f c1); cbn; auto); (destruct (f c2); cbn; eauto); try (destruct (f c3); cbn; eauto) ] |]).
        destruct I.
  - intros _. change (tag_lookup known_tags n) with (tag_of n) in E. unfold node. rewrite E. cbn iota. rewrite kids_snd. cbn [visited].
    assert (X : str_in n (map lit ["mphantom"; "mi"; "mo"; "mn"; "mtext"]) = false).
    { unfold str_in. cbn [existsb map]. rewrite !orb_false_iff. repeat split; eapply N; cbn; auto 25. }
    rewrite X, (N "maction" TagAction), (N "mmultiscripts" TagMultiscripts) by (cbn; auto 25). cbn [andb]. apply settles_bind.
Qed.

Lemma own_fault_raises inside n v ch a e (f : tree -> res str) : own_fault (T n v ch a) = Some e ->
  node inside n v (map (fun c => (c, f c)) ch) a = Raise e.
Proof.
  cbn [own_fault]. destruct (required exact_counts n) as [k|] eqn:R.
  - unfold exact_counts in R. cbn [required] in R.
    revert R.
    repeat match goal with
    | |- (if str_eqb n (lit ?x) then _ else _) = _ -> _ =>
        let q := fresh in destruct (str_eqb n (lit x)) eqn:q; [apply str_eqb_eq in q; subst n; intro R; injection R as <- |]
    end; [..|intro R; discriminate R];
    (unfold node;
     match goal with |- context [tag_of ?x] => let r := eval vm_compute in (tag_of x) in change (tag_of x) with r end; cbn iota;
     rewrite map_length; destruct ch as [|c1 [|c2 [|c3 [|c4 ch]]]]; cbn [length Nat.eqb]; try discriminate;
     intro X; injection X as <-; reflexivity).
  - destruct (str_eqb n (lit "mmultiscripts")) eqn:M; [|destruct (str_eqb n (lit "maction")) eqn:A].
    + apply str_eqb_eq in M. subst n. destruct (Nat.leb_spec 3 (length ch)); [discriminate|]. intro X. injection X as <-.
      unfold node. change (tag_of (lit "mmultiscripts")) with TagMultiscripts. cbn iota. rewrite map_length.
      replace (Nat.ltb (length ch) 3) with true by (symmetry; apply Nat.ltb_lt; auto). reflexivity.
    + apply str_eqb_eq in A. subst n. unfold node. change (tag_of (lit "maction")) with TagAction. cbn iota.
      assert (X : truthy (attr a "actiontype") && negb (str_eqb (attr a "actiontype") (lit "toggle")) = fixed_action a).
      { unfold fixed_action. destruct (attr a "actiontype"); reflexivity. }
      rewrite X. destruct (fixed_action a); [|discriminate]. destruct ch; [|discriminate]. cbn [length Nat.eqb andb].
      intro Y. injection Y as <-. reflexivity.
    + discriminate.
Qed.

Lemma visited_child t c : In c (visited t) -> In c (t_children t).
Proof.
  destruct t as [n v ch a]. cbn [visited t_children].
  destruct (str_in _ _); [intros []|]. destruct (str_eqb n (lit "maction") && fixed_action a).
  { destruct ch; cbn; tauto. }
  assert (P : forall i, In c (pick ch i) -> In c ch).
  { intros i I. unfold pick in I. destruct (nth_error ch i) eqn:E; [|destruct I]. destruct I as [<-|[]]. eapply nth_error_In; eauto. }
  assert (Q : forall p, In c (pick_pair ch p) -> In c ch).
  { intros [[i j]|] I; [|destruct I]. cbn [pick_pair] in I. apply in_app_iff in I as [I|I]; eauto. }
  destruct (str_eqb n (lit "mmultiscripts")); auto. rewrite !in_app_iff. intros [I|[I|I]]; eauto.
Qed.

(** The central dichotomy, wherever the element stands. *)
Lemma shape_dichotomy t : forall inside,
  (exists s, render inside t = Ok s) /\ well_formed t
  \/ (exists e, render inside t = Raise e /\ first_fault t e).
Proof.
  induction t as [n v ch a IH] using tree_ind'. intro inside.
  assert (RE : render inside (T n v ch a) = node inside n v (map (fun c => (c, render (inside || is_table n) c)) ch) a) by reflexivity.
  destruct (own_fault (T n v ch a)) as [e|] eqn:F.
  - right. exists e. split; [|constructor; auto]. rewrite RE. apply own_fault_raises; auto.
  - pose proof (node_settles inside n v ch a (render (inside || is_table n)) F) as S.
    rewrite <- RE in S. clear RE.
    assert (V : forall c, In c (visited (T n v ch a)) -> In c ch) by (intros c; apply (visited_child (T n v ch a))).
    rewrite Forall_forall in IH. set (b := inside || is_table n) in *.
    assert (L : forall l, (forall c, In c l -> In c ch) ->
       (exists ss, rseq (map (render b) l) = Ok ss) /\ Forall well_formed l
       \/ exists before c behind e, l = before ++ c :: behind /\ Forall well_formed before /\ first_fault c e /\ rseq (map (render b) l) = Raise e).
    { induction l as [|c l IHl]; intro Sub; [left; split; [eexists; reflexivity|constructor]|].
      destruct (IH c (Sub c (or_introl eq_refl)) b) as [[(s & Ec) W]|(e & Ec & Fe)].
      - destruct IHl as [[(ss & El) Wl]|(bf & c' & bh & e & -> & Wb & Fe & El)]; [intros; apply Sub; cbn; auto| |].
        + left. split; [|constructor; auto]. exists (s :: ss). cbn [map rseq]. rewrite Ec, El. auto.
        + right. exists (c :: bf), c', bh, e. repeat split; auto. cbn [map rseq]. rewrite Ec. cbn [rbind]. rewrite El. auto.
      - right. exists [], c, l, e. repeat split; auto. cbn [map rseq]. rewrite Ec. auto. }
    destruct (L _ V) as [[(ss & E) W]|(bf & c & bh & e & Ev & Wb & Fe & E)]; rewrite E in S; cbn [settles] in S.
    + left. split; auto. intros u Vu. inversion Vu; subst; auto. rewrite Forall_forall in W. eapply W; eauto.
    + right. exists e. split; auto. eapply fault_below; eauto.
Qed.

Lemma fault_not_well_formed t e : first_fault t e -> ~ well_formed t.
Proof.
  induction 1 as [t e F|t before c behind e F V W F' IH]; intro Wt.
  - specialize (Wt t (visits_self t)). congruence.
  - apply IH. intros u Vu. apply Wt. eapply visits_child; eauto. rewrite V. apply in_or_app. cbn; auto.
Qed.
Lemma fault_unique t e : first_fault t e -> forall e', first_fault t e' -> e = e'.
Proof.
  induction 1 as [t e F|t before c behind e F V W F' IH]; intros e' G.
  - inversion G; subst; congruence.
  - inversion G as [? ? F2|? b2 c2 h2 ? _ V2 W2 F2']; subst; [congruence|].
    rewrite V in V2. clear G. assert (c = c2) as ->; [|auto].
    revert b2 V2 W2. clear - F' F2' W. induction W as [|x before Wx W IHW]; intros b2 V2 W2.
    + destruct b2 as [|y b2]; cbn in V2; injection V2 as -> ->; auto.
      inversion W2; subst. exfalso. match goal with W : well_formed ?y, F : first_fault ?y _ |- _ => exact (fault_not_well_formed _ _ F W) end.
    + destruct b2 as [|y b2]; cbn in V2; injection V2 as -> V2.
      * exfalso. match goal with W : well_formed ?y, F : first_fault ?y _ |- _ => exact (fault_not_well_formed _ _ F W) end.
      * inversion W2; subst. eauto.
Qed.
Lemma converts_iff t : (exists s, latex_of t = Ok s) <-> well_formed t.
Proof.
  rewrite latex_of_render. destruct (shape_dichotomy t false) as [[(s & E) W]|(e & E & F)]; split; intro H; auto.
  - eauto.
  - destruct H as (s & H). congruence.
  - exfalso. eapply fault_not_well_formed; eauto.
Qed.
Lemma raises_iff t e : latex_of t = Raise e <-> first_fault t e.
Proof.
  rewrite latex_of_render. destruct (shape_dichotomy t false) as [[(s & E) W]|(e' & E & F)]; split; intro H.
  - congruence.
  - exfalso. eapply fault_not_well_formed; eauto.
  - congruence.
  - rewrite E. f_equal. eapply fault_unique; eauto.
Qed.
(** Inside a table the same trees convert with the same faults. *)
Lemma render_raises_iff t e inside : render inside t = Raise e <-> first_fault t e.
Proof.
  destruct (shape_dichotomy t inside) as [[(s & E) W]|(e' & E & F)]; split; intro H.
  - congruence.
  - exfalso. eapply fault_not_well_formed; eauto.
  - congruence.
  - rewrite E. f_equal. eapply fault_unique; eauto.
Qed.
Lemma render_converts_iff t inside : (exists s, render inside t = Ok s) <-> well_formed t.
Proof.
  destruct (shape_dichotomy t inside) as [[(s & E) W]|(e & E & F)]; split; intro H; auto.
  - eauto.
  - destruct H as (s & H). congruence.
  - exfalso. eapply fault_not_well_formed; eauto.
Qed.

Lemma fault_element t e : first_fault t e -> exists u, visits t u /\ own_fault u = Some e.
Proof.
  induction 1 as [t e F|t before c behind e F V W F' (u & Vu & Eu)]; [exists t; split; [constructor|auto]|].
  exists u. split; auto. eapply visits_child; eauto. rewrite V. apply in_or_app. cbn; auto.
Qed.
Lemma own_fault_kinds t e : own_fault t = Some e ->
  (exists k, required exact_counts (t_name t) = Some k /\ length (t_children t) <> k
             /\ e = EInvalidChildren (t_name t) k (length (t_children t)) (lit "exactly"))
  \/ (t_name t = lit "mmultiscripts" /\ length (t_children t) < 3
             /\ e = EInvalidChildren (t_name t) 3 (length (t_children t)) (lit "at least"))
  \/ (t_name t = lit "maction" /\ t_children t = [] /\ fixed_action (t_attributes t) = true /\ e = EIndex).
Proof.
  destruct t as [n v ch a]. cbn [own_fault t_name t_children t_attributes]. destruct (required exact_counts n) as [k|].
  - destruct (Nat.eqb_spec (length ch) k); [discriminate|]. intro X. injection X as <-. left. eauto.
  - destruct (str_eqb n (lit "mmultiscripts")) eqn:E.
    + apply str_eqb_eq in E. destruct (Nat.leb_spec 3 (length ch)); [discriminate|]. intro X. injection X as <-. auto.
    + destruct (str_eqb n (lit "maction")) eqn:E2; [|discriminate]. apply str_eqb_eq in E2.
      destruct (fixed_action a), ch; try discriminate. cbn. intro X. injection X as <-. auto 6.
Qed.

(** ** Decimal numerals *)
Definition decval (v : N) (s : str) : N := fold_left (fun v c => (10 * v + (c - 48))%N) s v.
Lemma digits_fuel_spec fuel n acc : (0 < fuel)%nat -> (N.log2 n < N.of_nat fuel)%N ->
  exists ds, digits_fuel fuel n acc = ds ++ acc /\ ds <> [] /\ Forall (fun c => (48 <= c <= 57)%N) ds
    /\ decval 0 ds = n /\ (forall s', ds = 48%N :: s' -> s' = [] /\ n = 0%N).
Proof.
  revert n acc. induction fuel as [|fuel IH]; intros n acc P L; [lia|]. cbn [digits_fuel].
  assert (M : (n mod 10 < 10)%N) by (apply N.mod_lt; lia).
  assert (D : (n = 10 * (n / 10) + n mod 10)%N) by (apply N.div_mod; lia).
  destruct (N.eqb_spec (n / 10) 0) as [Z|Z].
  - exists [(48 + n mod 10)%N]. split; auto. split; [discriminate|]. split; [constructor; [lia|constructor]|].
    split; [cbn [decval fold_left]; lia|]. intros s' E.
    assert (E1 := f_equal (hd 0%N) E). assert (E2 := f_equal (@tl N) E). cbn [hd tl] in E1, E2. split; auto. lia.
  - assert (LL : (N.log2 (n / 10) < N.log2 n)%N).
    { assert (n / 10 <= n / 2)%N by (apply N.div_le_compat_l; lia).
      assert (N.log2 (n / 10) <= N.log2 (n / 2))%N by (apply N.log2_le_mono; auto).
      rewrite <- N.div2_div in *. assert (1 < n)%N by (destruct (N.lt_ge_cases 1 n); auto; rewrite N.div_small in Z; lia).
      assert (N.log2 n = N.succ (N.log2 (N.div2 n))).
      { rewrite N.div2_spec. rewrite N.log2_shiftr. assert (0 < N.log2 n)%N by (apply N.log2_pos; auto). lia. }
      lia. }
    destruct (IH (n / 10)%N ((48 + n mod 10)%N :: acc)) as (ds & E & NE & F & V & Z0); [lia|lia|].
    exists (ds ++ [(48 + n mod 10)%N]). rewrite E, <- app_assoc. split; auto. split; [destruct ds; discriminate|].
    split; [apply Forall_app; split; auto; constructor; [clear - M; revert M; generalize (n mod 10)%N; intros; lia|constructor]|].
    split.
    + unfold decval in *. rewrite fold_left_app, V. cbn [fold_left]. clear - D M; revert D M; generalize (n mod 10)%N (n / 10)%N; intros; lia.
    + intros s' Es. destruct ds as [|d ds]; [congruence|]. cbn in Es. injection Es as -> Es.
      destruct (Z0 ds eq_refl) as [-> Z1]. congruence.
Qed.
Lemma nat_str_numeral n : numeral (nat_str n) n.
Proof.
  unfold nat_str. destruct (digits_fuel_spec (S (N.to_nat (N.log2 (N.of_nat n)))) (N.of_nat n) []) as (ds & E & NE & F & V & Z); [lia|lia|].
  rewrite app_nil_r in E. rewrite E. repeat split; auto. intros s' X. apply Z in X. tauto.
Qed.
Lemma required_in l n k : required l n = Some k -> In (n, k) (map (fun p => (lit (fst p), snd p)) l).
Proof.
  induction l as [|[s j] l IH]; cbn [required map fst snd In]; [discriminate|].
  destruct (str_eqb n (lit s)) eqn:E; intro H; [|right; auto]. apply str_eqb_eq in E. injection H as <-. left. congruence.
Qed.
Lemma raised_kinds t e : latex_of t = Raise e -> exists u, visits t u /\
  ((exists k, In (t_name u, k) (map (fun p => (lit (fst p), snd p)) exact_counts) /\ length (t_children u) <> k
      /\ e = EInvalidChildren (t_name u) k (length (t_children u)) (lit "exactly"))
   \/ (t_name u = lit "mmultiscripts" /\ length (t_children u) < 3
      /\ e = EInvalidChildren (t_name u) 3 (length (t_children u)) (lit "at least"))
   \/ (t_name u = lit "maction" /\ t_children u = [] /\ attr (t_attributes u) "actiontype" <> []
      /\ attr (t_attributes u) "actiontype" <> lit "toggle" /\ e = EIndex)).
Proof.
  intro H. apply raises_iff, fault_element in H as (u & V & F). exists u. split; auto.
  apply own_fault_kinds in F as [(k & R & N & E)|[H|(E & C & A & X)]]; auto.
  - left. exists k. split; auto. apply required_in; auto.
  - right. right. repeat split; auto; unfold fixed_action in A; destruct (attr (t_attributes u) "actiontype") as [|c s]; try discriminate;
    intro Y; rewrite Y in A; discriminate.
Qed.
