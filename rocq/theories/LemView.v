(** One case analysis over the tags: how the LaTeX of an element is assembled from that of the visited children. *)
From Coq Require Import String.
From Verif Require Export LemShape.
Local Open Scope string_scope.
Local Open Scope list_scope.

Definition scripts_of (p : option (str * str)) : str :=
  match p with Some (x, y) => lit "_" ++ braced x ++ lit "^" ++ braced y | None => [] end.
Definition pre_of (p : option (str * str)) : str := match p with Some _ => lit "\" ++ scripts_of p | None => [] end.
Definition pair_list (p : option (str * str)) : list str := match p with Some (x, y) => [x; y] | None => [] end.

Inductive assembled (inside : bool) (v : str) (ch : list tree) (a : dict str) : str -> list str -> str -> Prop :=
| as_mi : assembled inside v ch a (lit "mi") [] (mi_latex v a)
| as_mo : assembled inside v ch a (lit "mo") [] (mo_latex v)
| as_mn : assembled inside v ch a (lit "mn") [] (mn_latex v)
| as_mtext : assembled inside v ch a (lit "mtext") [] (mtext_latex v a)
| as_phantom : assembled inside v ch a (lit "mphantom") [] []
| as_math ss : assembled inside v ch a (lit "math") ss (squeeze (join (lit " ") ss))
| as_row n ss : tag_of n = TagRow -> assembled inside v ch a n ss (join (lit " ") ss)
| as_sqrt ss : assembled inside v ch a (lit "msqrt") ss (lit "\sqrt" ++ braced (join (lit " ") ss))
| as_error ss : assembled inside v ch a (lit "merror") ss (lit "\color{red}" ++ braced (join (lit " ") ss))
| as_tr ss : assembled inside v ch a (lit "mtr") ss (join (lit " & ") ss)
| as_enclose ss : assembled inside v ch a (lit "menclose") ss
    (enclosed (dget_or a (lit "notation") (lit "longdiv")) (join (lit " ") ss))
| as_table ss : assembled inside v ch a (lit "mtable") ss
    (let body := join (lit " \\" ++ nl) ss in if inside || truthy (attr a "innerTable") then env "matrix" body else body)
| as_matrix ss : existsb has_table ch = true ->
    assembled inside v ch a (lit "mfenced") ss (fenced_matrix (attr a "open") (attr a "close") ss)
| as_fenced ss : existsb has_table ch = false ->
    assembled inside v ch a (lit "mfenced") ss
      (lit "\left" ++ default (attr a "open") "(" ++ fence_join (map (fun c => [c]) (attr a "separators")) ss
       ++ lit "\right" ++ default (attr a "close") ")")
| as_action s : fixed_action a = true -> assembled inside v ch a (lit "maction") [s] s
| as_toggle ss : fixed_action a = false -> assembled inside v ch a (lit "maction") ss (join (lit " \Longrightarrow ") ss)
| as_sup b sb sx : assembled inside v ch a (lit "msup") [sb; sx] (base_latex b sb ++ lit "^" ++ braced sx)
| as_sub b sb sx : assembled inside v ch a (lit "msub") [sb; sx] (base_latex b sb ++ lit "_" ++ braced sx)
| as_subsup b sb sx sy : assembled inside v ch a (lit "msubsup") [sb; sx; sy]
    (base_latex b sb ++ lit "_" ++ braced sx ++ lit "^" ++ braced sy)
| as_underover sb sx sy : assembled inside v ch a (lit "munderover") [sb; sx; sy]
    (sb ++ lit "_" ++ braced sx ++ lit "^" ++ braced sy)
| as_frac sx sy : assembled inside v ch a (lit "mfrac") [sx; sy] (lit "\frac" ++ braced sx ++ braced sy)
| as_bevelled sx sy : assembled inside v ch a (lit "mfrac") [sx; sy] (paren_if_long sx ++ lit "/" ++ paren_if_long sy)
| as_root sx sy : assembled inside v ch a (lit "mroot") [sx; sy] (lit "\sqrt[" ++ sy ++ lit "]" ++ braced sx)
| as_accent n sx sy : In n (map lit ["munder"; "mover"]) -> In sy (map lit ["\hat"; "\bar"; "\underbrace"; "\overbrace"]) ->
    assembled inside v ch a n [sx; sy] (sy ++ braced sx)
| as_set n c sx sy : In (n, c) [(lit "munder", lit "\underset"); (lit "mover", lit "\overset")] ->
    assembled inside v ch a n [sx; sy] (c ++ braced sy ++ braced sx)
| as_multi sb pre post : 3 <= length ch -> length (pair_list pre) = length (pick_pair ch (prescripts ch)) ->
    assembled inside v ch a (lit "mmultiscripts") (sb :: pair_list pre ++ pair_list post)
      (pre_of pre ++ paren_if_space sb ++ scripts_of post).

Lemma rseq_ok_cons {A} (r : res A) rs ss : rseq (r :: rs) = Ok ss -> exists s ss', r = Ok s /\ rseq rs = Ok ss' /\ ss = s :: ss'.
Proof.
  cbn [rseq]. destruct r as [s|]; [|discriminate]. cbn [rbind]. destruct (rseq rs) as [ss'|]; [|discriminate]. cbn [rbind].
  intro E. exists s, ss'. repeat split; auto. congruence.
Qed.
Lemma rseq_ok_nil {A} ss : rseq (@nil (res A)) = Ok ss -> ss = [].
Proof. cbn. congruence. Qed.
Ltac ok_list R :=
  repeat match type of R with
  | rseq (_ :: _) = Ok _ => let s := fresh "s" in let r := fresh "r" in let E := fresh "E" in let ss := fresh "ss" in
      apply rseq_ok_cons in R as (s & ss & E & r & ->); rename r into R
  | rseq [] = Ok _ => apply rseq_ok_nil in R; subst
  end.

Lemma multi_view inside v ch a (f : tree -> res str) ss : 3 <= length ch ->
  rseq (map f (pick ch 0 ++ pick_pair ch (prescripts ch) ++ pick_pair ch (postscripts ch))) = Ok ss ->
  exists out, node inside (lit "mmultiscripts") v (map (fun c => (c, f c)) ch) a = Ok out
              /\ assembled inside v ch a (lit "mmultiscripts") ss out.
Proof.
  intros L. unfold node. change (tag_of (lit "mmultiscripts")) with TagMultiscripts. cbn iota. rewrite map_length, !kids_nth_name, kids_snd.
  replace (Nat.ltb (length ch) 3) with false by (symmetry; apply Nat.ltb_ge; auto).
  destruct ch as [|c0 [|c1 [|c2 ch]]]; cbn [length] in L; try lia. clear L.
  remember (c0 :: c1 :: c2 :: ch) as l eqn:EL. pose proof (eq_refl (prescripts l)) as PE. unfold prescripts at 2 in PE.
  unfold prescripts at 1, postscripts. set (m1 := is_mprescripts _ 1) in *. set (m3 := is_mprescripts _ 3) in *. clearbody m1 m3. subst l.
  destruct m1; cbn [andb].
  - destruct ch as [|c3 ch]; cbn [length Nat.leb andb].
    + rewrite andb_false_r. cbn [pick_pair pick nth_error app map nth]. intro R. ok_list R. rewrite E. cbn [rbind].
      eexists. split; [reflexivity|]. apply (as_multi inside v _ a s None None); [cbn; lia|]. rewrite PE. destruct m3; reflexivity.
    + cbn [pick_pair pick nth_error app map nth]. intro R. ok_list R. rewrite E, E0, E1. cbn [rbind].
      eexists. split; [reflexivity|]. apply (as_multi inside v _ a s (Some (s0, s1)) None); [cbn; lia|]. rewrite PE. reflexivity.
  - destruct m3; cbn [andb].
    + destruct ch as [|c3 [|c4 [|c5 ch]]]; cbn [length Nat.leb pick_pair pick nth_error app map nth]; intro R; ok_list R;
      rewrite ?E, ?E0, ?E1, ?E2, ?E3; cbn [rbind]; (eexists; split; [reflexivity|]).
      * apply (as_multi inside v _ a s None (Some (s0, s1))); [cbn; lia|]. rewrite PE. reflexivity.
      * apply (as_multi inside v _ a s None (Some (s0, s1))); [cbn; lia|]. rewrite PE. reflexivity.
      * apply (as_multi inside v _ a s None (Some (s0, s1))); [cbn; lia|]. rewrite PE. reflexivity.
      * apply (as_multi inside v _ a s (Some (s0, s1)) (Some (s2, s3))); [cbn; lia|]. rewrite PE. reflexivity.
    + cbn [pick_pair pick nth_error app map nth]. intro R; ok_list R. rewrite E, E0, E1. cbn [rbind]. (eexists; split; [reflexivity|]).
      apply (as_multi inside v _ a s None (Some (s0, s1))); [cbn; lia|]. rewrite PE. reflexivity.
Qed.

Lemma exact_count n k v ch a : required exact_counts n = Some k -> own_fault (T n v ch a) = None -> length ch = k.
Proof. intros R. cbn [own_fault]. rewrite R. destruct (Nat.eqb_spec (length ch) k); [auto|discriminate]. Qed.

Lemma node_view inside n v ch a (f : tree -> res str) ss : own_fault (T n v ch a) = None ->
  rseq (map f (visited (T n v ch a))) = Ok ss ->
  exists out, node inside n v (map (fun c => (c, f c)) ch) a = Ok out /\ assembled inside v ch a n ss out.
Proof.
  destruct (tag_lookup_spec known_tags n) as [(s & I & E)|[E N]].
  - subst n. intro F.
    assert (F2 : forall k, required exact_counts (lit s) = Some k -> length ch = k) by (intros; eapply exact_count; eauto).
    assert (FM : s = "mmultiscripts"%string -> 3 <= length ch).
    { intros ->. cbn [own_fault] in F. change (required exact_counts (lit "mmultiscripts")) with (@None nat) in F. cbn iota in F.
      change (str_eqb (lit "mmultiscripts") (lit "mmultiscripts")) with true in F.
      destruct (Nat.leb_spec 3 (length ch)); auto. discriminate. }
    assert (FA : s = "maction"%string -> fixed_action a = true -> ch <> []).
    { intros -> FX ->. cbn [own_fault] in F. change (required exact_counts (lit "maction")) with (@None nat) in F. cbn iota in F.
      change (str_eqb (lit "maction") (lit "mmultiscripts")) with false in F.
      change (str_eqb (lit "maction") (lit "maction")) with true in F. rewrite FX in F. discriminate. }
    clear F. revert I. generalize (tag_lookup known_tags (lit s)). intros t I.
    repeat (destruct I as [I|I]; [injection I as <- <-; 
      match goal with |- context [visited (T ?x v ch a)] =>
            let r := eval vm_compute in (str_in x (map lit ["mphantom"; "mi"; "mo"; "mn"; "mtext"])) in
            let r2 := eval vm_compute in (str_eqb x (lit "maction")) in
            let r3 := eval vm_compute in (str_eqb x (lit "mmultiscripts")) in
            cbn [visited]; change (str_in x (map lit ["mphantom"; "mi"; "mo"; "mn"; "mtext"])) with r;
            change (str_eqb x (lit "maction")) with r2; change (str_eqb x (lit "mmultiscripts")) with r3 end; cbn [andb] |]).
    23: destruct I.
    all: intro R.
    17: { apply multi_view; auto. }
    all: unfold node; match goal with |- context [tag_of ?x] => let r := eval vm_compute in (tag_of x) in change (tag_of x) with r end.
    all: cbn iota; rewrite ?kids_snd.
    all: try (rewrite R; cbn [rbind]).
    all: try (apply rseq_ok_nil in R; subst ss).
    all: try (specialize (F2 _ eq_refl); destruct ch as [|c1 [|c2 [|c3 [|c4 ch]]]]; try discriminate F2; cbn [map] in R; ok_list R;
              cbn [map snd]; rewrite ?E, ?E0, ?E1; cbn [rbind]).
    all: try (eexists; split; [reflexivity|]; constructor; fail).
    + (* mfenced *) replace (map fst (map (fun c => (c, f c)) ch)) with ch by (rewrite map_map; cbn [fst]; symmetry; apply map_id).
      eexists. split; [reflexivity|]. destruct (existsb has_table ch) eqn:H; [apply as_matrix|apply as_fenced]; auto.
    + (* mfrac *) eexists. split; [reflexivity|]. destruct (truthy (attr a "bevelled")); [apply as_bevelled|apply as_frac].
    + (* maction *)
      assert (X : truthy (attr a "actiontype") && negb (str_eqb (attr a "actiontype") (lit "toggle")) = fixed_action a).
      { unfold fixed_action. destruct (attr a "actiontype"); reflexivity. }
      rewrite X. revert R FA. destruct (fixed_action a) eqn:FX; intros R FA.
      * destruct ch as [|c ch]; [exfalso; apply FA; auto|]. cbn [firstn map] in R. ok_list R. cbn [map]. rewrite E.
        eexists. split; [reflexivity|]. apply as_action; auto.
      * rewrite R. cbn [rbind]. eexists. split; [reflexivity|]. apply as_toggle; auto.
    + (* munder *) eexists. split; [reflexivity|].
      match goal with |- context [str_in s0 ?l] => destruct (str_in s0 l) eqn:H end.
      * apply str_in_spec in H. apply as_accent; cbn; auto.
      * apply (as_set _ _ _ _ _ (lit "\underset")). cbn; auto.
    + (* mover *) eexists. split; [reflexivity|].
      match goal with |- context [str_in s0 ?l] => destruct (str_in s0 l) eqn:H end.
      * apply str_in_spec in H. apply as_accent; cbn; auto.
      * apply (as_set _ _ _ _ _ (lit "\overset")). cbn; auto.
  - intros _. change (tag_lookup known_tags n) with (tag_of n) in E. unfold node. rewrite E. cbn iota. rewrite kids_snd. cbn [visited].
    assert (X : str_in n (map lit ["mphantom"; "mi"; "mo"; "mn"; "mtext"]) = false).
    { unfold str_in. cbn [existsb map]. rewrite !orb_false_iff. repeat split; eapply N; cbn; auto 25. }
    rewrite X, (N "maction" TagAction), (N "mmultiscripts" TagMultiscripts) by (cbn; auto 25). cbn [andb].
    intro R. rewrite R. cbn [rbind]. eexists. split; [reflexivity|]. constructor. auto.
Qed.

(** The same for a whole tree. *)
Lemma own_none t : well_formed t -> own_fault t = None.
Proof. intro W. apply W. constructor. Qed.
Lemma render_view inside n v ch a out : render inside (T n v ch a) = Ok out ->
  exists ss, rseq (map (render (inside || is_table n)) (visited (T n v ch a))) = Ok ss /\ assembled inside v ch a n ss out.
Proof.
  intro E. assert (W : well_formed (T n v ch a)) by (apply (render_converts_iff _ inside); eauto).
  pose proof (own_none _ W) as F. cbn [render] in E.
  pose proof (node_settles inside n v ch a (render (inside || is_table n)) F) as S.
  destruct (rseq (map (render (inside || is_table n)) (visited (T n v ch a)))) as [ss|e] eqn:R; cbn [settles] in S; [|congruence].
  exists ss. split; auto. destruct (node_view inside n v ch a _ ss F R) as (out' & E' & A). rewrite E in E'. injection E' as <-. auto.
Qed.
Lemma rseq_ok_forall {A} (rs : list (res A)) ss : rseq rs = Ok ss -> Forall2 (fun r s => r = Ok s) rs ss.
Proof.
  revert ss. induction rs as [|r rs IH]; intros ss E; [apply rseq_ok_nil in E; subst; constructor|].
  apply rseq_ok_cons in E as (s & ss' & -> & R & ->). constructor; auto.
Qed.
Lemma rseq_map_forall {A B} (f : A -> res B) l ss : rseq (map f l) = Ok ss -> Forall2 (fun x s => f x = Ok s) l ss.
Proof.
  intro E. apply rseq_ok_forall in E. revert ss E. induction l as [|x l IH]; intros ss E; inversion E; subst; constructor; auto.
Qed.
(** Induction along the assembly: a relation between elements and their LaTeX. *)
Lemma render_assembled (P : bool -> tree -> str -> Prop) :
  (forall inside n v ch a ss out, Forall2 (P (inside || is_table n)) (visited (T n v ch a)) ss ->
     assembled inside v ch a n ss out -> P inside (T n v ch a) out) ->
  forall t inside s, render inside t = Ok s -> P inside t s.
Proof.
  intros H t. induction t as [n v ch a IH] using tree_ind'. intros inside s E.
  apply render_view in E as (ss & R & A). apply H with (ss := ss); auto. apply rseq_map_forall in R.
  assert (IV : forall c, In c (visited (T n v ch a)) -> forall inside s, render inside c = Ok s -> P inside c s).
  { intros c I. apply visited_child in I. cbn [t_children] in I. rewrite Forall_forall in IH. auto. }
  revert IV R. generalize (visited (T n v ch a)) as l. clear. intros l IV R. induction R as [|c s l ss E R IH]; constructor.
  - apply IV; cbn; auto.
  - apply IH. intros x I. apply IV. cbn; auto.
Qed.
