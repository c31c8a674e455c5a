(** C14: tokens in order. *)
From Coq Require Import String.
From Verif Require Export SpecOrder LemTeX2.
Local Open Scope string_scope.
Local Open Scope list_scope.

Lemma in_order_before g ps s : in_order ps s -> in_order ps (g ++ s).
Proof. intro I. destruct I as [s|gap p ps s I]; [constructor|]. rewrite app_assoc. constructor. auto. Qed.
Lemma in_order_after g ps s : in_order ps s -> in_order ps (s ++ g).
Proof. intro I. induction I as [s|gap p ps s I IH]; [constructor|]. rewrite <- !app_assoc. constructor. auto. Qed.
Lemma in_order_app ps s qs s' : in_order ps s -> in_order qs s' -> in_order (ps ++ qs) (s ++ s').
Proof.
  intros I J. induction I as [s|gap p ps s I IH]; [apply in_order_before; auto|]. cbn [app]. rewrite <- !app_assoc. constructor. auto.
Qed.
Lemma in_order_one s : in_order [s] s.
Proof. rewrite <- (app_nil_r s) at 2. apply (in_order_cons []). constructor. Qed.

(** ** Normalising white space keeps the order *)
Lemma words_cons_space c s : is_space c = true -> words (c :: s) = words s.
Proof. intro E. apply (words_app_space [] c s). auto. Qed.
Lemma fields_cons_word c s : is_space c = false -> exists f fs, fields s = f :: fs /\ fields (c :: s) = (c :: f) :: fs.
Proof. intro E. destruct (fields_cons s) as (f & fs & F). exists f, fs. split; auto. cbn [fields]. rewrite E, F. auto. Qed.
Definition gap_before (s : str) : str :=
  match s with c :: _ => if is_space c then match words s with [] => [] | _ => lit " " end else [] | [] => [] end.
Lemma squeeze_cons c s : is_space c = false -> squeeze (c :: s) = c :: gap_before s ++ squeeze s.
Proof.
  intro E. destruct (fields_cons_word c s E) as (f & fs & F & G). unfold squeeze, words. rewrite G. cbn [filter truthy].
  destruct s as [|d s]; [cbn in F; injection F as <- <-; reflexivity|]. unfold gap_before, words. rewrite F.
  destruct (is_space d) eqn:D.
  - cbn [fields] in F. rewrite D in F. injection F as <- <-. cbn [filter truthy]. destruct (filter truthy (fields s)) as [|w l]; reflexivity.
  - destruct (fields_cons_word d s D) as (f' & fs' & _ & G'). rewrite G' in F. injection F as <- <-. cbn [filter truthy].
    destruct (filter truthy fs'); reflexivity.
Qed.
Lemma words_app_nil x s : words (x ++ s) = [] -> words x = [].
Proof.
  induction x as [|c x IH]; intro E; [reflexivity|]. destruct (is_space c) eqn:C.
  - cbn [app] in E. rewrite words_cons_space in * by auto. auto.
  - exfalso. destruct (fields_cons_word c (x ++ s) C) as (f & fs & _ & G). cbn [app] in E. unfold words in E. rewrite G in E. discriminate.
Qed.
Lemma squeeze_app x s : exists g, squeeze (x ++ s) = squeeze x ++ g ++ squeeze s.
Proof.
  induction x as [|c x [g IH]]; [exists []; reflexivity|]. cbn [app]. destruct (is_space c) eqn:C.
  - exists g. unfold squeeze in *. rewrite !words_cons_space by auto. auto.
  - rewrite !squeeze_cons by auto. rewrite IH. destruct x as [|d x].
    + exists (gap_before s ++ g). change (squeeze []) with (@nil N). cbn [app gap_before]. rewrite <- app_assoc. reflexivity.
    + unfold gap_before. cbn [app]. destruct (is_space d) eqn:D; [|exists g; reflexivity].
      destruct (words (d :: x)) as [|w l] eqn:W.
      * unfold squeeze at 1 3. rewrite W. cbn [join app].
        exists (match words (d :: x ++ s) with [] => [] | _ => lit " " end ++ g). rewrite <- app_assoc. reflexivity.
      * exists g. destruct (words (d :: x ++ s)) eqn:W2; [|rewrite <- app_assoc; reflexivity].
        exfalso. change (d :: x ++ s) with ((d :: x) ++ s) in W2. apply words_app_nil in W2. clear - W W2. rewrite W2 in W. discriminate.
Qed.
Lemma in_order_squeeze ps s : in_order ps s -> in_order (map squeeze ps) (squeeze s).
Proof.
  induction 1 as [s|gap p ps s I IH]; cbn [map]; [constructor|].
  destruct (squeeze_app gap (p ++ s)) as [g1 ->]. destruct (squeeze_app p s) as [g2 ->].
  rewrite app_assoc. constructor. apply in_order_before. auto.
Qed.

(** ** Arranging *)
Lemma at_pair_map {A B} (f : A -> B) xs p : at_pair (map f xs) p = map f (at_pair xs p).
Proof. destruct p as [[i j]|]; auto. cbn. rewrite !nth_error_map. destruct (nth_error xs i), (nth_error xs j); reflexivity. Qed.
Lemma arrange_map {A B} (f : A -> B) n a ch xs : arrange n a ch (map f xs) = map f (arrange n a ch xs).
Proof.
  unfold arrange. destruct (str_eqb n (lit "mphantom")); auto. destruct (_ && _); [apply firstn_map|].
  destruct (str_in n _); [symmetry; apply map_rev|]. destruct (str_eqb n (lit "mmultiscripts")); auto.
  rewrite !at_pair_map, firstn_map, !map_app. reflexivity.
Qed.
Lemma at_pair_pick ch p : match p with Some (i, j) => i < length ch /\ j < length ch | None => True end -> at_pair ch p = pick_pair ch p.
Proof.
  destruct p as [[i j]|]; auto. intros [I J]. cbn. unfold pick. apply nth_error_Some in I, J.
  destruct (nth_error ch i); [|congruence]. destruct (nth_error ch j); [|congruence]. reflexivity.
Qed.
Lemma reading_true t : forall under, reading true t = map (fun x => (true, snd x)) (reading under t).
Proof.
  induction t as [n v ch a IH] using tree_ind'. intro under. cbn [reading]. destruct (str_in n token_tags); auto.
  cbn [orb]. rewrite !arrange_map. rewrite concat_map, map_map. f_equal.
  assert (X : forall c, In c (arrange n a ch ch) -> In c ch).
  { intros c. unfold arrange. destruct (str_eqb n (lit "mphantom")); [intros []|].
    destruct (_ && _); [intro I; rewrite <- (firstn_skipn 1); apply in_or_app; auto|].
    destruct (str_in n _); [intro I; apply in_rev; auto|]. destruct (str_eqb n (lit "mmultiscripts")); auto.
    assert (AP : forall p, In c (at_pair ch p) -> In c ch).
    { intros [[i j]|]; cbn; [|intros []]. destruct (nth_error ch i) eqn:E1; [|intros []]. destruct (nth_error ch j) eqn:E2; [|intros []].
      intros [<-|[<-|[]]]; eapply nth_error_In; eauto. }
    rewrite !in_app_iff. intros [I|[I|I]]; eauto. rewrite <- (firstn_skipn 1). apply in_or_app. auto. }
  apply map_ext_in. intros c I. rewrite Forall_forall in IH. apply IH. auto.
Qed.

(** ** Induction over the assembly *)
Definition reads (l : list tree) (s : str) : Prop := exists ps, Forall2 piece (concat (map (reading false) l)) ps /\ in_order ps s.
Lemma reads_nil s : reads [] s.
Proof. exists []. split; constructor. Qed.
Lemma reads_app l s l' s' : reads l s -> reads l' s' -> reads (l ++ l') (s ++ s').
Proof.
  intros (ps & F & I) (qs & G & J). exists (ps ++ qs). split; [|apply in_order_app; auto].
  rewrite map_app, concat_app. apply Forall2_app; auto.
Qed.
Lemma reads_cons c s l s' : reads [c] s -> reads l s' -> reads (c :: l) (s ++ s').
Proof. apply (reads_app [c]). Qed.
Lemma reads_before g l s : reads l s -> reads l (g ++ s).
Proof. intros (ps & F & I). exists ps. split; auto. apply in_order_before. auto. Qed.
Lemma reads_after g l s : reads l s -> reads l (s ++ g).
Proof. intros (ps & F & I). exists ps. split; auto. apply in_order_after. auto. Qed.
Lemma reads_braced l s : reads l s -> reads l (braced s).
Proof. intro R. unfold braced. apply reads_before, reads_after. auto. Qed.
Definition reads1 (c : tree) (s : str) : Prop := reads [c] s.
Lemma reads_join sep l ss : Forall2 reads1 l ss -> reads l (join sep ss).
Proof.
  induction 1 as [|c s l ss R F IH]; [apply reads_nil|]. destruct ss as [|s2 ss]; [inversion F; subst; exact R|].
  change (join sep (s :: s2 :: ss)) with (s ++ sep ++ join sep (s2 :: ss)). apply reads_cons; auto. apply reads_before. auto.
Qed.
Lemma reads_concat l ss : Forall2 reads1 l ss -> reads l (concat ss).
Proof. induction 1 as [|c s l ss R F IH]; [apply reads_nil|]. cbn [concat]. apply reads_cons; auto. Qed.
Lemma reads_fence l ss : Forall2 reads1 l ss -> forall seps, reads l (fence_join seps ss).
Proof.
  induction 1 as [|c s l ss R F IH]; intro seps; [apply reads_nil|]. destruct ss as [|s2 ss]; [inversion F; subst; exact R|].
  cbn [fence_join]. apply reads_cons; auto. destruct seps as [|x [|y seps]]; apply reads_before; [apply (IH [])|apply (IH [x])|apply (IH (y :: seps))].
Qed.
Lemma reads_base b l s : reads l s -> reads l (base_latex b s).
Proof. intro R. unfold base_latex. destruct (_ && _); auto. apply reads_before, reads_after. auto. Qed.
Lemma reads_paren l s : reads l s -> reads l (paren_if_long s).
Proof. intro R. unfold paren_if_long. destruct (Nat.ltb _ _); auto. apply reads_before, reads_after. auto. Qed.
Lemma reads_paren_space l s : reads l s -> reads l (paren_if_space s).
Proof. intro R. unfold paren_if_space. destruct (existsb _ _); auto. apply reads_before, reads_after. auto. Qed.
Lemma reads_env name l s : reads l s -> reads l (env name s).
Proof. intro R. unfold env. do 3 apply reads_before. apply reads_after. auto. Qed.
Lemma reads_enclosed name l s : reads l s -> reads l (enclosed name s).
Proof. intro R. unfold enclosed. destruct (notation_lookup _ _) as [x y]. apply reads_before, reads_after. auto. Qed.
Lemma reads_matrix op close l ss : Forall2 reads1 l ss -> reads l (fenced_matrix op close ss).
Proof.
  intro F. unfold fenced_matrix. assert (B : reads l (env (fence_env op close) (nl ++ concat ss ++ nl))).
  { apply reads_env, reads_before, reads_after, reads_concat. auto. }
  destruct (String.eqb _ _); auto. do 2 apply reads_before. apply reads_after. auto.
Qed.

(** An inner element reads as its arranged children. *)
Lemma reads_inner n v ch a s : str_in n token_tags = false -> str_eqb n (lit "math") = false ->
  reads (arrange n a ch ch) s -> reads1 (T n v ch a) s.
Proof.
  intros N M (ps & F & I). exists ps. split; auto. cbn [map concat]. rewrite app_nil_r. cbn [reading]. rewrite N, M. cbn [orb].
  rewrite arrange_map. auto.
Qed.
Lemma reads_math v ch a s : reads ch s -> reads1 (T (lit "math") v ch a) (squeeze s).
Proof.
  intros (ps & F & I). exists (map squeeze ps). split; [|apply in_order_squeeze; auto]. cbn [map concat]. rewrite app_nil_r. cbn [reading].
  change (str_in (lit "math") token_tags) with false. change (str_eqb (lit "math") (lit "math")) with true. cbn [orb]. cbn iota.
  rewrite arrange_map. change (arrange (lit "math") a ch ch) with ch.
  rewrite (map_ext _ _ (fun c => reading_true c false)). rewrite <- (map_map (reading false) (map _)), <- concat_map.
  clear I. induction F as [|x p xs ps P F IH]; cbn [map]; constructor; auto.
  destruct P as (s0 & E & P). exists s0. split; auto. cbn [fst]. destruct (fst x); subst p; auto. apply squeeze_idem.
Qed.
Lemma reads_token n v ch a s : str_in n token_tags = true -> latex_of (T n v ch a) = Ok s -> reads1 (T n v ch a) s.
Proof.
  intros N E. exists [s]. split; [|apply in_order_one]. cbn [map concat]. rewrite app_nil_r. cbn [reading]. rewrite N.
  constructor; [|constructor]. exists s. auto.
Qed.

Lemma forall2_split {A B} (R : A -> B -> Prop) l1 l2 m1 m2 : length l1 = length m1 -> Forall2 R (l1 ++ l2) (m1 ++ m2) ->
  Forall2 R l1 m1 /\ Forall2 R l2 m2.
Proof.
  revert m1. induction l1 as [|x l1 IH]; intros [|y m1] L F; cbn in *; try discriminate; auto. inversion F; subst.
  destruct (IH m1) as [A1 A2]; auto. 
Qed.
Lemma reads_scripts l p : Forall2 reads1 l (pair_list p) -> reads l (scripts_of p).
Proof.
  destruct p as [[x y]|]; cbn [pair_list]; intro F; inversion F as [|c s l' ss R F']; subst; [|apply reads_nil].
  inversion F' as [|c' s' l'' ss' R' F'']; subst. inversion F''; subst. unfold scripts_of.
  apply reads_before. apply reads_cons; [apply reads_braced; auto|]. apply reads_before, reads_braced. auto.
Qed.
Lemma arrange_multi a ch : 3 <= length ch ->
  arrange (lit "mmultiscripts") a ch ch = pick_pair ch (prescripts ch) ++ firstn 1 ch ++ pick_pair ch (postscripts ch).
Proof.
  intro L. unfold arrange. change (str_eqb (lit "mmultiscripts") (lit "mphantom")) with false.
  change (str_eqb (lit "mmultiscripts") (lit "maction")) with false. 
  change (str_in (lit "mmultiscripts") (map lit ["mroot"; "munder"; "mover"])) with false.
  change (str_eqb (lit "mmultiscripts") (lit "mmultiscripts")) with true. cbn [andb]. cbn iota.
  rewrite !at_pair_pick; auto.
  - unfold postscripts. destruct (is_mprescripts ch 1); lia || auto.
  - unfold prescripts. destruct (is_mprescripts ch 1 && Nat.leb 4 (length ch)) eqn:E; [apply andb_true_iff in E as [_ E]; apply Nat.leb_le in E; lia|].
    destruct (is_mprescripts ch 3 && Nat.leb 6 (length ch)) eqn:E2; auto. apply andb_true_iff in E2 as [_ E2]; apply Nat.leb_le in E2; lia.
Qed.
Ltac two F := inversion F as [|? ? ? ? R1 F1]; subst; inversion F1 as [|? ? ? ? R2 F2]; subst; inversion F2; subst.
Ltac three F := inversion F as [|? ? ? ? R1 F1]; subst; inversion F1 as [|? ? ? ? R2 F2]; subst; inversion F2 as [|? ? ? ? R3 F3]; subst; inversion F3; subst.
Lemma str_in_row n l : tag_of n = TagRow -> (forall s, In s l -> tag_of (lit s) <> TagRow) -> str_in n (map lit l) = false.
Proof.
  intros R H. apply not_true_iff_false. intro I. apply str_in_spec in I. apply in_map_iff in I as (s & E & I). apply (H s I). rewrite E. auto.
Qed.
Lemma row_eqb n s : tag_of n = TagRow -> tag_of (lit s) <> TagRow -> str_eqb n (lit s) = false.
Proof. intros R H. apply str_eqb_neq. intros ->. auto. Qed.
Lemma arrange_row n a ch : tag_of n = TagRow -> arrange n a ch ch = ch.
Proof.
  intro R. unfold arrange. rewrite !(row_eqb n) by (auto; discriminate). cbn [andb].
  rewrite (str_in_row n ["mroot"; "munder"; "mover"]); auto. intros s [<-|[<-|[<-|[]]]]; discriminate.
Qed.
Lemma assembled_reads inside n v ch a ss out : Forall2 reads1 (visited (T n v ch a)) ss ->
  assembled inside v ch a n ss out -> str_in n token_tags = false -> reads1 (T n v ch a) out.
Proof.
  intros F A N. destruct A; try discriminate N.
  - apply reads_inner; auto. apply reads_nil.
  - apply reads_math, reads_join. auto.
  - apply reads_inner; auto; [apply row_eqb; auto; discriminate|]. rewrite arrange_row by auto. apply reads_join.
    revert F. unfold visited. rewrite (str_in_row n ["mphantom"; "mi"; "mo"; "mn"; "mtext"]); auto; [|cbn; intros s I; intuition (subst; discriminate)].
    rewrite !(row_eqb n) by (auto; discriminate). cbn [andb]. auto.
  - apply reads_inner; auto. apply reads_before, reads_braced, reads_join. auto.
  - apply reads_inner; auto. apply reads_before, reads_braced, reads_join. auto.
  - apply reads_inner; auto. apply reads_join. auto.
  - apply reads_inner; auto. apply reads_enclosed, reads_join. auto.
  - apply reads_inner; auto. cbn zeta. destruct (_ || _); [apply reads_env|]; apply reads_join; auto.
  - apply reads_inner; auto. apply reads_matrix. auto.
  - apply reads_inner; auto. do 2 apply reads_before. apply reads_after, reads_fence. auto.
  - apply reads_inner; auto. unfold visited in F. change (str_in (lit "maction") (map lit ["mphantom"; "mi"; "mo"; "mn"; "mtext"])) with false in F.
    change (str_eqb (lit "maction") (lit "maction")) with true in F. unfold arrange. 
    change (str_eqb (lit "maction") (lit "mphantom")) with false. change (str_eqb (lit "maction") (lit "maction")) with true.
    rewrite H in *. cbn [andb] in *. cbn iota in *. destruct ch as [|c ch]; [inversion F|]. cbn [firstn] in *. inversion F; subst. auto.
  - apply reads_inner; auto. unfold visited in F. change (str_in (lit "maction") (map lit ["mphantom"; "mi"; "mo"; "mn"; "mtext"])) with false in F.
    change (str_eqb (lit "maction") (lit "maction")) with true in F. unfold arrange. 
    change (str_eqb (lit "maction") (lit "mphantom")) with false. change (str_eqb (lit "maction") (lit "maction")) with true.
    rewrite H in *. cbn [andb] in *. cbn iota in *. apply reads_join. exact F.
  - apply reads_inner; auto. change (visited (T (lit "msup") v ch a)) with ch in F. two F.
    change (arrange _ _ _ _) with [x; x0]. apply reads_cons; [apply reads_base; auto|]. apply reads_before, reads_braced. auto.
  - apply reads_inner; auto. change (visited (T (lit "msub") v ch a)) with ch in F. two F.
    change (arrange _ _ _ _) with [x; x0]. apply reads_cons; [apply reads_base; auto|]. apply reads_before, reads_braced. auto.
  - apply reads_inner; auto. change (visited (T (lit "msubsup") v ch a)) with ch in F. three F.
    change (arrange _ _ _ _) with [x; x0; x1]. apply reads_cons; [apply reads_base; auto|].
    apply reads_before, reads_cons; [apply reads_braced; auto|]. apply reads_before, reads_braced. auto.
  - apply reads_inner; auto. change (visited (T (lit "munderover") v ch a)) with ch in F. three F.
    change (arrange _ _ _ _) with [x; x0; x1]. apply reads_cons; [auto|].
    apply reads_before, reads_cons; [apply reads_braced; auto|]. apply reads_before, reads_braced. auto.
  - apply reads_inner; auto. change (visited (T (lit "mfrac") v ch a)) with ch in F. two F.
    change (arrange _ _ _ _) with [x; x0]. apply reads_before, reads_cons; apply reads_braced; auto.
  - apply reads_inner; auto. change (visited (T (lit "mfrac") v ch a)) with ch in F. two F.
    change (arrange _ _ _ _) with [x; x0]. apply reads_cons; [apply reads_paren; auto|]. apply reads_before, reads_paren. auto.
  - apply reads_inner; auto. change (visited (T (lit "mroot") v ch a)) with ch in F. two F.
    change (arrange _ _ _ _) with [x0; x]. apply reads_before, reads_cons; [auto|]. apply reads_before, reads_braced. auto.
  - cbn [map] in H. destruct H as [<-|[<-|[]]].
    + apply reads_inner; auto. change (visited (T (lit "munder") v ch a)) with ch in F. two F.
      change (arrange _ _ _ _) with [x0; x]. apply reads_cons; [auto|]. apply reads_braced. auto.
    + apply reads_inner; auto. change (visited (T (lit "mover") v ch a)) with ch in F. two F.
      change (arrange _ _ _ _) with [x0; x]. apply reads_cons; [auto|]. apply reads_braced. auto.
  - destruct H as [H|[H|[]]]; injection H as <- <-.
    + apply reads_inner; auto. change (visited (T (lit "munder") v ch a)) with ch in F. two F.
      change (arrange _ _ _ _) with [x0; x]. apply reads_before, reads_cons; apply reads_braced; auto.
    + apply reads_inner; auto. change (visited (T (lit "mover") v ch a)) with ch in F. two F.
      change (arrange _ _ _ _) with [x0; x]. apply reads_before, reads_cons; apply reads_braced; auto.
  - apply reads_inner; auto. rewrite arrange_multi by auto.
    change (visited (T (lit "mmultiscripts") v ch a)) with (pick ch 0 ++ pick_pair ch (prescripts ch) ++ pick_pair ch (postscripts ch)) in F.
    destruct ch as [|c0 ch0]; [cbn in H; lia|]. remember (c0 :: ch0) as ch eqn:EC.
    assert (P0 : pick ch 0 = [c0]) by (subst ch; reflexivity). assert (F0 : firstn 1 ch = [c0]) by (subst ch; reflexivity). rewrite P0 in F. rewrite F0.
    cbn [app] in F. inversion F as [|? ? ? ? R1 F1]; subst. apply forall2_split in F1 as [F1 F2]; auto.
    apply reads_app; [|apply reads_app].
    + destruct pre as [p|]; [|apply reads_scripts in F1; exact F1]. apply reads_before, reads_scripts. auto.
    + apply reads_paren_space. exact R1.
    + apply reads_scripts. auto.
Qed.
Lemma token_assembled inside n v ch a ss out : assembled inside v ch a n ss out -> str_in n token_tags = true -> latex_of (T n v ch a) = Ok out.
Proof.
  intros A N. destruct A; try discriminate N; try (rewrite latex_node' by reflexivity; reflexivity); exfalso.
  - unfold token_tags in N. rewrite (str_in_row n ["mi"; "mo"; "mn"; "mtext"]) in N; [discriminate|auto|]. cbn; intros s I; intuition (subst; discriminate).
  - destruct H as [<-|[<-|[]]]; discriminate N.
  - destruct H as [H|[H|[]]]; injection H as <- _; discriminate N.
Qed.
Lemma latex_reads t s : latex_of t = Ok s -> reads1 t s.
Proof.
  intro E. rewrite latex_of_render in E. revert E.
  apply (render_assembled (fun inside t s => reads1 t s)). clear. intros inside n v ch a ss out F A.
  destruct (str_in n token_tags) eqn:N.
  - apply reads_token; auto. apply (token_assembled inside n v ch a ss); auto.
  - apply (assembled_reads inside n v ch a ss out); auto.
Qed.
Lemma latex_order t s : latex_of t = Ok s -> exists ps, Forall2 piece (reading false t) ps /\ in_order ps s.
Proof. intro E. apply latex_reads in E as (ps & F & I). exists ps. split; auto. cbn [map concat] in F. rewrite app_nil_r in F. auto. Qed.
Lemma document_order d s : document_latex d = Ok s ->
  exists ps, Forall2 piece (flat_map (reading false) (math_trees d)) ps /\ in_order ps s.
Proof.
  unfold document_latex. destruct (rseq (map latex_of (math_trees d))) as [ss|] eqn:R; [|discriminate]. cbn [rbind]. intro E. 
  assert (X : s = concat ss) by congruence. subst s. clear E. apply rseq_map_forall in R. rewrite flat_map_concat_map.
  apply reads_concat. revert R. generalize (math_trees d) ss. clear. intros l ss R. induction R; constructor; auto. apply latex_reads. auto.
Qed.
Lemma convert_order wc ps xml d h s : read_as ps xml d -> snd (mathml_to_latex wc ps xml h) = Ok s ->
  exists pieces, Forall2 piece (flat_map (reading false) (math_trees d)) pieces /\ in_order pieces s.
Proof. intros R E. rewrite (convert_read_snd wc ps xml d h R) in E. apply document_order. auto. Qed.

(** ** Which tokens are read *)
Lemma arrange_visited n v a ch c : str_in n token_tags = false -> own_fault (T n v ch a) = None ->
  (In c (arrange n a ch ch) <-> In c (visited (T n v ch a))).
Proof.
  intros N F. unfold visited. change (map lit ["mphantom"; "mi"; "mo"; "mn"; "mtext"]) with (lit "mphantom" :: token_tags).
  unfold str_in at 1. cbn [existsb]. change (existsb (str_eqb n) token_tags) with (str_in n token_tags). rewrite N, orb_false_r.
  destruct (str_eqb n (lit "mmultiscripts")) eqn:M.
  - apply str_eqb_eq in M. subst n. cbn [own_fault] in F. change (required exact_counts (lit "mmultiscripts")) with (@None nat) in F. cbn iota in F.
    change (str_eqb (lit "mmultiscripts") (lit "mmultiscripts")) with true in F.
    destruct (Nat.leb_spec 3 (length ch)) as [L|L]; [|discriminate F]. rewrite arrange_multi by auto.
    change (str_eqb (lit "mmultiscripts") (lit "mphantom")) with false. change (str_eqb (lit "mmultiscripts") (lit "maction")) with false. cbn [andb].
    rewrite !in_app_iff. assert (X : firstn 1 ch = pick ch 0) by (destruct ch; reflexivity). rewrite X. tauto.
  - unfold arrange. rewrite M. destruct (str_eqb n (lit "mphantom")); [tauto|]. destruct (_ && _); [tauto|].
    destruct (str_in n (map lit _)); [|tauto]. symmetry. apply in_rev.
Qed.
Lemma reading_tokens t : well_formed t -> forall under u,
  (exists b, In (b, u) (reading under t)) <-> visits t u /\ In (t_name u) token_tags.
Proof.
  induction t as [n v ch a IH] using tree_ind'. intros W under u. cbn [reading].
  destruct (str_in n token_tags) eqn:N.
  - split.
    + intros (b & [E|[]]). injection E as <- <-. split; [constructor|]. apply str_in_spec. auto.
    + intros [V I]. exists under. left. f_equal. inversion V as [|? c ? IC]; subst; auto. exfalso. revert IC. unfold visited.
      change (map lit ["mphantom"; "mi"; "mo"; "mn"; "mtext"]) with (lit "mphantom" :: token_tags).
      unfold str_in at 1. cbn [existsb]. change (existsb (str_eqb n) token_tags) with (str_in n token_tags). rewrite N, orb_true_r. intros [].
  - rewrite arrange_map. set (under' := _ || _). clearbody under'.
    assert (AV := fun c => arrange_visited n v a ch c N (own_none _ W)). rewrite Forall_forall in IH.
    assert (WC : forall c, In c (visited (T n v ch a)) -> well_formed c).
    { intros c I x V. apply W. eapply visits_child; eauto. }
    split.
    + intros (b & I). rewrite <- flat_map_concat_map in I. apply in_flat_map in I as (c & I & J). apply AV in I.
      destruct (proj1 (IH c (visited_child _ _ I) (WC c I) under' u)) as [V T]; [eauto|]. split; auto. eapply visits_child; eauto.
    + intros [V I]. inversion V as [|? c ? IC VC]; subst.
      * exfalso. cbn [t_name] in I. apply str_in_spec in I. congruence.
      * destruct (proj2 (IH c (visited_child _ _ IC) (WC c IC) under' u)) as [b J]; [auto|]. exists b.
        rewrite <- flat_map_concat_map. apply in_flat_map. exists c. split; auto. apply AV. auto.
Qed.
